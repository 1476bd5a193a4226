# The checks of the Rust tests of the parser, as Examples about the model:
#   python3 from_rust_tests.py > ../../rocq/theories/ConformRust.v
import sys, os; sys.path.insert(0, os.path.dirname(os.path.abspath(__file__)))
from rust_expr import *
R='/repo/crates/wolfram-parser/src/'
FILES=['tests.rs']+['tests/'+x for x in ['test_parse_cst.rs','test_abstract.rs','test_token_errors.rs','test_crashers.rs','test_api.rs','test_tokenizer.rs','test_node.rs','test_ffi.rs']]+['parse/parse_tests/test_parselet.rs']
FAM={'InfixOp':'IOP','InfixOperator':'IOP','PrefixOp':'PREOP','PrefixOperator':'PREOP','PostfixOp':'POSTOP','PostfixOperator':'POSTOP','BinaryOp':'BOP','BinaryOperator':'BOP','TernaryOp':'TOP','TernaryOperator':'TOP','GroupOp':'GOP','GroupOperator':'GOP','CallOp':'CALLOP','CallOperator':'CALLOP','CompoundOp':'COP','CompoundOperator':'COP','PrefixBinaryOp':'PBOP','PrefixBinaryOperator':'PBOP'}
KIND={'Infix':'KInfix','Prefix':'KPrefix','Postfix':'KPostfix','Binary':'KBinary','Ternary':'KTernary','Group':'KGroup','GroupMissingCloser':'KGroupMissingCloser','GroupMissingOpener':'KGroupMissingOpener','Compound':'KCompound','PrefixBinary':'KPrefixBinary'}
def by(s):
    return '['+';'.join(str(b) for b in s.encode('utf-8'))+']'
def span(v):
    if v[0]=='span': a,b,c,d=v[1]; return '(mkspan (LineCol %d %d) (LineCol %d %d))'%(a,b,c,d)
    return '(mkspan (CharIdx %d) (CharIdx %d))'%tuple(v[1])
SRC=[]
def strval(e):
    if e[0]=='str': return e[1]
    if e[0]=='meth' and e[2] in('as_bytes','to_owned','to_string','as_str'): return strval(e[1])
    if e[0]=='path' and tuple(e[1]) in ENV and False: pass
    raise Exception('strval %s'%(e,))
ENV={}
def res(e):
    if e[0]=='path' and len(e[1])==1 and e[1][0] in ENV: return ENV[e[1][0]]
    return e
def cst(e):
    e=res(e)
    if e[0]=='asrc':
        x=cst(e[2]); SRC.append((x,span(e[1]))); return x
    if e[0]=='meth' and e[2]=='clone': return cst(e[1])
    if e[0]=='call':
        h=e[1][-1]
        if h in('Token','NVToken'): return '(Tok %s)'%tok(e[2][0])
        if h in('Call','Box') : return cst(e[2][0])
        if h in KIND: return op(KIND[h],e[2][0])
        if h=='SyntaxError': return cst(e[2][0])
        if h.endswith('Node') and h[:-4] in KIND: return op(KIND[h[:-4]],e)
        if h=='new' : return cst(e[2][0])
    if e[0]=='struct':
        h=e[1][-1]
        if h=='CallNode':
            m,o,ch=body(e[2]['body']); return '(Call %s %s %s %s)'%(head(e[2]['head']),m,o,ch)
        if h=='SyntaxErrorNode': return '(SynErr %s %s)'%(e[2]['err'][1][-1],seq(e[2]['children']))
    raise Exception('cst %s'%(str(e)[:200],))
def tok(e):
    e=res(e)
    if e[0]!='token': raise Exception('tok %s'%(str(e)[:100],))
    return '(mktok TK_%s [] %s %s)'%(e[1],by(e[2]),span(e[3]))
def opn(e,k=None):
    e=res(e)
    if len(e[1])<2: return '%s_%s'%({'KInfix':'IOP','KBinary':'BOP','KTernary':'TOP','KPrefix':'PREOP','KPostfix':'POSTOP'}[k],e[1][-1])
    return '%s_%s'%(FAM[e[1][-2]],e[1][-1])
def op(k,e):
    e=res(e)
    if e[0]=='asrc':
        x=op(k,e[2]); SRC.append((x,span(e[1]))); return x
    if e[0]=='call' and len(e[2])==1: return op(k,e[2][0])
    if e[0]=='struct' and e[1][-1]=='OperatorNode': return '(Op %s %s %s)'%(k,opn(e[2]['op'],k),seq(e[2]['children']))
    raise Exception('op %s'%(str(e)[:200],))
def body(e):
    e=res(e)
    if e[0]=='asrc': return body(e[2])
    if e[0]=='call' and e[1][-1] in('Group','GroupMissingCloser'):
        x=e[2][0]
        while x[0] in('call','asrc'): x=x[2][0] if x[0]=='call' else x[2]
        return ('true' if e[1][-1]=='GroupMissingCloser' else 'false', opn(x[2]['op']), seq(x[2]['children']))
    raise Exception('body')
def head(e):
    e=res(e)
    if e[0]=='call' and e[1][-1]=='Concrete': return '(Concrete %s)'%seq(e[2][0])
    if e[0]=='call' and e[1][-1] in('aggregate','Aggregate'): return '(Aggregate %s)'%cst(e[2][0])
    raise Exception('head %s'%(e,))
def seq(e):
    e=res(e)
    if e[0]=='call' and e[1][-1]=='NodeSeq': return seq(e[2][0])
    if e[0]=='vec': return '['+'; '.join(cst(x) for x in e[1])+']'
    raise Exception('seq %s'%(str(e)[:100],))
def meta(e):
    e=res(e)
    if e[0]=='meth' and e[2] in('into','clone'): return meta(e[1])
    if e[0]=='src': return '(mk_ameta (Known %s) [])'%span(e[1])
    if e[0]=='call' and e[1][-1] in('empty','default') : return '(mk_ameta Unknown [])'
    if e[0]=='call' and e[1][-1]=='from': return meta(e[2][0])
    if e[0]=='struct' and e[1][-1]=='AstMetadata':
        s=res(e[2]['source']); 
        while s[0]=='meth': s=s[1]
        iss=e[2]['issues']
        if iss[0]=='vec' and not iss[1]: return '(mk_ameta (Known %s) [])'%span(s[1])
    raise Exception('meta %s'%(str(e)[:300],))
def ast(e):
    e=res(e)
    if e[0]=='meth' and e[2]=='clone': return ast(e[1])
    if e[0]=='leaf':
        return '(ALeaf TK_%s %s %s)'%(e[1],by(e[2]),'(mk_ameta Unknown [])' if e[3] is None else '(mk_ameta (Known %s) [])'%span(e[3]))
    if e[0]=='struct':
        h=e[1][-1]; f=e[2]
        bx=lambda x: x[2][0] if x[0]=='call' and x[1]==['Box','new'] else x
        L=lambda x:'['+'; '.join(ast(y) for y in res(x)[1])+']'
        if h=='Call': return '(ACall %s %s %s)'%(ast(bx(f['head'])),L(f['args']),meta(f['data']))
        if h=='CallMissingCloser': return '(ACallMissingCloser %s %s %s)'%(ast(bx(f['head'])),L(f['args']),meta(f['data']))
        if h=='Leaf': return '(ALeaf TK_%s %s %s)'%(f['kind'][1][-1],by(strval(f['input'][2][0])),meta(f['data']))
        if h=='Error': return '(AError TK_%s %s %s)'%(f['kind'][1][-1],by(strval(f['input'][2][0])),meta(f['data']))
        if h=='SyntaxError': return '(ASyntaxError %s %s %s)'%(f['kind'][1][-1],L(f['children']),meta(f['data']))
        if h=='AbstractSyntaxError': return '(AAbstractSyntaxError %s %s %s)'%(f['kind'][1][-1],L(f['args']),meta(f['data']))
        if h=='GroupMissingCloser': return '(AGroupMissingCloser %s %s %s)'%(opn(f['kind']),L(f['children']),meta(f['data']))
        if h=='Group': raise Exception('agroup')
    raise Exception('ast %s'%(str(e)[:200],))
def quirks(e):
    e=res(e); q={'infix_binary_at':'true','flatten_times':'false','old_at_at_at':'false'}
    while e[0]=='meth':
        q[e[2]]=e[3][0][1][0]; e=e[1]
    assert e[0]=='call' and e[1][-1]=='default',e
    return '(mk_aopts true %s %s %s quoted)'%(q['infix_binary_at'],q['flatten_times'],q['old_at_at_at'])
def isdef(e): return e[0]=='call' and e[1][-1]=='default'
def optsof(e):
    if isdef(e): return 'default_opts'
    raise Exception('opts %s'%(str(e)[:100],))
# actual -> (type, coq)
def actual(e):
    e=res(e)
    if e[0]=='meth' and e[2] in('clone',): return actual(e[1])
    if e[0]=='meth' and e[2]=='unwrap':
        t,x=actual(e[1]); return (t,x)
    if e[0]=='field' and e[2]=='syntax': return actual(e[1])
    if e[0]=='call':
        h=e[1][-1]
        if h in('parse_cst','parse_bytes_cst'): return ('cst','(rmap (fun p => strip (fst p)) (parse_cst %s true NotScript %s))'%(optsof(e[2][1]),by(strval(e[2][0]))))
        if h in('parse_cst_seq','parse_bytes_cst_seq'): return ('seq','(rmap (fun p => map strip (fst p)) (parse_cst_seq %s true NotScript %s))'%(optsof(e[2][1]),by(strval(e[2][0]))))
        if h=='nodes' or h=='concrete_exprs': return ('seq','(rmap (fun p => map strip (fst p)) (parse_cst_seq default_opts true NotScript %s))'%by(strval(e[2][0])))
        if h=='concrete_exprs_character_index': return ('seq','(rmap (fun p => map strip (fst p)) (parse_cst_seq char_opts true NotScript %s))'%by(strval(e[2][0])))
        if h=='tokens': return ('toks','(rmap (map bare_token) (tokenize default_opts NotScript %s))'%by(strval(e[2][0])))
        if h in('parse_ast','parse_bytes_ast'): return ('ast','(one_ast default_opts %s)'%by(strval(e[2][0])))
        if h=='aggregate_cst':
            t,x=actual(e[2][0]); return ('cst','(agg1 %s)'%x)
        if h=='abstract_cst':
            t,x=actual(e[2][0]); return ('ast','(rbind %s (abstract_cst %s))'%(x,quirks(e[2][1])))
    if e[0]=='asrc' or e[0]=='struct': return ('cst','(Ok %s)'%cst(e))
    raise Exception('actual %s'%(str(e)[:200],))
OUT=[];SKIP=[]
def test(f,fn,a,b):
    global SRC
    SRC=[]
    try:
        t,x=actual(a)
        if b[0]=='meth' and b[2] in('clone','into'): b=b[1]
        b=res(b)
        if t=='cst': y=cst(b)
        elif t=='seq': y=seq(b)
        elif t=='toks': b=b if b[0]=='vec' else b[2][0]; y='['+'; '.join(tok(z) for z in b[1])+']'
        elif t=='ast': y=ast(b)
        OUT.append((f,fn,'%s = Ok %s'%(x,y)))
        for (n,s) in SRC: OUT.append((f,fn+'/src','get_source %s = Ok %s'%(n,s)))
    except Exception as ex:
        SKIP.append((f,fn,str(ex)[:160]))
for f in FILES:
    src_=open(R+f).read(); toks=lex(src_)
    p=P(toks)
    while p.i<len(toks):
        if p.pk()==('i','fn'):
            fn=p.pk(1)[1]
            while not p.is_('{'): p.i+=1
            g=p.group(); ENV.clear(); q=P(g)
            while q.i<len(g):
                s=q.i
                try:
                    if q.is_('{') or q.is_('}') or q.is_(';'): q.i+=1; continue
                    if q.pk()==('i','let'):
                        q.i+=1
                        if q.pk()==('i','mut'): q.i+=1
                        if q.pk(1)==('o','('): # NodeSeq(nodes)
                            n=q.pk(2)[1]; q.i+=4
                        else: n=q.pk()[1]; q.i+=1
                        while not q.is_('='): q.i+=1
                        q.i+=1; e=q.expr(); ENV[n]=res(e) if e[0]=='path' else subst(e) if False else e; 
                        # freeze nested references
                        def freeze(e):
                            if isinstance(e,tuple):
                                if e[0]=='path' and len(e[1])==1 and e[1][0] in ENV0: return ENV0[e[1][0]]
                                return tuple(freeze(x) for x in e)
                            if isinstance(e,list): return [freeze(x) for x in e]
                            if isinstance(e,dict): return {k:freeze(v) for k,v in e.items()}
                            return e
                        ENV0=dict(ENV); ENV0.pop(n,None)
                        if 'OLD' in globals() and n in OLD: ENV0[n]=OLD[n]
                        ENV[n]=freeze(e); OLD=dict(ENV)
                        continue
                    e=q.expr()
                    if e[0] in('assert_eq','assert_cst'):
                        a=e[1]
                        test(f,fn,a[0],a[1])
                        if e[0]=='assert_cst':
                            try:
                                x=cst(a[1]); s2=a[2]
                                while s2[0]=='meth': s2=s2[1]
                                OUT.append((f,fn+'/src','get_source %s = Ok %s'%(x,span(s2[1]))))
                            except Exception as ex: SKIP.append((f,fn,str(ex)[:100]))
                    elif e[0]=='asrc':
                        SRC=[]
                        try:
                            cst(e)
                            for (n,s3) in SRC: OUT.append((f,fn+'/src','get_source %s = Ok %s'%(n,s3)))
                        except Exception as ex: SKIP.append((f,fn,str(ex)[:100]))
                except Exception as ex:
                    SKIP.append((f,fn,'stmt '+str(ex)[:160]))
                    q.i=s; d=0
                    while q.i<len(g):
                        x=q.pk(); q.i+=1
                        if x[0]=='o' and x[1] in '([{': d+=1
                        if x[0]=='o' and x[1] in ')]}': d-=1
                        if x==('o',';') and d<=0: break
        else: p.i+=1
H='''From Coq Require Import String.
From Coq Require Import ZArith List Bool.
From Verif Require Import Base Source WLChar LongNames GenTokenKind GenPrec GenOps GenParselets Parselets TokenKind Tokenizer Cst Parser SpecParse ErrorReparse Ast Abstract PropsReader PropsAbstract.
Import ListNotations.
Local Open Scope list_scope.
Local Open Scope Z_scope.
Definition bare_token (t : token) : token := mktok (t_kind t) [] (t_text t) (t_src t).
Fixpoint strip (n : cst) : cst :=
  match n with
  | Tok t => Tok (bare_token t)
  | Call (Concrete h) m op b => Call (Concrete (map strip h)) m op (map strip b)
  | Call (Aggregate h) m op b => Call (Aggregate (strip h)) m op (map strip b)
  | SynErr e ch => SynErr e (map strip ch)
  | Op k op ch => Op k op (map strip ch)
  | BoxN k ch s => BoxN k (map strip ch) s
  | CodeN a b s => CodeN a b s
  end.
Definition char_opts : opts := mkopts ConvCharacterIndex 4 true true true (fun _ => false).
Definition agg1 (n : res cst) : res cst := rbind n (fun n => rbind (aggregate_cst n) (fun x => match x with Some m => Ok m | None => Panic end)).
Definition one_ast (o : opts) (input : list Z) : res ast := rbind (parse_cst o true NotScript input) (fun p => rbind (to_ast debug [fst p]) (fun l => match l with [a] => Ok a | _ => Panic end)).
'''
H='(** Generated by tools/conformance/from_rust_tests.py: the assertions of the Rust tests of the\n    parser that the script can read, as facts about the model. Where tokens begin ([t_start]) is\n    left out of the comparison. *)\n'+H
H=H.replace('[vm_compute','[vm_compute')
print(H,end='')
for i,(f,fn,g) in enumerate(OUT):
    name='rust_%03d_%s'%(i,fn.replace('/','_'))
    print('\n(** %s %s *)\nExample %s : %s.\nProof. vm_compute. reflexivity. Qed.'%(f,fn.split('/')[0],name,g))
