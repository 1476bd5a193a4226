# The tests in /repo/Tests whose input is a string and whose result is spelled out, as Examples:
#   python3 from_wl_tests.py > ../../rocq/theories/ConformWl.v
import re,glob,sys,os
LN={}
# long names from the model
t=open('/repo/CodeParser/Data/LongNames.wl',encoding='utf-8').read() if os.path.exists('/repo/CodeParser/Data/LongNames.wl') else ''
for m in re.finditer(r'"(\w+)"\s*->\s*\{\s*\w+\s*,\s*16\^\^([0-9a-fA-F]+)',t): LN[m.group(1)]=int(m.group(2),16)
class E(Exception): pass
class L:
    def __init__(s,t,i=0): s.t=t; s.i=i
    def ws(s):
        while s.i<len(s.t):
            if s.t[s.i].isspace(): s.i+=1
            elif s.t.startswith('(*',s.i):
                d=0
                while True:
                    if s.t.startswith('(*',s.i): d+=1; s.i+=2
                    elif s.t.startswith('*)',s.i):
                        d-=1; s.i+=2
                        if d==0: break
                    else: s.i+=1
                    if s.i>len(s.t): raise E('comment')
            else: return
    def string(s):
        assert s.t[s.i]=='"'; s.i+=1; o=''
        while s.t[s.i]!='"':
            c=s.t[s.i]
            if c!='\\': o+=c; s.i+=1; continue
            n=s.t[s.i+1]
            if n in '"\\': o+=n; s.i+=2
            elif n in '<>': s.i+=2
            elif n=='n': o+='\n'; s.i+=2
            elif n=='r': o+='\r'; s.i+=2
            elif n=='t': o+='\t'; s.i+=2
            elif n=='[':
                j=s.t.index(']',s.i); nm=s.t[s.i+2:j]
                if nm not in LN: raise E('longname '+nm)
                o+=chr(LN[nm]); s.i=j+1
            elif n==':': o+=chr(int(s.t[s.i+2:s.i+6],16)); s.i+=6
            elif n=='.': o+=chr(int(s.t[s.i+2:s.i+4],16)); s.i+=4
            elif n=='\n': s.i+=2
            else: raise E('esc '+n)
        s.i+=1; return o
    def args(s,close):
        r=[]
        s.ws()
        if s.t.startswith(close,s.i): s.i+=len(close); return r
        while True:
            r.append(s.expr()); s.ws()
            if s.t.startswith(close,s.i): s.i+=len(close); return r
            if s.t[s.i]!=',': raise E('arg '+s.t[s.i:s.i+20])
            s.i+=1
    def expr(s):
        e=s.atom(); s.ws()
        if s.t.startswith('->',s.i): s.i+=2; r=s.expr(); return ('call',('sym','Rule'),[e,r])
        if s.t[s.i]=='=' and s.t[s.i+1]!='=' and e[0]=='sym': s.i+=1; return s.expr()
        return e
    def atom(s):
        s.ws(); c=s.t[s.i]
        if c=='"': e=('str',s.string())
        elif c=='{': s.i+=1; e=('call',('sym','List'),s.args('}'))
        elif s.t.startswith('<|',s.i): s.i+=2; e=('call',('sym','Association'),s.args('|>'))
        elif c.isdigit():
            m=re.compile(r'\d+').match(s.t,s.i); s.i=m.end(); e=('int',int(m.group()))
            if s.t[s.i]=='.': raise E('real')
        elif c.isalpha() or c=='$' or c=='`':
            m=re.compile(r'[\w$`]+').match(s.t,s.i); s.i=m.end(); e=('sym',m.group())
            if '_' in e[1]: raise E('blank')
        else: raise E('atom '+s.t[s.i:s.i+20])
        while True:
            s.ws()
            if s.i<len(s.t) and s.t[s.i]=='[': s.i+=1; e=('call',e,s.args(']'))
            else: return e
def by(s): return '['+';'.join(str(b) for b in s.encode('utf-8'))+']'
def last(n): return n.split('`')[-1]
def pk(e):
    if e[0]=='str': return ['PStr '+by(e[1])]
    if e[0]=='int': return ['PInt %d'%e[1]]
    if e[0]=='sym': return ['PSym "%s"'%last(e[1])]
    if e[1][0]!='sym': raise E('head')
    h=last(e[1][1]); r=['PFun "%s" %d'%(h,len(e[2]))]
    for x in e[2]: r+=pk(x)
    return r
OUT=[];SKIP=[]
for f in sorted(glob.glob('/repo/Tests/*.mt')):
    t=open(f,encoding='utf-8').read(); b=os.path.basename(f)
    for m in re.finditer(r'^(Test|TestMatch)\[',t,re.M):
        tid=b
        try:
            l=L(t,m.end()); 
            a=l.expr(); l.ws()
            if l.t[l.i]!=',': raise E('sep')
            l.i+=1
            if a[0]!='call' or a[1][0]!='sym': raise E('not a call')
            fn=a[1][1]
            if fn not in('CodeConcreteParse','CodeParse','CodeTokenize'): raise E('fn '+fn)
            if a[2][0][0]!='str': raise E('arg not string')
            opt='d1'; fmt=None
            for x in a[2][1:]:
                if x==('call',('sym','Rule'),[('sym','SourceConvention'),('str','SourceCharacterIndex')]): opt='char_opts'
                else: raise E('option %s'%(x,))
            e=l.expr(); l.ws(); k=re.compile(r',\s*TestID\s*->\s*"([^"]*)"').match(l.t,l.i); tid=b+' '+(k.group(1) if k else '?')
            if fn=='CodeTokenize': nodes=e
            else:
                if e[0]!='call' or e[1]!=('sym','ContainerNode') or len(e[2])!=3: raise E('not container')
                nodes=e[2][1]
            if 'AbstractSyntaxIssues' in str(e): raise E('issues')
            OUT.append((tid,fn,opt,by(a[2][0][1]),pk(nodes)))
        except (E,IndexError,AssertionError,ValueError) as ex: SKIP.append((b,str(ex)[:60]))
# results made by the Wolfram Language part of the package: definitions, packages, commas at top level
KERNEL={'Definitions.mt','TopLevel.mt','Parse-20191224-O2I9C7','Parse-20200121-C5U1S2','Parse-20200313-E1G3T9','Parse-20200313-C0G3S6'}
# results with strings printed by the wolfram-expr crate, a parameter of the model
PRINTED={'LineContinuations-20200803-L8I2C9','LineContinuations-20200804-C5K6X8','Parse-20200123-O1V2G7','Parse-20200123-X3N6W0','Parse-20200416-L5V7S7','Parse-20200803-G3C1P6','Parse-20200803-X4E2N5','Parse-20221001-M7B3J3'}
H=r'''(** Generated by tools/conformance/from_wl_tests.py: tests in /repo/Tests with a string as input and
    the resulting tree spelled out, as facts about what the model puts on the link, in a release
    build with tabs of width 1, with the contexts of symbols left out. *)
From Coq Require Import String.
From Coq Require Import ZArith List Bool.
From Verif Require Import Base Source WLChar LongNames GenTokenKind GenPrec GenOps GenParselets Parselets TokenKind Tokenizer Cst Parser SpecParse ErrorReparse Ast Abstract PropsReader PropsAbstract Link PropsLink.
Import ListNotations.
Local Open Scope string_scope.
Local Open Scope list_scope.
Local Open Scope Z_scope.
Definition lastn (s : string) : string := snd (split_symbol s).
Definition short (p : packet) : packet := match p with PFun h n => PFun (lastn h) n | PSym s => PSym (lastn s) | _ => p end.
Definition char_opts : opts := mkopts ConvCharacterIndex 4 true true true (fun _ => false).
Definition d1 : opts := mkopts ConvLineColumn 1 true true true (fun _ => false).
Definition out (w : W) : option (list packet) := match w [] with Ok (l, _) => Some (map short l) | _ => None end.
Definition cc := mk_cfg true true true.
Definition cstp (o : opts) (b : list Z) := match parse_cst_seq o false NotScript b with Ok (l, _) => out (put_nodes cc (map (of_cst plain) l)) | _ => None end.
Definition tokp (o : opts) (b : list Z) := match tokenize o NotScript b with Ok l => out (put_nodes cc (map (fun t => of_cst plain (Tok t)) l)) | _ => None end.
Definition astp (o : opts) (b : list Z) := match parse_cst_seq o false NotScript b with Ok (l, _) =>
   match to_ast release l with Ok l => out (put_list (put_ast cc plain) l) | _ => None end | _ => None end.
'''
print(H,end='')
n=0
for (tid,fn,opt,s,p) in OUT:
    b,t=tid.split(' ')
    if t in KERNEL|PRINTED or (b in KERNEL and fn=='CodeParse'): continue
    fun={'CodeConcreteParse':'cstp','CodeParse':'astp','CodeTokenize':'tokp'}[fn]
    print('\n(** %s *)\nExample wl_%03d : %s %s %s =\n  Some [%s].\nProof. vm_compute. reflexivity. Qed.'%(tid,n,fun,opt,s,'; '.join(p))); n+=1
