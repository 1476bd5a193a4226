import re,sys
TOK=re.compile(r'''\s+|//[^\n]*|/\*.*?\*/|r#"(?P<raw>.*?)"#|b?"(?P<str>(?:\\.|[^"\\])*)"|'(?P<chr>\\u\{[0-9a-f]+\}|\\.|[^'\\])'|(?P<num>\d[\d_]*)|(?P<id>[A-Za-z_]\w*)|(?P<op>::|=>|\.\.|;;|<\|\||\|>|[^\w\s])''',re.S)
def unesc(s):
    out=[];i=0
    while i<len(s):
        c=s[i]
        if c=='\\':
            d=s[i+1]
            if d=='n': out.append('\n'); i+=2
            elif d=='r': out.append('\r'); i+=2
            elif d=='t': out.append('\t'); i+=2
            elif d=='0': out.append('\0'); i+=2
            elif d=='x': out.append(chr(int(s[i+2:i+4],16))); i+=4
            elif d=='u':
                j=s.index('}',i); out.append(chr(int(s[i+3:j],16))); i=j+1
            elif d=='\n':
                i+=2
                while i<len(s) and s[i] in ' \n\t': i+=1
            else: out.append(d); i+=2
        else: out.append(c); i+=1
    return ''.join(out)
def lex(src):
    toks=[];i=0
    while i<len(src):
        m=TOK.match(src,i)
        if not m: raise Exception('lex '+src[i:i+20])
        i=m.end()
        if m.group('raw') is not None: toks.append(('s',m.group('raw')))
        elif m.group('str') is not None: toks.append(('s',unesc(m.group('str'))))
        elif m.group('chr') is not None: toks.append(('c',m.group('chr')))
        elif m.group('num'): toks.append(('n',int(m.group('num').replace('_',''))))
        elif m.group('id'): toks.append(('i',m.group('id')))
        elif m.group('op'): toks.append(('o',m.group('op')))
    return toks
CL={'(':')','[':']','{':'}'}
class P:
    def __init__(s,t): s.t=t; s.i=0
    def pk(s,k=0): return s.t[s.i+k] if s.i+k<len(s.t) else ('e','')
    def is_(s,o): return s.pk()==('o',o)
    def eat(s,o):
        if not s.is_(o): raise Exception('expected %s got %s at %d ctx %s'%(o,s.pk(),s.i,s.t[max(0,s.i-8):s.i+5]))
        s.i+=1
    def group(s):
        o=s.pk()[1]; d=0; st=s.i+1
        while True:
            x=s.pk()
            if x[0]=='e': raise Exception('eof')
            if x[0]=='o' and x[1] in '([{' : d+=1
            if x[0]=='o' and x[1] in ')]}':
                d-=1
                if d==0: s.i+=1; return s.t[st:s.i-1]
            s.i+=1
    def args(s,close):
        r=[]
        while not s.is_(close):
            r.append(s.expr())
            if s.is_(','): s.i+=1
            elif s.is_(';') and False: pass
        s.eat(close); return r
    def expr(s):
        x=s.pk()
        if s.is_('&'): s.i+=1; return s.expr()
        if s.is_('-'): s.i+=1; return ('neg',s.expr())
        if x[0]=='s': s.i+=1; e=('str',x[1])
        elif x[0]=='c': s.i+=1; e=('chr',x[1])
        elif x[0]=='n': s.i+=1; e=('num',x[1])
        elif s.is_('['): s.i+=1; e=('vec',s.args(']'))
        elif s.is_('('): s.i+=1; a=s.args(')'); e=a[0] if len(a)==1 else ('tup',a)
        elif s.is_('{'):
            raise Exception('block')
        elif x[0]=='i':
            path=[x[1]]; s.i+=1
            while s.is_('::') and s.pk(1)[0]=='i': path.append(s.pk(1)[1]); s.i+=2
            if s.is_('!') and s.pk(1)[0]=='o' and s.pk(1)[1] in '([{':
                s.i+=1; g=s.group(); e=macro(path[-1],g)
            elif s.is_('('): s.i+=1; e=('call',path,s.args(')'))
            elif s.is_('{') and (path[-1][0].isupper()):
                s.i+=1; f={}
                while not s.is_('}'):
                    n=s.pk()[1]; s.i+=1
                    if s.is_(':'): s.i+=1; f[n]=s.expr()
                    else: f[n]=('call',[n],None)
                    if s.is_(','): s.i+=1
                s.eat('}'); e=('struct',path,f)
            else: e=('path',path)
        else: raise Exception('expr %s %s'%(x,s.t[s.i-5:s.i+5]))
        while True:
            if s.is_('.') and s.pk(1)[0]=='i':
                m=s.pk(1)[1]; s.i+=2
                if s.is_('('): s.i+=1; e=('meth',e,m,s.args(')'))
                else: e=('field',e,m)
            elif s.is_('?'): s.i+=1
            else: return e
def src(g):
    n=[x for x in g]
    vals=[x[1] if x[0]=='n' else x[1] for x in n]
    if n and n[0]==('i','src'): # src!(..)
        return src(n[3:-1])
    # strip .into()
    if ('i','into') in n: n=n[:n.index(('i','into'))-1]
    if n and n[0]==('i','src'): return src(n[3:-1])
    k=''.join('9' if x[0]=='n' else x[1] for x in n); v=[x[1] for x in n if x[0]=='n']
    if k=='9:9-9:9': return ('span',v)
    if k=='9:9-9': return ('span',[v[0],v[1],v[0],v[2]])
    if k=='9-9' or k=='9..9': return ('chars',v)
    raise Exception('src '+k)
def macro(name,g):
    if name=='vec': p=P(g); r=[]; 
    if name=='vec':
        while p.i<len(g):
            r.append(p.expr())
            if p.is_(','): p.i+=1
        return ('vec',r)
    if name=='src': return ('src',src(g))
    if name in('token','leaf'):
        kind=g[0][1]; assert g[2][0]=='s',g
        rest=g[4:]
        if rest and rest[-1]==('o',','): rest=rest[:-1]
        if ''.join(str(x[1]) for x in rest) in ('<||>',): return (name,kind,g[2][1],None)
        return (name,kind,g[2][1],src(rest))
    if name=='assert_src':
        i=g.index(('o','=>')); p=P(g[i+1:]); e=p.expr(); return ('asrc',src(g[:i]),e)
    if name in('assert_eq','assert_cst'):
        p=P(g); r=[]
        while p.i<len(g):
            r.append(p.expr())
            if p.is_(','): p.i+=1
        return (name,r)
    return ('macro',name,g)
