"""Reads rocq/theories/MachineTables.v and runs it; used by gen_live.py only.  What gen_live.py
writes is checked in Coq."""
import re,json,sys,itertools,collections,time
import os
SRC=os.path.join(os.path.dirname(os.path.abspath(__file__)),'../rocq/theories/MachineTables.v')
TOK=re.compile(r'\s+|\(\*.*?\*\)',re.S)
def strip(s): return re.sub(r'\(\*.*?\*\)','',s,flags=re.S)
class P:
    def __init__(s,t): s.t=re.findall(r'\(-?\d+\)|[A-Za-z_]\w*|\d+|<=\?|<\?|=\?|&&|[\[\]();,]',t); s.i=0
    def pk(s): return s.t[s.i]
    def nx(s): s.i+=1; return s.t[s.i-1]
    def ex(s,x): y=s.nx(); assert x==y,(x,y,s.t[max(0,s.i-8):s.i+5])
def pz(x): return int(x.strip('()'))
def plist(p):
    p.ex('['); o=[]
    while p.pk()!=']':
        o.append(pst(p))
        if p.pk()==';': p.nx()
    p.nx(); return o
def pcond(p):
    if p.pk()=='(':
        p.nx(); c=pcond0(p); p.ex(')'); return c
    return (p.nx(),)
def pcond0(p):
    n=p.nx()
    if n=='CNot': return (n,pcond(p))
    if n in('CAnd','COr'): return (n,pcond(p),pcond(p))
    if n=='CModeEq': return (n,p.nx())
    if n=='CPosLtPe': return (n,pz(p.nx()))
    if n=='CDataAtEq': return (n,pz(p.nx()),pz(p.nx()))
    return (n,)
def pst(p):
    n=p.nx()
    if n=='SIf':
        c=pcond(p); return ('SIf',c,plist(p),plist(p))
    if n=='SSetErr': return (n,p.nx(),pz(p.nx()))
    if n in('SSetCS','SForTolower'): return (n,pz(p.nx()))
    if n=='SSetKind': return (n,p.nx())
    return (n,)
def pexpr(p):  # tgt expr -> python code string
    if p.pk()=='if':
        p.nx(); c=pc(p); p.ex('then'); a=pexpr1(p); p.ex('else'); b=pexpr(p)
        return f'({a} if {c} else {b})'
    return pexpr1(p)
def pexpr1(p):
    if p.pk()=='(':
        p.nx(); e=pexpr(p); p.ex(')'); return e
    n=p.nx()
    if n=='TOut': return 'None'
    assert n=='TTr',n
    return p.nx()
def pc(p):
    a=pca(p)
    while p.pk()=='&&': p.nx(); a=f'({a} and {pca(p)})'
    return a
def pca(p):
    if p.pk()=='(':
        p.nx(); a=pc(p); p.ex(')'); return a
    x=p.nx(); o=p.nx(); y=p.nx()
    return f'({x} {dict([("<=?","<="),("<?","<"),("=?","==")])[o]} {y})'
class M: pass
CACHE={}
def load(s):
    m=M()
    def section(name):
        i=s.index('Definition '+name+' '); j=s.index('Definition ',i+10) if 'Definition ' in s[i+10:] else len(s); return strip(s[i:j])
    def lst(name): return [int(x) for x in re.findall(r'\d+',section(name).split(':=',1)[1].split('[')[1].split(']')[0])]
    m.to=lst('to_state_actions'); m.eof=lst('eof_actions')
    m.st=[]
    for k in range(194):
        b=section(f'st_case_{k}').split(':=',1)[1].rsplit('.',1)[0]
        if b not in CACHE:
            f=eval('lambda c:'+pexpr(P(b))); CACHE[b]=[f(c) for c in range(256)]
        m.st.append(CACHE[b])
    m.tr={}
    for a,b,c in re.findall(r'\| (\d+) => Some \((\d+), (None|Some \d+)\)',section('tr_block')): m.tr[int(a)]=(int(b),None if c=='None' else int(c[5:]))
    def blocks(name):
        d={}
        b=section(name).split('match',1)[1]
        for part in re.split(r'\n  \| ',b)[1:]:
            mm=re.match(r'(\d+) =>\s*Some\s*(\[.*\])',part,re.S)
            if mm: d[int(mm.group(1))]=plist(P(mm.group(2)))
        return d
    m.f=blocks('f_block'); m.tob=blocks('to_state_block'); m.eofb=blocks('eof_block')
    return m
START={0:0,1:1,2:44,3:83}
MODE={'PDefault':0,'PRFC2141Only':1,'PRFC7643Only':2,'PRFC8141Only':3}
class Panic(Exception): pass
def cond(c,S):
    n=c[0]
    if n=='CModeEq': return S.mode==MODE[c[1]]
    if n=='CPEqPe': return S.p==S.pe
    if n=='CRStart': return S.u['rs']
    if n=='CQStart': return S.u['qs']
    if n=='CPosLtPe': return S.p+c[1]<S.pe
    if n=='CDataAtEq':
        k=S.p+c[1]
        if not 0<=k<len(S.d): raise Panic
        return S.d[k]==c[2]
    if n=='CPrefixEmpty': return S.u['pre']==b''
    if n=='CNot': return not cond(c[1],S)
    if n=='CAnd': return cond(c[1],S) and cond(c[2],S)
    if n=='COr': return cond(c[1],S) or cond(c[2],S)
    raise Exception(n)
def text(S,lo=None):
    lo=S.pb if lo is None else lo
    if not 0<=lo<=S.p<=len(S.d): raise Panic
    return bytes(S.d[lo:S.p])
SETS={'SSetPrefix':'pre','SSetID':'id','SSetSS':'ss','SSetNorm':'norm','SSetR':'r','SSetQ':'q','SSetF':'f'}
def ex(b,S):
    for s in b:
        n=s[0]
        if n=='SMark': S.pb=S.p
        elif n=='STolower': S.tl.append(S.p-S.pb)
        elif n in SETS: S.u[SETS[n]]=text(S)
        elif n=='SForTolower':
            for i in S.tl:
                k=S.pb+i
                if not 0<=k<len(S.d): raise Panic
                S.d[k]=(S.d[k]+s[1])%256
        elif n=='SSetErr': S.err=(s[1],S.p+s[2])
        elif n=='SDecP': S.p-=1
        elif n=='SSetCS': S.cs=s[1]
        elif n=='SGotoAgain': return True
        elif n=='SIf':
            if ex(s[2] if cond(s[1],S) else s[3],S): return True
        elif n=='SSetKind': S.u['kind']=s[1]
        elif n=='SNewSCIM': S.u['scim']=['',b'',b'',0]
        elif n.startswith('SScim'):
            if n in('SScimType',): t=text(S)
            sc=S.u['scim']
            if sc is None: raise Panic
            if n=='SScimType': sc[0]=t
            elif n=='SScimPos': sc[3]=S.p
            elif n=='SScimName': sc[1]=text(S,sc[3])
            elif n=='SScimOther': sc[2]=text(S,sc[3])
            else: raise Exception(n)
        elif n=='SSetRStart': S.u['rs']=True
        elif n=='SSetQStart': S.u['qs']=True
        else: raise Exception(n)
    return False
def parse(m,start,mode,inp,trace=None):
    S=M(); S.d=bytearray(inp); S.p=0; S.pe=len(inp); S.pb=0; S.cs=start; S.err=None; S.mode=mode; S.tl=[]
    S.u=dict(pre=b'',id=b'',ss=b'',norm=b'',r=b'',q=b'',f=b'',kind=0,scim=None,rs=False,qs=False)
    fuel=4*len(inp)+16
    try:
        l='eof' if S.pe==0 else ('out' if S.cs==0 else 'res')
        while l!='out':
            fuel-=1
            if fuel<0: return 'fuel'
            if l=='res':
                if S.cs==0: break
                if not 0<=S.p<len(S.d): raise Panic
                n=m.st[S.cs][S.d[S.p]]
                if n is None: break
                if trace is not None: trace.add(('st',S.cs)); trace.add(('tr',n))
                S.cs,f=m.tr[n]
                if f is not None:
                    if trace is not None: trace.add(('f',f))
                    ex(m.f[f],S)
                l='ag'
            elif l=='ag':
                a=m.to[S.cs]
                if a in m.tob:
                    ex(m.tob[a],S)
                    if trace is not None: trace.add(('to',a))
                    continue
                if S.cs==0: break
                S.p+=1; l='eof' if S.p==S.pe else 'res'
            else:
                if S.p!=S.pe: break
                a=m.eof[S.cs]
                if trace is not None: trace.add(('eof',a)); trace.add(('eofst',S.cs))
                if a in m.eofb:
                    l='ag' if ex(m.eofb[a],S) else 'out'
                else: break
    except Panic: return 'panic'
    if S.cs<172 or S.cs==193: return (bytes(S.d),None,S.err)
    u=S.u; return (bytes(S.d),(u['pre'],u['id'],u['ss'],u['norm'],u['r'],u['q'],u['f'],u['kind'],u['scim'] and tuple(u['scim'][:3])),None)
