"""Writes rocq/theories/LiveTable.v: for each state the labels it jumps to and the modes and flags it is
met with, and texts that between them execute every label and every outcome of an if statement that
can be executed (live_inputs.json).  Everything in it is checked in Coq (PropsLive.v)."""
import json,os,itertools,sys
H=os.path.dirname(os.path.abspath(__file__)); sys.path.insert(0,H)
import tables as T
from tables import *
b=load(open(SRC).read())
L=json.load(open(os.path.join(H,'live_inputs.json')))
ids={}; allbr=[]
def number(blk,q,key):
    for i,s in enumerate(blk):
        if s[0]=='SIf':
            ids[id(s)]=(q,key+(i,)); allbr.append((q,key+(i,))); number(s[2],q,key+(i,1)); number(s[3],q,key+(i,0))
for kind,bl in (('PF',b.f),('PEof',b.eofb),('PTo',b.tob)):
    for n in bl: number(bl[n],(kind,n),())
oex=T.ex; TR=[None]
def ex2(bl,S):
    for s in bl:
        if s[0]=='SIf':
            r=cond(s[1],S); q,p=ids[id(s)]; TR[0].add(('ITake',q,p,r))
            if ex2(s[2] if r else s[3],S): return True
        elif oex([s],S): return True
    return False
T.ex=ex2
START={1:1,2:44,3:83}
# items
rows=[]; have=set()
def norm(t):
    o=set()
    for e in t:
        if e[0]=='st': o.add(('IState',e[1]))
        elif e[0]=='eofst': o.add(('IEnd',e[1]))
        elif e[0]=='tr': o.add(('ITr',e[1]))
        elif e[0]=='f': o.add(('IBlock',('PF',e[1])))
        elif e[0]=='eof':
            if e[1] in b.eofb: o.add(('IBlock',('PEof',e[1])))
        elif e[0]=='to': o.add(('IBlock',('PTo',e[1])))
        else: o.add(e)
    return o
OTHER=json.load(open(os.path.join(H,'live_inputs_other.json')))
for st,mode,i in [(START[m],m,i) for m,i in L]+[(s,4,i) for s,i in OTHER]:
    tr=set(); TR[0]=tr; r=T.parse(b,st,mode,i.encode('latin1'),tr)
    new=sorted(norm(tr)-have,key=str); have|=set(new)
    if mode==4: new=[x for x in new if x[0]=='ITake']
    if new: rows.append((st,mode,i.encode('latin1'),new))
# abstract reachability: (mode class, cs, rStart, qStart)
def acond(c,a):
    n=c[0]
    if n=='CModeEq': return a[0]==MODE[c[1]]
    if n=='CRStart': return a[2]
    if n=='CQStart': return a[3]
    if n=='CPEqPe': return a[4]
    if n=='CNot': v=acond(c[1],a); return None if v is None else not v
    if n=='CAnd':
        v=acond(c[1],a)
        return False if v is False else acond(c[2],a) if v is True else None
    if n=='COr':
        v=acond(c[1],a)
        return True if v is True else acond(c[2],a) if v is False else None
    return None
def aex(bl,a):
    if not bl: return [(a,False)]
    s,r=bl[0],bl[1:]; n=s[0]
    if n=='SGotoAgain': return [(a,True)]
    if n=='SIf':
        v=acond(s[1],a); o=[]
        for br in ([s[2]] if v is True else [s[3]] if v is False else [s[2],s[3]]):
            for (x,g) in aex(br,a): o+= [(x,True)] if g else aex(r,x)
        return o
    if n=='SDecP': return aex(r,a[:4]+(True,))+aex(r,a[:4]+(False,))
    if n=='SSetCS': a=(a[0],s[1])+a[2:]
    if n=='SSetRStart': a=a[:2]+(True,)+a[3:]
    if n=='SSetQStart': a=a[:3]+(True,)+a[4:]
    return aex(r,a)
outs=[sorted({x for x in b.st[k] if x is not None}) if k else [] for k in range(194)]
seen=set(); work=[(m,s,False,False) for s,m in((1,1),(1,0),(44,2),(44,0),(83,3),(83,0))]
def again(a):
    t=b.to[a[1]]
    if t in b.tob: return [y for x,g in aex(b.tob[t],a) for y in again(x)]
    return [] if a[1]==0 else [a[:4]]
while work:
    a=work.pop()
    if a in seen: continue
    seen.add(a)
    for n in outs[a[1]]:
        cs,f=b.tr[n]; x=(a[0],cs)+a[2:]+(False,)
        for y,g in ([(x,True)] if f is None else aex(b.f[f],x)): work+=again(y)
    e=b.eof[a[1]]
    if e in b.eofb:
        for y,g in aex(b.eofb[e],a+(True,)):
            if g: work+=again(y)
print(len(seen),'configurations')
cfg=[sorted((a[0],a[2],a[3]) for a in seen if a[1]==k) for k in range(194)]
B=lambda v:'true' if v else 'false'
def part(q): return '(%s %d)'%q
def item(e):
    if e[0] in('IState','IEnd','ITr'): return '%s %d'%(e[0],e[1])
    if e[0]=='IBlock': return 'IBlock %s'%part(e[1])
    return 'ITake %s [%s]%%nat %s'%(part(e[1]),'; '.join(map(str,e[2])),B(e[3]))
def by(i): return '['+'; '.join('"%03d"'%c for c in i)+']'
def txt(i):
    if all(32<=c<127 and c!=34 for c in i): return 'B "%s"'%i.decode()
    return '('+by(i)+'%byte : bytes)'
o=['(* GENERATED by gen/gen_live.py from MachineTables.v and gen/live_inputs*.json -- do not edit.','   Data that PropsLive.v checks: nothing here is trusted. *)',
'From Verif Require Import GoBase MachineSyntax MachineTables Machine Live.','Local Open Scope N_scope.','',
'Inductive item := IState (k : N) | IEnd (k : N) | ITr (n : N) | IBlock (q : part) | ITake (q : part) (p : list nat) (v : bool).','',
'(* for each state the labels its case jumps to *)','Definition live_outs : list (list N) :=','  ['+';\n   '.join('['+'; '.join(map(str,x))+']' for x in outs)+'].','',
'(* for each state the mode (0: no listed one) and the values of rStart and qStart it is met with *)','Definition live_cfg : list (list (Z * bool * bool)) :=',
'  ['+';\n   '.join('['+'; '.join('(%d%%Z, %s, %s)'%(m,B(r),B(q)) for m,r,q in x)+']' for x in cfg)+'].','',
'(* modes given to the machine, text, what it is the witness for *)','Definition live_texts : list (list Z * bytes * list item) :=',
'  ['+';\n   '.join('(%s%%Z, %s,\n    [%s])'%({4:'[%d; 4]'%({1:1,44:2,83:3}[st])}.get(mode,'[%d]'%mode),txt(i),'; '.join(map(item,new))) for st,mode,i,new in rows)+'].']
open(os.path.join(H,'../rocq/theories/LiveTable.v'),'w').write('\n'.join(o)+'\n')
print(len(rows),'texts')
miss=[x for x in itertools.product(allbr,(True,False)) if ('ITake',)+x[0]+(x[1],) not in have]
print('never',miss)
