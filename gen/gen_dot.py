#!/usr/bin/env python3
"""Translates the drawing /repo/docs/urn.dot into rocq/theories/DotTables.v.
Fails on any line it does not know."""
import re,os
SRC='/repo/docs/urn.dot'
OUT=os.path.join(os.path.dirname(os.path.abspath(__file__)),'..','rocq','theories','DotTables.v')
ACTS='''mark tolower set_pre throw_pre_urn_err set_nid set_nss err_pre err_nid err_nss err_urn err_hex base_type
err_scim_nid err_scim_type err_scim_name err_scim_other scim_type create_scim set_scim_type mark_scim_name
set_scim_name mark_scim_other set_scim_other'''.split()
ESC={'\\\\t':9,'\\\\v':11,'\\\\f':12}
def sym(s):
    if re.fullmatch(r'\d+',s): return int(s)
    assert s[0]=="'" and s[-1]=="'",s
    s=s[1:-1]
    if s in ESC: return ESC[s]
    assert len(s)==1,s
    return ord(s)
SYM=r"(?:'(?:\\\\[a-z]|.)'|\d+)"
def ranges(s):
    out=[]; pos=0
    while True:
        m=re.compile(rf'({SYM})(?:\.\.({SYM}))?(, |$)').match(s,pos); assert m,(s,pos)
        lo=sym(m[1]); out.append((lo,sym(m[2]) if m[2] else lo)); pos=m.end()
        if not m[3]: return out
def act(a):
    if a in ACTS: return 'Named a_'+a
    if a=='err_parse': return 'ErrParse'
    m=re.fullmatch(r'(\d+):(\d+)',a); assert m,a
    return f'Inline {m[1]} {m[2]}'
def acts(s): return [act(a) for a in s.split(', ')] if s else []
edges=[];defs=[];eofs=[];entries=[];finals=[];start=None;mode=None
for ln,l in enumerate(open(SRC).read().split('\n'),1):
    t=l.strip()
    if t in ('','digraph urn {','rankdir=LR;','}','ENTRY;') or re.fullmatch(r'(en|eof)_\d+;|err_\d+ \[ label=""\];',t): continue
    if t.startswith('node ['): mode=t; continue
    m=re.fullmatch(r'(\d+);',t)
    if m: assert 'doublecircle' in mode; finals.append(int(m[1])); continue
    m=re.fullmatch(r'(\w+) -> (\w+) \[ label = "(.*)" \];',t); assert m,(ln,t)
    a,b,lab=m.groups()
    if a=='ENTRY': assert lab=='IN'; start=int(b); continue
    if a.startswith('en_'): assert a=='en_'+b; entries.append((lab,int(b),ln)); continue
    a=int(a)
    # the slash of the label separates bytes and actions; '/' is not drawn as a byte
    s,_,ac=lab.partition(' / ')
    if s=='EOF': assert b=='eof_%d'%a; eofs.append((a,acts(ac),ln))
    elif s=='DEF': assert b=='err_%d'%a; defs.append((a,acts(ac),ln))
    else: edges.append((a,int(b),ranges(s),acts(ac),ln))
assert start==1
L=lambda x:'['+'; '.join(x)+']'
def table(name,ty,rows,doc): return f'(* {doc} *)\nDefinition {name} : {ty} :=\n  ['+';\n   '.join(rows)+'].\n\n'
o='''(* GENERATED by gen/gen_dot.py from /repo/docs/urn.dot -- do not edit.
   The drawing, edge by edge; the number in each comment is the line in docs/urn.dot. *)
From Coq Require Import NArith List Strings.String.
From Verif Require Import RagelRl.
Import ListNotations.
Local Open Scope N_scope.

(* The names on the edges: an action that machine.go.rl has too, the action err_parse, which
   it does not have, and the actions written in place, drawn as line:column. *)
Inductive dact := Named (a : action) | ErrParse | Inline (line col : N).

'''
o+=table('dot_edges','list (N * N * list (N * N) * list dact)',[f'(({a}, {b}, {L(f"({x}, {y})" for x,y in r)}, {L(c)})) (* {ln} *)' .replace('((','(',1).replace(')) (*',') (*') for a,b,r,c,ln in edges],f'docs/urn.dot:{edges[0][-1]}-{edges[-1][-1]}: from, to, the ranges of bytes, the actions')
o+=table('dot_defs','list (N * list dact)',[f'({a}, {L(c)}) (* {ln} *)' for a,c,ln in defs],'docs/urn.dot: the edges DEF, to an error state: for the bytes no other edge takes')
o+=table('dot_eofs','list (N * list dact)',[f'({a}, {L(c)}) (* {ln} *)' for a,c,ln in eofs],f'docs/urn.dot:{eofs[0][-1]}-{eofs[-1][-1]}: the edges EOF')
o+=f'(* docs/urn.dot: the double circles *)\nDefinition dot_finals : list N := {L(map(str,finals))}.\n\n'
o+=table('dot_entries','list (string * N)',[f'("{n}"%string, {k}) (* {ln} *)' for n,k,ln in entries],f'docs/urn.dot:{entries[0][-1]}-{entries[-1][-1]}: the entry points')
n=max(max(a,b) for a,b,*_ in edges)
o+=f'(* the states are 1 to this *)\nDefinition dot_last : N := {n}.\n'
open(OUT,'w').write(o)
print(len(edges),len(defs),len(eofs),finals,entries,n)
