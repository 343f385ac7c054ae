#!/usr/bin/env python3
"""Translate /repo/machine.go into rocq/theories/MachineTables.v.

Every construct is matched by an anchored regular expression; anything the
translator does not know raises an exception, so nothing is silently dropped."""
import re, os
from go_fsm import src, states, trs, fstart, endsw

out=[]
w=out.append
w('''(* GENERATED by gen/gen_machine.py from /repo/machine.go -- do not edit.
   Mechanical translation of the ragel-generated goto program inside
   func (m *machine) Parse (machine.go:137-5031).  Line numbers below refer to
   /repo/machine.go. *)
From Coq Require Import NArith ZArith List Bool String.
From Verif Require Import MachineSyntax.
Import ListNotations.
Local Open Scope N_scope.
''')

# ---- byte tables -------------------------------------------------------
def table(name):
    k=next(i for i,l in enumerate(src) if l.startswith(f'var {name} []byte = []byte{{'))
    vals=[]; j=k+1
    while src[j].strip()!='}':
        vals+= [int(x) for x in src[j].strip().rstrip(',').split(',')]
        j+=1
    return vals,k+1,j+1
for go,co in (('_toStateActions','to_state_actions'),('_eofActions','eof_actions')):
    v,a,b=table(go)
    w(f'(* machine.go:{a}-{b} {go} *)')
    w(f'Definition {co} : list N :=\n  ['+';\n   '.join('; '.join(str(x) for x in v[i:i+16]) for i in range(0,len(v),16))+'].\n')

# ---- constants ---------------------------------------------------------
for go,co in (('start','start_state'),('firstFinal','first_final'),('enScimOnly','en_scim_only'),('enRfc8141Only','en_rfc8141_only'),('enFail','en_fail'),('enMain','en_main')):
    for i,l in enumerate(src):
        m=re.match(rf'const {go} int = (\d+)$',l)
        if m: break
    else: raise Exception(go)
    w(f'(* machine.go:{i+1} const {go} *)\nDefinition {co} : N := {m.group(1)}.\n')

# ---- resume switch -----------------------------------------------------
def emit(stmts,rest,ind):
    """stmts: remaining statements; rest: continuation text thunk (after the list)"""
    if not stmts: return rest()
    s,tail=stmts[0],stmts[1:]
    k=lambda: emit(tail,rest,ind)
    if s[0]=='goto':
        if s[1]=='_out': return 'TOut'
        return f'TTr {s[1][2:]}'
    if s[0]=='vswitch':
        r=''
        for v,b in s[1]:
            r+=f'if c =? {v} then {emit(b,k,ind)} else\n{ind}'
        return r+k()
    if s[0]=='cswitch':
        r=''
        for cd,b in s[1]:
            if cd[0]=='true': return r+f'({emit(b,k,ind)})'
            op={'<':f'c <? {cd[2]}','>':f'{cd[2]} <? c','>=':f'{cd[2]} <=? c','<=':f'c <=? {cd[2]}'}[cd[1]]
            r+=f'if {op} then ({emit(b,k,ind)}) else\n{ind}'
        return r+k()
    if s[0]=='if':
        cd=s[1]
        op=f'c =? {cd[1]}' if cd[0]=='eq' else f'({cd[1]} <=? c) && (c <=? {cd[2]})'
        return f'if {op} then {emit(s[2],k,ind)} else\n{ind}{k()}'
    raise Exception(s)
def nofall(): raise Exception('case falls through')
for n in sorted(states):
    b,a,e=states[n]
    w(f'(* machine.go:{a}-{e} case {n} *)\nDefinition st_case_{n} (c : N) : tgt :=\n  {emit(b,nofall,"  ")}.\n')
sw=next(i for i,l in enumerate(src) if l.strip()=='switch m.cs {')
w(f'(* machine.go:{sw+1}-{endsw+1} switch m.cs; a value with no case falls out of the\n   switch into the next statement, which is label tr183 (machine.go:{trs["tr183"][2]}) *)')
w('Definition resume_switch (cs c : N) : tgt :=\n  match cs with')
for n in sorted(states): w(f'  | {n} => st_case_{n} c')
w('  | _ => TTr 183\n  end.\n')

# ---- tr blocks ---------------------------------------------------------
w('(* The blocks  trN: m.cs = K; goto L  (L = an f label, or _again).\n   Line numbers of machine.go are given per entry. *)')
w('Definition tr_block (n : N) : option (N * option N) :=\n  match n with')
for t in sorted(trs,key=lambda x:int(x[2:])):
    cs,l,a,b=trs[t]
    g='None' if l=='_again' else f'Some {l[1:]}'
    w(f'  | {t[2:]} => Some ({cs}, {g}) (* {a}-{b} *)')
w('  | _ => None\n  end.\n')

# ---- statements --------------------------------------------------------
ERR={'errPrefix':'ErrPrefix','errIdentifier':'ErrIdentifier','errSpecificString':'ErrSpecificString','errNoUrnWithinID':'ErrNoUrnWithinID','errHex':'ErrHex','errSCIMNamespace':'ErrSCIMNamespace','errSCIMType':'ErrSCIMType','errSCIMName':'ErrSCIMName','errSCIMOther':'ErrSCIMOther','errSCIMOtherIncomplete':'ErrSCIMOtherIncomplete','err8141InformalID':'Err8141InformalID','err8141SpecificString':'Err8141SpecificString','err8141Identifier':'Err8141Identifier','err8141RComponentStart':'Err8141RComponentStart','err8141QComponentStart':'Err8141QComponentStart','err8141MalformedRComp':'Err8141MalformedRComp','err8141MalformedQComp':'Err8141MalformedQComp'}
SIMPLE={
 'm.pb = m.p':'SMark',
 'output.tolower = append(output.tolower, m.p-m.pb)':'STolower',
 'output.prefix = string(m.text())':'SSetPrefix',
 'output.ID = string(m.text())':'SSetID',
 'output.SS = string(m.text())':'SSetSS',
 'output.norm = string(m.text())':'SSetNorm',
 'output.rComponent = string(m.text())':'SSetR',
 'output.qComponent = string(m.text())':'SSetQ',
 'output.fComponent = string(m.text())':'SSetF',
 'output.rStart = true':'SSetRStart',
 'output.qStart = true':'SSetQStart',
 '(m.p)--':'SDecP',
 'goto _again':'SGotoAgain',
 'output.kind = RFC2141':'SSetKind KRFC2141',
 'output.kind = RFC7643':'SSetKind KRFC7643',
 'output.kind = RFC8141':'SSetKind KRFC8141',
 'output.scim = &SCIM{}':'SNewSCIM',
 'output.scim.Type = scimschema.TypeFromString(string(m.text()))':'SScimType',
 'output.scim.pos = m.p':'SScimPos',
 'output.scim.Name = string(m.data[output.scim.pos:m.p])':'SScimName',
 'output.scim.Other = string(m.data[output.scim.pos:m.p])':'SScimOther',
}
CONDS={
 'm.parsingMode == RFC2141Only || m.parsingMode == RFC8141Only':'(COr (CModeEq PRFC2141Only) (CModeEq PRFC8141Only))',
 'm.parsingMode != RFC8141Only':'(CNot (CModeEq PRFC8141Only))',
 'm.p == m.pe':'CPEqPe',
 'output.rStart':'CRStart',
 'output.qStart':'CQStart',
 'pos := m.p + 3; pos < m.pe && m.data[pos] == 58 && output.prefix != ""':'(CAnd (CAnd (CPosLtPe 3) (CDataAtEq 3 58)) (CNot CPrefixEmpty))',
}
# ---- error formats -----------------------------------------------------
w('(* machine.go:10-26: the format strings *)\nDefinition err_format (e : errconst) : string :=\n  match e with')
for i,l in enumerate(src[:40]):
    m=re.match(r'\t(err\w+)\s*= "(.*)"$',l)
    if m:
        t=m.group(2).replace('\\"','""')
        assert '\\' not in t
        w(f'  | {ERR[m.group(1)]} => (* {i+1} *) "{t}"%string')
w('  end.\n')
def stmts(k,stop):
    """parse statements from line index k until stop(line) holds; return (list,k)"""
    r=[]
    while True:
        l=src[k].strip()
        if stop(l): return r,k
        if l=='' or l.startswith('//'): k+=1; continue
        if l in SIMPLE: r.append(SIMPLE[l]); k+=1; continue
        m=re.match(r'm\.cs = (\d+)$',l)
        if m: r.append(f'SSetCS {m.group(1)}'); k+=1; continue
        m=re.match(r'm\.err = fmt\.Errorf\((\w+), (m\.p|m\.p-1|pos)\)$',l)
        if m: r.append(f'SSetErr {ERR[m.group(1)]} {dict([("m.p","0"),("m.p-1","(-1)"),("pos","3")])[m.group(2)]}'); k+=1; continue
        if l=='for _, i := range output.tolower {':
            b=src[k+1].strip(); assert src[k+2].strip()=='}'
            r.append({'m.data[m.pb+i] = m.data[m.pb+i] + 32':'SForTolower 32','m.data[m.pb+i] = m.data[m.pb+i] - 32':'SForTolower (-32)'}[b]); k+=3; continue
        m=re.match(r'if (.*) \{$',l)
        if m:
            t,k=stmts(k+1,lambda x:x in('}','} else {')); e=[]
            if src[k].strip()=='} else {': e,k=stmts(k+1,lambda x:x=='}')
            r.append(f'SIf {CONDS[m.group(1)]} [{"; ".join(t)}] [{"; ".join(e)}]'); k+=1; continue
        raise Exception((k+1,l))
def fmt(l): return '['+';\n      '.join(l)+']'
k=fstart; F=[]
while src[k].strip()!='_again:':
    m=re.match(r'f(\d+):$',src[k].strip())
    if not m: assert src[k].strip()=='',(k,src[k]); k+=1; continue
    a=k+1
    b,k=stmts(k+1,lambda x: re.match(r'f\d+:$',x) or x=='_again:')
    assert b[-1]=='SGotoAgain'
    e=k
    while src[e-1].strip()=='': e-=1
    F.append((int(m.group(1)),b,a,e))
w('(* The action blocks fN: (every one ends in  goto _again). *)\nDefinition f_block (n : N) : option (list stmt) :=\n  match n with')
for n,b,a,e in sorted(F): w(f'  | {n} => (* {a}-{e} *)\n    Some {fmt(b)}')
w('  | _ => None\n  end.\n')
ag=k
# ---- _again ------------------------------------------------------------
exp=['switch _toStateActions[m.cs] {','case 33:']
assert [src[ag+1].strip(),src[ag+2].strip()]==exp
b,k=stmts(ag+3,lambda x:x=='}')
w(f'(* machine.go:{ag+2}-{k+1} switch _toStateActions[m.cs] *)\nDefinition to_state_block (a : N) : option (list stmt) :=\n  match a with\n  | 33 => (* {ag+3}-{k} *)\n    Some {fmt(b)}\n  | _ => None\n  end.\n')
tail=[x.strip() for x in src[k+1:k+14]]
exp=['','if m.cs == 0 {','goto _out','}','if (m.p)++; (m.p) != (m.pe) {','goto _resume','}','_testEof:','{','}','if (m.p) == (m.eof) {','switch _eofActions[m.cs] {']
assert tail[:12]==exp,tail
ts=k+13-1
k=k+13
w(f'(* machine.go:{ts+1} switch _eofActions[m.cs] ; a case that ends without a goto leaves\n   the switch and falls to _out *)\nDefinition eof_block (a : N) : option (list stmt) :=\n  match a with')
E=[]
while src[k].strip()!='}':
    m=re.match(r'case (\d+):$',src[k].strip()); a=k+1
    b,k=stmts(k+1,lambda x: re.match(r'case \d+:$',x) or x=='}')
    e=k
    while src[e-1].strip()=='': e-=1
    E.append((int(m.group(1)),b,a,e))
for n,b,a,e in sorted(E): w(f'  | {n} => (* {a}-{e} *)\n    Some {fmt(b)}')
w('  | _ => None\n  end.\n')
tail=[x.strip() for x in src[k:k+16]]
exp=['}','}','','_out:','{','}','}','','if m.cs < firstFinal || m.cs == enFail {','return nil, m.err','}','','return output, nil','}']
assert tail[:14]==exp,tail
print('epilogue at line',k+9)
open(os.path.join(os.path.dirname(os.path.abspath(__file__)),'../rocq/theories/MachineTables.v'),'w').write('\n'.join(out))
