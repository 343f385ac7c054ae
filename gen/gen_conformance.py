#!/usr/bin/env python3
"""Turn the expectation tables of /repo/tables_test.go into Coq checks of the model
(tests of the model's faithfulness, not proofs)."""
import re,os
src=open('/repo/tables_test.go',encoding='utf-8').read().split('\n')
def gostr(t):
    m=re.match(r'^(?:"((?:[^"\\]|\\.)*)"|`([^`]*)`)',t)
    assert m,t
    if m.group(2) is not None: return m.group(2)
    s=m.group(1)
    assert not re.search(r'\\[^"n]',s),s
    return s.replace('\\"','"').replace('\\n','\n')
def coq(s): return '"'+s.replace('"','""')+'"'
TABLES=[('urnlexTestCases','PRFC2141Only'),('scimOnlyTestCases','PRFC7643Only'),('urn2141OnlyTestCases','PRFC2141Only'),('rfc8141TestCases','PRFC8141Only')]
out=['''(* GENERATED by gen/gen_conformance.py from /repo/tables_test.go -- do not edit.
   Each entry is the expectation of one unit test of the repository, evaluated on the
   model.  These are tests tying the model to the code's own expectations, not proofs. *)
From Verif Require Import GoBase MachineSyntax MachineTables Machine Errors Urn.
Open Scope string_scope.

(* input, ok, prefix, ID, SS, r, q, f, String(), Normalize().String(), error text *)
Record tc := T { t_in : string; t_ok : bool; t_prefix : string; t_ID : string; t_SS : string;
  t_r : string; t_q : string; t_f : string; t_str : string; t_norm : string; t_err : string }.

Definition eqs (b : bytes) (s : string) : bool := bytes_eqb b (B s).

Definition check (mode : Z) (t : tc) : bool :=
  match machine_Parse (NewMachine [mode]) (B (t_in t)) with
  | Ret (m, Some u, None) =>
      t_ok t && eqs (u_prefix u) (t_prefix t) && eqs (u_ID u) (t_ID t) && eqs (u_SS u) (t_SS t)
      && eqs (u_r u) (t_r t) && eqs (u_q u) (t_q t) && eqs (u_f u) (t_f t)
      && eqs (URN_String u) (t_str t)
      && eqs (URN_String (Normalize (fun s => s) u)) (t_norm t)
      && bytes_eqb (m_data m) (B (t_in t))
  | Ret (m, None, Some e) => negb (t_ok t) && String.eqb (perr_Error e) (t_err t)
      && bytes_eqb (m_data m) (B (t_in t))
  | _ => false
  end.
''']
tot=0
for name,mode in TABLES:
    k=next(i for i,l in enumerate(src) if l.startswith(f'var {name} = []testCase{{'))+1
    ents=[]
    while src[k]!='}':
        if src[k].strip().startswith('//') or src[k].strip()=='' : k+=1; continue
        assert src[k]=='\t{',(k+1,src[k]); line=k+1; k+=1
        toks=[]
        while not re.match(r'\t\},(\s*//.*)?$',src[k]):
            l=src[k].strip()
            if l.startswith('//') or l=='' : k+=1; continue
            if l.startswith('&URN{'):
                f={}; k+=1
                while src[k].strip()!='},':
                    x=src[k].strip()
                    if x.startswith('//') or x=='': k+=1; continue
                    m=re.match(r'(\w+):\s*(.*),',x)
                    if m.group(1)=='scim':
                        if m.group(2).endswith('}') : k+=1; continue
                        depth=1; k+=1
                        while depth:
                            depth+=src[k].count('{')-src[k].count('}'); k+=1
                        continue
                    if m.group(1)=='kind': k+=1; continue
                    f[m.group(1)]=gostr(m.group(2)); k+=1
                toks.append(f); k+=1; continue
            m=re.match(r'\[\]byte\((.*)\),',l)
            if m: toks.append(gostr(m.group(1)))
            elif l.startswith('true,'): toks.append(True)
            elif l.startswith('false,'): toks.append(False)
            elif l.startswith('nil,'): toks.append(None)
            elif l.startswith('"') or l.startswith('`'): toks.append(gostr(l))
            elif l.startswith('fmt.Sprintf('):
                m=re.match(r'fmt\.Sprintf\((\w+), (\d+)\),',l); toks.append((m.group(1),m.group(2)))
            else: raise Exception((k+1,l))
            k+=1
        k+=1
        inp,ok,obj,st,norm,est,_=toks
        if ok: assert obj is not None
        obj=obj or {}
        ents.append((line,inp,ok,obj,st,norm,est))
    out.append(f'(* tables_test.go: {name} ({len(ents)} cases) *)\nDefinition {name} : list tc := [')
    L=[]
    for line,inp,ok,o,st,norm,est in ents:
        g=lambda f:coq(o.get(f,''))
        est = f"(perr_Error (mkErr E{est[0][1:]} {est[1]}))" if isinstance(est,tuple) else coq(est)
        L.append(f'  (* {line} *) T {coq(inp)} {str(ok).lower()} {g("prefix")} {g("ID")} {g("SS")} {g("rComponent")} {g("qComponent")} {g("fComponent")} {coq(st)} {coq(norm)} {est}')
    out.append(';\n'.join(L)+'].\n')
    out.append(f'Example {name}_conform : forallb (check {mode}) {name} = true.\nProof. vm_compute. reflexivity. Qed.\n')
    tot+=len(ents)
print(tot,'cases')
open(os.path.join(os.path.dirname(os.path.abspath(__file__)),'../rocq/theories/Conformance.v'),'w',encoding='utf-8').write('\n'.join(out))
