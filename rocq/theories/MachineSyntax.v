(* The statement language the action blocks of machine.go are written in
   (deep embedding).  Each constructor is one Go statement form; the source text
   is given in the comment.  gen/gen_machine.py maps source lines to these. *)
From Coq Require Import NArith ZArith List.

(* The error format constants, machine.go:10-26 *)
Inductive errconst : Type :=
| ErrPrefix | ErrIdentifier | ErrSpecificString | ErrNoUrnWithinID | ErrHex
| ErrSCIMNamespace | ErrSCIMType | ErrSCIMName | ErrSCIMOther | ErrSCIMOtherIncomplete
| Err8141InformalID | Err8141SpecificString | Err8141Identifier
| Err8141RComponentStart | Err8141QComponentStart
| Err8141MalformedRComp | Err8141MalformedQComp.

(* kind.go:3-10.  Kind is an int; iota constants. *)
Definition KNONE : Z := 0.
Definition KRFC2141 : Z := 1.
Definition KRFC7643 : Z := 2.
Definition KRFC8141 : Z := 3.

(* parsing_mode.go:3-12.  ParsingMode is an int. *)
Definition PDefault : Z := 0.
Definition PRFC2141Only : Z := 1.
Definition PRFC7643Only : Z := 2.
Definition PRFC8141Only : Z := 3.
Definition DefaultParsingMode : Z := PRFC2141Only.

(* Conditions; && and || short-circuit as in Go. *)
Inductive cond : Type :=
| CModeEq (m : Z)             (* m.parsingMode == X *)
| CPEqPe                      (* m.p == m.pe *)
| CRStart                     (* output.rStart *)
| CQStart                     (* output.qStart *)
| CPosLtPe (k : Z)            (* pos := m.p + k; pos < m.pe *)
| CDataAtEq (k : Z) (c : N)   (* m.data[pos] == c with pos = m.p + k *)
| CPrefixEmpty                (* output.prefix == "" *)
| CNot (c : cond)
| CAnd (c d : cond)
| COr (c d : cond).

Inductive stmt : Type :=
| SMark                       (* m.pb = m.p *)
| STolower                    (* output.tolower = append(output.tolower, m.p-m.pb) *)
| SSetPrefix                  (* output.prefix = string(m.text()) *)
| SSetID                      (* output.ID = string(m.text()) *)
| SSetSS                      (* output.SS = string(m.text()) *)
| SSetNorm                    (* output.norm = string(m.text()) *)
| SForTolower (d : Z)         (* for _, i := range output.tolower { m.data[m.pb+i] = m.data[m.pb+i] + d } *)
| SSetErr (e : errconst) (k : Z) (* m.err = fmt.Errorf(e, m.p+k) *)
| SDecP                       (* (m.p)-- *)
| SSetCS (n : N)              (* m.cs = n *)
| SGotoAgain                  (* goto _again *)
| SIf (c : cond) (t e : list stmt) (* if c { t } else { e } *)
| SSetKind (k : Z)            (* output.kind = k *)
| SNewSCIM                    (* output.scim = &SCIM{} *)
| SScimType                   (* output.scim.Type = scimschema.TypeFromString(string(m.text())) *)
| SScimPos                    (* output.scim.pos = m.p *)
| SScimName                   (* output.scim.Name = string(m.data[output.scim.pos:m.p]) *)
| SScimOther                  (* output.scim.Other = string(m.data[output.scim.pos:m.p]) *)
| SSetR                       (* output.rComponent = string(m.text()) *)
| SSetQ                       (* output.qComponent = string(m.text()) *)
| SSetF                       (* output.fComponent = string(m.text()) *)
| SSetRStart                  (* output.rStart = true *)
| SSetQStart.                 (* output.qStart = true *)

(* Where a case of the _resume switch jumps to. *)
Inductive tgt : Type :=
| TTr (n : N)                 (* goto trN *)
| TOut.                       (* goto _out *)
