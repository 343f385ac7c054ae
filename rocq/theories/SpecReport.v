(* Independent specification: which error constants each mode can report, and at which
   columns.  The constants are the messages of machine.go:9-27 as enumerated
   in MachineSyntax.errconst; the columns count from 0. *)
From Verif Require Import GoBase MachineSyntax.
Local Open Scope Z_scope.

(* RFC 2141: "urn" ":" NID ":" NSS, a NID of 1 to 32 characters *)
Definition reports2141 (k : errconst) (c : Z) : Prop :=
  match k with
  | ErrPrefix => 0 <= c <= 3
  | ErrIdentifier => 4 <= c <= 36
  | ErrNoUrnWithinID => c = 7
  | ErrSpecificString => 6 <= c
  | ErrHex => 7 <= c
  | _ => False
  end.

(* SCIM: "urn:ietf:params:scim:" then a type, a name and an optional rest *)
Definition reportsscim (k : errconst) (c : Z) : Prop :=
  match k with
  | ErrPrefix => 0 <= c <= 3
  | ErrSCIMNamespace => 4 <= c <= 20
  | ErrSCIMType => 21 <= c <= 28
  | ErrSCIMName => 25 <= c
  | ErrSCIMOther => 27 <= c
  | ErrSCIMOtherIncomplete => 26 <= c
  | _ => False
  end.

(* RFC 8141: a NID of 2 to 32 characters, components after a non-empty NSS *)
Definition reports8141 (k : errconst) (c : Z) : Prop :=
  match k with
  | ErrPrefix => 0 <= c <= 3
  | Err8141Identifier => 4 <= c <= 36
  | Err8141InformalID => c = 7
  | Err8141SpecificString => 7 <= c
  | ErrHex => 8 <= c
  | Err8141MalformedRComp | Err8141MalformedQComp => 10 <= c
  | Err8141RComponentStart | Err8141QComponentStart => 12 <= c
  | _ => False
  end.
