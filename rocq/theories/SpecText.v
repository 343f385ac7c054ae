(* Independent specification of the error texts: the sentence of each rule, and decimal
   numerals read from left to right. *)
From Coq Require Import Ascii.
From Verif Require Import GoBase MachineSyntax.
Local Open Scope string_scope.

(* the value of a string of decimal digits, after the digits read so far *)
Fixpoint dec_from (acc : N) (w : string) : option N :=
  match w with
  | EmptyString => Some acc
  | String c r =>
      let n := N_of_ascii c in
      if (N.leb 48 n && N.leb n 57)%bool then dec_from (10 * acc + (n - 48))%N r else None
  end.
(* w is the decimal numeral of n: digits only, at least one, no superfluous zero in front *)
Definition numeral (n : Z) (w : string) : Prop :=
  w <> "" /\ dec_from 0 w = Some (Z.to_N n) /\ (0 <= n)%Z /\ (w = "0" \/ forall r, w <> String "0" r).

(* what each error says, without the column *)
Definition sentence (k : errconst) : string :=
  match k with
  | ErrPrefix => "expecting the prefix to be the ""urn"" string (whatever case)"
  | ErrIdentifier => "expecting the identifier to be string (1..31 alnum chars, also containing dashes but not at its beginning)"
  | ErrSpecificString => "expecting the specific string to be a string containing alnum, hex, or others ([()+,-.:=@;$_!*']) chars"
  | ErrNoUrnWithinID => "expecting the identifier to not contain the ""urn"" reserved string"
  | ErrHex => "expecting the percent encoded chars to be well-formed (%alnum{2})"
  | ErrSCIMNamespace => "expecing the SCIM namespace identifier (ietf:params:scim)"
  | ErrSCIMType => "expecting a correct SCIM type (schemas, api, param)"
  | ErrSCIMName => "expecting one or more alnum char in the SCIM name part"
  | ErrSCIMOther => "expecting a well-formed other SCIM part"
  | ErrSCIMOtherIncomplete => "expecting a not empty SCIM other part after colon"
  | Err8141InformalID => "informal URN namespace must be in the form urn-[1-9][0-9]"
  | Err8141SpecificString => "expecting the specific string to contain alnum, hex, or others ([~&()+,-.:=@;$_!*'] or [/?] not in first position) chars"
  | Err8141Identifier => "expecting the indentifier to be a string with (length 2 to 32 chars) containing alnum (or dashes) not starting or ending with a dash"
  | Err8141RComponentStart => "expecting only one r-component (starting with the ?+ sequence)"
  | Err8141QComponentStart => "expecting only one q-component (starting with the ?= sequence)"
  | Err8141MalformedRComp => "expecting a non-empty r-component containing alnum, hex, or others ([~&()+,-.:=@;$_!*'] or [/?] but not at its beginning)"
  | Err8141MalformedQComp => "expecting a non-empty q-component containing alnum, hex, or others ([~&()+,-.:=@;$_!*'] or [/?] but not at its beginning)"
  end.
