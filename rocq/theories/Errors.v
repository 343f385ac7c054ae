(* fmt.Errorf(<format>, col): the text of the errors Parse returns. *)
From Coq Require Import DecimalString.
From Verif Require Import GoBase MachineSyntax MachineTables Machine.
From Coq Require Import Ascii.
Local Open Scope string_scope.

(* strconv.Itoa / %d *)
Definition itoa (z : Z) : string := NilZero.string_of_int (Z.to_int z).

(* fmt.Sprintf restricted to the verbs occurring in machine.go:10-26: %d (with the
   single int argument) and %%. *)
Fixpoint sprintf_d (f : string) (d : Z) : string :=
  match f with
  | String "%"%char (String "d"%char r) => itoa d ++ sprintf_d r d
  | String "%"%char (String "%"%char r) => String "%"%char (sprintf_d r d)
  | String a r => String a (sprintf_d r d)
  | EmptyString => EmptyString
  end.

(* err.Error() for an error produced by Parse *)
Definition perr_Error (e : perr) : string := sprintf_d (err_format (e_kind e)) (e_col e).

(* fmt.Sprintf restricted to %s with the single string argument: the verbs occurring in
   urn.go:9, urn8141.go:8, scim.go:10 *)
Fixpoint sprintf_s (f : string) (arg : bytes) : bytes :=
  match f with
  | String "%"%char (String "s"%char r) => (arg ++ sprintf_s r arg)%list
  | String a r => byte_of_ascii a :: sprintf_s r arg
  | EmptyString => []
  end.
