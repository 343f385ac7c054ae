(* What the exact cost of an accepting call of Parse is counted with. *)
From Verif Require Import GoBase Spec.
Local Open Scope Z_scope.

(* in how many places two texts of the same length differ *)
Fixpoint changed (a b : bytes) : Z :=
  match a, b with
  | x :: a, y :: b => (if Byte.eqb x y then 0 else 1) + changed a b
  | _, _ => 0
  end.

(* the sum of the places (counted from k) at which w has a question mark *)
Fixpoint marks (k : Z) (w : bytes) : Z :=
  match w with
  | [] => 0
  | c :: w => (if Byte.eqb c "?" then k else 0) + marks (k + 1) w
  end.

(* the NID begins with urn-, in any case *)
Definition dashed (nid : bytes) : bool := bytes_eqb (lowers (firstn 4 nid)) (B "urn-").
