(* Basic Go notions used by the model: byte strings, run-time results
   (normal / panic / out of fuel), slice indexing and slicing. *)
From Coq Require Export NArith ZArith List Bool Strings.String Init.Byte.
From Coq Require Export Strings.Byte.
Export ListNotations.
Local Open Scope Z_scope.

(* Go strings and []byte contents. *)
Definition bytes := list byte.

(* A literal: B "urn". *)
Definition B (s : string) : bytes := list_byte_of_string s.

Definition beqb (a b : byte) : bool := Byte.eqb a b.

Fixpoint bytes_eqb (a b : bytes) : bool :=
  match a, b with
  | [], [] => true
  | x :: a', y :: b' => beqb x y && bytes_eqb a' b'
  | _, _ => false
  end.

(* Outcome of running Go code. *)
Inductive res (A : Type) : Type :=
| Ret (a : A)
| Panic            (* a Go run-time panic *)
| OutOfFuel.       (* the model's fuel ran out; excluded by theorem *)
Arguments Ret {A} a.
Arguments Panic {A}.
Arguments OutOfFuel {A}.

Definition bind {A C} (r : res A) (k : A -> res C) : res C :=
  match r with Ret a => k a | Panic => Panic | OutOfFuel => OutOfFuel end.
Notation "'do' x <- r ; k" := (bind r (fun x => k))
  (at level 200, x pattern, r at level 100, k at level 200).

(* len(s) as a Go int.  Ints have a fixed width; MachineInt.v and C60 show that
   integers without bounds are exact here. *)
Definition zlen {A} (s : list A) : Z := Z.of_nat (List.length s).

(* s[i]; panics outside 0 <= i < len. *)
Definition index {A} (s : list A) (i : Z) : res A :=
  if (0 <=? i) && (i <? zlen s) then
    match nth_error s (Z.to_nat i) with Some b => Ret b | None => Panic end
  else Panic.

(* s[a:b].  Go allows b up to cap(s); the model panics already beyond len(s)
   (stricter: the no-panic theorem then covers Go's rule too). *)
Definition slice {A} (s : list A) (a b : Z) : res (list A) :=
  if (0 <=? a) && (a <=? b) && (b <=? zlen s) then
    Ret (firstn (Z.to_nat (b - a)) (skipn (Z.to_nat a) s))
  else Panic.

(* s[i] = v *)
Fixpoint set_nth {A} (n : nat) (v : A) (s : list A) : list A :=
  match s, n with
  | [], _ => []
  | _ :: t, O => v :: t
  | x :: t, S k => x :: set_nth k v t
  end.
Definition update {A} (s : list A) (i : Z) (v : A) : res (list A) :=
  if (0 <=? i) && (i <? zlen s) then Ret (set_nth (Z.to_nat i) v s) else Panic.

(* byte addition with wrap-around: b + d for an int8-sized constant d *)
Definition byte_add (b : byte) (d : Z) : byte :=
  match Byte.of_N (Z.to_N ((Z.of_N (Byte.to_N b) + d) mod 256)) with
  | Some r => r
  | None => x00   (* impossible: the argument is < 256 *)
  end.
