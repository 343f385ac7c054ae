(* Languages of byte strings and the operators grammars are written with. *)
From Coq Require Import NArith List Bool Init.Byte Strings.Byte Strings.String.
From Verif Require Import GoBase.
Import ListNotations.

Definition lang := bytes -> Prop.

(* one byte of a class *)
Definition cls (f : byte -> bool) : lang := fun w => exists c, w = [c] /\ f c = true.
(* one byte of the listed ones *)
Definition chars (s : string) : lang := cls (fun c => existsb (Byte.eqb c) (B s)).
(* one byte of a range *)
Definition range (lo hi : byte) : lang := cls (fun c => N.leb (Byte.to_N lo) (Byte.to_N c) && N.leb (Byte.to_N c) (Byte.to_N hi)).
(* a literal *)
Definition lit (s : string) : lang := fun w => w = B s.
Definition alt (a b : lang) : lang := fun w => a w \/ b w.
Definition cat (a b : lang) : lang := fun w => exists x y, w = x ++ y /\ a x /\ b y.
Definition minus (a b : lang) : lang := fun w => a w /\ ~ b w.
Definition opt (a : lang) : lang := fun w => w = [] \/ a w.
(* n repetitions *)
Fixpoint times (n : nat) (a : lang) : lang :=
  match n with O => fun w => w = [] | S n => cat a (times n a) end.
(* between lo and hi repetitions *)
Definition rep (lo hi : nat) (a : lang) : lang := fun w => exists n, (lo <= n <= hi)%nat /\ times n a w.
(* any number, at least one *)
Definition star (a : lang) : lang := fun w => exists n, times n a w.
Definition plus (a : lang) : lang := cat a (star a).

Declare Scope lang_scope.
Delimit Scope lang_scope with lang.
Infix "|||" := alt (at level 50, left associativity) : lang_scope.
Infix ";;" := cat (at level 40, left associativity) : lang_scope.
Infix "---" := minus (at level 50, left associativity) : lang_scope.
