(* Several Parse calls on one machine value at the same time.  Parse keeps its whole state in
   the fields of the receiver (machine.go:96-107, 137-149); only the URN under construction
   (machine.go:147) and the place in the code belong to one call.

   Here a step is one label of the goto program (function step of Machine.v), so that the
   interleavings are a part of those Go allows; the refutations are therefore refutations
   for Go, and the positive theorem (C47_serial) speaks of calls that do not overlap, for
   which the size of a step does not matter. *)
From Verif Require Import GoBase MachineSyntax MachineTables Machine Conc.
Local Open Scope Z_scope.

(* one call of Parse: not begun, at a label with its URN, returned *)
Inductive scall :=
| SNew (input : bytes)
| SRun (l : label) (u : URN)
| SDone (r : machine * option URN * option perr).

(* the machine and the calls *)
Record sconf := mkShared { the : machine; users : list scall }.

(* call i makes one step: the resets (machine.go:138-148), one label, or the return
   (machine.go:5028-5032) *)
Definition sstep (i : nat) (c : sconf) : res sconf :=
  match nth_error (users c) i with
  | None | Some (SDone _) => Ret c
  | Some (SNew input) => Ret (mkShared (parse_init (the c) input) (set_nth i (SRun LEnter zeroURN) (users c)))
  | Some (SRun LOut u) => Ret (mkShared (the c) (set_nth i (SDone (finish (the c, u))) (users c)))
  | Some (SRun l u) =>
      do r <- step l (the c, u);
      let '(l', (m', u')) := r in Ret (mkShared m' (set_nth i (SRun l' u') (users c)))
  end.

Fixpoint srun (schedule : list nat) (c : sconf) : res sconf :=
  match schedule with
  | [] => Ret c
  | i :: rest => do c' <- sstep i c; srun rest c'
  end.

(* machine m is about to be given the inputs *)
Definition sstart (m : machine) (inputs : list bytes) : sconf := mkShared m (map SNew inputs).

(* call i has returned r *)
Definition gave (c : sconf) (i : nat) (r : machine * option URN * option perr) : Prop :=
  nth_error (users c) i = Some (SDone r).

(* call i is under way *)
Definition busy (c : sconf) (i : nat) : Prop := exists l u, nth_error (users c) i = Some (SRun l u).

(* at no time are two calls under way *)
Definition one_at_a_time (schedule : list nat) (c0 : sconf) : Prop :=
  forall k c, srun (firstn k schedule) c0 = Ret c -> forall i j, busy c i -> busy c j -> i = j.
