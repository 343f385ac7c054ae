(* What of func Parse (machine.go:137-5033) is executed: the configurations a call passes
   through, and the outcomes of the if statements in the blocks on the way. *)
From Verif Require Import GoBase MachineSyntax MachineTables Machine.
Local Open Scope Z_scope.

(* the labels, with the state there, that the call m.Parse(input) passes *)
Inductive passes (m : machine) (input : bytes) : label -> st -> Prop :=
| passes_start : passes m input LEnter (parse_init m input, zeroURN)
| passes_step l x l' x' : passes m input l x -> step l x = Ret (l', x') -> passes m input l' x'.

(* The if statements that are evaluated when a block is executed, each with its place and
   the value of its condition.  A place: the index of the statement in the block; inside of
   an if also 1 for its then part or 0 for its else part, and the index there. *)
Fixpoint decided (s : stmt) (x : st) {struct s} : list (list nat * bool) :=
  match s with
  | SIf c t e =>
      match eval_cond c x with
      | Ret v =>
          ([], v) ::
          (fix go (i : nat) (l : list stmt) (y : st) : list (list nat * bool) :=
             match l with
             | [] => []
             | s' :: l' =>
                 map (fun d => ((if v then 1 else 0)%nat :: i :: fst d, snd d)) (decided s' y) ++
                 match exec_stmt s' y with Ret (y', Fall) => go (S i) l' y' | _ => [] end
             end) 0%nat (if v then t else e) x
      | _ => []
      end
  | _ => []
  end.
Fixpoint decisions (i : nat) (b : list stmt) (x : st) : list (list nat * bool) :=
  match b with
  | [] => []
  | s :: b' =>
      map (fun d => (i :: fst d, snd d)) (decided s x) ++
      match exec_stmt s x with Ret (x', Fall) => decisions (S i) b' x' | _ => [] end
  end.

(* the places of the if statements in a block *)
Fixpoint ifs_in (s : stmt) : list (list nat) :=
  match s with
  | SIf c t e =>
      [] :: (let fix go (i : nat) (k : nat) (l : list stmt) : list (list nat) :=
               match l with [] => [] | s' :: l' => map (fun p => k :: i :: p) (ifs_in s') ++ go (S i) k l' end
             in go 0%nat 1%nat t ++ go 0%nat 0%nat e)
  | _ => []
  end.
Fixpoint ifs (i : nat) (b : list stmt) : list (list nat) :=
  match b with [] => [] | s :: b' => map (cons i) (ifs_in s) ++ ifs (S i) b' end.

(* which block runs: the block fN at label fN; the block of the end-of-text switch, or of the
   to-state switch, with the number in the table *)
Inductive part := PF (n : N) | PEof (n : N) | PTo (n : N).
Definition block_of (q : part) : option (list stmt) :=
  match q with PF n => f_block n | PEof n => eof_block n | PTo n => to_state_block n end.
(* the call executes the block q from the state x *)
Definition executes (m : machine) (input : bytes) (q : part) (x : st) : Prop :=
  match q with
  | PF n => passes m input (LF n) x
  | PEof n => passes m input LTestEof x /\ m_p (fst x) = m_eof (fst x) /\ nth_error eof_actions (N.to_nat (m_cs (fst x))) = Some n
  | PTo n => passes m input LAgain x /\ nth_error to_state_actions (N.to_nat (m_cs (fst x))) = Some n
  end.
(* the call evaluates the if statement at place p of block q to v *)
Definition takes (m : machine) (input : bytes) (q : part) (p : list nat) (v : bool) : Prop :=
  exists b x, block_of q = Some b /\ executes m input q x /\ In (p, v) (decisions 0 b x).

(* ---- what is never executed ------------------------------------------------------------------------ *)
(* The cases 134 and 171 of the switch of _resume: the transition to 134 is a second ?+ in an
   r-component and stops in its block; the to-state action of 171 sends it to the fail state. *)
Definition never_met : list N := [134; 171]%N.
(* Outcomes of if statements that never occur: a test for the end of the text in a block that
   runs on a byte, or for no end in one that runs at the end; the test of err_hex in the SCIM
   part; a second ?+ or ?= found on the first one, and not found on the others. *)
Definition never : list (part * list nat * bool) :=
  [(PF 17, [0%nat], true); (PF 19, [0%nat], true); (PF 19, [1%nat], true);
   (PF 26, [0%nat], true); (PF 31, [0%nat], true);
   (PF 44, [0%nat], false); (PF 45, [0%nat], false); (PF 50, [0%nat], false); (PF 51, [0%nat], false);
   (PEof 18, [0%nat], false); (PEof 20, [0%nat], true); (PEof 20, [1%nat], false);
   (PEof 44, [0%nat], false); (PEof 50, [0%nat], false)].
(* Outcomes that occur only in a mode that is none of the three listed: err_hex without an
   error. *)
Definition never_listed : list (part * list nat * bool) :=
  [(PF 8, [0%nat], false); (PF 23, [0%nat], false); (PF 24, [0%nat], false); (PF 27, [0%nat], false);
   (PF 28, [0%nat], false); (PF 29, [0%nat], false);
   (PEof 9, [0%nat], false); (PEof 24, [0%nat], false); (PEof 25, [0%nat], false); (PEof 28, [0%nat], false);
   (PEof 29, [0%nat], false); (PEof 30, [0%nat], false)].
