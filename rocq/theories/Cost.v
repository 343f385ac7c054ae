(* How many bytes one call of Parse copies or writes.  An instrumentation of Machine.v: the
   statements of machine.go that build a string from the input buffer, or that write to the
   buffer, are charged with the number of bytes they move; everything else costs nothing. *)
From Verif Require Import GoBase MachineSyntax MachineTables Machine.
Local Open Scope Z_scope.

(* One Go statement.
   - string(m.text()) copies m.data[m.pb:m.p] (machine.go:133-135 and every use of text, e.g.
     4168 prefix, 4174 ID, 4094-4105 SS and norm, rComponent, qComponent, fComponent);
   - string(m.data[output.scim.pos:m.p]) copies the SCIM name or the rest (machine.go, the
     blocks of scim_nss_name / scim_nss_other);
   - each turn of a loop over output.tolower writes one byte of m.data;
   - append(output.tolower, ...) stores one element (the copying done when append grows the
     array is not charged: it is amortised constant).
   A nested list is charged along the path that is executed. *)
Fixpoint stmt_cost (s : stmt) (x : st) {struct s} : Z :=
  let '(m, u) := x in
  match s with
  | SSetPrefix | SSetID | SSetSS | SSetNorm | SScimType | SSetR | SSetQ | SSetF =>
      m_p m - m_pb m
  | SScimName | SScimOther =>
      match u_scim u with Some s => m_p m - s_pos s | None => 0 end
  | SForTolower _ => zlen (u_tolower u)
  | STolower => 1
  | SIf c t e =>
      match eval_cond c (m, u) with
      | Ret b =>
          (fix go (l : list stmt) (y : st) : Z :=
             match l with
             | [] => 0
             | s' :: l' =>
                 stmt_cost s' y +
                 match exec_stmt s' y with
                 | Ret (y', Fall) => go l' y'
                 | _ => 0
                 end
             end) (if b then t else e) (m, u)
      | _ => 0
      end
  | _ => 0
  end.

(* A statement list. *)
Fixpoint block_cost (l : list stmt) (y : st) : Z :=
  match l with
  | [] => 0
  | s' :: l' =>
      stmt_cost s' y +
      match exec_stmt s' y with
      | Ret (y', Fall) => block_cost l' y'
      | _ => 0
      end
  end.

(* One step of the goto program (Machine.step): only the f blocks, the to-state blocks and
   the end-of-input blocks contain such statements. *)
Definition step_cost (l : label) (x : st) : Z :=
  let '(m, u) := x in
  match l with
  | LF n => match f_block n with Some b => block_cost b x | None => 0 end
  | LAgain =>
      match index to_state_actions (Z.of_N (m_cs m)) with
      | Ret a => match to_state_block a with Some b => block_cost b x | None => 0 end
      | _ => 0
      end
  | LTestEof =>
      if m_p m =? m_eof m then
        match index eof_actions (Z.of_N (m_cs m)) with
        | Ret a => match eof_block a with Some b => block_cost b x | None => 0 end
        | _ => 0
        end
      else 0
  | _ => 0
  end.

(* A run: the sum over its steps. *)
Fixpoint run_cost (fuel : nat) (l : label) (x : st) : Z :=
  match l with
  | LOut => 0
  | _ =>
      match fuel with
      | O => 0
      | S f =>
          step_cost l x +
          match step l x with
          | Ret (l', x') => run_cost f l' x'
          | _ => 0
          end
      end
  end.

(* machine.go:137-5033: the bytes moved by m.Parse(input) *)
Definition Parse_cost (m : machine) (input : bytes) : Z :=
  run_cost (parse_fuel (List.length input)) LEnter (parse_init m input, zeroURN).
