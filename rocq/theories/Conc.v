(* Several Parse calls running at the same time on one byte slice (machine.go:137-5033).
   Parse keeps the caller's slice in m.data without copying it (machine.go:138) and the
   set_nss blocks write to it (machine.go:4172-4181, 4747-4756, 4762-4771, 4959-4968,
   4976-4985), so calls that share the slice can see each other's writes.

   Machine.v runs a whole action block in one step.  Here a step makes at most one access
   to the shared bytes:
     - m.data[m.pb+i] = m.data[m.pb+i] + d is a read and then a write;
     - string(m.text()) reads its bytes one after the other, from left to right;
     - reading m.data[m.p] in the _resume switch and the look-ahead are single reads.
       (Simplification: the tests of one switch read the same byte again; under C35_safe
       they cannot differ, and fewer schedules only make the refutations stronger.)
   Everything else (the machine's own fields, the URN under construction) belongs to one
   call and is not shared: every call has its own machine.  Simplification: memory is
   sequentially consistent.  The Go memory model promises that only to programs without
   data races; theorem C35_safe shows there is none under its hypothesis, and the
   refutations only get worse without sequential consistency. *)
From Verif Require Import GoBase MachineSyntax MachineTables Machine.
Local Open Scope Z_scope.

(* What is left of the current action block. *)
Inductive item :=
| IStmt (s : stmt)                              (* a statement not begun *)
| ILoad (i d : Z)                               (* read m.data[m.pb+i], to add d *)
| IStore (i : Z) (v : byte)                     (* write v to m.data[m.pb+i] *)
| ICopy (s : stmt) (lo hi : Z) (acc : bytes).   (* string(m.data[..]) inside s: acc is read, lo is next *)

(* Where a call is: at a label, or inside a block.  after is where the block continues
   when it ends without a goto (None: it cannot). *)
Inductive tpc := At (l : label) | In (is : list item) (after : option label).
Definition thread := (tpc * st)%type.

(* the part of m.data a statement copies to a string; None when it copies nothing *)
Definition bounds (s : stmt) (x : st) : option (res (Z * Z)) :=
  let '(m, u) := x in
  match s with
  | SSetPrefix | SSetID | SSetSS | SSetNorm | SScimType | SSetR | SSetQ | SSetF =>
      Some (Ret (m_pb m, m_p m))                (* machine.go:133-135 text *)
  | SScimName | SScimOther =>                   (* machine.go:4275, 4957, 4974 *)
      Some (match u_scim u with Some sc => Ret (s_pos sc, m_p m) | None => Panic end)
  | _ => None
  end.

(* the assignment that ends such a statement, t being the string *)
Definition assign (s : stmt) (t : bytes) (x : st) : res st :=
  let '(m, u) := x in
  match s with
  | SSetPrefix => Ret (m, uset_prefix t u)
  | SSetID => Ret (m, uset_ID t u)
  | SSetSS => Ret (m, uset_SS t u)
  | SSetNorm => Ret (m, uset_norm t u)
  | SSetR => Ret (m, uset_r t u)
  | SSetQ => Ret (m, uset_q t u)
  | SSetF => Ret (m, uset_f t u)
  | SScimType =>
      match u_scim u with
      | Some sc => Ret (m, uset_scim (Some (mkSCIM (TypeFromString t) (s_Name sc) (s_Other sc) (s_pos sc))) u)
      | None => Panic
      end
  | SScimName =>
      match u_scim u with
      | Some sc => Ret (m, uset_scim (Some (mkSCIM (s_Type sc) t (s_Other sc) (s_pos sc))) u)
      | None => Panic
      end
  | SScimOther =>
      match u_scim u with
      | Some sc => Ret (m, uset_scim (Some (mkSCIM (s_Type sc) (s_Name sc) t (s_pos sc))) u)
      | None => Panic
      end
  | _ => Ret x
  end.

(* one step of one call; the shared slice is m_data *)
Definition mstep (t : thread) : res thread :=
  let '(pc, x) := t in
  let '(m, u) := x in
  match pc with
  | At l =>
      match l with
      | LF n =>
          match f_block n with
          | Some b => Ret (In (map IStmt b) None, x)
          | None => Panic
          end
      | LAgain =>
          do a <- index to_state_actions (Z.of_N (m_cs m));
          match to_state_block a with
          | Some b => Ret (In (map IStmt b) None, x)
          | None => do r <- step l x; let '(l', x') := r in Ret (At l', x')
          end
      | LTestEof =>
          if m_p m =? m_eof m then
            do a <- index eof_actions (Z.of_N (m_cs m));
            match eof_block a with
            | Some b => Ret (In (map IStmt b) (Some LOut), x)
            | None => Ret (At LOut, x)
            end
          else Ret (At LOut, x)
      | _ => do r <- step l x; let '(l', x') := r in Ret (At l', x')
      end
  | In [] a => match a with Some l => Ret (At l, x) | None => Panic end
  | In (ILoad i d :: rest) a =>
      do b <- index (m_data m) (m_pb m + i);
      Ret (In (IStore i (byte_add b d) :: rest) a, x)
  | In (IStore i v :: rest) a =>
      do data' <- update (m_data m) (m_pb m + i) v;
      Ret (In rest a, (set_data data' m, u))
  | In (ICopy s lo hi acc :: rest) a =>
      if lo <? hi then
        do b <- index (m_data m) lo;
        Ret (In (ICopy s (lo + 1) hi (acc ++ [b]) :: rest) a, x)
      else
        do y <- assign s acc x; Ret (In rest a, y)
  | In (IStmt s :: rest) a =>
      match s with
      | SGotoAgain => Ret (At LAgain, x)
      | SIf c t e => do b <- eval_cond c x; Ret (In (map IStmt (if b then t else e) ++ rest) a, x)
      | SForTolower d => Ret (In (map (fun i => ILoad i d) (u_tolower u) ++ rest) a, x)
      | _ =>
          match bounds s x with
          | Some r =>
              do lh <- r;
              let '(lo, hi) := lh in
              if (0 <=? lo) && (lo <=? hi) && (hi <=? zlen (m_data m))
              then Ret (In (ICopy s lo hi [] :: rest) a, x) else Panic
          | None => do r <- exec_stmt s x; let '(y, _) := r in Ret (In rest a, y)
          end
      end
  end.

(* all calls and the slice they share *)
Record conf := mkConf { buf : bytes; calls : list thread }.

(* call i makes one step *)
Definition cstep (i : nat) (c : conf) : res conf :=
  match nth_error (calls c) i with
  | None => Ret c
  | Some (pc, (m, u)) =>
      do t <- mstep (pc, (set_data (buf c) m, u));
      Ret (mkConf (m_data (fst (snd t))) (set_nth i t (calls c)))
  end.

(* the calls step in the order given by the schedule *)
Fixpoint crun (schedule : list nat) (c : conf) : res conf :=
  match schedule with
  | [] => Ret c
  | i :: rest => do c' <- cstep i c; crun rest c'
  end.

(* machines ms are given the same slice, nothing has run yet (machine.go:138-148) *)
Definition cstart (s : bytes) (ms : list machine) : conf :=
  mkConf s (map (fun m => (At LEnter, (parse_init m s, zeroURN))) ms).

(* what a call at _out returns (machine.go:5028-5032) *)
Definition finish (x : st) : machine * option URN * option perr :=
  let '(m, u) := x in
  if N.ltb (m_cs m) first_final || N.eqb (m_cs m) en_fail then (m, None, m_err m) else (m, Some u, None).

(* call i has returned, with this result *)
Definition returned (c : conf) (i : nat) (r : machine * option URN * option perr) : Prop :=
  exists x, nth_error (calls c) i = Some (At LOut, x) /\ finish x = r.

(* the next step of call i writes (or reads in order to write) the shared slice *)
Definition about_to_write (c : conf) (i : nat) : Prop :=
  exists it rest a x, nth_error (calls c) i = Some (In (it :: rest) a, x) /\
    match it with ILoad _ _ | IStore _ _ => True | _ => False end.

(* call i has begun and not returned *)
Definition under_way (c : conf) (i : nat) : Prop :=
  exists pc x, nth_error (calls c) i = Some (pc, x) /\ pc <> At LEnter /\ pc <> At LOut.

(* a call that has begun is run to its end before another one makes a step *)
Definition one_by_one (schedule : list nat) (c0 : conf) : Prop :=
  forall k c i j, crun (firstn k schedule) c0 = Ret c -> nth_error schedule k = Some i -> under_way c j -> i = j.
