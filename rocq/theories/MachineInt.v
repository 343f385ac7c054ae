(* func Parse (machine.go:137-5033) once more, with Go's ints and slices as they are:
   an int has w bits and wraps around (Machine.v has integers without bounds), and the
   caller's slice may have spare capacity, bytes of the backing array behind its end, which
   a slice expression can reach and an index cannot (in Machine.v a slice ends at its
   length).  Otherwise each definition is the one of the same name in Machine.v.
   len(input), and the constants of the source, are taken as they are: they are ints. *)
From Verif Require Import GoBase MachineSyntax MachineTables Machine.
Local Open Scope Z_scope.

(* an int of w bits: two's complement, the Go specification, "Integer overflow" *)
Definition wrap (w z : Z) : Z := (z + 2 ^ (w - 1)) mod 2 ^ w - 2 ^ (w - 1).

(* data[a:b] with cap(data) = len(data) + len(spare) *)
Definition slice_cap (data spare : bytes) (a b : Z) : res bytes :=
  if (0 <=? a) && (a <=? b) && (b <=? zlen data + zlen spare) then
    Ret (firstn (Z.to_nat (b - a)) (skipn (Z.to_nat a) (data ++ spare)))
  else Panic.

(* machine.go:133-135 func (m *machine) text *)
Definition text_w (spare : bytes) (m : machine) : res bytes := slice_cap (m_data m) spare (m_pb m) (m_p m).

Fixpoint eval_cond_w (w : Z) (c : cond) (x : st) : res bool :=
  let '(m, u) := x in
  match c with
  | CModeEq k => Ret (m_parsingMode m =? k)
  | CPEqPe => Ret (m_p m =? m_pe m)
  | CRStart => Ret (u_rStart u)
  | CQStart => Ret (u_qStart u)
  | CPosLtPe k => Ret (wrap w (m_p m + k) <? m_pe m)
  | CDataAtEq k c => do b <- index (m_data m) (wrap w (m_p m + k)); Ret (N.eqb (Byte.to_N b) c)
  | CPrefixEmpty => Ret (match u_prefix u with [] => true | _ => false end)
  | CNot c => do b <- eval_cond_w w c x; Ret (negb b)
  | CAnd c d => do b <- eval_cond_w w c x; if b then eval_cond_w w d x else Ret false
  | COr c d => do b <- eval_cond_w w c x; if b then Ret true else eval_cond_w w d x
  end.

(* machine.go: the two loops of every set_nss block, e.g. 4096-4104 *)
Fixpoint for_tolower_w (w d : Z) (is : list Z) (pb : Z) (data : bytes) : res bytes :=
  match is with
  | [] => Ret data
  | i :: rest =>
      do b <- index data (wrap w (pb + i));
      do data' <- update data (wrap w (pb + i)) (byte_add b d);
      for_tolower_w w d rest pb data'
  end.

(* One Go statement *)
Fixpoint exec_stmt_w (w : Z) (spare : bytes) (s : stmt) (x : st) {struct s} : res (st * ctl) :=
  let '(m, u) := x in
  match s with
  | SMark => Ret ((set_pb (m_p m) m, u), Fall)
  | STolower => Ret ((m, uset_tolower (u_tolower u ++ [wrap w (m_p m - m_pb m)]) u), Fall)
  | SSetPrefix => do t <- text_w spare m; Ret ((m, uset_prefix t u), Fall)
  | SSetID => do t <- text_w spare m; Ret ((m, uset_ID t u), Fall)
  | SSetSS => do t <- text_w spare m; Ret ((m, uset_SS t u), Fall)
  | SSetNorm => do t <- text_w spare m; Ret ((m, uset_norm t u), Fall)
  | SForTolower d =>
      do data' <- for_tolower_w w d (u_tolower u) (m_pb m) (m_data m);
      Ret ((set_data data' m, u), Fall)
  | SSetErr e k => Ret ((set_err (Some (mkErr e (wrap w (m_p m + k)))) m, u), Fall)
  | SDecP => Ret ((set_p (wrap w (m_p m - 1)) m, u), Fall)
  | SSetCS n => Ret ((set_cs n m, u), Fall)
  | SGotoAgain => Ret ((m, u), Again)
  | SIf c t e =>
      do b <- eval_cond_w w c (m, u);
      (fix go (l : list stmt) (y : st) : res (st * ctl) :=
         match l with
         | [] => Ret (y, Fall)
         | s' :: l' =>
             do r <- exec_stmt_w w spare s' y;
             match r with
             | (y', Fall) => go l' y'
             | (y', Again) => Ret (y', Again)
             end
         end) (if b then t else e) (m, u)
  | SSetKind k => Ret ((m, uset_kind k u), Fall)
  | SNewSCIM => Ret ((m, uset_scim (Some zeroSCIM) u), Fall)
  | SScimType =>
      do t <- text_w spare m;
      match u_scim u with
      | Some s => Ret ((m, uset_scim (Some (mkSCIM (TypeFromString t) (s_Name s) (s_Other s) (s_pos s))) u), Fall)
      | None => Panic
      end
  | SScimPos =>
      match u_scim u with
      | Some s => Ret ((m, uset_scim (Some (mkSCIM (s_Type s) (s_Name s) (s_Other s) (m_p m))) u), Fall)
      | None => Panic
      end
  | SScimName =>
      match u_scim u with
      | Some s =>
          do t <- slice_cap (m_data m) spare (s_pos s) (m_p m);
          Ret ((m, uset_scim (Some (mkSCIM (s_Type s) t (s_Other s) (s_pos s))) u), Fall)
      | None => Panic
      end
  | SScimOther =>
      match u_scim u with
      | Some s =>
          do t <- slice_cap (m_data m) spare (s_pos s) (m_p m);
          Ret ((m, uset_scim (Some (mkSCIM (s_Type s) (s_Name s) t (s_pos s))) u), Fall)
      | None => Panic
      end
  | SSetR => do t <- text_w spare m; Ret ((m, uset_r t u), Fall)
  | SSetQ => do t <- text_w spare m; Ret ((m, uset_q t u), Fall)
  | SSetF => do t <- text_w spare m; Ret ((m, uset_f t u), Fall)
  | SSetRStart => Ret ((m, uset_rStart true u), Fall)
  | SSetQStart => Ret ((m, uset_qStart true u), Fall)
  end.

(* A statement list. *)
Fixpoint exec_block_w (w : Z) (spare : bytes) (l : list stmt) (y : st) : res (st * ctl) :=
  match l with
  | [] => Ret (y, Fall)
  | s' :: l' =>
      do r <- exec_stmt_w w spare s' y;
      match r with
      | (y', Fall) => exec_block_w w spare l' y'
      | (y', Again) => Ret (y', Again)
      end
  end.

(* One step of the goto program (Machine.step) *)
Definition step_w (w : Z) (spare : bytes) (l : label) (x : st) : res (label * st) :=
  let '(m, u) := x in
  match l with
  | LEnter =>
      (* machine.go:150-155 *)
      if m_p m =? m_pe m then Ret (LTestEof, x)
      else if N.eqb (m_cs m) 0 then Ret (LOut, x)
      else Ret (LResume, x)
  | LResume =>
      (* machine.go:157 *)
      if N.eqb (m_cs m) 0 then Ret (LOut, x)
      else if N.ltb 193 (m_cs m) then Ret (LTr 183, x)
      else
        do b <- index (m_data m) (m_p m);
        match resume_switch (m_cs m) (Byte.to_N b) with
        | TOut => Ret (LOut, x)
        | TTr n => Ret (LTr n, x)
        end
  | LTr n =>
      match tr_block n with
      | Some (cs', None) => Ret (LAgain, (set_cs cs' m, u))
      | Some (cs', Some f) => Ret (LF f, (set_cs cs' m, u))
      | None => Panic
      end
  | LF n =>
      match f_block n with
      | Some b =>
          do r <- exec_block_w w spare b x;
          match r with
          | (x', Again) => Ret (LAgain, x')
          | (_, Fall) => Panic
          end
      | None => Panic
      end
  | LAgain =>
      (* machine.go:4621-4636 *)
      do a <- index to_state_actions (Z.of_N (m_cs m));
      match to_state_block a with
      | Some b =>
          do r <- exec_block_w w spare b x;
          match r with
          | (x', Again) => Ret (LAgain, x')
          | (_, Fall) => Panic
          end
      | None =>
          if N.eqb (m_cs m) 0 then Ret (LOut, x)
          else
            let m' := set_p (wrap w (m_p m + 1)) m in
            if m_p m' =? m_pe m' then Ret (LTestEof, (m', u))
            else Ret (LResume, (m', u))
      end
  | LTestEof =>
      (* machine.go:4640-5021 *)
      if m_p m =? m_eof m then
        do a <- index eof_actions (Z.of_N (m_cs m));
        match eof_block a with
        | Some b =>
            do r <- exec_block_w w spare b x;
            match r with
            | (x', Again) => Ret (LAgain, x')
            | (x', Fall) => Ret (LOut, x')
            end
        | None => Ret (LOut, x)
        end
      else Ret (LOut, x)
  | LOut => Ret (LOut, x)
  end.

Fixpoint run_w (w : Z) (spare : bytes) (fuel : nat) (l : label) (x : st) : res st :=
  match l with
  | LOut => Ret x
  | _ =>
      match fuel with
      | O => OutOfFuel
      | S f => do r <- step_w w spare l x; let '(l', x') := r in run_w w spare f l' x'
      end
  end.

(* machine.go:137-5033 func (m *machine) Parse, called on a slice with the contents input and
   the bytes spare behind its end *)
Definition machine_Parse_w (w : Z) (spare : bytes) (m : machine) (input : bytes)
  : res (machine * option URN * option perr) :=
  do r <- run_w w spare (parse_fuel (List.length input)) LEnter (parse_init m input, zeroURN);
  let '(m', u) := r in
  (* machine.go:5028-5032 *)
  if N.ltb (m_cs m') first_final || N.eqb (m_cs m') en_fail
  then Ret (m', None, m_err m')
  else Ret (m', Some u, None).

(* urn.go:86-93 func Parse *)
Definition Parse_w (w : Z) (spare u : bytes) (options : list Z) : res (bytes * option URN * bool) :=
  do r <- machine_Parse_w w spare (NewMachine options) u;
  let '(m', urn, err) := r in
  match err with
  | Some _ => Ret (m_data m', None, false)
  | None => Ret (m_data m', urn, true)
  end.
