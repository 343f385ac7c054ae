(* Model of /repo/machine.go: the machine type and its methods.
   The control flow of Parse (labels _resume, tr*, f*, _again, _testEof, _out) is
   a small-step function on labels; the tables come from MachineTables.v. *)
From Verif Require Import GoBase MachineSyntax MachineTables.
Local Open Scope Z_scope.

(* ---- scim/schema/type.go ------------------------------------------------ *)
(* scim/schema/type.go:3-10 *)
Definition TUnsupported : Z := 0.
Definition TSchemas : Z := 1.
Definition TAPI : Z := 2.
Definition TParam : Z := 3.

(* scim/schema/type.go:12-23 func (t Type) String *)
Definition Type_String (t : Z) : bytes :=
  if t =? TSchemas then B "schemas"
  else if t =? TAPI then B "api"
  else if t =? TParam then B "param"
  else [].

(* scim/schema/type.go:25-36 func TypeFromString *)
Definition TypeFromString (input : bytes) : Z :=
  if bytes_eqb input (B "schemas") then TSchemas
  else if bytes_eqb input (B "api") then TAPI
  else if bytes_eqb input (B "param") then TParam
  else TUnsupported.

(* ---- data types --------------------------------------------------------- *)
(* scim.go:12-17 type SCIM *)
Record SCIM := mkSCIM {
  s_Type : Z;
  s_Name : bytes;
  s_Other : bytes;
  s_pos : Z
}.

(* scim.go:12-17: the zero value, &SCIM{} *)
Definition zeroSCIM : SCIM := mkSCIM TUnsupported [] [] 0.

(* urn.go:18-31 type URN.  The *SCIM pointer is an option: it is only ever nil or
   a freshly allocated object not shared with anything else during Parse. *)
Record URN := mkURN {
  u_prefix : bytes;
  u_ID : bytes;
  u_SS : bytes;
  u_norm : bytes;
  u_kind : Z;
  u_scim : option SCIM;
  u_r : bytes;           (* rComponent *)
  u_q : bytes;           (* qComponent *)
  u_f : bytes;           (* fComponent *)
  u_rStart : bool;
  u_qStart : bool;
  u_tolower : list Z
}.

(* urn.go:18-31: the zero value; machine.go:146-148 output := &URN{tolower: []int{}} *)
Definition zeroURN : URN := mkURN [] [] [] [] KNONE None [] [] [] false false [].

(* An error made by fmt.Errorf(<const>, <col>); rendered in Errors.v. *)
Record perr := mkErr { e_kind : errconst; e_col : Z }.

(* machine.go:99-107 type machine *)
Record machine := mkMachine {
  m_data : bytes;
  m_cs : N;
  m_p : Z;
  m_pe : Z;
  m_eof : Z;
  m_pb : Z;
  m_err : option perr;
  m_startParsingAt : N;
  m_parsingMode : Z;
  m_parsingModeSet : bool
}.

(* ---- field assignments (Go struct field writes) -------------------------- *)
Definition set_data v m := mkMachine v (m_cs m) (m_p m) (m_pe m) (m_eof m) (m_pb m) (m_err m) (m_startParsingAt m) (m_parsingMode m) (m_parsingModeSet m).
Definition set_cs v m := mkMachine (m_data m) v (m_p m) (m_pe m) (m_eof m) (m_pb m) (m_err m) (m_startParsingAt m) (m_parsingMode m) (m_parsingModeSet m).
Definition set_p v m := mkMachine (m_data m) (m_cs m) v (m_pe m) (m_eof m) (m_pb m) (m_err m) (m_startParsingAt m) (m_parsingMode m) (m_parsingModeSet m).
Definition set_pb v m := mkMachine (m_data m) (m_cs m) (m_p m) (m_pe m) (m_eof m) v (m_err m) (m_startParsingAt m) (m_parsingMode m) (m_parsingModeSet m).
Definition set_err v m := mkMachine (m_data m) (m_cs m) (m_p m) (m_pe m) (m_eof m) (m_pb m) v (m_startParsingAt m) (m_parsingMode m) (m_parsingModeSet m).

Definition uset_prefix v u := mkURN v (u_ID u) (u_SS u) (u_norm u) (u_kind u) (u_scim u) (u_r u) (u_q u) (u_f u) (u_rStart u) (u_qStart u) (u_tolower u).
Definition uset_ID v u := mkURN (u_prefix u) v (u_SS u) (u_norm u) (u_kind u) (u_scim u) (u_r u) (u_q u) (u_f u) (u_rStart u) (u_qStart u) (u_tolower u).
Definition uset_SS v u := mkURN (u_prefix u) (u_ID u) v (u_norm u) (u_kind u) (u_scim u) (u_r u) (u_q u) (u_f u) (u_rStart u) (u_qStart u) (u_tolower u).
Definition uset_norm v u := mkURN (u_prefix u) (u_ID u) (u_SS u) v (u_kind u) (u_scim u) (u_r u) (u_q u) (u_f u) (u_rStart u) (u_qStart u) (u_tolower u).
Definition uset_kind v u := mkURN (u_prefix u) (u_ID u) (u_SS u) (u_norm u) v (u_scim u) (u_r u) (u_q u) (u_f u) (u_rStart u) (u_qStart u) (u_tolower u).
Definition uset_scim v u := mkURN (u_prefix u) (u_ID u) (u_SS u) (u_norm u) (u_kind u) v (u_r u) (u_q u) (u_f u) (u_rStart u) (u_qStart u) (u_tolower u).
Definition uset_r v u := mkURN (u_prefix u) (u_ID u) (u_SS u) (u_norm u) (u_kind u) (u_scim u) v (u_q u) (u_f u) (u_rStart u) (u_qStart u) (u_tolower u).
Definition uset_q v u := mkURN (u_prefix u) (u_ID u) (u_SS u) (u_norm u) (u_kind u) (u_scim u) (u_r u) v (u_f u) (u_rStart u) (u_qStart u) (u_tolower u).
Definition uset_f v u := mkURN (u_prefix u) (u_ID u) (u_SS u) (u_norm u) (u_kind u) (u_scim u) (u_r u) (u_q u) v (u_rStart u) (u_qStart u) (u_tolower u).
Definition uset_rStart v u := mkURN (u_prefix u) (u_ID u) (u_SS u) (u_norm u) (u_kind u) (u_scim u) (u_r u) (u_q u) (u_f u) v (u_qStart u) (u_tolower u).
Definition uset_qStart v u := mkURN (u_prefix u) (u_ID u) (u_SS u) (u_norm u) (u_kind u) (u_scim u) (u_r u) (u_q u) (u_f u) (u_rStart u) v (u_tolower u).
Definition uset_tolower v u := mkURN (u_prefix u) (u_ID u) (u_SS u) (u_norm u) (u_kind u) (u_scim u) (u_r u) (u_q u) (u_f u) (u_rStart u) (u_qStart u) v.

(* The live state of a Parse call: the machine and the local variable output. *)
Definition st := (machine * URN)%type.

(* machine.go:133-135 func (m *machine) text *)
Definition text (m : machine) : res bytes := slice (m_data m) (m_pb m) (m_p m).

(* ---- conditions and statements ------------------------------------------ *)
Fixpoint eval_cond (c : cond) (x : st) : res bool :=
  let '(m, u) := x in
  match c with
  | CModeEq k => Ret (m_parsingMode m =? k)
  | CPEqPe => Ret (m_p m =? m_pe m)
  | CRStart => Ret (u_rStart u)
  | CQStart => Ret (u_qStart u)
  | CPosLtPe k => Ret (m_p m + k <? m_pe m)
  | CDataAtEq k c => do b <- index (m_data m) (m_p m + k); Ret (N.eqb (Byte.to_N b) c)
  | CPrefixEmpty => Ret (match u_prefix u with [] => true | _ => false end)
  | CNot c => do b <- eval_cond c x; Ret (negb b)
  | CAnd c d => do b <- eval_cond c x; if b then eval_cond d x else Ret false
  | COr c d => do b <- eval_cond c x; if b then Ret true else eval_cond d x
  end.

(* for _, i := range output.tolower { m.data[m.pb+i] = m.data[m.pb+i] + d }
   (machine.go: the two loops of every set_nss block, e.g. 4096-4104) *)
Fixpoint for_tolower (d : Z) (is : list Z) (pb : Z) (data : bytes) : res bytes :=
  match is with
  | [] => Ret data
  | i :: rest =>
      do b <- index data (pb + i);
      do data' <- update data (pb + i) (byte_add b d);
      for_tolower d rest pb data'
  end.

(* How a statement ends. *)
Inductive ctl := Fall | Again.

(* One Go statement (see MachineSyntax for the source text of each). *)
Fixpoint exec_stmt (s : stmt) (x : st) {struct s} : res (st * ctl) :=
  let '(m, u) := x in
  match s with
  | SMark => Ret ((set_pb (m_p m) m, u), Fall)
  | STolower => Ret ((m, uset_tolower (u_tolower u ++ [m_p m - m_pb m]) u), Fall)
  | SSetPrefix => do t <- text m; Ret ((m, uset_prefix t u), Fall)
  | SSetID => do t <- text m; Ret ((m, uset_ID t u), Fall)
  | SSetSS => do t <- text m; Ret ((m, uset_SS t u), Fall)
  | SSetNorm => do t <- text m; Ret ((m, uset_norm t u), Fall)
  | SForTolower d =>
      do data' <- for_tolower d (u_tolower u) (m_pb m) (m_data m);
      Ret ((set_data data' m, u), Fall)
  | SSetErr e k => Ret ((set_err (Some (mkErr e (m_p m + k))) m, u), Fall)
  | SDecP => Ret ((set_p (m_p m - 1) m, u), Fall)
  | SSetCS n => Ret ((set_cs n m, u), Fall)
  | SGotoAgain => Ret ((m, u), Again)
  | SIf c t e =>
      do b <- eval_cond c (m, u);
      (fix go (l : list stmt) (y : st) : res (st * ctl) :=
         match l with
         | [] => Ret (y, Fall)
         | s' :: l' =>
             do r <- exec_stmt s' y;
             match r with
             | (y', Fall) => go l' y'
             | (y', Again) => Ret (y', Again)
             end
         end) (if b then t else e) (m, u)
  | SSetKind k => Ret ((m, uset_kind k u), Fall)
  | SNewSCIM => Ret ((m, uset_scim (Some zeroSCIM) u), Fall)
  | SScimType =>
      (* the text is evaluated, then the nil pointer would panic on the write *)
      do t <- text m;
      match u_scim u with
      | Some s => Ret ((m, uset_scim (Some (mkSCIM (TypeFromString t) (s_Name s) (s_Other s) (s_pos s))) u), Fall)
      | None => Panic
      end
  | SScimPos =>
      match u_scim u with
      | Some s => Ret ((m, uset_scim (Some (mkSCIM (s_Type s) (s_Name s) (s_Other s) (m_p m))) u), Fall)
      | None => Panic
      end
  | SScimName =>
      match u_scim u with
      | Some s =>
          do t <- slice (m_data m) (s_pos s) (m_p m);
          Ret ((m, uset_scim (Some (mkSCIM (s_Type s) t (s_Other s) (s_pos s))) u), Fall)
      | None => Panic
      end
  | SScimOther =>
      match u_scim u with
      | Some s =>
          do t <- slice (m_data m) (s_pos s) (m_p m);
          Ret ((m, uset_scim (Some (mkSCIM (s_Type s) (s_Name s) t (s_pos s))) u), Fall)
      | None => Panic
      end
  | SSetR => do t <- text m; Ret ((m, uset_r t u), Fall)
  | SSetQ => do t <- text m; Ret ((m, uset_q t u), Fall)
  | SSetF => do t <- text m; Ret ((m, uset_f t u), Fall)
  | SSetRStart => Ret ((m, uset_rStart true u), Fall)
  | SSetQStart => Ret ((m, uset_qStart true u), Fall)
  end.

(* A statement list. *)
Fixpoint exec_block (l : list stmt) (y : st) : res (st * ctl) :=
  match l with
  | [] => Ret (y, Fall)
  | s' :: l' =>
      do r <- exec_stmt s' y;
      match r with
      | (y', Fall) => exec_block l' y'
      | (y', Again) => Ret (y', Again)
      end
  end.

(* ---- labels --------------------------------------------------------------- *)
Inductive label :=
| LEnter            (* machine.go:149-155, before _resume *)
| LResume           (* _resume, machine.go:156 *)
| LTr (n : N)       (* trN *)
| LF (n : N)        (* fN *)
| LAgain            (* _again, machine.go:4620 *)
| LTestEof          (* _testEof, machine.go:4637 *)
| LOut.             (* _out, machine.go:5023 *)

(* One step of the goto program.  Labels that do not exist in the source
   (LTr/LF with an unknown number) and an f block that does not end in a goto are
   mapped to Panic, so that the no-panic theorem also shows they do not arise. *)
Definition step (l : label) (x : st) : res (label * st) :=
  let '(m, u) := x in
  match l with
  | LEnter =>
      (* machine.go:150-155 *)
      if m_p m =? m_pe m then Ret (LTestEof, x)
      else if N.eqb (m_cs m) 0 then Ret (LOut, x)
      else Ret (LResume, x)
  | LResume =>
      (* machine.go:157: switch m.cs; case 0 reads no byte *)
      if N.eqb (m_cs m) 0 then Ret (LOut, x)
      else if N.ltb 193 (m_cs m) then Ret (LTr 183, x)
      else
        do b <- index (m_data m) (m_p m);
        match resume_switch (m_cs m) (Byte.to_N b) with
        | TOut => Ret (LOut, x)
        | TTr n => Ret (LTr n, x)
        end
  | LTr n =>
      match tr_block n with
      | Some (cs', None) => Ret (LAgain, (set_cs cs' m, u))
      | Some (cs', Some f) => Ret (LF f, (set_cs cs' m, u))
      | None => Panic
      end
  | LF n =>
      match f_block n with
      | Some b =>
          do r <- exec_block b x;
          match r with
          | (x', Again) => Ret (LAgain, x')
          | (_, Fall) => Panic
          end
      | None => Panic
      end
  | LAgain =>
      (* machine.go:4621-4636 *)
      do a <- index to_state_actions (Z.of_N (m_cs m));
      match to_state_block a with
      | Some b =>
          do r <- exec_block b x;
          match r with
          | (x', Again) => Ret (LAgain, x')
          | (_, Fall) => Panic
          end
      | None =>
          if N.eqb (m_cs m) 0 then Ret (LOut, x)
          else
            let m' := set_p (m_p m + 1) m in
            if m_p m' =? m_pe m' then Ret (LTestEof, (m', u))
            else Ret (LResume, (m', u))
      end
  | LTestEof =>
      (* machine.go:4640-5021 *)
      if m_p m =? m_eof m then
        do a <- index eof_actions (Z.of_N (m_cs m));
        match eof_block a with
        | Some b =>
            do r <- exec_block b x;
            match r with
            | (x', Again) => Ret (LAgain, x')
            | (x', Fall) => Ret (LOut, x')
            end
        | None => Ret (LOut, x)
        end
      else Ret (LOut, x)
  | LOut => Ret (LOut, x)
  end.

Fixpoint run (fuel : nat) (l : label) (x : st) : res st :=
  match l with
  | LOut => Ret x
  | _ =>
      match fuel with
      | O => OutOfFuel
      | S f => do r <- step l x; let '(l', x') := r in run f l' x'
      end
  end.

(* Fuel given to Parse: linear in the input length.  Sufficiency is theorem C01/C02. *)
Definition parse_fuel (n : nat) : nat := (4 * n + 16)%nat.

(* machine.go:138-148: the resets at the start of Parse *)
Definition parse_init (m : machine) (input : bytes) : machine :=
  mkMachine input (m_startParsingAt m) 0 (zlen input) (zlen input) 0 None
            (m_startParsingAt m) (m_parsingMode m) (m_parsingModeSet m).

(* machine.go:137-5033 func (m *machine) Parse.  Returns the machine after the
   call (its m_data is the caller's slice, which Parse writes to), the *URN and the
   error. *)
Definition machine_Parse (m : machine) (input : bytes)
  : res (machine * option URN * option perr) :=
  do r <- run (parse_fuel (List.length input)) LEnter (parse_init m input, zeroURN);
  let '(m', u) := r in
  (* machine.go:5028-5032 *)
  if N.ltb (m_cs m') first_final || N.eqb (m_cs m') en_fail
  then Ret (m', None, m_err m')
  else Ret (m', Some u, None).

(* machine.go:129-131 func (m *machine) Error *)
Definition machine_Error (m : machine) : option perr := m_err m.

(* machine.go:5035-5046 func (m *machine) WithParsingMode *)
Definition machine_WithParsingMode (x : Z) (m : machine) : machine :=
  mkMachine (m_data m) (m_cs m) (m_p m) (m_pe m) (m_eof m) (m_pb m) (m_err m)
    (if x =? PRFC2141Only then en_main
     else if x =? PRFC8141Only then en_rfc8141_only
     else if x =? PRFC7643Only then en_scim_only
     else m_startParsingAt m)
    x true.

(* machine.go:111-113: &machine{parsingModeSet: false} *)
Definition zero_machine : machine := mkMachine [] 0%N 0 0 0 0 None 0%N 0 false.

(* machine.go:110-124 func NewMachine.  An Option (options.go:3-9) is modelled by
   the mode it was built from: WithParsingMode is the only Option constructor of the
   package.  Hand-written Option functions can only call the exported methods on the
   machine; what they can reach is covered by [reachable] in Api.v.  A nil Option (a call
   of a nil function, which panics) is outside the model. *)
Definition NewMachine (options : list Z) : machine :=
  let m := fold_left (fun m o => machine_WithParsingMode o m) options zero_machine in
  if m_parsingModeSet m then m else machine_WithParsingMode DefaultParsingMode m.
