(* The text of machine.go.rl, read by RlParse.v, against its transcription in RagelRl.v. *)
From Verif Require Import GoBase GoAst RlSrc RlParse.
From Verif Require MachineSyntax Machine RagelSem RagelRl SrcRender.
Import RagelRl.
Local Open Scope string_scope.
Local Open Scope list_scope.

(* the names of the actions in the text; the one without name (line 294) by its code *)
Definition all_actions : list action :=
  [a_mark; a_tolower; a_set_pre; a_throw_pre_urn_err; a_set_nid; a_set_nss; a_err_pre; a_err_nid; a_err_nss;
   a_err_urn; a_err_hex; a_base_type; a_err_scim_nid; a_err_scim_type; a_err_scim_name; a_err_scim_other;
   a_scim_type; a_create_scim; a_set_scim_type; a_mark_scim_name; a_set_scim_name; a_mark_scim_other;
   a_set_scim_other; a_err_nss_8141; a_err_nid_8141; a_rfc8141_type; a_set_r_component; a_set_q_component;
   a_set_f_component; a_informal_nid_match; a_mark_r_start; a_mark_q_start; a_err_malformed_r_component;
   a_err_malformed_q_component; a_goto_main].
Definition act_name (a : action) : string :=
  match a with
    | a_mark => "mark" | a_tolower => "tolower" | a_set_pre => "set_pre"
    | a_throw_pre_urn_err => "throw_pre_urn_err" | a_set_nid => "set_nid" | a_set_nss => "set_nss"
    | a_err_pre => "err_pre" | a_err_nid => "err_nid" | a_err_nss => "err_nss" | a_err_urn => "err_urn"
    | a_err_hex => "err_hex" | a_base_type => "base_type" | a_err_scim_nid => "err_scim_nid"
    | a_err_scim_type => "err_scim_type" | a_err_scim_name => "err_scim_name"
    | a_err_scim_other => "err_scim_other" | a_scim_type => "scim_type" | a_create_scim => "create_scim"
    | a_set_scim_type => "set_scim_type" | a_mark_scim_name => "mark_scim_name"
    | a_set_scim_name => "set_scim_name" | a_mark_scim_other => "mark_scim_other"
    | a_set_scim_other => "set_scim_other" | a_err_nss_8141 => "err_nss_8141"
    | a_err_nid_8141 => "err_nid_8141" | a_rfc8141_type => "rfc8141_type"
    | a_set_r_component => "set_r_component" | a_set_q_component => "set_q_component"
    | a_set_f_component => "set_f_component" | a_informal_nid_match => "informal_nid_match"
    | a_mark_r_start => "mark_r_start" | a_mark_q_start => "mark_q_start"
    | a_err_malformed_r_component => "err_malformed_r_component"
    | a_err_malformed_q_component => "err_malformed_q_component"
    | a_goto_main => ""
  end.
Definition goto_main_code : list stm := [SGoto "main"].
Definition named (x : string) : option action :=
  find (fun a => String.eqb x (act_name a)) (filter (fun a => negb (action_beq a a_goto_main)) all_actions).
Definition stms_goto_main (l : list stm) : bool := match l with [SGoto x] => String.eqb x "main" | _ => false end.
Definition inline (l : list stm) : option action := if stms_goto_main l then Some a_goto_main else None.

Definition rl_depth : nat := 3000.
Definition rl_spec : option (spec (A := action)) := read_rl named inline rl_depth machine_go_rl.

(* the code of an action in the text *)
Definition code_text (sp : spec (A := action)) (a : action) : option (list stm) :=
  if action_beq a a_goto_main then Some goto_main_code else assoc (act_name a) (sp_actions sp).
(* the two machines the code entries to *)
Definition entries (main fail : N) (x : string) : option Z :=
  if String.eqb x "main" then Some (Z.of_N main) else if String.eqb x "fail" then Some (Z.of_N fail) else None.

(* ---- Go text as statements of the model -------------------------------------------------------- *)
(* The statement whose text (SrcRender.text_of) is the given one: the ones without parts are
   looked up, an if is taken apart.  Text that no statement has is refused. *)
Fixpoint expr_eqb (a b : expr) : bool :=
  match a, b with
  | EId x, EId y => String.eqb x y
  | EInt x, EInt y => Z.eqb x y
  | EStr x, EStr y => String.eqb x y
  | ESel e f, ESel e' f' => expr_eqb e e' && String.eqb f f'
  | EIdx e i, EIdx e' i' => expr_eqb e e' && expr_eqb i i'
  | ESlc e i j, ESlc e' i' j' => expr_eqb e e' && expr_eqb i i' && expr_eqb j j'
  | ECall f l x, ECall f' l' x' =>
      expr_eqb f f' && Bool.eqb x x' &&
      (fix all l m := match l, m with [], [] => true | a :: l, b :: m => expr_eqb a b && all l m | _, _ => false end) l l'
  | EBin o e i, EBin o' e' i' => String.eqb o o' && expr_eqb e e' && expr_eqb i i'
  | EUn o e, EUn o' e' => String.eqb o o' && expr_eqb e e'
  | ELit (TyName x) [], ELit (TyName y) [] => String.eqb x y
  | _, _ => false
  end.
Definition stm_eqb (a b : stm) : bool :=
  match a, b with
  | SAssign o [l] [r], SAssign o' [l'] [r'] => String.eqb o o' && expr_eqb l l' && expr_eqb r r'
  | SIncDec o e, SIncDec o' e' => String.eqb o o' && expr_eqb e e'
  | SGoto x, SGoto y => String.eqb x y
  | SRange k v e [SAssign o [l] [r]], SRange k' v' e' [SAssign o' [l'] [r']] =>
      String.eqb k k' && String.eqb v v' && expr_eqb e e' && String.eqb o o' && expr_eqb l l' && expr_eqb r r'
  | _, _ => false
  end.
Section Decode.
Import MachineSyntax Machine SrcRender.
Definition shifts : list Z := [0; 1; 2; 3; -1; -2; -3]%Z.
Definition simple : list stmt :=
  [SMark; STolower; SSetPrefix; SSetID; SSetSS; SSetNorm; SForTolower 32; SForTolower (-32); SDecP; SGotoAgain; SNewSCIM;
   SScimType; SScimPos; SScimName; SScimOther; SSetR; SSetQ; SSetF; SSetRStart; SSetQStart] ++
  map SSetKind [0; 1; 2; 3]%Z ++ flat_map (fun e => map (SSetErr e) shifts) all_errs.
Definition tests : list cond :=
  map CModeEq [0; 1; 2; 3]%Z ++ map (fun k => CNot (CModeEq k)) [0; 1; 2; 3]%Z ++ [CPEqPe; CRStart; CQStart; CPrefixEmpty; CNot CPrefixEmpty].
Fixpoint cond_of (e : expr) : option cond :=
  match find (fun c => expr_eqb (text_cond c) e) tests with
  | Some c => Some c
  | None =>
      match e with
      | EBin o a b =>
          match cond_of a, cond_of b with
          | Some c, Some d => if String.eqb o "&&" then Some (CAnd c d) else if String.eqb o "||" then Some (COr c d) else None
          | _, _ => None
          end
      | _ => None
      end
  end.
(* if pos := m.p + k; pos < m.pe && m.data[pos] == c && output.prefix != "" { m.err = .. pos ..; .. } *)
Definition ahead_of (i : stm) (c : expr) (t : list stm) : option stmt :=
  match i, c, t with
  | SDefine [x] [p], EBin _ (EBin _ _ (EBin _ _ (EInt b))) _, [s1; s2; SAssign o [l] [EInt n]; s4] =>
      match find (fun k => expr_eqb (plus (M "p") k) p) shifts,
            find (fun e => stm_eqb s1 (set_ (M "err") (errorf e (EId "pos")))) all_errs with
      | Some k, Some e =>
          let test := CAnd (CAnd (CPosLtPe k) (CDataAtEq k (Z.to_N b))) (CNot CPrefixEmpty) in
          if String.eqb x "pos" && expr_eqb c (text_cond test) && stm_eqb s2 (text_of SDecP) &&
             String.eqb o "=" && expr_eqb l (M "cs") && Z.leb 0 n && stm_eqb s4 (text_of SGotoAgain)
          then Some (MachineSyntax.SIf test [SSetErr e k; SDecP; SSetCS (Z.to_N n); SGotoAgain] []) else None
      | _, _ => None
      end
  | _, _, _ => None
  end.
Fixpoint stmt_of (s : stm) : option stmt :=
  let list_of := fix list_of (l : list stm) : option (list stmt) :=
    match l with
    | [] => Some []
    | s :: l => match stmt_of s, list_of l with Some s, Some l => Some (s :: l) | _, _ => None end
    end in
  match s with
  | GoAst.SIf [] c t e =>
      match cond_of c, list_of t, list_of e with Some c, Some t, Some e => Some (MachineSyntax.SIf c t e) | _, _, _ => None end
  | GoAst.SIf [i] c t [] => ahead_of i c t
  | SAssign o [l] [EInt n] => if String.eqb o "=" && expr_eqb l (M "cs") && Z.leb 0 n then Some (SSetCS (Z.to_N n)) else None
  | _ => find (fun x => stm_eqb (text_of x) s) simple
  end.
Fixpoint stmts_of (l : list stm) : option (list stmt) :=
  match l with
  | [] => Some []
  | s :: l => match stmt_of s, stmts_of l with Some s, Some l => Some (s :: l) | _, _ => None end
  end.
End Decode.

(* ---- the machine of what has been read -------------------------------------------------------- *)
(* the four instantiated machines in one table, behind the error state *)
Section Built.
  Context (sp : spec (A := action)).
  Import RagelSem.
  (* what an action does, given the numbers of main and fail *)
  Definition t_code (main fail : N) (a : action) : option (list MachineSyntax.stmt) :=
    match code_text sp a with Some l => stmts_of (flat_map (expand (entries main fail)) l) | None => None end.
  Definition t_body (main fail : N) (a : action) : list MachineSyntax.stmt :=
    match t_code main fail a with Some l => l | None => [] end.
  Local Open Scope N_scope.
  Definition inst (x : string) : rgx := match assoc x (sp_insts sp) with Some e => e | None => RByte (fun _ => false) end.
  Definition t_blocks : list N * list N := blocks (flat_map classes (map inst ["main"; "scim_only"; "rfc8141_only"; "fail"]%string)).
  Definition t_fsm (x : string) : fsm action := compile (snd t_blocks) (inst x).
  Definition t_at (x : string) : N :=
    let main := 1 in
    let scim := main + len (t_fsm "main") in
    let r8141 := scim + len (t_fsm "scim_only") in
    if String.eqb x "main" then main else if String.eqb x "scim_only" then scim
    else if String.eqb x "rfc8141_only" then r8141 else r8141 + len (t_fsm "rfc8141_only").
  Definition t_nodes : list (node (list MachineSyntax.stmt)) :=
    let n x := nodes action_beq (t_body (t_at "main") (t_at "fail")) (t_at x) (t_fsm x) in
    mkNode (map (fun _ => (0, [])) (snd t_blocks)) false [] [] :: n "main" ++ n "scim_only" ++ n "rfc8141_only" ++ n "fail".
  Definition t_Parse (x : string) (mode : Z) (input : bytes) :=
    rl_Parse (fst t_blocks) t_nodes (fun cs => t_at "fail" <=? cs) (t_at x) mode input.
End Built.

(* ---- the Go part ---------------------------------------------------------------------------------- *)
(* the declarations of machine.go that are not ragel's.  Ragel's are what "write data" makes, the
   constants and the variables whose names begin with _, and what "write exec" makes, the block
   in Parse *)
Definition by_hand (d : decl) : bool :=
  match d with DConst _ _ _ _ => false | DVar x _ _ => negb (String.prefix "_" x) | _ => true end.
Definition is_block (s : stm) : bool := match s with SBlock _ => true | _ => false end.
Definition no_block (d : decl) : decl :=
  match d with
  | DFunc r x ps rs b => if String.eqb x "Parse" then DFunc r x ps rs (filter (fun s => negb (is_block s)) b) else d
  | _ => d
  end.
Definition hand (l : list decl) : list decl := map no_block (filter by_hand l).
