(* The text of each statement of the model does what the statement does. *)
From Coq Require Import Lia.
From Verif Require Import GoAst.
From Verif Require Import GoBase MachineSyntax MachineTables Machine.
From Verif Require Import GoSem SrcRender SrcSim.
Import ListNotations.
Local Open Scope string_scope.
Local Open Scope list_scope.

(* what the statements need of the program they are part of *)
Record has (P : prog) : Prop := mkHas {
  (* machine.go:133-135 *)
  h_text : find "machine.text" (p_funcs P) = Some (mkFunc "" (Some (TyPtr (TyName "machine")))
    [("m", TyPtr (TyName "machine"), false)] [TySlice (TyName "byte")] [SReturn [ESlc (M "data") (M "pb") (M "p")]]);
  (* scim/schema/type.go:25-36 *)
  h_type : find "scimschema.TypeFromString" (p_funcs P) = Some (mkFunc "scimschema." None
    [("input", TyName "string", false)] [TyName "Type"]
    [SSwitch [EId "input"] [([EStr "schemas"], [SReturn [EId "Schemas"]]); ([EStr "api"], [SReturn [EId "API"]]);
       ([EStr "param"], [SReturn [EId "Param"]])]; SReturn [EId "Unsupported"]]);
  h_consts : forall x k, In (x, k) [("Unsupported", 0%Z); ("Schemas", 1%Z); ("API", 2%Z); ("Param", 3%Z)] ->
    find ("scimschema." ++ x)%string (p_globals P) = Some (VInt "scimschema.Type" k);
  h_kinds : forall k, In k [1; 2; 3]%Z -> find (kind_name k) (p_globals P) = Some (VInt "Kind" k);
  h_modes : forall k, In k [1; 2; 3]%Z -> find (mode_name k) (p_globals P) = Some (VInt "ParsingMode" k);
  h_errs : forall e, find (err_name e) (p_globals P) = Some (VStr (B (err_format e)));
  h_fmt : find "fmt.Errorf" (p_funcs P) = None;
  h_scim : zero 4 P "" (TyName "SCIM") = sval zeroSCIM;
  h_Type : find "scimschema.Type" (p_types P) = Some (TyName "int")
}.

Arguments get : simpl never.
Arguments set : simpl never.
Arguments Z.add : simpl never.
Arguments Z.sub : simpl never.
Arguments Z.mul : simpl never.
Arguments Z.eqb : simpl never.
Arguments Z.ltb : simpl never.
Arguments byte_add : simpl never.
Arguments B : simpl never.
Arguments subslice : simpl never.
Arguments elem : simpl never.
Arguments builtin : simpl never.
Ltac look := cbn; repeat
  (match goal with
   | H : get ?h ?l = Some _ |- context[get ?h ?l] => rewrite H
   | |- context[get (?h ++ [?o]) (List.length ?h)] => rewrite (get_last h o)
   end; cbn).

(* ---- blocks -------------------------------------------------------------------------------- *)
(* the statements after a label *)
Fixpoint after_label (l : string) (b : list stm) : option (list stm) :=
  match b with
  | [] => None
  | SLabel x :: b => if String.eqb x l then Some b else after_label l b
  | _ :: b => after_label l b
  end.
Lemma after_map {A} (f : stm -> A) l b :
  after l (map (fun s => (label_of s, f s)) b) = option_map (map (fun s => (label_of s, f s))) (after_label l b).
Proof.
  induction b as [|s b IH]; [reflexivity|]. cbn [map after after_label].
  destruct s; cbn [label_of]; try exact IH. destruct (String.eqb l0 l); [reflexivity|exact IH].
Qed.
Lemma jumps_eq n all cur e h : jumps n all cur e h =
  let! (e, h, c) := seq cur e h in
  match c with
  | CGoto l =>
      match after l all with
      | Some cur' => match n with 0 => GFuel | Datatypes.S n => jumps n all cur' e h end
      | None => GRet (e, h, c)
      end
  | _ => GRet (e, h, c)
  end.
Proof. destruct n; reflexivity. Qed.
(* a block that is left by its end, a return, or a goto to a label elsewhere *)
Lemma block_ok (f : stm -> sem) n b e h e' h' k : seq (map (fun s => (label_of s, f s)) b) e h = GRet (e', h', k) ->
  (forall l, k = CGoto l -> after_label l b = None) ->
  block n (map (fun s => (label_of s, f s)) b) e h = GRet (e, h', k).
Proof.
  intros Q N. unfold block. rewrite jumps_eq, Q. cbn [gbind]. destruct k as [|l|]; try reflexivity.
  rewrite after_map, (N l eq_refl). reflexivity.
Qed.
Lemma seq_app fs gs e h : seq (fs ++ gs) e h =
  let! (e, h, c) := seq fs e h in match c with CNorm => seq gs e h | _ => GRet (e, h, c) end.
Proof.
  revert e h. induction fs as [|(o, f) fs IH]; intros e h; [reflexivity|]. cbn [app seq].
  destruct (f e h) as [[[e' h'] c]| | |]; cbn [gbind]; try reflexivity. destruct c; [apply IH|reflexivity|reflexivity].
Qed.

(* the conditions and statements that occur *)
Definition one3 (k : Z) : bool := existsb (Z.eqb k) [1; 2; 3]%Z.
Fixpoint okc (c : cond) : bool :=
  match c with
  | CModeEq k => one3 k
  | CPEqPe | CRStart | CQStart | CPrefixEmpty => true
  | CPosLtPe _ | CDataAtEq _ _ => false
  | CNot (CModeEq k) => one3 k
  | CNot CPrefixEmpty => true
  | CNot _ => false
  | CAnd a b | COr a b => okc a && okc b
  end.
Definition is_pos (s : stmt) : bool :=
  match s with
  | SIf (CAnd (CAnd (CPosLtPe k) (CDataAtEq k' c)) (CNot CPrefixEmpty)) [SSetErr e j; SDecP; SSetCS n; SGotoAgain] [] => Z.eqb k k' && Z.eqb k j
  | _ => false
  end.
Fixpoint oks (s : stmt) : bool :=
  is_pos s ||
  match s with
  | SForTolower d => Z.eqb d 32 || Z.eqb d (-32)
  | SIf c t e => okc c && forallb oks t && forallb oks e
  | SSetKind k => one3 k
  | _ => true
  end.
Lemma one3_in k : one3 k = true -> In k [1; 2; 3]%Z.
Proof. unfold one3. intros H. apply existsb_exists in H. destruct H as (x & I & Q). apply Z.eqb_eq in Q. subst x. exact I. Qed.
Lemma text_if c t e : okc c = true -> text_of (SIf c t e) = GoAst.SIf [] (text_cond c) (map text_of t) (map text_of e).
Proof.
  destruct c as [| | | | | | |c|a b|]; try reflexivity. destruct a as [| | | | | | | |a a'|]; try reflexivity.
  destruct a; try reflexivity. discriminate.
Qed.
Lemma after_text l b : after_label l (map text_of b) = None.
Proof.
  induction b as [|s b IH]; [reflexivity|]. cbn [map after_label].
  assert (N : label_of (text_of s) = None).
  { destruct s; try reflexivity. cbn [text_of]. repeat match goal with |- context[match ?x with _ => _ end] => is_var x; destruct x; try reflexivity end.
    destruct (Z.eqb k k0 && Z.eqb k k1); reflexivity. }
  destruct (text_of s); try exact IH. discriminate.
Qed.

Definition ctl_of (c : Machine.ctl) : GoSem.ctl := match c with Fall => CNorm | Again => CGoto "_again" end.

Section Sim.
Variable P : prog.
Hypothesis HP : has P.
Variable ext : string -> list val -> heap -> gres (heap * val).
Hypothesis Hext : forall f args h, ext "fmt.Errorf" (VStr f :: args) h = GRet (h, VErr f args).
Variables n d : nat.
Variable C : callee -> list val -> bool -> heap -> gres (heap * val).
Hypothesis HC : C = call P ext n (S d).
Variable h0 : heap.
Variable dv : val.
Variables lm lu cm ci cu : loc.
Let R := R h0 dv lm lu cm cu.
Let E := penv cm ci cu.
Let ev := eval P "" C ext.
Let ex := exec P "" C ext n.

Lemma ev_m h m u sv lv f v : R h m u sv lv -> find f (mfields dv m) = Some v -> ev (M f) E h = GRet (h, v).
Proof.
  intros [] F. unfold ev, M. cbn [eval]. change (is_pkg "m" E) with false. cbv iota. unfold ident_val. change (find "m" E) with (Some cm).
  cbv iota. rewrite r_cm. cbn [gbind field]. rewrite r_m. unfold mval. cbv iota. rewrite F. reflexivity.
Qed.
Lemma ev_o h m u sv lv f v : R h m u sv lv -> find f (ufields sv lv u) = Some v -> ev (O f) E h = GRet (h, v).
Proof.
  intros [] F. unfold ev, O. cbn [eval]. change (is_pkg "output" E) with false. cbv iota. unfold ident_val. change (find "output" E) with (Some cu).
  cbv iota. rewrite r_cu. cbn [gbind field]. rewrite r_u. unfold uval. cbv iota. rewrite F. reflexivity.
Qed.

Lemma call_text h m u sv lv t : R h m u sv lv -> text m = Ret t ->
  exists v, C (CKey "machine.text") [VPtr lm] false h = GRet (h ++ [Cell (VPtr lm)], v) /\ data_at (h ++ [Cell (VPtr lm)]) v t.
Proof.
  intros H T. apply (R_app _ _ _ _ _ _ _ [Cell (VPtr lm)]) in H. destruct H.
  destruct (data_slice _ _ _ _ _ _ r_d T) as (v & S & D). exists v. split; [|exact D].
  rewrite HC. cbn [call]. rewrite (h_text P HP). cbn -[subslice]. unfold body.
  rewrite (block_ok _ _ _ _ _ [("m", List.length h)] (h ++ [Cell (VPtr lm)]) (CRet [v])).
  - cbn. destruct D as [(_ & ->)|(? & ? & ? & -> & _)]; reflexivity.
  - look. rewrite S. cbn.
    destruct D as [(_ & ->)|(? & ? & ? & -> & _)]; reflexivity.
  - discriminate.
Qed.
Lemma ev_text h m u sv lv t : R h m u sv lv -> text m = Ret t ->
  ev text_ E h = GRet (h ++ [Cell (VPtr lm)], VStr t).
Proof.
  intros H T. destruct (call_text _ _ _ _ _ _ H T) as (v & K & D). destruct H.
  unfold ev. look. rewrite (h_text P HP). cbn. rewrite K. cbn. rewrite (data_string _ _ _ D). reflexivity.
Qed.

(* m.f = .. *)
Lemma set_m e h h' m u sv lv f x v m' : find "m" e = Some cm -> R h m u sv lv -> ev x e h = GRet (h', v) -> R h' m u sv lv ->
  (forall vs, v <> VTuple vs) ->
  put f v (mfields dv m) = mfields dv m' -> m_data m' = m_data m ->
  exists h2, ex (set_ (M f) x) e h = GRet (e, h2, CNorm) /\ R h2 m' u sv lv.
Proof.
  intros FM H X H' T F D. exists (set h' lm (Cell (mval dv m'))). split; [|exact (R_setm _ _ _ _ _ _ _ _ _ _ _ _ H' D)].
  destruct H, H'. unfold ex, set_. cbn [exec places place_of M eval gbind rhs]. unfold ident_val. rewrite FM.
  rewrite r_cm. cbn [gbind]. unfold ev in X. rewrite X. cbn [gbind].
  replace (as_list v) with [v] by (destruct v; try reflexivity; destruct (T vs eq_refl)).
  cbn -[mfields put]. rewrite r_m0. cbn -[mfields put]. rewrite F. reflexivity.
Qed.
(* output.f = .. *)
Lemma set_o h h' m u sv lv f x v u' sv' lv' : R h m u sv lv -> ev x E h = GRet (h', v) -> R h' m u sv lv ->
  (forall vs, v <> VTuple vs) ->
  put f v (ufields sv lv u) = ufields sv' lv' u' ->
  is_scim h' sv' (u_scim u') -> is_ints h' lv' (u_tolower u') -> (forall l, sv' = VPtr l -> get h0 l = None) ->
  exists h2, ex (set_ (O f) x) E h = GRet (E, h2, CNorm) /\ R h2 m u' sv' lv'.
Proof.
  intros H X H' T F S L N. exists (set h' lu (Cell (uval sv' lv' u'))). split; [|exact (R_setu _ _ _ _ _ _ _ _ _ _ _ _ _ _ H' S L N)].
  destruct H, H'. unfold ex, set_. cbn [exec places place_of O eval gbind rhs]. unfold ident_val. change (find "output" E) with (Some cu). cbv iota.
  rewrite r_cu. cbn [gbind]. unfold ev in X. rewrite X. cbn [gbind].
  replace (as_list v) with [v] by (destruct v; try reflexivity; destruct (T vs eq_refl)).
  cbn -[ufields put]. rewrite r_u0. cbn -[ufields put]. rewrite F. reflexivity.
Qed.

(* ---- conditions ------------------------------------------------------------------------------- *)
Definition strict (op : string) : bool := negb (String.eqb op "&&" || String.eqb op "||").
Lemma ev_bin op a b e h h1 h2 v w r : strict op = true -> ev a e h = GRet (h1, v) -> ev b e h1 = GRet (h2, w) ->
  binop op v w = GRet r -> ev (EBin op a b) e h = GRet (h2, r).
Proof.
  unfold strict. intros S A K O. unfold ev in *. cbn [eval]. rewrite A. cbn [gbind].
  destruct (String.eqb op "&&"); [discriminate|]. destruct (String.eqb op "||"); [discriminate|].
  rewrite K. cbn [gbind]. rewrite O. reflexivity.
Qed.
Lemma ev_global e x h v : find x e = None -> (x =? "true")%string = false -> (x =? "false")%string = false -> (x =? "nil")%string = false ->
  find x (p_globals P) = Some v -> ev (EId x) e h = GRet (h, v).
Proof. intros N A K O F. unfold ev. cbn [eval]. unfold ident_val, global. rewrite N, A, K, O. cbn. rewrite F. reflexivity. Qed.
Lemma ev_mode h k : one3 k = true -> ev (EId (mode_name k)) E h = GRet (h, VInt "ParsingMode" k).
Proof.
  intros H. apply one3_in in H. apply ev_global; [..|exact (h_modes P HP k H)];
    destruct H as [<-|[<-|[<-|[]]]]; reflexivity.
Qed.
Lemma ev_kind h k : one3 k = true -> ev (EId (kind_name k)) E h = GRet (h, VInt "Kind" k).
Proof.
  intros H. apply one3_in in H. apply ev_global; [..|exact (h_kinds P HP k H)];
    destruct H as [<-|[<-|[<-|[]]]]; reflexivity.
Qed.
Lemma byte_eqb x c : Z.eqb (byte_z x) (Z.of_N c) = N.eqb (Byte.to_N x) c.
Proof. unfold byte_z. destruct (N.eqb_spec (Byte.to_N x) c) as [->|D]; [apply Z.eqb_refl|]. apply Z.eqb_neq. lia. Qed.
Lemma eqb_nil w : bytes_eqb w [] = match w with [] => true | _ => false end.
Proof. destruct w; reflexivity. Qed.

Lemma ev_cond h m u sv lv : R h m u sv lv -> forall c b, okc c = true -> eval_cond c (m, u) = Ret b ->
  ev (text_cond c) E h = GRet (h, VBool b).
Proof.
  intros H. induction c as [k| | | |k|k c| |c IH|c1 IH1 c2 IH2|c1 IH1 c2 IH2]; intros b K Q.
  - inversion Q. eapply ev_bin; [reflexivity|eapply ev_m; [exact H|reflexivity]|exact (ev_mode _ _ K)|reflexivity].
  - inversion Q. eapply ev_bin; [reflexivity|eapply ev_m; [exact H|reflexivity]|eapply ev_m; [exact H|reflexivity]|reflexivity].
  - inversion Q. eapply ev_o; [exact H|reflexivity].
  - inversion Q. eapply ev_o; [exact H|reflexivity].
  - discriminate.
  - discriminate.
  - inversion Q. eapply ev_bin; [reflexivity|eapply ev_o; [exact H|reflexivity]|reflexivity|]. cbn. rewrite <- eqb_nil. reflexivity.
  - destruct c; try discriminate.
    + inversion Q. eapply ev_bin; [reflexivity|eapply ev_m; [exact H|reflexivity]|exact (ev_mode _ _ K)|reflexivity].
    + inversion Q. eapply ev_bin; [reflexivity|eapply ev_o; [exact H|reflexivity]|reflexivity|]. cbn. rewrite <- eqb_nil. reflexivity.
  - cbn [okc] in K. apply andb_prop in K. destruct K as (K1 & K2). cbn [eval_cond] in Q.
    destruct (eval_cond c1 (m, u)) as [b1| |] eqn:Q1; try discriminate. cbn [bind] in Q. unfold ev. cbn [text_cond eval].
    fold (ev (text_cond c1) E h). rewrite (IH1 b1 K1 eq_refl). cbn [gbind String.eqb Ascii.eqb Bool.eqb].
    destruct b1; [exact (IH2 b K2 Q)|]. inversion Q. reflexivity.
  - cbn [okc] in K. apply andb_prop in K. destruct K as (K1 & K2). cbn [eval_cond] in Q.
    destruct (eval_cond c1 (m, u)) as [b1| |] eqn:Q1; try discriminate. cbn [bind] in Q. unfold ev. cbn [text_cond eval].
    fold (ev (text_cond c1) E h). rewrite (IH1 b1 K1 eq_refl). cbn [gbind String.eqb Ascii.eqb Bool.eqb].
    destruct b1; [|exact (IH2 b K2 Q)]. inversion Q. reflexivity.
Qed.
Lemma ev_plus e h x z k : ev x e h = GRet (h, vint z) -> ev (plus x k) e h = GRet (h, vint (z + k)).
Proof.
  intros X. unfold plus. destruct (Z.eqb_spec k 0) as [->|N]; [rewrite Z.add_0_r; exact X|].
  destruct (Z.ltb_spec k 0).
  - eapply ev_bin; [reflexivity|exact X|reflexivity|]. cbn. unfold vint. replace (z + k)%Z with (z - - k)%Z by lia. reflexivity.
  - eapply ev_bin; [reflexivity|exact X|reflexivity|]. reflexivity.
Qed.
Lemma ev_ename l h e : ev (EId (err_name e)) (("pos", l) :: E) h = GRet (h, VStr (B (err_format e))) /\
  ev (EId (err_name e)) E h = GRet (h, VStr (B (err_format e))).
Proof. split; (apply ev_global; [..|exact (h_errs P HP e)]; destruct e; reflexivity). Qed.
Lemma ev_err0 e h k x v : find "fmt" e = None -> ev (EId (err_name k)) e h = GRet (h, VStr (B (err_format k))) ->
  ev x e h = GRet (h, v) -> ev (errorf k x) e h = GRet (h, VErr (B (err_format k)) [v]).
Proof.
  intros N K X. unfold ev, errorf. cbn [eval]. unfold is_pkg. rewrite N. cbn [existsb packages orb andb String.eqb Ascii.eqb Bool.eqb].
  unfold ev in *. cbn [eval] in K. rewrite K. cbn [gbind]. rewrite X. cbn [gbind append]. rewrite (h_fmt P HP), Hext. reflexivity.
Qed.
Lemma ev_err h k x v : ev x E h = GRet (h, v) -> ev (errorf k x) E h = GRet (h, VErr (B (err_format k)) [v]).
Proof. intros X. apply ev_err0; [reflexivity| |exact X]. exact (proj2 (ev_ename 0 h k)). Qed.
Lemma ev_err1 l h k x v : ev x (("pos", l) :: E) h = GRet (h, v) -> ev (errorf k x) (("pos", l) :: E) h = GRet (h, VErr (B (err_format k)) [v]).
Proof. intros X. apply ev_err0; [reflexivity| |exact X]. exact (proj1 (ev_ename l h k)). Qed.

(* ---- statements ---------------------------------------------------------------------------------- *)
Lemma inc_m e h m u sv lv op m' : find "m" e = Some cm -> R h m u sv lv -> m' = set_p (if String.eqb op "++" then m_p m + 1 else m_p m - 1)%Z m ->
  exists h2, ex (SIncDec op (M "p")) e h = GRet (e, h2, CNorm) /\ R h2 m' u sv lv.
Proof.
  intros FM H ->. eexists. split; [|exact (R_setm _ _ _ _ _ _ _ _ _ _ _ (set_p (if String.eqb op "++" then m_p m + 1 else m_p m - 1)%Z m) H eq_refl)].
  destruct H. unfold ex. cbn [exec]. destruct (String.eqb op "++"); cbn; unfold ident_val; rewrite FM; look; reflexivity.
Qed.

Definition sim (s : stmt) : Prop := forall h m u sv lv m' u' c, R h m u sv lv -> exec_stmt s (m, u) = Ret ((m', u'), c) ->
  exists h' sv' lv', ex (text_of s) E h = GRet (E, h', ctl_of c) /\ R h' m' u' sv' lv'.

Lemma sim_text s f uset : text_of s = set_ (O f) text_ ->
  (forall m u, exec_stmt s (m, u) = do t <- text m; Ret ((m, uset t u), Fall)) ->
  (forall sv lv u t, put f (VStr t) (ufields sv lv u) = ufields sv lv (uset t u)) ->
  (forall t u, u_scim (uset t u) = u_scim u /\ u_tolower (uset t u) = u_tolower u) -> sim s.
Proof.
  intros T X F K h m u sv lv m' u' c H Q. rewrite X in Q. destruct (text m) as [t| |] eqn:G; try discriminate.
  cbn [bind] in Q. inversion Q. subst m' u' c. pose proof (R_app _ _ _ _ _ _ _ [Cell (VPtr lm)] _ _ _ _ H) as H2. pose proof (r_new _ _ _ _ _ _ _ _ _ _ _ H2) as (_ & N & _).
  destruct (K t u) as (K1 & K2).
  destruct (set_o h (h ++ [Cell (VPtr lm)]) m u sv lv f text_ (VStr t) (uset t u) sv lv H (ev_text _ _ _ _ _ _ H G) H2) as (h2 & A & D); auto; try discriminate.
  - rewrite K1. apply (r_s _ _ _ _ _ _ _ _ _ _ _ H2).
  - rewrite K2. apply (r_l _ _ _ _ _ _ _ _ _ _ _ H2).
  - rewrite T. eauto.
Qed.

Lemma R_news h m u sv lv : R h m u sv lv -> forall l, sv = VPtr l -> get h0 l = None.
Proof. intros H. exact (proj1 (proj2 (r_new _ _ _ _ _ _ _ _ _ _ _ H))). Qed.
Lemma fresh h m u sv lv : R h m u sv lv -> get h0 (List.length h) = None.
Proof. intros H. apply get_none. exact (proj2 (proj2 (r_new _ _ _ _ _ _ _ _ _ _ _ H))). Qed.

Lemma sim_tolower : sim STolower.
Proof.
  intros h m u sv lv m' u' c H Q. inversion Q. subst m' u' c. clear Q.
  set (w := u_tolower u ++ [m_p m - m_pb m]%Z). set (h' := h ++ [Arr "int" (map vint w)]).
  assert (Z : ev (ECall (EId "append") [O "tolower"; EBin "-" (M "p") (M "pb")] false) E h = GRet (h', VSlice (List.length h) 0 (List.length w))).
  { pose proof (ev_o h m u sv lv "tolower" _ H eq_refl) as A.
    assert (K : ev (EBin "-" (M "p") (M "pb")) E h = GRet (h, vint (m_p m - m_pb m))).
    { eapply ev_bin; [reflexivity|eapply ev_m; [exact H|reflexivity]|eapply ev_m; [exact H|reflexivity]|reflexivity]. }
    unfold ev in *. cbn [eval]. cbn [eval] in A, K. rewrite A. cbn [gbind]. rewrite K. cbn [gbind].
    change (find "append" E) with (@None loc). cbv iota. destruct (r_l _ _ _ _ _ _ _ _ _ _ _ H) as (l & -> & G).
    unfold builtin. cbn [String.eqb Ascii.eqb Bool.eqb]. unfold window. rewrite G, map_length, PeanoNat.Nat.leb_refl.
    cbn [skipn]. rewrite firstn_all2 by (rewrite map_length; lia). unfold h', w. rewrite map_app, app_length, PeanoNat.Nat.add_1_r. reflexivity. }
  pose proof (R_app _ _ _ _ _ _ _ [Arr "int" (map vint w)] _ _ _ _ H) as H2.
  destruct (set_o h h' m u sv lv "tolower" _ _ (uset_tolower w u) sv (VSlice (List.length h) 0 (List.length w)) H Z H2) as (h2 & A & D);
    try reflexivity; try discriminate.
  - exact (r_s _ _ _ _ _ _ _ _ _ _ _ H2).
  - exists (List.length h). split; [reflexivity|]. apply get_last.
  - exact (R_news _ _ _ _ _ H).
  - eauto.
Qed.

(* for _, i := range output.tolower { m.data[m.pb+i] = m.data[m.pb+i] + d } *)
Lemma set_data_twice w w' m : set_data w (set_data w' m) = set_data w m.
Proof. reflexivity. Qed.
Lemma set_data_same m : set_data (m_data m) m = m.
Proof. destruct m. reflexivity. Qed.
Definition lower_body (k : Z) : sem :=
  let at_ := EIdx (M "data") (EBin "+" (M "pb") (EId "i")) in
  block n (map (fun s => (label_of s, exec P "" C ext n s)) [set_ at_ (plus at_ k)]).
Arguments store : simpl never.
Lemma lower_step h m u sv lv k i b w' : (k = 32 \/ k = -32)%Z -> R h m u sv lv ->
  index (m_data m) (m_pb m + i) = Ret b -> update (m_data m) (m_pb m + i) (byte_add b k) = Ret w' ->
  exists h', lower_body k (("i", List.length h) :: E) (h ++ [Cell (vint i)]) = GRet (("i", List.length h) :: E, h', CNorm) /\
    R h' (set_data w' m) u sv lv.
Proof.
  intros Hk H I U. pose proof (R_app _ _ _ _ _ _ _ [Cell (vint i)] _ _ _ _ H) as H2.
  destruct (data_store _ _ _ _ _ _ "" (r_d _ _ _ _ _ _ _ _ _ _ _ H2) U) as (l & o & L & S & (x & G) & (x' & ->) & D & AR).
  destruct (R_setd _ _ _ _ _ _ _ _ _ _ _ _ _ _ _ H2 L G D AR) as (_ & H3).
  exists (set (h ++ [Cell (vint i)]) l (Arr "byte" x')). split; [|exact H3].
  pose proof (data_elem _ _ _ _ _ "" (r_d _ _ _ _ _ _ _ _ _ _ _ H2) I) as A.
  unfold lower_body. apply block_ok with (e' := ("i", List.length h) :: E); [|discriminate]. destruct H2.
  destruct Hk as [-> | ->].
  - change (plus ?x 32) with (EBin "+" x (EInt 32)). look. rewrite A. cbn. rewrite S. reflexivity.
  - change (plus ?x (-32)) with (EBin "-" x (EInt 32)). look. rewrite A. cbn. change (- (32))%Z with (-32)%Z. rewrite S. reflexivity.
Qed.
Lemma lower_loop k u sv : (k = 32 \/ k = -32)%Z -> forall r w h m lv w', R h m u sv lv -> u_tolower u = w ++ r ->
  for_tolower k r (m_pb m) (m_data m) = Ret w' ->
  exists h', range (List.length r) (List.length w) "_" "i" lv (lower_body k) E h = GRet (h', CNorm) /\ R h' (set_data w' m) u sv lv.
Proof.
  intros Hk. induction r as [|i r IH]; intros w h m lv w' H W Q.
  - cbn in Q. inversion Q. subst w'. exists h. split; [reflexivity|]. rewrite set_data_same. exact H.
  - cbn [for_tolower] in Q. destruct (index (m_data m) (m_pb m + i)) as [b| |] eqn:I; try discriminate. cbn [bind] in Q.
    destruct (update (m_data m) (m_pb m + i) (byte_add b k)) as [w1| |] eqn:U; try discriminate. cbn [bind] in Q.
    destruct (lower_step h m u sv lv k i b w1 Hk H I U) as (h1 & A & H1).
    destruct (IH (w ++ [i]) h1 (set_data w1 m) lv w' H1) as (h2 & K & H2).
    { rewrite W, <- app_assoc. reflexivity. }
    { exact Q. }
    exists h2. split; [|rewrite set_data_twice in H2; exact H2].
    rewrite app_length, PeanoNat.Nat.add_1_r in K. cbn [range List.length].
    destruct (r_l _ _ _ _ _ _ _ _ _ _ _ H) as (l & Hl & G). rewrite Hl. unfold elem.
    rewrite in_bounds_ok by (rewrite W, app_length; cbn [List.length]; lia). rewrite G, W, Nat2Z.id. cbn [plus Nat.add].
    rewrite nth_error_map, nth_error_app2, PeanoNat.Nat.sub_diag by lia. cbn [nth_error option_map gbind].
    cbn [declares String.eqb Ascii.eqb Bool.eqb declare gbind]. rewrite A. cbn [gbind]. rewrite Hl, W in K. exact K.
Qed.
Lemma sim_lower k : (k = 32 \/ k = -32)%Z -> sim (SForTolower k).
Proof.
  intros Hk h m u sv lv m' u' c H Q. cbn [exec_stmt] in Q.
  destruct (for_tolower k (u_tolower u) (m_pb m) (m_data m)) as [w'| |] eqn:F; try discriminate. cbn [bind] in Q.
  inversion Q. subst m' u' c. clear Q. destruct (lower_loop k u sv Hk (u_tolower u) [] h m lv w' H eq_refl F) as (h' & A & H').
  exists h', sv, lv. split; [|exact H']. unfold ex. cbn [text_of exec].
  pose proof (ev_o h m u sv lv "tolower" _ H eq_refl) as X. unfold ev in X. rewrite X. cbn [gbind].
  destruct (r_l _ _ _ _ _ _ _ _ _ _ _ H) as (l & Hl & G). rewrite Hl. cbn [gbind]. rewrite <- Hl.
  change (gbind (range (List.length (u_tolower u)) (List.length (@nil Z)) "_" "i" lv (lower_body k) E h) (fun '(h1, c) => GRet (E, h1, c)) = GRet (E, h', CNorm)).
  rewrite A. reflexivity.
Qed.

(* output.scim *)
Lemma sim_new : sim SNewSCIM.
Proof.
  intros h m u sv lv m' u' c H Q. inversion Q. subst m' u' c. clear Q.
  set (h' := h ++ [Cell (sval zeroSCIM)]).
  assert (X : ev (EUn "&" (ELit (TyName "SCIM") [])) E h = GRet (h', VPtr (List.length h))).
  { unfold ev. cbn [eval gbind]. unfold literal. rewrite (h_scim P HP). reflexivity. }
  pose proof (R_app _ _ _ _ _ _ _ [Cell (sval zeroSCIM)] _ _ _ _ H) as H2.
  destruct (set_o h h' m u sv lv "scim" _ _ (uset_scim (Some zeroSCIM) u) (VPtr (List.length h)) lv H X H2) as (h2 & A & D);
    try reflexivity; try discriminate.
  - exists (List.length h). split; [reflexivity|]. apply get_last.
  - exact (r_l _ _ _ _ _ _ _ _ _ _ _ H2).
  - intros l [= <-]. exact (fresh _ _ _ _ _ H).
  - eauto.
Qed.
Definition sput (f : string) (v : val) (s : SCIM) : val :=
  match sval s with VStruct t fs => VStruct t (put f v fs) | v => v end.
Lemma set_s h h' m u sv lv f x v s s' : R h m u sv lv -> u_scim u = Some s -> ev x E h = GRet (h', v) -> R h' m u sv lv ->
  (forall vs, v <> VTuple vs) -> sput f v s = sval s' ->
  exists h2, ex (set_ (S_ f) x) E h = GRet (E, h2, CNorm) /\ R h2 m (uset_scim (Some s') u) sv lv.
Proof.
  intros H U X H' T F. pose proof (r_s _ _ _ _ _ _ _ _ _ _ _ H) as Q. rewrite U in Q. destruct Q as (l & -> & G).
  exists (set h' l (Cell (sval s'))). split; [|exact (R_sets _ _ _ _ _ _ _ _ _ _ _ _ _ s' H' U eq_refl)].
  pose proof (r_s _ _ _ _ _ _ _ _ _ _ _ H') as Q. rewrite U in Q. destruct Q as (l' & [= <-] & G').
  pose proof (ev_o h m u _ lv "scim" _ H eq_refl) as Y.
  unfold ex, set_. cbn [exec places place_of S_ rhs]. unfold ev in X, Y. rewrite Y. cbn [gbind]. rewrite X. cbn [gbind].
  replace (as_list v) with [v] by (destruct v; try reflexivity; destruct (T vs eq_refl)).
  cbn [String.eqb Ascii.eqb Bool.eqb stores]. unfold store. rewrite G'. unfold sval at 1. cbv iota.
  change (VStruct "SCIM" (put f v ?x)) with (sput f v s). rewrite F. reflexivity.
Qed.
Lemma sim_pos : sim SScimPos.
Proof.
  intros h m u sv lv m' u' c H Q. cbn [exec_stmt] in Q. destruct (u_scim u) as [s|] eqn:U; try discriminate.
  inversion Q. subst m' u' c. clear Q.
  destruct (set_s h h m u sv lv "pos" (M "p") (vint (m_p m)) s (mkSCIM (s_Type s) (s_Name s) (s_Other s) (m_p m)) H U) as (h2 & A & D);
    auto; try discriminate.
  - eapply ev_m; [exact H|reflexivity].
  - eauto.
Qed.
Lemma ev_s h m u sv lv s f t fs v : R h m u sv lv -> u_scim u = Some s -> sval s = VStruct t fs -> find f fs = Some v -> ev (S_ f) E h = GRet (h, v).
Proof.
  intros H U S F. pose proof (r_s _ _ _ _ _ _ _ _ _ _ _ H) as Q. rewrite U in Q. destruct Q as (l & -> & G).
  pose proof (ev_o h m u _ lv "scim" _ H eq_refl) as Y. unfold ev, S_ in *. cbn [eval O]. fold (O "scim").
  change ((let! (h1, v0) := eval P "" C ext (O "scim") E h in let! w := field v0 f h1 in GRet (h1, w)) = GRet (h, v)).
  rewrite Y. cbn [gbind field]. rewrite G, S, F. reflexivity.
Qed.
Lemma ev_part h m u sv lv s t : R h m u sv lv -> u_scim u = Some s -> slice (m_data m) (s_pos s) (m_p m) = Ret t ->
  ev (ECall (EId "string") [ESlc (M "data") (S_ "pos") (M "p")] false) E h = GRet (h, VStr t).
Proof.
  intros H U T. destruct (data_slice _ _ _ _ _ _ (r_d _ _ _ _ _ _ _ _ _ _ _ H) T) as (v & S & D).
  pose proof (ev_s h m u sv lv s "pos" _ _ _ H U eq_refl eq_refl) as A.
  pose proof (ev_m h m u sv lv "data" _ H eq_refl) as A1. pose proof (ev_m h m u sv lv "p" _ H eq_refl) as A2.
  unfold ev in *.
  assert (K : eval P "" C ext (ESlc (M "data") (S_ "pos") (M "p")) E h = GRet (h, v)).
  { change ((let! (h1, v0) := eval P "" C ext (M "data") E h in let! (h1, i) := eval P "" C ext (S_ "pos") E h1 in
      let! (h1, j) := eval P "" C ext (M "p") E h1 in let! w := subslice v0 i j in GRet (h1, w)) = GRet (h, v)).
    rewrite A1. cbn [gbind]. rewrite A. cbn [gbind]. rewrite A2. cbn [gbind]. rewrite S. reflexivity. }
  change ((let! (h1, vs) := (let! (h1, v0) := eval P "" C ext (ESlc (M "data") (S_ "pos") (M "p")) E h in GRet (h1, [v0])) in
    match builtin "string" vs h1 with Some r => r | None => C (CKey "string") vs false h1 end) = GRet (h, VStr t)).
  rewrite K. cbn [gbind]. rewrite (data_string _ _ _ D). reflexivity.
Qed.
Lemma sim_name : sim SScimName.
Proof.
  intros h m u sv lv m' u' c H Q. cbn [exec_stmt] in Q. destruct (u_scim u) as [s|] eqn:U; try discriminate.
  destruct (slice (m_data m) (s_pos s) (m_p m)) as [t| |] eqn:T; try discriminate. inversion Q. subst m' u' c. clear Q.
  destruct (set_s h h m u sv lv "Name" _ _ s (mkSCIM (s_Type s) t (s_Other s) (s_pos s)) H U (ev_part _ _ _ _ _ _ _ H U T) H) as (h2 & A & D);
    eauto; discriminate.
Qed.
Lemma sim_other : sim SScimOther.
Proof.
  intros h m u sv lv m' u' c H Q. cbn [exec_stmt] in Q. destruct (u_scim u) as [s|] eqn:U; try discriminate.
  destruct (slice (m_data m) (s_pos s) (m_p m)) as [t| |] eqn:T; try discriminate. inversion Q. subst m' u' c. clear Q.
  destruct (set_s h h m u sv lv "Other" _ _ s (mkSCIM (s_Type s) (s_Name s) t (s_pos s)) H U (ev_part _ _ _ _ _ _ _ H U T) H) as (h2 & A & D);
    eauto; discriminate.
Qed.
Lemma call_type h t : C (CKey "scimschema.TypeFromString") [VStr t] false h =
  GRet (h ++ [Cell (VStr t)], VInt "scimschema.Type" (TypeFromString t)).
Proof.
  rewrite HC. cbn [call]. rewrite (h_type P HP). cbn [bind_params f_pre f_params f_results f_body declare coerce gbind].
  unfold body. rewrite (block_ok _ _ _ _ _ [("input", List.length h)] (h ++ [Cell (VStr t)]) (CRet [VInt "scimschema.Type" (TypeFromString t)])).
  - cbn. rewrite (h_Type P HP). reflexivity.
  - unfold TypeFromString. look.
    destruct (bytes_eqb t (B "schemas")); [|destruct (bytes_eqb t (B "api")); [|destruct (bytes_eqb t (B "param"))]];
      cbn; unfold block; rewrite ?jumps_eq; cbn.
    + pose proof (h_consts P HP "Schemas" 1%Z ltac:(cbn; auto 6)) as K. cbn in K. unfold global. rewrite K. reflexivity.
    + pose proof (h_consts P HP "API" 2%Z ltac:(cbn; auto 6)) as K. cbn in K. unfold global. rewrite K. reflexivity.
    + pose proof (h_consts P HP "Param" 3%Z ltac:(cbn; auto 6)) as K. cbn in K. unfold global. rewrite K. reflexivity.
    + pose proof (h_consts P HP "Unsupported" 0%Z ltac:(cbn; auto 6)) as K. cbn in K. unfold global. rewrite K. reflexivity.
  - discriminate.
Qed.
Lemma sim_type : sim SScimType.
Proof.
  intros h m u sv lv m' u' c H Q. cbn [exec_stmt] in Q. destruct (text m) as [t| |] eqn:T; try discriminate. cbn [bind] in Q.
  destruct (u_scim u) as [s|] eqn:U; try discriminate. inversion Q. subst m' u' c. clear Q.
  pose proof (R_app _ _ _ _ _ _ _ [Cell (VPtr lm)] _ _ _ _ H) as H1.
  pose proof (R_app _ _ _ _ _ _ _ [Cell (VStr t)] _ _ _ _ H1) as H2.
  assert (X : ev (ECall (ESel (EId "scimschema") "TypeFromString") [text_] false) E h =
    GRet ((h ++ [Cell (VPtr lm)]) ++ [Cell (VStr t)], VInt "scimschema.Type" (TypeFromString t))).
  { pose proof (ev_text _ _ _ _ _ _ H T) as X. unfold ev in *.
    change ((let! (h1, vs) := (let! (h1, v0) := eval P "" C ext text_ E h in GRet (h1, [v0])) in
      match find "scimschema.TypeFromString" (p_funcs P) with
      | Some _ => C (CKey "scimschema.TypeFromString") vs false h1
      | None => ext "scimschema.TypeFromString" vs h1 end) = GRet ((h ++ [Cell (VPtr lm)]) ++ [Cell (VStr t)], VInt "scimschema.Type" (TypeFromString t))).
    rewrite X. cbn [gbind]. rewrite (h_type P HP). apply call_type. }
  destruct (set_s h _ m u sv lv "Type" _ _ s (mkSCIM (TypeFromString t) (s_Name s) (s_Other s) (s_pos s)) H U X H2) as (h2 & A & D);
    try reflexivity; try discriminate.
  eauto.
Qed.

Lemma ex_if i c t f e e1 h h1 h2 b e3 h3 k : seq (map (fun s => (label_of s, ex s)) i) e h = GRet (e1, h1, CNorm) ->
  ev c e1 h1 = GRet (h2, VBool b) -> block n (map (fun s => (label_of s, ex s)) (if b then t else f)) e1 h2 = GRet (e3, h3, k) ->
  ex (GoAst.SIf i c t f) e h = GRet (e, h3, k).
Proof.
  intros A K B. unfold ex in *. cbn [exec]. rewrite A. cbn [gbind]. unfold ev in K. rewrite K. cbn [gbind].
  destruct b; rewrite B; reflexivity.
Qed.

(* the look-ahead *)
Lemma sim_ahead s : is_pos s = true -> sim s.
Proof.
  intros K. assert (exists k c e j, s = SIf (CAnd (CAnd (CPosLtPe k) (CDataAtEq k c)) (CNot CPrefixEmpty)) [SSetErr e k; SDecP; SSetCS j; SGotoAgain] []) as (k & c & e & j & ->).
  { destruct s; try discriminate. cbn [is_pos] in K.
    repeat match type of K with context[match ?x with _ => _ end] => is_var x; destruct x; try discriminate end.
    apply andb_prop in K. destruct K as (K1 & K2). apply Z.eqb_eq in K1, K2. subst. eauto 10. }
  clear K. intros h m u sv lv m' u' q H Q.
  cbn [text_of]. rewrite !Z.eqb_refl. cbn [andb].
  set (li := List.length h). set (h1 := h ++ [Cell (vint (m_p m + k))]).
  assert (A0 : ex (SDefine ["pos"] [plus (M "p") k]) E h = GRet (("pos", li) :: E, h1, CNorm)).
  { unfold ex. cbn [exec rhs]. pose proof (ev_plus E h (M "p") (m_p m) k (ev_m h m u sv lv "p" _ H eq_refl)) as X. unfold ev in X.
    rewrite X. reflexivity. }
  pose proof (R_app _ _ _ _ _ _ _ [Cell (vint (m_p m + k))] _ _ _ _ H) as H1. fold h1 in H1.
  assert (GL : get h1 li = Some (Cell (vint (m_p m + k)))) by apply get_last.
  (* the condition *)
  set (cc := EBin "&&" (EBin "&&" (text_cond (CPosLtPe k)) (text_cond (CDataAtEq k c))) (text_cond (CNot CPrefixEmpty))).
  cbn [exec_stmt] in Q.
  destruct (eval_cond (CAnd (CAnd (CPosLtPe k) (CDataAtEq k c)) (CNot CPrefixEmpty)) (m, u)) as [b| |] eqn:V; try discriminate.
  cbn [bind] in Q.
  assert (A1 : ev cc (("pos", li) :: E) h1 = GRet (h1, VBool b)).
  { pose proof (r_d _ _ _ _ _ _ _ _ _ _ _ H1) as D. destruct H1. unfold ev, cc. cbn [eval_cond bind] in V. look.
    destruct (m_p m + k <? m_pe m)%Z; cbn in V |- *; [|inversion V; reflexivity].
    destruct (index (m_data m) (m_p m + k)) as [x| |] eqn:I; try discriminate. cbn [bind] in V. look.
    unfold vint at 1. rewrite (data_elem _ _ _ _ _ "" D I). cbn. rewrite byte_eqb.
    destruct (N.eqb (Byte.to_N x) c); cbn in V |- *; [|inversion V; reflexivity]. look.
    change (B "") with (@nil byte). rewrite eqb_nil. inversion V. reflexivity. }
  destruct b.
  - (* the four statements *)
    cbn [exec_stmt bind] in Q. inversion Q. subst m' u' q. clear Q.
    set (e1 := ("pos", li) :: E).
    destruct (set_m e1 h1 h1 m u sv lv "err" (errorf e (EId "pos")) (VErr (B (err_format e)) [vint (m_p m + k)])
      (set_err (Some (mkErr e (m_p m + k))) m) eq_refl H1) as (h2 & B1 & H2); try reflexivity; try discriminate; [|exact H1|].
    { apply ev_err1. unfold ev. cbn. rewrite GL. reflexivity. }
    destruct (inc_m e1 h2 _ u sv lv "--" _ eq_refl H2 eq_refl) as (h3 & B2 & H3).
    destruct (set_m e1 h3 h3 _ u sv lv "cs" (EInt (Z.of_N j)) (vint (Z.of_N j)) (set_cs j (set_p (m_p m - 1) (set_err (Some (mkErr e (m_p m + k))) m))) eq_refl H3)
      as (h4 & B3 & H4); try reflexivity; try discriminate; [exact H3|].
    exists h4, sv, lv. split; [|exact H4].
    eapply ex_if; [|exact A1|].
    + cbn [map seq]. rewrite A0. reflexivity.
    + cbv iota. apply block_ok with (e' := e1).
      * cbn [map seq]. fold e1. rewrite B1. cbn [gbind]. rewrite B2. cbn [gbind]. rewrite B3. reflexivity.
      * intros l [= <-]. reflexivity.
  - cbn in Q. inversion Q. subst m' u' q. clear Q. exists h1, sv, lv. split; [|exact H1].
    eapply ex_if; [|exact A1|].
    + cbn [map seq]. rewrite A0. reflexivity.
    + cbv iota. apply block_ok with (e' := ("pos", li) :: E); [reflexivity|discriminate].
Qed.

(* ---- all of them ------------------------------------------------------------------------------------- *)
Definition sims (b : list stmt) : Prop := forall h m u sv lv m' u' c, R h m u sv lv -> exec_block b (m, u) = Ret ((m', u'), c) ->
  exists h' sv' lv', seq (map (fun s => (label_of s, ex s)) (map text_of b)) E h = GRet (E, h', ctl_of c) /\ R h' m' u' sv' lv'.
Lemma sims_nil : sims [].
Proof. intros h m u sv lv m' u' c H Q. inversion Q. subst. exists h, sv, lv. split; [reflexivity|exact H]. Qed.
Lemma sims_cons s b : sim s -> sims b -> sims (s :: b).
Proof.
  intros S IH h m u sv lv m' u' c H Q. cbn [exec_block] in Q. destruct (exec_stmt s (m, u)) as [((m1, u1), c1)| |] eqn:X; try discriminate.
  cbn [bind] in Q. destruct (S _ _ _ _ _ _ _ _ H X) as (h1 & sv1 & lv1 & A & H1). cbn [map seq]. rewrite A. cbn [gbind].
  destruct c1; cbn [ctl_of].
  - exact (IH _ _ _ _ _ _ _ _ H1 Q).
  - inversion Q. subst. exists h1, sv1, lv1. split; [reflexivity|exact H1].
Qed.
Lemma sim_if c t e : okc c = true -> sims t -> sims e -> sim (SIf c t e).
Proof.
  intros K T F h m u sv lv m' u' q H Q. cbn [exec_stmt] in Q. destruct (eval_cond c (m, u)) as [b| |] eqn:V; try discriminate. cbn [bind] in Q.
  change (exec_block (if b then t else e) (m, u) = Ret ((m', u'), q)) in Q.
  assert (W : sims (if b then t else e)) by (destruct b; assumption).
  destruct (W _ _ _ _ _ _ _ _ H Q) as (h1 & sv1 & lv1 & A & H1). exists h1, sv1, lv1. split; [|exact H1].
  rewrite (text_if _ _ _ K). eapply ex_if; [reflexivity|exact (ev_cond _ _ _ _ _ H c b K V)|].
  replace (if b then map text_of t else map text_of e) with (map text_of (if b then t else e)) by (destruct b; reflexivity).
  eapply block_ok; [exact A|]. intros l _. apply after_text.
Qed.
Lemma sim_setm s f x (upd : machine -> machine) : text_of s = set_ (M f) x -> (forall m u, exec_stmt s (m, u) = Ret ((upd m, u), Fall)) ->
  (forall h m u sv lv, R h m u sv lv -> exists v, ev x E h = GRet (h, v) /\ (forall vs, v <> VTuple vs) /\ put f v (mfields dv m) = mfields dv (upd m)) ->
  (forall m, m_data (upd m) = m_data m) -> sim s.
Proof.
  intros T X V D h m u sv lv m' u' c H Q. rewrite X in Q. inversion Q. subst m' u' c. clear Q.
  destruct (V _ _ _ _ _ H) as (v & A & N & F).
  destruct (set_m E h h m u sv lv f x v (upd m) eq_refl H A H N F (D m)) as (h2 & K & H2). rewrite T. eauto.
Qed.
Lemma sim_seto s f x (upd : URN -> URN) : text_of s = set_ (O f) x -> (forall m u, exec_stmt s (m, u) = Ret ((m, upd u), Fall)) ->
  (forall h m u sv lv, R h m u sv lv -> exists v, ev x E h = GRet (h, v) /\ (forall vs, v <> VTuple vs) /\ put f v (ufields sv lv u) = ufields sv lv (upd u)) ->
  (forall u, u_scim (upd u) = u_scim u /\ u_tolower (upd u) = u_tolower u) -> sim s.
Proof.
  intros T X V D h m u sv lv m' u' c H Q. rewrite X in Q. inversion Q. subst m' u' c. clear Q.
  destruct (V _ _ _ _ _ H) as (v & A & N & F). destruct (D u) as (D1 & D2).
  destruct (set_o h h m u sv lv f x v (upd u) sv lv H A H N F) as (h2 & K & H2).
  - rewrite D1. exact (r_s _ _ _ _ _ _ _ _ _ _ _ H).
  - rewrite D2. exact (r_l _ _ _ _ _ _ _ _ _ _ _ H).
  - exact (R_news _ _ _ _ _ H).
  - rewrite T. eauto.
Qed.
Fixpoint sim_stmt (s : stmt) : oks s = true -> sim s.
Proof.
  intros K. destruct (is_pos s) eqn:A; [exact (sim_ahead s A)|].
  destruct s as [| | | | | |k|e k| |j| |c t e|k| | | | | | | | | | ]; cbn [oks] in K; rewrite ?A in K; cbn [is_pos orb] in K.
  - eapply (sim_setm _ "pb" (M "p") (fun m => set_pb (m_p m) m)); try reflexivity. intros h m u sv lv H.
    eexists; split; [eapply ev_m; [exact H|reflexivity]|split; [discriminate|reflexivity]].
  - exact sim_tolower.
  - eapply (sim_text _ "prefix" uset_prefix); intros; try split; reflexivity.
  - eapply (sim_text _ "ID" uset_ID); intros; try split; reflexivity.
  - eapply (sim_text _ "SS" uset_SS); intros; try split; reflexivity.
  - eapply (sim_text _ "norm" uset_norm); intros; try split; reflexivity.
  - apply sim_lower. apply orb_prop in K. destruct K as [K|K]; apply Z.eqb_eq in K; auto.
  - eapply (sim_setm _ "err" _ (fun m => set_err (Some (mkErr e (m_p m + k))) m)); try reflexivity. intros h m u sv lv H.
    eexists; split; [|split; [|reflexivity]]; [|discriminate].
    apply ev_err. apply ev_plus. eapply ev_m; [exact H|reflexivity].
  - intros h m u sv lv m' u' c H Q. inversion Q. subst m' u' c. clear Q.
    destruct (inc_m E h m u sv lv "--" _ eq_refl H eq_refl) as (h2 & X & H2). eauto 6.
  - eapply (sim_setm _ "cs" _ (set_cs j)); try reflexivity. intros h m u sv lv H.
    eexists; split; [reflexivity|split; [discriminate|reflexivity]].
  - intros h m u sv lv m' u' c H Q. inversion Q. subst m' u' c. exists h, sv, lv. split; [reflexivity|exact H].
  - apply andb_prop in K. destruct K as (K & K3). apply andb_prop in K. destruct K as (K1 & K2).
    assert (L : forall l, forallb oks l = true -> sims l).
    { fix IH 1. intros [|s l] Q; [exact sims_nil|]. cbn [forallb] in Q. apply andb_prop in Q. destruct Q as (Q1 & Q2).
      apply sims_cons; [exact (sim_stmt s Q1)|exact (IH l Q2)]. }
    apply sim_if; [exact K1|exact (L t K2)|exact (L e K3)].
  - eapply (sim_seto _ "kind" _ (uset_kind k)); try reflexivity; [|split; reflexivity]. intros h m u sv lv H.
    eexists; split; [exact (ev_kind h k K)|split; [discriminate|reflexivity]].
  - exact sim_new.
  - exact sim_type.
  - exact sim_pos.
  - exact sim_name.
  - exact sim_other.
  - eapply (sim_text _ "rComponent" uset_r); intros; try split; reflexivity.
  - eapply (sim_text _ "qComponent" uset_q); intros; try split; reflexivity.
  - eapply (sim_text _ "fComponent" uset_f); intros; try split; reflexivity.
  - eapply (sim_seto _ "rStart" _ (uset_rStart true)); try reflexivity; [|split; reflexivity]. intros h m u sv lv H.
    eexists; split; [reflexivity|split; [discriminate|reflexivity]].
  - eapply (sim_seto _ "qStart" _ (uset_qStart true)); try reflexivity; [|split; reflexivity]. intros h m u sv lv H.
    eexists; split; [reflexivity|split; [discriminate|reflexivity]].
Qed.
Lemma sim_block b : forallb oks b = true -> sims b.
Proof.
  induction b as [|s b IH]; intros K; [exact sims_nil|]. cbn [forallb] in K. apply andb_prop in K. destruct K as (K1 & K2).
  apply sims_cons; [exact (sim_stmt s K1)|exact (IH K2)].
Qed.
End Sim.
