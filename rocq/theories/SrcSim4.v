(* The text of Parse takes the steps of the model. *)
From Coq Require Import Lia.
From Verif Require Import GoAst.
From Verif Require Import GoBase MachineSyntax MachineTables Machine.
From Verif Require GoPackage.
From Verif Require Import GoSem SrcRender SrcSim SrcSim2 SrcSim3 SrcFacts.
Import ListNotations.
Local Open Scope string_scope.
Local Open Scope list_scope.
Notation package := GoPackage.package.

Lemma has_package : has package.
Proof.
  constructor; try (vm_compute; reflexivity).
  - intros x k [[= <- <-]|[[= <- <-]|[[= <- <-]|[[= <- <-]|[]]]]]; vm_compute; reflexivity.
  - intros k [<-|[<-|[<-|[]]]]; vm_compute; reflexivity.
  - intros k [<-|[<-|[<-|[]]]]; vm_compute; reflexivity.
  - intros []; vm_compute; reflexivity.
Qed.

Opaque GoPackage.package big resume_text resume_cases tr183_text again_text to_cases eof_text eof_cases.

(* the statements a label of the model stands for *)
Definition code (l : label) : option (list stm) :=
  match l with LEnter => Some big | _ => after_label (label_name l) big end.

Section Step.
Variable ext : string -> list val -> heap -> gres (heap * val).
Hypothesis Hext : forall f args h, ext "fmt.Errorf" (VStr f :: args) h = GRet (h, VErr f args).
Variables n d : nat.
Let C := call package ext n (S d).
Variable h0 : heap.
Variable dv : val.
Variables lm lu cm ci cu : loc.
Hypothesis T0 : get h0 0 = Some (Arr "byte" (table_bytes to_state_actions)).
Hypothesis T1 : get h0 1 = Some (Arr "byte" (table_bytes eof_actions)).
Hypothesis L0 : lm <> 0 /\ lm <> 1 /\ ~ at_loc dv 0 /\ ~ at_loc dv 1.
Let R := R h0 dv lm lu cm cu.
Let E := penv cm ci cu.
Let ev := eval package "" C ext.
Let ex := exec package "" C ext n.
Definition exl (b : list stm) : list (option string * sem) := map (fun s => (label_of s, exec package "" (call package ext n (S d)) ext n s)) b.

Lemma exl_app a b : exl (a ++ b) = exl a ++ exl b.
Proof. apply map_app. Qed.
Lemma goto_if c l b h h' : ev c E h = GRet (h', VBool b) ->
  ex (GoAst.SIf [] c [SGoto l] []) E h = GRet (E, h', if b then CGoto l else CNorm).
Proof.
  intros X. unfold ex. cbn [exec map seq gbind]. unfold ev in X. rewrite X. cbn [gbind].
  destruct b; unfold block; rewrite jumps_eq; reflexivity.
Qed.
Lemma seq_cons s b h e' h' : ex s E h = GRet (e', h', CNorm) -> seq (exl (s :: b)) E h = seq (exl b) e' h'.
Proof. intros A. unfold exl. cbn [map seq]. unfold ex in A. fold C. rewrite A. reflexivity. Qed.
Lemma seq_goto s b h e' h' l : ex s E h = GRet (e', h', CGoto l) -> seq (exl (s :: b)) E h = GRet (e', h', CGoto l).
Proof. intros A. unfold exl. cbn [map seq]. unfold ex in A. fold C. rewrite A. reflexivity. Qed.

(* _toStateActions[m.cs], _eofActions[m.cs] *)
Lemma ev_table x l t h m u sv lv a : R h m u sv lv -> find x (p_globals package) = Some (VSlice l 0 194) -> find x E = None ->
  (x =? "true")%string = false -> (x =? "false")%string = false -> (x =? "nil")%string = false ->
  get h0 l = Some (Arr "byte" (table_bytes t)) -> l <> lm -> ~ at_loc dv l -> List.length t = 194 ->
  forallb (fun a => N.ltb a 256) t = true ->
  index t (Z.of_N (m_cs m)) = Ret a -> exists b, ev (EIdx (EId x) (M "cs")) E h = GRet (h, VByte b) /\ Byte.to_N b = a.
Proof.
  intros H F N X1 X2 X3 T D1 D2 L K I. apply index_inv in I. destruct I as (I1 & I2).
  exists (match Byte.of_N a with Some b => b | None => x00 end). split.
  - assert (A : ev (EId x) E h = GRet (h, VSlice l 0 194)) by (apply ev_global; assumption).
    assert (A' : ev (M "cs") E h = GRet (h, vint (Z.of_N (m_cs m)))) by (eapply ev_m; [exact H|reflexivity]).
    assert (G : get h l = Some (Arr "byte" (table_bytes t))) by (apply (r_frame _ _ _ _ _ _ _ _ _ _ _ H); auto).
    unfold ev in *.
    change ((let! (h1, v) := eval package "" C ext (EId x) E h in let! (h1, i) := eval package "" C ext (M "cs") E h1 in
      let! w := elem v i h1 in GRet (h1, w)) = GRet (h, VByte match Byte.of_N a with Some b => b | None => x00 end)).
    rewrite A. cbn [gbind]. rewrite A'. cbn [gbind]. unfold elem, vint. rewrite in_bounds_ok by (unfold zlen in I1; lia).
    rewrite G. cbn [Nat.add]. unfold table_bytes. rewrite nth_error_map, I2. reflexivity.
  - rewrite forallb_forall in K. apply nth_error_In in I2. specialize (K a I2). apply N.ltb_lt in K.
    destruct (Byte.of_N a) as [b|] eqn:Q.
    + apply Byte.to_of_N in Q. exact Q.
    + apply Byte.of_N_None_iff in Q. lia.
Qed.
Lemma byte_val b k : val_eq (VByte b) (VInt "" k) = Some (Z.eqb (Z.of_N (Byte.to_N b)) k).
Proof. reflexivity. Qed.

(* a block of the model at the head of some code *)
Lemma run_block b h m u sv lv m' u' c : forallb oks b = true -> R h m u sv lv -> exec_block b (m, u) = Ret ((m', u'), c) ->
  exists h' sv' lv', seq (exl (map text_of b)) E h = GRet (E, h', ctl_of c) /\ R h' m' u' sv' lv'.
Proof.
  intros K H Q. exact (sim_block package has_package ext Hext n d C eq_refl h0 dv lm lu cm ci cu b K h m u sv lv m' u' c H Q).
Qed.
Lemma run_case x cs h m u sv lv m' u' c b : forallb oks b = true -> R h m u sv lv -> exec_block b (m, u) = Ret ((m', u'), c) ->
  forall v, ev x E h = GRet (h, VByte v) -> ints cs = true -> pick (Z.of_N (Byte.to_N v)) cs = Some (Some (map text_of b)) ->
  exists h' sv' lv', ex (SSwitch [x] cs) E h = GRet (E, h', ctl_of c) /\ R h' m' u' sv' lv'.
Proof.
  intros K H Q v X I Y. destruct (run_block _ _ _ _ _ _ _ _ _ K H Q) as (h' & sv' & lv' & A & H'). exists h', sv', lv'. split; [|exact H'].
  unfold ex. rewrite (pick_ok _ _ _ _ _ _ _ _ _ _ _ _ X (byte_val v) I Y). eapply block_ok; [exact A|]. intros l _. apply after_text.
Qed.

Lemma label_dec (cs : N) : Z.eqb (Z.of_N cs) 0 = N.eqb cs 0.
Proof. destruct (N.eqb_spec cs 0) as [->|D]; [reflexivity|]. apply Z.eqb_neq. lia. Qed.

(* after the code c in h comes the label l' in h1: by a jump, or by falling through *)
Definition follows (c : list stm) (h : heap) (l' : label) (h1 : heap) : Prop :=
  (seq (exl c) E h = GRet (E, h1, CGoto (label_name l')) /\ l' <> LEnter) \/
  (exists c', code l' = Some c' /\ seq (exl c) E h = seq (exl c') E h1).
Definition takes (l : label) : Prop := forall m u l' m' u' h sv lv, R h m u sv lv -> step l (m, u) = Ret (l', (m', u')) ->
  exists c, code l = Some c /\ exists h1 sv1 lv1, R h1 m' u' sv1 lv1 /\ follows c h l' h1.

Lemma takes_enter : takes LEnter.
Proof.
  intros m u l' m' u' h sv lv H S. exists big. split; [reflexivity|].
  destruct big_parts as (PB1 & PB2). cbn [step] in S.
  assert (A1 : ev (EBin "==" (M "p") (M "pe")) E h = GRet (h, VBool (m_p m =? m_pe m)%Z)).
  { eapply ev_bin; [reflexivity|eapply ev_m; [exact H|reflexivity]|eapply ev_m; [exact H|reflexivity]|reflexivity]. }
  assert (A2 : ev (EBin "==" (M "cs") (EInt 0)) E h = GRet (h, VBool (N.eqb (m_cs m) 0))).
  { eapply ev_bin; [reflexivity|eapply ev_m; [exact H|reflexivity]|reflexivity|]. cbn. rewrite label_dec. reflexivity. }
  apply (goto_if _ "_testEof") in A1. apply (goto_if _ "_out") in A2. unfold follows. rewrite PB1. unfold enter_text. cbn [app].
  destruct (m_p m =? m_pe m)%Z.
  - inversion S. subst l' m' u'. exists h, sv, lv. split; [exact H|]. left. split; [|discriminate]. exact (seq_goto _ _ _ _ _ _ A1).
  - rewrite (seq_cons _ _ _ _ _ A1). destruct (N.eqb (m_cs m) 0).
    + inversion S. subst l' m' u'. exists h, sv, lv. split; [exact H|]. left. split; [|discriminate]. exact (seq_goto _ _ _ _ _ _ A2).
    + inversion S. subst l' m' u'. exists h, sv, lv. split; [exact H|]. right. exists resume_text. split; [exact PB2|].
      rewrite (seq_cons _ _ _ _ _ A2). reflexivity.
Qed.
Lemma takes_resume : takes LResume.
Proof.
  intros m u l' m' u' h sv lv H S. exists resume_text. destruct big_parts as (_ & PB2). destruct resume_parts as (PR1 & PR2).
  split; [exact PB2|]. unfold follows. rewrite PR1. cbn [app]. cbn [step] in S.
  assert (X : ev (M "cs") E h = GRet (h, vint (Z.of_N (m_cs m)))) by (eapply ev_m; [exact H|reflexivity]).
  assert (V : forall k, val_eq (vint (Z.of_N (m_cs m))) (VInt "" k) = Some (Z.eqb (Z.of_N (m_cs m)) k)) by reflexivity.
  destruct (N.ltb_spec 193 (m_cs m)) as [W|W].
  - destruct (N.eqb_spec (m_cs m) 0); [lia|]. inversion S. subst l' m' u'. exists h, sv, lv. split; [exact H|]. right. exists tr183_text.
    split; [exact tr183_part|].
    rewrite (seq_cons _ _ _ E h); [reflexivity|]. unfold ex.
    rewrite (pick_ok _ _ _ _ _ _ _ _ _ _ _ _ X V PR2 (row_above _ W)). reflexivity.
  - destruct (N.eqb_spec (m_cs m) 0) as [Z0|Z0].
    { inversion S. subst l' m' u'. exists h, sv, lv. split; [exact H|]. left. split; [|discriminate].
      apply seq_goto. unfold ex. rewrite Z0 in V, X. cbn [Z.of_N] in V, X.
      rewrite (pick_ok _ _ _ _ _ _ _ _ _ _ _ _ X V PR2 row_zero).
      unfold block. rewrite jumps_eq. reflexivity. }
    destruct (index (m_data m) (m_p m)) as [b| |] eqn:I; try discriminate S. cbn [bind] in S.
    assert (Hb : ev (EIdx (M "data") (M "p")) E h = GRet (h, VByte b)).
    { pose proof (data_elem _ _ _ _ _ "" (r_d _ _ _ _ _ _ _ _ _ _ _ H) I) as Y.
      assert (Y1 : ev (M "data") E h = GRet (h, dv)) by (eapply ev_m; [exact H|reflexivity]).
      assert (Y2 : ev (M "p") E h = GRet (h, vint (m_p m))) by (eapply ev_m; [exact H|reflexivity]).
      unfold ev in *.
      change ((let! (h1, v) := eval package "" C ext (M "data") E h in let! (h1, i) := eval package "" C ext (M "p") E h1 in
        let! w := elem v i h1 in GRet (h1, w)) = GRet (h, VByte b)).
      rewrite Y1. cbn [gbind]. rewrite Y2. cbn [gbind]. unfold vint. rewrite Y. reflexivity. }
    destruct (row_at (m_cs m) b W) as (r & Q & A).
    pose proof (abody_ok package "" C ext n E h (astm 4 b) (astm_ok package "" C ext n E h b Hb 4) _ _ A) as Y.
    assert (Y2 : ex (SSwitch [M "cs"] resume_cases) E h = GRet (E, h, CGoto (target (resume_switch (m_cs m) (Byte.to_N b))))).
    { unfold ex. rewrite (pick_ok _ _ _ _ _ _ _ _ _ _ _ _ X V PR2 Q). exact Y. }
    destruct (resume_switch (m_cs m) (Byte.to_N b)) as [k|]; cbn [target] in Y2;
      inversion S; subst l' m' u'; exists h, sv, lv; (split; [exact H|]); left; (split; [|discriminate]); exact (seq_goto _ _ _ _ _ _ Y2).
Qed.
Lemma seq_app_goto a b h h1 l : seq (exl a) E h = GRet (E, h1, CGoto l) -> seq (exl (a ++ b)) E h = GRet (E, h1, CGoto l).
Proof. intros A. rewrite exl_app, seq_app, A. reflexivity. Qed.
Lemma takes_tr k : takes (LTr k).
Proof.
  intros m u l' m' u' h sv lv H S. cbn [step] in S. destruct (tr_at k) as (r & Q); [destruct (tr_block k); discriminate|].
  exists (tr_text k ++ r). split; [exact Q|]. clear Q. unfold follows.
  unfold tr_text. destruct (tr_block k) as [(cs', o)|]; try discriminate S.
  destruct (run_block [SSetCS cs'] h m u sv lv (set_cs cs' m) u Fall eq_refl H eq_refl) as (h1 & sv1 & lv1 & A & H1).
  assert (B : forall l, seq (exl ([text_of (SSetCS cs'); SGoto l])) E h = GRet (E, h1, CGoto l)).
  { intros l. change ([text_of (SSetCS cs'); SGoto l]) with (map text_of [SSetCS cs'] ++ [SGoto l]). rewrite exl_app, seq_app, A. reflexivity. }
  destruct o as [f|]; inversion S; subst l' m' u'; exists h1, sv1, lv1; (split; [exact H1|]); left; (split; [|discriminate]);
    exact (seq_app_goto _ _ _ _ _ (B _)).
Qed.
Lemma takes_f k : takes (LF k).
Proof.
  intros m u l' m' u' h sv lv H S. cbn [step] in S. destruct (f_block k) as [b|] eqn:F; try discriminate S.
  destruct (f_at k b F) as (r & Q). exists (map text_of b ++ r). split; [exact Q|].
  destruct (exec_block b (m, u)) as [((m1, u1), [|])| |] eqn:X; try discriminate S. cbn [bind] in S. inversion S. subst l' m' u'.
  destruct (block_oks k) as (O & _). rewrite F in O.
  destruct (run_block _ _ _ _ _ _ _ _ _ O H X) as (h1 & sv1 & lv1 & A & H1). exists h1, sv1, lv1. split; [exact H1|]. left. split; [|discriminate].
  exact (seq_app_goto _ _ _ _ _ A).
Qed.
Lemma takes_again : takes LAgain.
Proof.
  intros m u l' m' u' h sv lv H S. cbn [step] in S. destruct again_parts as (PA1 & PA2 & PA3). destruct eof_parts as (PE1 & _).
  destruct tables as (_ & G0 & _ & N0 & _ & S0 & _). destruct L0 as (D0 & _ & D2 & _).
  exists again_text. split; [exact PA1|]. unfold follows. rewrite PA3. cbn [app].
  destruct (index to_state_actions (Z.of_N (m_cs m))) as [a| |] eqn:I; try discriminate S. cbn [bind] in S.
  destruct (ev_table "_toStateActions" 0 to_state_actions h m u sv lv a H G0 eq_refl eq_refl eq_refl eq_refl T0 ltac:(auto) D2 N0 S0 I) as (b & X & <-).
  pose proof (to_at (Byte.to_N b) (Byte.to_N_bounded b)) as Q.
  destruct (to_state_block (Byte.to_N b)) as [bl|] eqn:F; cbn [option_map] in Q.
  - destruct (exec_block bl (m, u)) as [((m1, u1), [|])| |] eqn:Y; try discriminate S. cbn [bind] in S. inversion S. subst l' m' u'.
    destruct (block_oks (Byte.to_N b)) as (_ & O & _). rewrite F in O.
    destruct (run_case _ _ _ _ _ _ _ _ _ _ _ O H Y _ X PA2 Q) as (h1 & sv1 & lv1 & A & H1).
    exists h1, sv1, lv1. split; [exact H1|]. left. split; [|discriminate]. exact (seq_goto _ _ _ _ _ _ A).
  - assert (Z : ex (SSwitch [EIdx (EId "_toStateActions") (M "cs")] to_cases) E h = GRet (E, h, CNorm)).
    { unfold ex. rewrite (pick_ok _ _ _ _ _ _ _ _ _ _ _ _ X (byte_val b) PA2 Q). reflexivity. }
    rewrite (seq_cons _ _ _ _ _ Z).
    assert (A2 : ev (EBin "==" (M "cs") (EInt 0)) E h = GRet (h, VBool (N.eqb (m_cs m) 0))).
    { eapply ev_bin; [reflexivity|eapply ev_m; [exact H|reflexivity]|reflexivity|]. cbn. rewrite label_dec. reflexivity. }
    apply (goto_if _ "_out") in A2.
    destruct (N.eqb (m_cs m) 0).
    + inversion S. subst l' m' u'. exists h, sv, lv. split; [exact H|]. left. split; [|discriminate]. exact (seq_goto _ _ _ _ _ _ A2).
    + rewrite (seq_cons _ _ _ _ _ A2).
      destruct (inc_m package ext n C h0 dv lm lu cm cu E h m u sv lv "++" _ eq_refl H eq_refl) as (h1 & B & H1). cbn [String.eqb Ascii.eqb Bool.eqb] in H1.
      assert (A3 : ev (EBin "!=" (M "p") (M "pe")) E h1 = GRet (h1, VBool (negb (m_p (set_p (m_p m + 1) m) =? m_pe (set_p (m_p m + 1) m))%Z))).
      { eapply ev_bin; [reflexivity|eapply ev_m; [exact H1|reflexivity]|eapply ev_m; [exact H1|reflexivity]|reflexivity]. }
      assert (A4 : ex (GoAst.SIf [SIncDec "++" (M "p")] (EBin "!=" (M "p") (M "pe")) [SGoto "_resume"] []) E h =
        GRet (E, h1, if negb (m_p (set_p (m_p m + 1) m) =? m_pe (set_p (m_p m + 1) m))%Z then CGoto "_resume" else CNorm)).
      { unfold ex. eapply ex_if; [|exact A3|].
        - cbn [map seq]. unfold C in B |- *. rewrite B. reflexivity.
        - destruct (negb _); unfold block; rewrite jumps_eq; reflexivity. }
      destruct (m_p (set_p (m_p m + 1) m) =? m_pe (set_p (m_p m + 1) m))%Z; cbn [negb] in A4;
        inversion S; subst l' m' u'; exists h1, sv, lv; (split; [exact H1|]).
      * right. exists eof_text. split; [exact PE1|]. rewrite (seq_cons _ _ _ _ _ A4). reflexivity.
      * left. split; [|discriminate]. exact (seq_goto _ _ _ _ _ _ A4).
Qed.
Lemma takes_eof : takes LTestEof.
Proof.
  intros m u l' m' u' h sv lv H S. cbn [step] in S. destruct eof_parts as (PE1 & PE2 & PO & PE3).
  destruct tables as (_ & _ & G1 & _ & N1 & _ & S1). destruct L0 as (_ & D1 & _ & D3).
  exists eof_text. split; [exact PE1|]. unfold follows. rewrite PE3.
  rewrite (seq_cons _ _ h E h) by (unfold ex; cbn [exec map]; unfold block; rewrite jumps_eq; reflexivity).
  assert (A1 : ev (EBin "==" (M "p") (M "eof")) E h = GRet (h, VBool (m_p m =? m_eof m)%Z)).
  { eapply ev_bin; [reflexivity|eapply ev_m; [exact H|reflexivity]|eapply ev_m; [exact H|reflexivity]|reflexivity]. }
  assert (OUT : forall h1, seq (exl [SLabel "_out"; SBlock []]) E h1 = seq (exl [SBlock []]) E h1) by reflexivity.
  assert (W : forall h1 e3 k, block n (map (fun s => (label_of s, ex s)) (if (m_p m =? m_eof m)%Z then [SSwitch [EIdx (EId "_eofActions") (M "cs")] eof_cases] else [])) E h
    = GRet (e3, h1, k) ->
    ex (GoAst.SIf [] (EBin "==" (M "p") (M "eof")) [SSwitch [EIdx (EId "_eofActions") (M "cs")] eof_cases] []) E h = GRet (E, h1, k)).
  { intros h1 e3 k B. unfold ex. eapply ex_if; [reflexivity|exact A1|exact B]. }
  destruct (m_p m =? m_eof m)%Z.
  - destruct (index eof_actions (Z.of_N (m_cs m))) as [a| |] eqn:I; try discriminate S. cbn [bind] in S.
    destruct (ev_table "_eofActions" 1 eof_actions h m u sv lv a H G1 eq_refl eq_refl eq_refl eq_refl T1 ltac:(auto) D3 N1 S1 I) as (b & X & <-).
    pose proof (eof_at (Byte.to_N b) (Byte.to_N_bounded b)) as Q.
    destruct (eof_block (Byte.to_N b)) as [bl|] eqn:F; cbn [option_map] in Q.
    + destruct (exec_block bl (m, u)) as [((m1, u1), c)| |] eqn:Y; try discriminate S. cbn [bind] in S.
      destruct (block_oks (Byte.to_N b)) as (_ & _ & O). rewrite F in O.
      destruct (run_case _ _ _ _ _ _ _ _ _ _ _ O H Y _ X PE2 Q) as (h1 & sv1 & lv1 & A & H1).
      assert (B : block n (map (fun s => (label_of s, ex s)) [SSwitch [EIdx (EId "_eofActions") (M "cs")] eof_cases]) E h = GRet (E, h1, ctl_of c)).
      { apply block_ok with (e' := E); [|reflexivity]. cbn [map seq]. rewrite A. destruct c; reflexivity. }
      apply W in B. destruct c; cbn [ctl_of] in B; inversion S; subst l' m' u'; exists h1, sv1, lv1; (split; [exact H1|]).
      * right. exists [SBlock []]. split; [exact PO|]. rewrite (seq_cons _ _ _ _ _ B). apply OUT.
      * left. split; [|discriminate]. exact (seq_goto _ _ _ _ _ _ B).
    + inversion S. subst l' m' u'. exists h, sv, lv. split; [exact H|]. right. exists [SBlock []]. split; [exact PO|].
      rewrite (seq_cons _ _ h E h); [apply OUT|]. apply (W h E). apply block_ok with (e' := E); [|reflexivity].
      cbn [map seq]. unfold ex. rewrite (pick_ok _ _ _ _ _ _ _ _ _ _ _ _ X (byte_val b) PE2 Q). reflexivity.
  - inversion S. subst l' m' u'. exists h, sv, lv. split; [exact H|]. right. exists [SBlock []]. split; [exact PO|].
    rewrite (seq_cons _ _ h E h); [apply OUT|]. apply (W h E). unfold block. rewrite jumps_eq. reflexivity.
Qed.
Lemma takes_step l : l <> LOut -> takes l.
Proof.
  intros N. destruct l; [exact takes_enter|exact takes_resume|apply takes_tr|apply takes_f|exact takes_again|exact takes_eof|destruct (N eq_refl)].
Qed.

(* ---- runs ------------------------------------------------------------------------------------------ *)
Lemma run_sim : forall f l m u m' u' h sv lv c k, R h m u sv lv -> Machine.run f l (m, u) = Ret (m', u') -> code l = Some c -> f <= k ->
  exists h' sv' lv', jumps k (exl big) (exl c) E h = GRet (E, h', CNorm) /\ R h' m' u' sv' lv'.
Proof.
  induction f as [|f IH]; intros l m u m' u' h sv lv c k H Q K F.
  - destruct l; try discriminate Q. inversion Q. subst m' u'. destruct eof_parts as (_ & _ & PO & _). cbn [code label_name] in K. rewrite PO in K.
    inversion K. subst c. exists h, sv, lv. split; [|exact H]. rewrite jumps_eq. unfold exl. cbn [map seq exec]. unfold block. rewrite jumps_eq. reflexivity.
  - assert (D : l = LOut \/ l <> LOut) by (destruct l; first [left; reflexivity|right; discriminate]).
    destruct D as [-> | D].
    { inversion Q. subst m' u'. destruct eof_parts as (_ & _ & PO & _). cbn [code label_name] in K. rewrite PO in K.
      inversion K. subst c. exists h, sv, lv. split; [|exact H]. rewrite jumps_eq. unfold exl. cbn [map seq exec]. unfold block. rewrite jumps_eq. reflexivity. }
    assert (Q' : (do r <- step l (m, u); let '(l', x') := r in Machine.run f l' x') = Ret (m', u')) by (destruct l; try exact Q; destruct (D eq_refl)).
    clear Q. destruct (step l (m, u)) as [(l1, (m1, u1))| |] eqn:S; try discriminate Q'. cbn [bind] in Q'.
    destruct (takes_step l D _ _ _ _ _ _ _ _ H S) as (c0 & K0 & h1 & sv1 & lv1 & H1 & [(A & NE)|(c1 & K1 & A)]); rewrite K in K0; inversion K0; subst c0.
    + destruct k as [|k]; [lia|].
      assert (exists c1, code l1 = Some c1 /\ after_label (label_name l1) big = Some c1) as (c1 & K1 & K2).
      { destruct (code l1) as [c1|] eqn:Z.
        - exists c1. split; [reflexivity|]. destruct l1; try exact Z. destruct (NE eq_refl).
        - assert (D1 : l1 <> LOut). { intros ->. destruct eof_parts as (_ & _ & PO & _). cbn [code label_name] in Z. rewrite PO in Z. discriminate Z. }
          destruct f as [|f]; [destruct l1; try discriminate Q'; destruct (D1 eq_refl)|].
          assert (Q2 : (do r <- step l1 (m1, u1); let '(l', x') := r in Machine.run f l' x') = Ret (m', u')) by (destruct l1; try exact Q'; destruct (D1 eq_refl)).
          destruct (step l1 (m1, u1)) as [(l2, (m2, u2))| |] eqn:S2; try discriminate Q2.
          destruct (takes_step l1 D1 _ _ _ _ _ _ _ _ H1 S2) as (c1 & K1 & _). rewrite Z in K1. discriminate. }
      destruct (IH l1 m1 u1 m' u' h1 sv1 lv1 c1 k H1 Q' K1 ltac:(lia)) as (h' & sv' & lv' & J & H').
      exists h', sv', lv'. split; [|exact H']. rewrite jumps_eq, A. cbn [gbind]. unfold exl at 1. rewrite after_map, K2. exact J.
    + destruct (IH l1 m1 u1 m' u' h1 sv1 lv1 c1 k H1 Q' K1 ltac:(lia)) as (h' & sv' & lv' & J & H').
      exists h', sv', lv'. split; [|exact H']. rewrite jumps_eq in J |- *. rewrite A. exact J.
Qed.
End Step.
