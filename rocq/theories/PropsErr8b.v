(* The errors of RFC 8141 mode: r-component, q-component, NID and whole inputs (C25). *)
From Coq Require Import Lia.
From Verif Require Import GoBase MachineSyntax MachineTables Machine Urn Spec SpecErr SpecErr8 Ref Exec SimBase
  Sim8141 ParseThm RefSpec RefSpec8 RefSpec8b Api PropsA PropsB PropsErr PropsErr8.
Local Open Scope Z_scope.

(* ---- repeated component starts ------------------------------------------------------------ *)
Definition goes (y : bytes) : Prop := stops (fun c => pchar c = true \/ c = "%"%byte \/ c = "?"%byte \/ c = "#"%byte) y.
Lemma restart_nil w y : w <> [] -> ~ restart w [] y.
Proof. intros Hw [[v E] _]. destruct v; [destruct w; [contradiction Hw; reflexivity|discriminate E]|discriminate E]. Qed.
Lemma restart_cons b c x y : restart ["?"%byte; b] (c :: x) y <-> restart ["?"%byte; b] x y \/ (c = "?"%byte /\ x = [b] /\ goes y).
Proof.
  unfold restart. split.
  - intros [[v E] H]. destruct v as [|d v]; injection E as -> ->; [right; auto|]. left. split; [exists v; reflexivity|exact H].
  - intros [[[v ->] H]|(-> & -> & H)]; (split; [|exact H]); [exists (c :: v)|exists []]; reflexivity.
Qed.
Lemma restart_plain b c x y : c <> "?"%byte -> restart ["?"%byte; b] (c :: x) y <-> restart ["?"%byte; b] x y.
Proof. intros H. rewrite restart_cons. tauto. Qed.
Lemma restart_q b c x y : c <> b -> restart ["?"%byte; b] ("?"%byte :: c :: x) y <-> restart ["?"%byte; b] (c :: x) y.
Proof. intros H. rewrite restart_cons. split; [intros [K|(_ & K & _)]; [exact K|injection K as -> _; contradiction H; reflexivity]|auto]. Qed.
Lemma restart_hit b y : restart ["?"%byte; b] ["?"%byte; b] y <-> goes y.
Proof. unfold restart. split; [intros [_ H]; exact H|]. intros H. split; [exists []; reflexivity|exact H]. Qed.
Lemma restart_one b c y : ~ restart ["?"%byte; b] [c] y.
Proof. intros [[v E] _]. destruct v as [|d v]; [discriminate E|]. injection E as _ E. destruct v; discriminate E. Qed.

Lemma alnum_q a : alnum a = true -> a <> "?"%byte.
Proof. intros H ->. discriminate H. Qed.
Ltac side := first [discriminate|assumption|apply alnum_pct; assumption|apply alnum_q; assumption].
Ltac rnorm := repeat first [rewrite in_esc_plain by side|rewrite restart_plain by side|rewrite restart_q by side].

(* ---- q-component ---------------------------------------------------------------------------- *)
Definition qcx (k : qpos) : bytes := match k with QHex => B "%00" | QQ => B "?" | QQEq => B "?=" | _ => [] end.
Definition qres (k : qpos) (w : bytes) : Prop :=
  escaped alnum frag_char w /\ occ "?" "=" slashed (qctx k ++ w).
Definition errs_q (P : bytes -> Prop) (k : qpos) :=
  errs ErrHex Err8141QComponentStart Err8141MalformedQComp P (fun x => in_esc (qcx k ++ x)) (fun x y => restart ["?"%byte; "="%byte] (qcx k ++ x) y).

Lemma qres_pct k : k <> QQEq -> pct_lang (qres k).
Proof.
  intros Hk. split.
  - intros a Ha. split; [apply esc_pct; [exact Ha|reflexivity|apply esc_nil]|]. rewrite occ_ctx by (auto; discriminate).
    rewrite occ_other by (apply alnum_ne; auto). apply occ_one.
  - intros w [H _]. apply esc_p in H; [|reflexivity]. destruct H as (a & b & r & -> & Ha & Hb & _). exists a, b, r. auto.
Qed.
Lemma qres_ext k : extends (qres k) [].
Proof.
  exists (B "/"). split; [apply esc_plain; [reflexivity|apply esc_nil]|]. destruct k; cbn [qctx app]; try apply occ_one.
  - change (B "?" ++ B "/") with ["?"%byte; "/"%byte]. rewrite occ_miss by discriminate. apply occ_one.
  - change (B "?=" ++ B "/") with ["?"%byte; "="%byte; "/"%byte]. rewrite occ_hit by discriminate. split; [eexists; reflexivity|apply occ_one].
Qed.
Lemma qres_3 k a b w : k <> QQEq -> alnum a = true -> alnum b = true -> qres k ("%"%byte :: a :: b :: w) <-> qres QHex w.
Proof.
  intros Hk Ha Hb. unfold qres. rewrite esc_3 by (auto; reflexivity). rewrite occ_ctx by (auto; discriminate).
  rewrite !occ_other by (apply alnum_ne; auto). reflexivity.
Qed.
Lemma qres_c k c w : k <> QQEq -> c <> "%"%byte -> c <> "?"%byte -> (k = QQ -> c <> "="%byte) -> frag_char c = true ->
  qres k (c :: w) <-> qres QPlain w.
Proof.
  intros Hk Hc Hq He Hf. unfold qres. rewrite esc_c by exact Hc. rewrite occ_ctx by assumption. cbn [qctx app]. tauto.
Qed.
Lemma qres_q k w : k = QPlain \/ k = QHex \/ k = QQ -> qres k ("?"%byte :: w) <-> qres QQ w.
Proof.
  intros Hk. unfold qres. rewrite esc_c by discriminate. change (qctx QQ ++ w) with ("?"%byte :: w).
  destruct Hk as [->|[->| ->]]; cbn [qctx app]; [tauto|tauto|]. change (B "?" ++ "?"%byte :: w) with ("?"%byte :: "?"%byte :: w).
  rewrite occ_miss by discriminate. cbn. tauto.
Qed.
Lemma qres_eq w : qres QQ ("="%byte :: w) <-> qres QQEq w.
Proof. unfold qres. rewrite esc_c by discriminate. change (qctx QQ ++ "="%byte :: w) with (qctx QQEq ++ w). cbn. tauto. Qed.
Lemma qres_slash w : qres QQEq ("/"%byte :: w) <-> qres QPlain w.
Proof.
  unfold qres. rewrite esc_c by discriminate. change (qctx QQEq ++ "/"%byte :: w) with ("?"%byte :: "="%byte :: "/"%byte :: w).
  rewrite occ_hit by discriminate. rewrite occ_other by discriminate. cbn. split; [tauto|]. intros [H1 H2]. split; [auto|]. split; [eexists; reflexivity|exact H2].
Qed.
Lemma qres_eq_no c w : c <> "/"%byte -> ~ qres QQEq (c :: w).
Proof.
  intros Hc [_ H]. change (qctx QQEq ++ c :: w) with ("?"%byte :: "="%byte :: c :: w) in H. rewrite occ_hit in H by discriminate.
  destruct H as [[y E] _]. injection E as ->. contradiction Hc; reflexivity.
Qed.

Lemma qcx_esc k x : k <> QQEq -> k <> QHex -> in_esc (qcx k ++ x) <-> in_esc x.
Proof. intros H1 H2. destruct k; try contradiction; cbn [qcx app]; try reflexivity. change (B "?" ++ x) with ("?"%byte :: x). apply in_esc_plain. discriminate. Qed.
Lemma goes_head c s : c <> "/"%byte -> c <> "%"%byte -> (pchar c || is "?" c || is "#" c = true <-> goes (c :: s)).
Proof.
  intros Hs Hp. unfold goes, stops. split.
  - intros H. right. exists c, s. split; [reflexivity|]. apply orb_true_iff in H as [H|H]; [apply orb_true_iff in H as [H|H]|];
      [left; exact H|right; right; left; apply is_eq; exact H|right; right; right; apply is_eq; exact H].
  - intros [H|(d & y & E & H)]; [discriminate H|]. injection E as <- <-. destruct H as [H|[H|[H|H]]]; [rewrite H; reflexivity|contradiction|subst c; reflexivity|subst c; reflexivity].
Qed.

Lemma q_err n : forall s, (List.length s <= n)%nat -> forall e0 k pos e, k <> QStart ->
  ref_q PRFC8141Only e0 k pos s = WErr e -> errs_q (qres k) k pos s e.
Proof.
  assert (Hdup : forall pos s, (forall c s', s = c :: s' -> c <> "/"%byte) -> goes s -> errs_q (qres QQEq) QQEq pos s (mkErr Err8141QComponentStart pos)).
  { intros pos s Hs Hg. apply errs_here; [apply qres_ext|intros c s' w E; apply qres_eq_no; eapply Hs; exact E|].
    right; left. split; [cbn [qcx app]; change (B "?=" ++ []) with ["?"%byte; "="%byte]; rnorm; apply in_esc_nil|]. split; [|reflexivity].
    apply restart_hit. exact Hg. }
  assert (Hnil : forall e0 k pos e, k <> QStart -> ref_q PRFC8141Only e0 k pos [] = WErr e -> errs_q (qres k) k pos [] e).
  { intros e0 k pos e Hk H. destruct k; try discriminate H; [contradiction Hk; reflexivity|]. injection H as <-. apply Hdup; [discriminate|left; reflexivity]. }
  induction n as [|n IH]; intros s Hn e0 k pos e Hk; (destruct s as [|c s1]; [apply Hnil; exact Hk|]); [cbn in Hn; lia|].
  cbn [ref_q]. cbn [List.length] in Hn. change (hx PRFC8141Only Err8141MalformedQComp) with ErrHex.
  replace (match k with QStart => e0 | _ => ErrHex end) with ErrHex by (destruct k; try reflexivity; contradiction Hk; reflexivity).
  destruct (is "%" c) eqn:Ec.
  - apply is_eq in Ec. subst c. destruct (match k with QQEq => true | _ => false end) eqn:Ek.
    { destruct k; try discriminate Ek. intros H. injection H as <-. apply Hdup; [intros c s' E; injection E as <- _; discriminate|]. right. exists "%"%byte, s1. auto. }
    assert (Hk2 : k <> QQEq) by (intros ->; discriminate Ek).
    match goal with |- ?X = WErr e -> _ => assert (HX : X = match s1 with
            | [] => WErr (mkErr ErrHex (pos + 1))
            | a :: s2 =>
                if alnum a then
                  match s2 with
                  | [] => WErr (mkErr ErrHex (pos + 2))
                  | b :: s3 =>
                      if alnum b then wcons "%"%byte (wcons a (wcons b (ref_q PRFC8141Only e0 QHex (pos + 3) s3)))
                      else WErr (mkErr ErrHex (pos + 2))
                  end
                else WErr (mkErr ErrHex (pos + 1))
            end) by (destruct k; try reflexivity; discriminate Ek); rewrite HX; clear HX end.
    pose proof (qres_pct k Hk2) as HP. destruct s1 as [|a s2].
    { intros H. injection H as <-. apply errs_half1; [exact HP|apply in_esc_app, in_esc_half1|left; reflexivity]. }
    destruct (alnum a) eqn:Ea.
    2:{ intros H. injection H as <-. apply errs_half1; [exact HP|apply in_esc_app, in_esc_half1|right; eauto]. }
    destruct s2 as [|b s3].
    { intros H. injection H as <-. apply errs_half2; [exact HP|apply in_esc_app, in_esc_half2|exact Ea|left; reflexivity]. }
    destruct (alnum b) eqn:Eb.
    2:{ intros H. injection H as <-. apply errs_half2; [exact HP|apply in_esc_app, in_esc_half2|exact Ea|right; eauto]. }
    rewrite !wcons_err. intros H. apply IH in H; [|cbn in Hn; lia|discriminate]. eapply errs_step3; [| | |exact H].
    + intros w. apply qres_3; assumption.
    + intros x. cbv beta. destruct k; try contradiction; cbn [qcx app]; rewrite ?in_esc_00; [apply in_esc_3; assumption..|].
      change (B "?" ++ "%"%byte :: a :: b :: x) with ("?"%byte :: "%"%byte :: a :: b :: x). rewrite in_esc_plain by discriminate. apply in_esc_3; assumption.
    + intros x y. cbv beta. destruct k; try contradiction; cbn [qcx app]; change (B "%00" ++ x) with ("%"%byte :: "0"%byte :: "0"%byte :: x);
      [|change (B "%00" ++ "%"%byte :: a :: b :: x) with ("%"%byte :: "0"%byte :: "0"%byte :: "%"%byte :: a :: b :: x)|change (B "?" ++ "%"%byte :: a :: b :: x) with ("?"%byte :: "%"%byte :: a :: b :: x)]; rnorm; reflexivity.
  - pose proof (is_ne _ _ Ec) as Hc.
    assert (Hplain : k <> QQEq -> frag_char c = true -> c <> "?"%byte -> (k = QQ -> c <> "="%byte) ->
      wcons c (ref_q PRFC8141Only e0 QPlain (pos + 1) s1) = WErr e -> errs_q (qres k) k pos (c :: s1) e).
    { intros Hk2 Hf Hq He. rewrite wcons_err. intros H. apply IH in H; [|lia|discriminate]. eapply errs_step; [| | |exact H].
      - intros w. apply qres_c; assumption.
      - intros x. cbv beta. destruct k; try contradiction; cbn [qcx app]; rewrite ?in_esc_00; try (change (B "?" ++ c :: x) with ("?"%byte :: c :: x)); rnorm; reflexivity.
      - intros x y. cbv beta. destruct k; try contradiction; cbn [qcx app].
        + rnorm. reflexivity.
        + change (B "%00" ++ c :: x) with ("%"%byte :: "0"%byte :: "0"%byte :: c :: x). rnorm. reflexivity.
        + change (B "?" ++ c :: x) with ("?"%byte :: c :: x). rewrite restart_q by (apply He; reflexivity). rnorm. reflexivity. }
    assert (Hqq : k = QPlain \/ k = QHex \/ k = QQ -> c = "?"%byte ->
      wcons c (ref_q PRFC8141Only e0 QQ (pos + 1) s1) = WErr e -> errs_q (qres k) k pos (c :: s1) e).
    { intros Hk2 ->. rewrite wcons_err. intros H. apply IH in H; [|lia|discriminate]. eapply errs_step; [| | |exact H].
      - intros w. apply qres_q; assumption.
      - intros x. cbv beta. change (qcx QQ ++ x) with ("?"%byte :: x). destruct Hk2 as [->|[->| ->]]; cbn [qcx app]; rewrite ?in_esc_00; try reflexivity.
        change (B "?" ++ "?"%byte :: x) with ("?"%byte :: "?"%byte :: x). rnorm. reflexivity.
      - intros x y. cbv beta. change (qcx QQ ++ x) with ("?"%byte :: x). destruct Hk2 as [->|[->| ->]]; cbn [qcx app]; try reflexivity.
        + change (B "%00" ++ "?"%byte :: x) with ("%"%byte :: "0"%byte :: "0"%byte :: "?"%byte :: x). rnorm. reflexivity.
        + change (B "?" ++ "?"%byte :: x) with ("?"%byte :: "?"%byte :: x). rewrite restart_q by discriminate. reflexivity. }
    assert (Hbad : frag_char c = false -> k <> QQEq -> errs_q (qres k) k pos (c :: s1)
       (mkErr (match k with QHex => ErrHex | _ => Err8141MalformedQComp end) pos)).
    { intros Hf Hk2. apply errs_here; [apply qres_ext| |].
      - intros d s' w E [H _]. injection E as <- <-. apply esc_c in H; [|exact Hc]. destruct H; congruence.
      - destruct k; try contradiction; cbn [qcx app].
        + right; right. split; [apply in_esc_nil|]. split; [apply restart_nil; discriminate|reflexivity].
        + left. split; [apply in_esc_hex|reflexivity].
        + right; right. split; [change (B "?" ++ []) with ["?"%byte]; rnorm; apply in_esc_nil|]. split; [apply restart_one|reflexivity]. }
    assert (Hfr : is "?" c = false -> pchar_slash c = false -> frag_char c = false).
    { intros H1 H2. destruct (frag_char c) eqn:E; [|reflexivity]. destruct (frag_inv _ E) as [H|[->| ->]]; [|discriminate H2|discriminate H1].
      rewrite (pchar_slash_of _ H) in H2. discriminate H2. }
    destruct k.
    + contradiction Hk; reflexivity.
    + destruct (is "#" c); [discriminate|]. destruct (is "?" c) eqn:Eq; [apply Hqq; [auto|apply is_eq; exact Eq]|].
      destruct (pchar_slash c) eqn:Ep; [apply Hplain; [discriminate|apply frag_ps; exact Ep|apply is_ne; exact Eq|discriminate]|].
      intros H. injection H as <-. apply Hbad; [apply Hfr; auto|discriminate].
    + destruct (is "#" c); [discriminate|]. destruct (is "?" c) eqn:Eq; [apply Hqq; [auto|apply is_eq; exact Eq]|].
      destruct (pchar_slash c) eqn:Ep; [apply Hplain; [discriminate|apply frag_ps; exact Ep|apply is_ne; exact Eq|discriminate]|].
      intros H. injection H as <-. apply Hbad; [apply Hfr; auto|discriminate].
    + destruct (is "#" c); [discriminate|]. destruct (is "=" c) eqn:Ee.
      { apply is_eq in Ee. subst c. rewrite wcons_err. intros H. apply IH in H; [|lia|discriminate]. eapply errs_step; [| | |exact H].
        - intros w. apply qres_eq.
        - intros x. reflexivity.
        - intros x y. reflexivity. }
      destruct (is "?" c) eqn:Eq; [apply Hqq; [auto|apply is_eq; exact Eq]|].
      destruct (pchar_slash c) eqn:Ep; [apply Hplain; [discriminate|apply frag_ps; exact Ep|apply is_ne; exact Eq|intros _; apply is_ne; exact Ee]|].
      intros H. injection H as <-. apply Hbad; [apply Hfr; auto|discriminate].
    + destruct (is "/" c) eqn:Es.
      { apply is_eq in Es. subst c. rewrite wcons_err. intros H. apply IH in H; [|lia|discriminate]. eapply errs_step; [| | |exact H].
        - intros w. apply qres_slash.
        - intros x. cbv beta. change (qcx QQEq ++ "/"%byte :: x) with ("?"%byte :: "="%byte :: "/"%byte :: x). rnorm. reflexivity.
        - intros x y. cbv beta. change (qcx QQEq ++ "/"%byte :: x) with ("?"%byte :: "="%byte :: "/"%byte :: x).
          rewrite restart_cons. split; [intros [H'|(_ & H' & _)]; [|discriminate H']|intros H'; left]; revert H'; rnorm; auto. }
      pose proof (goes_head c s1 (is_ne _ _ Es) Hc) as Hg.
      destruct (pchar c || is "?" c || is "#" c) eqn:Eg.
      * intros H. injection H as <-. apply Hdup; [intros d s' E; injection E as <- _; apply is_ne; exact Es|]. apply Hg. reflexivity.
      * intros H. injection H as <-. apply errs_here; [apply qres_ext|intros d s' w E; injection E as <- _; apply qres_eq_no, is_ne; exact Es|].
        right; right. cbn [qcx app]. change (B "?=" ++ []) with ["?"%byte; "="%byte]. split; [rnorm; apply in_esc_nil|]. split; [|reflexivity].
        rewrite restart_hit, <- Hg. discriminate.
Qed.

Definition qlike (w : bytes) : Prop := q_component w \/ w = B "?=".
Lemma qlike_c c w : c <> "%"%byte -> pchar c = true -> qlike (c :: w) <-> qres QPlain w.
Proof.
  intros Hc Hp. unfold qlike, qres. rewrite q_component_iff, esc_c by exact Hc. rewrite (frag_pchar c Hp).
  rewrite occ_other by (intros ->; discriminate Hp). cbn [qctx app]. split.
  - intros [H|H]; [tauto|]. injection H as -> _. discriminate Hp.
  - intros [H1 H2]. left. split; [auto|]. split; [|exact H2]. exists c, w. split; [reflexivity|]. split; intros ->; discriminate Hp.
Qed.
Lemma qlike_3 a b w : alnum a = true -> alnum b = true -> qlike ("%"%byte :: a :: b :: w) <-> qres QHex w.
Proof.
  intros Ha Hb. unfold qlike, qres. rewrite q_component_iff, esc_3 by (auto; reflexivity). rewrite occ_other by discriminate.
  rewrite !occ_other by (apply alnum_ne; auto). cbn [qctx app]. split.
  - intros [H|H]; [tauto|discriminate H].
  - intros [H1 H2]. left. split; [auto|]. split; [|exact H2]. eexists _, _. split; [reflexivity|]. split; discriminate.
Qed.
Lemma qlike_pct : pct_lang qlike.
Proof.
  split.
  - intros a Ha. left. apply q_component_iff. split; [apply esc_pct; [exact Ha|reflexivity|apply esc_nil]|].
    split; [eexists _, _; split; [reflexivity|]; split; discriminate|]. rewrite occ_other by discriminate. rewrite occ_other by (apply alnum_ne; auto). apply occ_one.
  - intros w [H|H]; [|discriminate H]. apply q_component_iff in H. destruct H as [H _]. apply esc_p in H; [|reflexivity].
    destruct H as (a & b & r & -> & Ha & Hb & _). exists a, b, r. auto.
Qed.
Lemma qlike_no c w : pchar c = false -> c <> "%"%byte -> c <> "?"%byte -> ~ qlike (c :: w).
Proof.
  intros H1 H2 H3 [H|H]; [|injection H as -> _; contradiction H3; reflexivity]. apply q_component_iff in H. destruct H as (H & Hh & _).
  destruct (comp_open _ H Hh) as (x & r & E & Hx). injection E as <- <-. unfold qopen in Hx. rewrite H1 in Hx. apply is_eq in Hx. contradiction.
Qed.
Lemma qlike_q w : qlike ("?"%byte :: w) <-> w = B "=".
Proof.
  split.
  - intros [H|H]; [|injection H as ->; reflexivity]. apply q_component_iff in H. destruct H as (_ & (c & r & E & _ & H) & _). injection E as <- <-. contradiction H; reflexivity.
  - intros ->. right. reflexivity.
Qed.
Lemma qlike_ext : extends qlike [].
Proof. exists (B "?="). right. reflexivity. Qed.

(* leading "?" of a component *)
Lemma goes_iff s : match s with [] => true | x :: _ => pchar x || one_of "%?#" x end = true <-> goes s.
Proof.
  unfold goes, stops. destruct s as [|x s]; [split; auto|]. split.
  - intros H. right. exists x, s. split; [reflexivity|]. apply orb_true_iff in H as [H|H]; [auto|right].
    unfold one_of in H. cbn in H. destruct (Byte.eqb x "%") eqn:E1; [left; apply beq_eq; exact E1|].
    destruct (Byte.eqb x "?") eqn:E2; [right; left; apply beq_eq; exact E2|]. destruct (Byte.eqb x "#") eqn:E3; [right; right; apply beq_eq; exact E3|]. discriminate H.
  - intros [H|(c & y & E & H)]; [discriminate H|]. injection E as <- <-. destruct H as [H|[->|[->| ->]]]; [rewrite H; reflexivity|reflexivity..].
Qed.
Section Lead.
Variables (b : byte) (P : bytes -> Prop) (kS kM : errconst).
Hypothesis Hb : b <> "?"%byte /\ b <> "%"%byte.
Hypothesis Hq : forall w, P ("?"%byte :: w) <-> w = [b].
Let E := errs ErrHex kS kM P in_esc (restart ["?"%byte; b]).
Lemma lead1 pos s : (forall c s', s = c :: s' -> c <> b) -> E pos ("?"%byte :: s) (mkErr kM (pos + 1)).
Proof using Hq.
  intros Hs. exists ["?"%byte], s, kM. split; [reflexivity|]. split; [|split; [|reflexivity]].
  - split; [exists [b]; apply Hq; reflexivity|]. intros c y' -> [w K]. apply Hq in K. injection K as -> _. apply (Hs b y' eq_refl). reflexivity.
  - right; right. split; [rewrite in_esc_plain by discriminate; apply in_esc_nil|]. split; [apply restart_one|reflexivity].
Qed.
Lemma lead2 pos s k : first_of False (goes s) ErrHex kS kM k -> E pos ("?"%byte :: b :: s) (mkErr k (pos + 2)).
Proof using Hq Hb.
  intros Hk. destruct Hb as [Hb1 Hb2]. exists ["?"%byte; b], s, k. split; [reflexivity|]. split; [|split; [|reflexivity]].
  - split; [exists []; apply Hq; reflexivity|]. intros c y' -> [w K]. apply Hq in K. discriminate K.
  - revert Hk. apply first_of_iff; [|apply restart_hit]. rewrite !in_esc_plain by (discriminate || assumption). split; [apply in_esc_nil|tauto].
Qed.
End Lead.

Lemma q_err_start e0 pos s e : e0 = ErrHex -> ref_q PRFC8141Only e0 QStart pos s = WErr e -> errs_q qlike QStart pos s e.
Proof.
  intros ->. unfold errs_q. cbn [qcx app].
  destruct s as [|c s1].
  { intros H. injection H as <-. apply errs_here; [apply qlike_ext|discriminate|]. right; right. split; [apply in_esc_nil|]. split; [apply restart_nil; discriminate|reflexivity]. }
  cbn [ref_q]. destruct (is "%" c) eqn:Ec.
  - apply is_eq in Ec. subst c. destruct s1 as [|a s2].
    { intros H. injection H as <-. apply errs_half1; [apply qlike_pct|apply in_esc_half1|left; reflexivity]. }
    destruct (alnum a) eqn:Ea.
    2:{ intros H. injection H as <-. apply errs_half1; [apply qlike_pct|apply in_esc_half1|right; eauto]. }
    destruct s2 as [|b s3].
    { intros H. injection H as <-. apply errs_half2; [apply qlike_pct|apply in_esc_half2|exact Ea|left; reflexivity]. }
    destruct (alnum b) eqn:Eb.
    2:{ intros H. injection H as <-. apply errs_half2; [apply qlike_pct|apply in_esc_half2|exact Ea|right; eauto]. }
    rewrite !wcons_err. intros H. apply (q_err (List.length s3)) in H; [|lia|discriminate]. eapply errs_step3; [| | |exact H].
    + intros w. apply qlike_3; assumption.
    + intros x. apply in_esc_3; assumption.
    + intros x y. cbv beta. cbn [qcx]. change (B "%00" ++ x) with ("%"%byte :: "0"%byte :: "0"%byte :: x). rnorm. reflexivity.
  - pose proof (is_ne _ _ Ec) as Hc. destruct (pchar c) eqn:Ep.
    + rewrite wcons_err. intros H. apply (q_err (List.length s1)) in H; [|lia|discriminate]. eapply errs_step; [| | |exact H].
      * intros w. apply qlike_c; assumption.
      * intros x. cbv beta. cbn [qcx app]. rnorm. reflexivity.
      * intros x y. cbv beta. cbn [qcx app]. apply restart_plain. intros ->. discriminate Ep.
    + destruct (is "?" c) eqn:Eq.
      * apply is_eq in Eq. subst c.
        assert (L1 := lead1 "=" qlike Err8141QComponentStart Err8141MalformedQComp qlike_q).
        assert (L2 := lead2 "=" qlike Err8141QComponentStart Err8141MalformedQComp ltac:(split; discriminate) qlike_q).
        destruct s1 as [|d s2]; [intros H; injection H as <-; apply L1; discriminate|].
        destruct (is "=" d) eqn:Ed.
        -- apply is_eq in Ed. subst d. pose proof (goes_iff s2) as Hg. destruct s2 as [|x s2].
           ++ intros H. injection H as <-. apply L2. right; left. split; [tauto|]. split; [apply Hg|]; reflexivity.
           ++ destruct (pchar x || one_of "%?#" x); intros H; injection H as <-; apply L2; right; [left|right]; (split; [tauto|]); (split; [|reflexivity]).
              ** apply Hg; reflexivity.
              ** intros K. apply Hg in K. discriminate K.
        -- intros H. injection H as <-. apply L1. intros x s' E. injection E as <- _. apply is_ne. exact Ed.
      * intros H. injection H as <-. apply errs_here; [apply qlike_ext| |].
        -- intros d s' w E. injection E as <- _. apply qlike_no; [exact Ep|exact Hc|apply is_ne; exact Eq].
        -- right; right. split; [apply in_esc_nil|]. split; [apply restart_nil; discriminate|reflexivity].
Qed.
Lemma then_hash_iff z : then_hash z <-> qstop z.
Proof.
  unfold then_hash, stops, qstop. split; [intros [->|(c & y & -> & ->)]; eauto|]. intros [->|[r ->]]; [left; reflexivity|right; eauto].
Qed.
Lemma q_iff e0 pos s e : e0 = ErrHex -> ref_q PRFC8141Only e0 QStart pos s = WErr e <->
  exists x y k, s = x ++ y /\ furthest (fun w => q_component w \/ w = B "?=") x y /\ unfinished q_component then_hash s /\
    first_of (in_esc x) (restart (B "?=") x y) ErrHex Err8141QComponentStart Err8141MalformedQComp k /\ e = mkErr k (pos + zlen x).
Proof.
  intros He0. pose proof (fun e' => q_err_start e0 pos s e' He0) as Hs. split.
  - intros H. destruct (Hs e H) as (x & y & k & E & H1 & H2 & H3). exists x, y, k. split; [exact E|]. split; [exact H1|]. split; [|auto].
    intros w z Ew Hw Hz. apply then_hash_iff in Hz. rewrite Ew in H. rewrite ref_q_complete' in H by auto. discriminate H.
  - intros (x & y & k & E & H1 & H2 & H3 & H4). pose proof (ref_q_sound' PRFC8141Only e0 pos s) as K.
    destruct (ref_q PRFC8141Only e0 QStart pos s) as [e'| |w z]; [|contradiction|].
    + f_equal. eapply errs_uniq; [apply Hs; reflexivity|]. exists x, y, k. auto.
    + destruct K as (K1 & K2 & K3). exfalso. apply (H2 w z K1 K2). apply then_hash_iff. exact K3.
Qed.

(* ---- r-component ---------------------------------------------------------------------------- *)
Definition rcx (k : rpos) : bytes :=
  match k with RHex => B "%00" | RQ => B "?" | RQPlus => B "?+" | RQEq => B "?=" | _ => [] end.
Definition rres (k : rpos) (w : bytes) : Prop := escaped alnum frag_char w /\ rok k w.
Definition errs_r (P : bytes -> Prop) (k : rpos) :=
  errs ErrHex Err8141RComponentStart Err8141MalformedRComp P (fun x => in_esc (rcx k ++ x)) (fun x y => restart ["?"%byte; "+"%byte] (rcx k ++ x) y).
Definition rmid (k : rpos) : Prop := k = RPlain \/ k = RHex \/ k = RQ.

Lemma rmid4 k : rmid k -> k = RStart \/ k = RPlain \/ k = RHex \/ k = RQ.
Proof. unfold rmid. tauto. Qed.
Lemma rres_3 k a b w : rmid k -> alnum a = true -> alnum b = true -> rres k ("%"%byte :: a :: b :: w) <-> rres RHex w.
Proof.
  intros Hk Ha Hb. unfold rres. rewrite esc_3 by (auto; reflexivity). rewrite rok_esc by (auto; apply rmid4; exact Hk). reflexivity.
Qed.
Lemma rres_pct k : rmid k -> pct_lang (rres k).
Proof.
  intros Hk. split.
  - intros a Ha. apply rres_3; [exact Hk|exact Ha|reflexivity|]. split; [apply esc_nil|]. apply rok_nil. discriminate.
  - intros w [H _]. apply esc_p in H; [|reflexivity]. destruct H as (a & b & r & -> & Ha & Hb & _). exists a, b, r. auto.
Qed.
Lemma rres_c k c w : rmid k -> c <> "%"%byte -> c <> "?"%byte -> (k = RQ -> c <> "+"%byte /\ c <> "="%byte) -> frag_char c = true ->
  rres k (c :: w) <-> rres RPlain w.
Proof.
  intros Hk Hc Hq He Hf. unfold rres. rewrite esc_c by exact Hc. rewrite (rok_step k c w RPlain); [tauto|exact Hq|auto|].
  destruct Hk as [->|[->| ->]]; auto. right; right; right. split; [reflexivity|apply He; reflexivity].
Qed.
Lemma rres_q k w : rmid k \/ k = RQEq -> rres k ("?"%byte :: w) <-> rres RQ w.
Proof.
  intros Hk. unfold rres. rewrite esc_c by discriminate. destruct Hk as [Hk| ->].
  - rewrite rok_q by (apply rmid4; exact Hk). cbn. tauto.
  - rewrite rok_eq, rok_q by auto. cbn. split; [tauto|]. intros [H1 H2]. split; [auto|]. split; [right; right; eauto|exact H2].
Qed.
Lemma rres_plus w : rres RQ ("+"%byte :: w) <-> rres RQPlus w.
Proof. unfold rres. rewrite esc_c by discriminate. change (rok RQ ("+"%byte :: w)) with (rok RQPlus w). cbn. tauto. Qed.
Lemma rres_eq w : rres RQ ("="%byte :: w) <-> rres RQEq w.
Proof. unfold rres. rewrite esc_c by discriminate. change (rok RQ ("="%byte :: w)) with (rok RQEq w). cbn. tauto. Qed.
Lemma rok_slash w : rok RPlain ("/"%byte :: w) <-> rok RPlain w.
Proof. apply rok_step; auto; discriminate. Qed.
Lemma rres_slash k w : k = RQPlus \/ k = RQEq -> rres k ("/"%byte :: w) <-> rres RPlain w.
Proof.
  intros Hk. unfold rres. rewrite esc_c by discriminate. destruct Hk as [->| ->].
  - rewrite rok_plus, rok_slash. cbn. split; [tauto|]. intros [H1 H2]. split; [auto|]. split; [eexists; reflexivity|exact H2].
  - rewrite rok_eq, rok_slash. cbn. split; [tauto|]. intros [H1 H2]. split; [auto|]. split; [right; left; eauto|exact H2].
Qed.
Lemma rres_plus_no c w : c <> "/"%byte -> ~ rres RQPlus (c :: w).
Proof. intros Hc [_ H]. apply rok_plus in H. destruct H as [[y E] _]. injection E as -> _. contradiction Hc; reflexivity. Qed.
Lemma rres_eq_no c w : c <> "/"%byte -> c <> "?"%byte -> ~ rres RQEq (c :: w).
Proof. intros Hc Hq [_ H]. apply rok_eq in H. destruct H as [[E|[[y E]|[y E]]] _]; [discriminate E|injection E as -> _; contradiction Hc; reflexivity|injection E as -> _; contradiction Hq; reflexivity]. Qed.
Lemma rok_nil_plain : rok RPlain [].
Proof. apply rok_nil. discriminate. Qed.
Lemma rres_ext k : extends (rres k) [].
Proof.
  exists (B "/"). destruct k.
  - split; [apply esc_plain; [reflexivity|apply esc_nil]|]. apply (rok_step RStart "/" [] RPlain); auto; [discriminate|apply rok_nil_plain].
  - apply rres_c; [left; reflexivity|discriminate|discriminate|discriminate|reflexivity|]. split; [apply esc_nil|apply rok_nil_plain].
  - apply rres_c; [right; left; reflexivity|discriminate|discriminate|discriminate|reflexivity|]. split; [apply esc_nil|apply rok_nil_plain].
  - apply rres_c; [right; right; reflexivity|discriminate|discriminate|split; discriminate|reflexivity|]. split; [apply esc_nil|apply rok_nil_plain].
  - apply rres_slash; [auto|]. split; [apply esc_nil|apply rok_nil_plain].
  - apply rres_slash; [auto|]. split; [apply esc_nil|apply rok_nil_plain].
Qed.

Lemma rcx_3 k a b x : rmid k -> alnum a = true -> alnum b = true -> in_esc (rcx k ++ "%"%byte :: a :: b :: x) <-> in_esc (rcx RHex ++ x).
Proof.
  intros Hk Ha Hb. destruct Hk as [->|[->| ->]]; cbn [rcx app]; rewrite ?in_esc_00; [apply in_esc_3; assumption..|].
  change (B "?" ++ "%"%byte :: a :: b :: x) with ("?"%byte :: "%"%byte :: a :: b :: x). rewrite in_esc_plain by discriminate. apply in_esc_3; assumption.
Qed.
Lemma rcx_3r k a b x y : rmid k -> alnum a = true -> alnum b = true ->
  restart ["?"%byte; "+"%byte] (rcx k ++ "%"%byte :: a :: b :: x) y <-> restart ["?"%byte; "+"%byte] (rcx RHex ++ x) y.
Proof.
  intros Hk Ha Hb. change (rcx RHex ++ x) with ("%"%byte :: "0"%byte :: "0"%byte :: x). destruct Hk as [->|[->| ->]]; cbn [rcx app].
  - rnorm. reflexivity.
  - change (B "%00" ++ "%"%byte :: a :: b :: x) with ("%"%byte :: "0"%byte :: "0"%byte :: "%"%byte :: a :: b :: x). rnorm. reflexivity.
  - change (B "?" ++ "%"%byte :: a :: b :: x) with ("?"%byte :: "%"%byte :: a :: b :: x). rnorm. reflexivity.
Qed.
Lemma rcx_c k c x : rmid k -> c <> "%"%byte -> in_esc (rcx k ++ c :: x) <-> in_esc x.
Proof.
  intros Hk Hc. destruct Hk as [->|[->| ->]]; cbn [rcx app]; rewrite ?in_esc_00; [rnorm; reflexivity..|].
  change (B "?" ++ c :: x) with ("?"%byte :: c :: x). rnorm. reflexivity.
Qed.
Lemma rcx_cr k c x y : rmid k -> c <> "?"%byte -> (k = RQ -> c <> "+"%byte) -> 
  restart ["?"%byte; "+"%byte] (rcx k ++ c :: x) y <-> restart ["?"%byte; "+"%byte] x y.
Proof.
  intros Hk Hq Hp. destruct Hk as [->|[->| ->]]; cbn [rcx app].
  - rnorm. reflexivity.
  - change (B "%00" ++ c :: x) with ("%"%byte :: "0"%byte :: "0"%byte :: c :: x). rnorm. reflexivity.
  - change (B "?" ++ c :: x) with ("?"%byte :: c :: x). rewrite restart_q by (apply Hp; reflexivity). rnorm. reflexivity.
Qed.

Lemma r_err n : forall s, (List.length s <= n)%nat -> forall k pos e, k <> RStart -> rpre k s ->
  ref_r PRFC8141Only k pos s = WErr e -> errs_r (rres k) k pos s e.
Proof.
  assert (Hdup : forall pos s, (forall c s', s = c :: s' -> c <> "/"%byte) -> goes s -> errs_r (rres RQPlus) RQPlus pos s (mkErr Err8141RComponentStart pos)).
  { intros pos s Hs Hg. apply errs_here; [apply rres_ext|intros c s' w E; apply rres_plus_no; eapply Hs; exact E|].
    right; left. split; [cbn [rcx app]; change (B "?+" ++ []) with ["?"%byte; "+"%byte]; rnorm; apply in_esc_nil|]. split; [|reflexivity].
    apply restart_hit. exact Hg. }
  assert (Hnil : forall k pos e, k <> RStart -> ref_r PRFC8141Only k pos [] = WErr e -> errs_r (rres k) k pos [] e).
  { intros k pos e Hk H. destruct k; try discriminate H; [contradiction Hk; reflexivity|]. injection H as <-. apply Hdup; [discriminate|left; reflexivity]. }
  induction n as [|n IH]; intros s Hn k pos e Hk Hpre; (destruct s as [|c s1]; [apply Hnil; exact Hk|]); [cbn in Hn; lia|].
  cbn [List.length] in Hn. destruct (is "?" c) eqn:Eq.
  { apply is_eq in Eq. subst c.
    assert (Hkk : (rmid k \/ k = RQEq) \/ k = RQPlus) by (unfold rmid; destruct k; tauto).
    destruct Hkk as [Hkk| ->].
    - rewrite ref_r_q by (unfold rmid in Hkk; tauto). destruct (qstarts s1) eqn:Es; [discriminate|].
      rewrite wcons_err. intros H. apply IH in H; [|lia|discriminate|exact Es]. eapply errs_step; [| | |exact H].
      + intros w. apply rres_q. exact Hkk.
      + intros x. cbv beta. change (rcx RQ ++ x) with ("?"%byte :: x). destruct Hkk as [Hkk| ->].
        * rewrite rcx_c by (auto; discriminate). rnorm. reflexivity.
        * change (rcx RQEq ++ "?"%byte :: x) with ("?"%byte :: "="%byte :: "?"%byte :: x). rnorm. reflexivity.
      + intros x y. cbv beta. change (rcx RQ ++ x) with ("?"%byte :: x). destruct Hkk as [[->|[->| ->]]| ->]; cbn [rcx app].
        * reflexivity.
        * change (B "%00" ++ "?"%byte :: x) with ("%"%byte :: "0"%byte :: "0"%byte :: "?"%byte :: x). rnorm. reflexivity.
        * change (B "?" ++ "?"%byte :: x) with ("?"%byte :: "?"%byte :: x). rewrite restart_q by discriminate. reflexivity.
        * change (B "?=" ++ "?"%byte :: x) with ("?"%byte :: "="%byte :: "?"%byte :: x). rewrite restart_q by discriminate. rnorm. reflexivity.
    - intros H. injection H as <-. apply Hdup; [intros c s' E; injection E as <- _; discriminate|]. right. exists "?"%byte, s1. auto. }
  pose proof (is_ne _ _ Eq) as Hq. destruct (is "%" c) eqn:Ec.
  - apply is_eq in Ec. subst c. assert (Hkk : rmid k \/ k = RQEq \/ k = RQPlus) by (unfold rmid; destruct k; tauto).
    destruct Hkk as [Hkk|[->| ->]].
    + assert (HX : ref_r PRFC8141Only k pos ("%"%byte :: s1) = match s1 with
            | [] => WErr (mkErr ErrHex (pos + 1))
            | a :: s2 =>
                if alnum a then
                  match s2 with
                  | [] => WErr (mkErr ErrHex (pos + 2))
                  | b :: s3 =>
                      if alnum b then wcons "%"%byte (wcons a (wcons b (ref_r PRFC8141Only RHex (pos + 3) s3)))
                      else WErr (mkErr ErrHex (pos + 2))
                  end
                else WErr (mkErr ErrHex (pos + 1))
            end) by (destruct Hkk as [->|[->| ->]]; reflexivity).
      rewrite HX; clear HX. pose proof (rres_pct k Hkk) as HP. destruct s1 as [|a s2].
      { intros H. injection H as <-. apply errs_half1; [exact HP|apply in_esc_app, in_esc_half1|left; reflexivity]. }
      destruct (alnum a) eqn:Ea.
      2:{ intros H. injection H as <-. apply errs_half1; [exact HP|apply in_esc_app, in_esc_half1|right; eauto]. }
      destruct s2 as [|b s3].
      { intros H. injection H as <-. apply errs_half2; [exact HP|apply in_esc_app, in_esc_half2|exact Ea|left; reflexivity]. }
      destruct (alnum b) eqn:Eb.
      2:{ intros H. injection H as <-. apply errs_half2; [exact HP|apply in_esc_app, in_esc_half2|exact Ea|right; eauto]. }
      rewrite !wcons_err. intros H. apply IH in H; [|cbn in Hn; lia|discriminate|exact I]. eapply errs_step3; [| | |exact H].
      * intros w. apply rres_3; assumption.
      * intros x. apply rcx_3; assumption.
      * intros x y. apply rcx_3r; assumption.
    + discriminate Hpre.
    + intros H. injection H as <-. apply Hdup; [intros c s' E; injection E as <- _; discriminate|]. right. exists "%"%byte, s1. auto.
  - pose proof (is_ne _ _ Ec) as Hc.
    assert (Hplain : rmid k -> frag_char c = true -> (k = RQ -> c <> "+"%byte /\ c <> "="%byte) ->
      wcons c (ref_r PRFC8141Only RPlain (pos + 1) s1) = WErr e -> errs_r (rres k) k pos (c :: s1) e).
    { intros Hkk Hf He. rewrite wcons_err. intros H. apply IH in H; [|lia|discriminate|exact I]. eapply errs_step; [| | |exact H].
      - intros w. apply rres_c; assumption.
      - intros x. apply rcx_c; assumption.
      - intros x y. apply rcx_cr; try assumption. intros K. apply He. exact K. }
    assert (Hslash : k = RQPlus \/ k = RQEq -> c = "/"%byte ->
      wcons c (ref_r PRFC8141Only RPlain (pos + 1) s1) = WErr e -> errs_r (rres k) k pos (c :: s1) e).
    { intros Hkk ->. rewrite wcons_err. intros H. apply IH in H; [|lia|discriminate|exact I]. eapply errs_step; [| | |exact H].
      - intros w. apply rres_slash. exact Hkk.
      - intros x. cbv beta. destruct Hkk as [->| ->]; cbn [rcx app]; [change (B "?+" ++ "/"%byte :: x) with ("?"%byte :: "+"%byte :: "/"%byte :: x)|
          change (B "?=" ++ "/"%byte :: x) with ("?"%byte :: "="%byte :: "/"%byte :: x)]; rnorm; reflexivity.
      - intros x y. cbv beta. destruct Hkk as [->| ->]; cbn [rcx app].
        + change (B "?+" ++ "/"%byte :: x) with ("?"%byte :: "+"%byte :: "/"%byte :: x).
          rewrite restart_cons. split; [intros [H'|(_ & H' & _)]; [|discriminate H']|intros H'; left]; revert H'; rnorm; auto.
        + change (B "?=" ++ "/"%byte :: x) with ("?"%byte :: "="%byte :: "/"%byte :: x). rnorm. reflexivity. }
    assert (Hbad : frag_char c = false -> k <> RQPlus -> errs_r (rres k) k pos (c :: s1)
       (mkErr (match k with RHex => ErrHex | _ => Err8141MalformedRComp end) pos)).
    { intros Hf Hk2. apply errs_here; [apply rres_ext| |].
      - intros d s' w E [H _]. injection E as <- <-. apply esc_c in H; [|exact Hc]. destruct H; congruence.
      - destruct k; try contradiction; cbn [rcx app].
        + right; right. split; [apply in_esc_nil|]. split; [apply restart_nil; discriminate|reflexivity].
        + left. split; [apply in_esc_hex|reflexivity].
        + right; right. split; [change (B "?" ++ []) with ["?"%byte]; rnorm; apply in_esc_nil|]. split; [apply restart_one|reflexivity].
        + right; right. change (B "?=" ++ []) with ["?"%byte; "="%byte]. split; [rnorm; apply in_esc_nil|]. split; [|reflexivity].
          rnorm. apply restart_nil. discriminate. }
    assert (Hfr : pchar_slash c = false -> frag_char c = false).
    { intros H2. destruct (frag_char c) eqn:E; [|reflexivity]. destruct (frag_inv _ E) as [H|[->| ->]]; [|discriminate H2|contradiction Hq; reflexivity].
      rewrite (pchar_slash_of _ H) in H2. discriminate H2. }
    cbn [ref_r]. rewrite Ec, Eq. change (hx PRFC8141Only Err8141MalformedRComp) with ErrHex. destruct k.
    + contradiction Hk; reflexivity.
    + destruct (is "#" c); [discriminate|].
      destruct (pchar_slash c) eqn:Ep; [apply Hplain; [left; reflexivity|apply frag_ps; exact Ep|discriminate]|].
      intros H. injection H as <-. apply Hbad; [auto|discriminate].
    + destruct (is "#" c); [discriminate|].
      destruct (pchar_slash c) eqn:Ep; [apply Hplain; [right; left; reflexivity|apply frag_ps; exact Ep|discriminate]|].
      intros H. injection H as <-. apply Hbad; [auto|discriminate].
    + destruct (is "#" c); [discriminate|]. destruct (is "+" c) eqn:E1.
      { apply is_eq in E1. subst c. rewrite wcons_err. intros H. apply IH in H; [|lia|discriminate|exact I]. eapply errs_step; [| | |exact H].
        - intros w. apply rres_plus.
        - intros x. reflexivity.
        - intros x y. reflexivity. }
      destruct (is "=" c) eqn:E2.
      { apply is_eq in E2. subst c. rewrite wcons_err. intros H. apply IH in H; [|lia|discriminate|].
        - eapply errs_step; [| | |exact H].
          + intros w. apply rres_eq.
          + intros x. reflexivity.
          + intros x y. reflexivity.
        - cbn [rpre] in *. destruct s1 as [|x s1]; [exact I|]. unfold qstarts in Hpre. rewrite is_refl in Hpre. exact Hpre. }
      destruct (pchar_slash c) eqn:Ep; [apply Hplain; [right; right; reflexivity|apply frag_ps; exact Ep|intros _; split; apply is_ne; assumption]|].
      intros H. injection H as <-. apply Hbad; [auto|discriminate].
    + destruct (is "/" c) eqn:Es; [apply Hslash; [auto|apply is_eq; exact Es]|].
      pose proof (goes_head c s1 (is_ne _ _ Es) Hc) as Hg. rewrite Eq in Hg.
      destruct (pchar c || false || is "#" c) eqn:Eg.
      * intros H. injection H as <-. apply Hdup; [intros d s' E; injection E as <- _; apply is_ne; exact Es|]. apply Hg. reflexivity.
      * intros H. injection H as <-. apply errs_here; [apply rres_ext|intros d s' w E; injection E as <- _; apply rres_plus_no, is_ne; exact Es|].
        right; right. cbn [rcx app]. change (B "?+" ++ []) with ["?"%byte; "+"%byte]. split; [rnorm; apply in_esc_nil|]. split; [|reflexivity].
        rewrite restart_hit, <- Hg. discriminate.
    + destruct (is "#" c); [discriminate|].
      destruct (pchar_slash c) eqn:Ep.
      * apply Hslash; [auto|]. cbn [rpre] in Hpre. unfold qopen in Hpre. apply orb_false_elim in Hpre. destruct Hpre as [Hp _].
        destruct (pchar_slash_inv _ Ep) as [H| ->]; [congruence|reflexivity].
      * intros H. injection H as <-. apply Hbad; [auto|discriminate].
Qed.

Definition rlike (w : bytes) : Prop := r_component w \/ w = B "?+".
Lemma rlike_c c w : c <> "%"%byte -> pchar c = true -> rlike (c :: w) <-> rres RPlain w.
Proof.
  intros Hc Hp. unfold rlike, rres. rewrite r_component_iff, esc_c by exact Hc. rewrite (frag_pchar c Hp).
  rewrite (rok_step RStart c w RPlain) by (auto; intros ->; discriminate Hp). split.
  - intros [H|H]; [tauto|]. injection H as -> _. discriminate Hp.
  - intros [H1 H2]. left. split; [auto|]. split; [|exact H2]. exists c, w. split; [reflexivity|]. split; intros ->; discriminate Hp.
Qed.
Lemma rlike_3 a b w : alnum a = true -> alnum b = true -> rlike ("%"%byte :: a :: b :: w) <-> rres RHex w.
Proof.
  intros Ha Hb. unfold rlike, rres. rewrite r_component_iff, esc_3 by (auto; reflexivity). rewrite rok_esc by auto. split.
  - intros [H|H]; [tauto|discriminate H].
  - intros [H1 H2]. left. split; [auto|]. split; [|exact H2]. eexists _, _. split; [reflexivity|]. split; discriminate.
Qed.
Lemma rlike_pct : pct_lang rlike.
Proof.
  split.
  - intros a Ha. apply rlike_3; [exact Ha|reflexivity|]. split; [apply esc_nil|apply rok_nil; discriminate].
  - intros w [H|H]; [|discriminate H]. apply r_component_iff in H. destruct H as [H _]. apply esc_p in H; [|reflexivity].
    destruct H as (a & b & r & -> & Ha & Hb & _). exists a, b, r. auto.
Qed.
Lemma rlike_no c w : pchar c = false -> c <> "%"%byte -> c <> "?"%byte -> ~ rlike (c :: w).
Proof.
  intros H1 H2 H3 [H|H]; [|injection H as -> _; contradiction H3; reflexivity]. apply r_component_iff in H. destruct H as (H & Hh & _).
  destruct (comp_open _ H Hh) as (x & r & E & Hx). injection E as <- <-. unfold qopen in Hx. rewrite H1 in Hx. apply is_eq in Hx. contradiction.
Qed.
Lemma rlike_q w : rlike ("?"%byte :: w) <-> w = B "+".
Proof.
  split.
  - intros [H|H]; [|injection H as ->; reflexivity]. apply r_component_iff in H. destruct H as (_ & (c & r & E & _ & H) & _). injection E as <- <-. contradiction H; reflexivity.
  - intros ->. right. reflexivity.
Qed.
Lemma rlike_ext : extends rlike [].
Proof. exists (B "?+"). right. reflexivity. Qed.

Lemma r_err_start pos s e : ref_r PRFC8141Only RStart pos s = WErr e -> errs_r rlike RStart pos s e.
Proof.
  unfold errs_r. cbn [rcx app].
  destruct s as [|c s1].
  { intros H. injection H as <-. apply errs_here; [apply rlike_ext|discriminate|]. right; right. split; [apply in_esc_nil|]. split; [apply restart_nil; discriminate|reflexivity]. }
  cbn [ref_r]. change (hx PRFC8141Only Err8141MalformedRComp) with ErrHex. destruct (is "%" c) eqn:Ec.
  - apply is_eq in Ec. subst c. destruct s1 as [|a s2].
    { intros H. injection H as <-. apply errs_half1; [apply rlike_pct|apply in_esc_half1|left; reflexivity]. }
    destruct (alnum a) eqn:Ea.
    2:{ intros H. injection H as <-. apply errs_half1; [apply rlike_pct|apply in_esc_half1|right; eauto]. }
    destruct s2 as [|b s3].
    { intros H. injection H as <-. apply errs_half2; [apply rlike_pct|apply in_esc_half2|exact Ea|left; reflexivity]. }
    destruct (alnum b) eqn:Eb.
    2:{ intros H. injection H as <-. apply errs_half2; [apply rlike_pct|apply in_esc_half2|exact Ea|right; eauto]. }
    rewrite !wcons_err. intros H. apply (r_err (List.length s3)) in H; [|lia|discriminate|exact I]. eapply errs_step3; [| | |exact H].
    + intros w. apply rlike_3; assumption.
    + intros x. apply in_esc_3; assumption.
    + intros x y. cbv beta. change (rcx RHex ++ x) with ("%"%byte :: "0"%byte :: "0"%byte :: x). rnorm. reflexivity.
  - pose proof (is_ne _ _ Ec) as Hc. destruct (pchar c) eqn:Ep.
    + rewrite wcons_err. intros H. apply (r_err (List.length s1)) in H; [|lia|discriminate|exact I]. eapply errs_step; [| | |exact H].
      * intros w. apply rlike_c; assumption.
      * intros x. cbv beta. cbn [rcx app]. rnorm. reflexivity.
      * intros x y. cbv beta. cbn [rcx app]. apply restart_plain. intros ->. discriminate Ep.
    + destruct (is "?" c) eqn:Eq.
      * apply is_eq in Eq. subst c.
        assert (L1 := lead1 "+" rlike Err8141RComponentStart Err8141MalformedRComp rlike_q).
        assert (L2 := lead2 "+" rlike Err8141RComponentStart Err8141MalformedRComp ltac:(split; discriminate) rlike_q).
        destruct s1 as [|d s2]; [intros H; injection H as <-; apply L1; discriminate|].
        destruct (is "+" d) eqn:Ed.
        -- apply is_eq in Ed. subst d. pose proof (goes_iff s2) as Hg. destruct s2 as [|x s2].
           ++ intros H. injection H as <-. apply L2. right; left. split; [tauto|]. split; [apply Hg|]; reflexivity.
           ++ destruct (pchar x || one_of "%?#" x); intros H; injection H as <-; apply L2; right; [left|right]; (split; [tauto|]); (split; [|reflexivity]).
              ** apply Hg; reflexivity.
              ** intros K. apply Hg in K. discriminate K.
        -- intros H. injection H as <-. apply L1. intros x s' E. injection E as <- _. apply is_ne. exact Ed.
      * intros H. injection H as <-. apply errs_here; [apply rlike_ext| |].
        -- intros d s' w E. injection E as <- _. apply rlike_no; [exact Ep|exact Hc|apply is_ne; exact Eq].
        -- right; right. split; [apply in_esc_nil|]. split; [apply restart_nil; discriminate|reflexivity].
Qed.
Lemma opens_q_iff t : opens_q t <-> exists x r, t = x :: r /\ qopen x = true.
Proof.
  unfold opens_q, at_char, qopen. split.
  - intros (c & r & -> & H). exists c, r. split; [reflexivity|]. destruct H as [H| ->]; [rewrite H; reflexivity|reflexivity].
  - intros (c & r & -> & H). exists c, r. split; [reflexivity|]. apply orb_true_iff in H as [H|H]; [auto|right; apply is_eq; exact H].
Qed.
Lemma then_q_iff z : then_q z <-> rstop z.
Proof.
  unfold then_q, rstop. rewrite then_hash_iff. split.
  - intros [H|(t & -> & H)]; [auto|right]. apply opens_q_iff in H. destruct H as (x & r & -> & H). exists x, r. auto.
  - intros [H|(x & r & -> & H)]; [auto|right]. exists (x :: r). split; [reflexivity|]. apply opens_q_iff. eauto.
Qed.
Lemma r_iff pos s e : ref_r PRFC8141Only RStart pos s = WErr e <->
  exists x y k, s = x ++ y /\ furthest (fun w => r_component w \/ w = B "?+") x y /\ unfinished r_component then_q s /\
    first_of (in_esc x) (restart (B "?+") x y) ErrHex Err8141RComponentStart Err8141MalformedRComp k /\ e = mkErr k (pos + zlen x).
Proof.
  pose proof (fun e' => r_err_start pos s e') as Hs. split.
  - intros H. destruct (Hs e H) as (x & y & k & E & H1 & H2 & H3). exists x, y, k. split; [exact E|]. split; [exact H1|]. split; [|auto].
    intros w z Ew Hw Hz. apply then_q_iff in Hz. rewrite Ew in H. rewrite ref_r_complete' in H by auto. discriminate H.
  - intros (x & y & k & E & H1 & H2 & H3 & H4). pose proof (ref_r_sound' PRFC8141Only pos s) as K.
    destruct (ref_r PRFC8141Only RStart pos s) as [e'| |w z]; [|contradiction|].
    + f_equal. eapply errs_uniq; [apply Hs; reflexivity|]. exists x, y, k. auto.
    + destruct K as (K1 & K2 & K3). exfalso. apply (H2 w z K1 K2). apply then_q_iff. exact K3.
Qed.

(* ---- NID ---------------------------------------------------------------------------------------- *)
Definition nidres (t : utrk) (n : nat) (ok : bool) (w : bytes) : Prop :=
  forallb nid_char w = true /\ (List.length w <= n)%nat /\ inf t w = false /\ lastok ok w = true.
Fixpoint urun (t : utrk) (x : bytes) : utrk := match x with [] => t | c :: x => urun (utrk_next t c) x end.
Definition inf_char (c : byte) : bool := is "0" c || upper c || lower c.
Definition ihere (t : utrk) (x y : bytes) : Prop := urun t x = U4 /\ at_char (fun c => inf_char c = true) y.
Definition nid_errs (t : utrk) (P : bytes -> Prop) (pos : Z) (s : bytes) (e : perr) : Prop :=
  exists x y, s = x ++ y /\ furthest P x y /\
    ((ihere t x y /\ e = mkErr Err8141InformalID (pos + zlen x - 1)) \/ (~ ihere t x y /\ e = mkErr Err8141Identifier (pos + zlen x))).
Lemma nid_errs_step t (P Q : bytes -> Prop) c pos s e : (forall w, P (c :: w) <-> Q w) ->
  nid_errs (utrk_next t c) Q (pos + 1) s e -> nid_errs t P pos (c :: s) e.
Proof.
  intros H (x & y & -> & H1 & H2). exists (c :: x), y. split; [reflexivity|]. split; [eapply furthest_step; eauto|].
  rewrite zlen_cons. replace (pos + (1 + zlen x)) with (pos + 1 + zlen x) by lia. exact H2.
Qed.
Lemma inf_alnum c : inf_char c = true -> alnum c = true.
Proof. unfold inf_char. intros H. apply orb_true_iff in H as [H|H]; [apply orb_true_iff in H as [H|H]|]; [apply is_eq in H; subst c; reflexivity|unfold alnum; rewrite H, orb_true_r; reflexivity|unfold alnum; rewrite H, orb_true_r; reflexivity]. Qed.

Lemma nid8w_err s : forall t n ok pos e, (n = O -> ok = true) -> ref_nid8w t n ok pos s = WErr e -> nid_errs t (nidres t n ok) pos s e.
Proof.
  assert (Hx : forall t n ok, (n = O -> ok = true) -> extends (nidres t n ok) []).
  { intros t n ok Hn. destruct ok; [exists []; split; [reflexivity|split; [cbn; lia|split; reflexivity]]|].
    destruct n as [|n]; [specialize (Hn eq_refl); discriminate Hn|]. exists (B "1"). split; [reflexivity|]. split; [cbn; lia|]. split; [|reflexivity]. destruct t; reflexivity. }
  assert (Hhere : forall t n ok pos s, (n = O -> ok = true) -> (forall c s' w, s = c :: s' -> ~ nidres t n ok (c :: w)) -> ~ ihere t [] s ->
     nid_errs t (nidres t n ok) pos s (mkErr Err8141Identifier pos)).
  { intros t n ok pos s0 Hn H1 H2. exists [], s0. split; [reflexivity|]. split; [apply furthest_here; [apply Hx; exact Hn|exact H1]|].
    right. split; [exact H2|]. f_equal. unfold zlen; cbn; lia. }
  induction s as [|c s IH]; intros t n ok pos e Hn; cbn [ref_nid8w].
  { intros H. injection H as <-. apply Hhere; [exact Hn|discriminate|]. intros [_ (c & y & E & _)]. discriminate E. }
  assert (Hni : inf_char c = false -> ~ ihere t [] (c :: s)).
  { intros Hi [_ (d & y & E & H)]. injection E as <- <-. congruence. }
  destruct (is ":" c) eqn:E1.
  { apply is_eq in E1. subst c. destruct ok; [discriminate|]. intros H. injection H as <-. apply Hhere; [exact Hn| |apply Hni; reflexivity].
    intros c s' w E (H & _). injection E as <- _. discriminate H. }
  destruct (is "-" c) eqn:E2.
  { apply is_eq in E2. subst c. destruct n as [|[|n]].
    - intros H. injection H as <-. apply Hhere; [exact Hn| |apply Hni; reflexivity]. intros c s' w E (_ & H & _). cbn in H. lia.
    - intros H. injection H as <-. apply Hhere; [exact Hn| |apply Hni; reflexivity]. intros c s' w E (_ & H & _ & K). injection E as <- _.
      destruct w; [discriminate K|cbn in H; lia].
    - rewrite wcons_err. intros H. apply IH in H; [|discriminate]. eapply nid_errs_step; [|exact H]. intros w. unfold nidres.
      cbn [forallb List.length inf lastok]. change (nid_char "-"%byte) with true. change (alnum "-"%byte) with false.
      replace (match t with U4 => is "0" "-"%byte || upper "-"%byte || lower "-"%byte | _ => false end) with false by (destruct t; reflexivity).
      cbn [orb andb]. split; intros (H1 & H2 & H3 & H4); repeat split; auto; lia. }
  destruct (alnum c) eqn:Ea.
  2:{ intros H. injection H as <-. apply Hhere; [exact Hn| |apply Hni].
      - intros d s' w E (H & _). injection E as <- _. cbn [forallb] in H. unfold nid_char in H. fold (is "-" c) in H. rewrite Ea, E2 in H. discriminate H.
      - destruct (inf_char c) eqn:Ei; [|reflexivity]. rewrite (inf_alnum c Ei) in Ea. discriminate Ea. }
  assert (Hgo : (match t with U4 => inf_char c | _ => false end) = false ->
    match n with S n' => wcons c (ref_nid8w (utrk_next t c) n' true (pos + 1) s) | O => WErr (mkErr Err8141Identifier pos) end = WErr e ->
    nid_errs t (nidres t n ok) pos (c :: s) e).
  { intros Hi. destruct n as [|n].
    - intros H. injection H as <-. apply Hhere; [exact Hn|intros d s' w E (_ & H & _); cbn in H; lia|].
      intros [Hu (d & y & E & H)]. injection E as <- <-. cbn [urun] in Hu. rewrite Hu in Hi. congruence.
    - rewrite wcons_err. intros H. apply IH in H; [|reflexivity]. eapply nid_errs_step; [|exact H]. intros w. unfold nidres.
      cbn [forallb List.length inf lastok]. rewrite (alnum_nid_char c Ea), Ea. unfold inf_char in Hi. rewrite Hi. cbn [orb andb].
      split; intros (H1 & H2 & H3 & H4); repeat split; auto; lia. }
  destruct t; try (apply Hgo; reflexivity).
  fold (inf_char c). destruct (inf_char c) eqn:Ei.
  - intros H. injection H as <-. exists [], (c :: s). split; [reflexivity|]. split.
    + apply furthest_here; [apply Hx; exact Hn|]. intros d s' w E (_ & _ & H & _). injection E as <- _. cbn [inf] in H. fold (inf_char c) in H. rewrite Ei in H. discriminate H.
    + left. split; [split; [reflexivity|exists c, s; auto]|]. f_equal. unfold zlen; cbn; lia.
  - apply Hgo. reflexivity.
Qed.
Lemma nid8141_cons c w : nid8141 (c :: w) <-> alnum c = true /\ nidres (if isl "u" c then U1 else UNo) 31 false w.
Proof.
  unfold nid8141, nidres. rewrite informal_inf. cbn [forallb List.length]. split.
  - intros (Hl & Hall & (d & r & E & Hc) & Hlast & Hinf). injection E as <- <-. apply andb_prop in Hall. destruct Hall as [_ Hall].
    split; [exact Hc|]. split; [exact Hall|]. split; [lia|]. split.
    + destruct (isl "u" c); [|apply inf_no]. cbn [andb] in Hinf. destruct (inf U1 w); [contradiction Hinf|]; reflexivity.
    + assert (Hw : w <> []) by (intros ->; cbn in Hl; lia). apply (lastok_last w false Hw).
      destruct Hlast as (x & r' & H1 & H2). destruct r' as [|y r']; [injection H1 as _ H1; contradiction|]. injection H1 as _ H1. exists x, r'. auto.
  - intros (Ea & H1 & H2 & H3 & H4). assert (Hw : w <> []) by (intros ->; discriminate H4).
    rewrite (alnum_nid_char _ Ea), H1. split; [destruct w; [contradiction Hw; reflexivity|cbn [List.length] in *; lia]|].
    split; [reflexivity|]. split; [exists c, w; auto|]. split.
    + apply (lastok_last w false Hw) in H4. destruct H4 as (x & r' & -> & Hx). exists x, (c :: r'). auto.
    + destruct (isl "u" c); [rewrite H3|]; discriminate.
Qed.
Lemma urun_no x : urun UNo x = UNo.
Proof. induction x as [|c x IH]; [reflexivity|exact IH]. Qed.
Lemma urun_u4 c x : isl "u" c = true -> urun U1 x = U4 <-> exists u, urn_word u /\ c :: x = u ++ B "-".
Proof.
  intros Hc. split.
  - intros H. destruct x as [|y x]; [discriminate H|]. cbn [urun utrk_next] in H. destruct (isl "r" y) eqn:Hy; [|rewrite urun_no in H; discriminate H].
    destruct x as [|z x]; [discriminate H|]. cbn [urun utrk_next] in H. destruct (isl "n" z) eqn:Hz; [|rewrite urun_no in H; discriminate H].
    destruct x as [|d x]; [discriminate H|]. cbn [urun utrk_next] in H. destruct (is "-" d) eqn:Hd; [|rewrite urun_no in H; discriminate H].
    apply is_eq in Hd. subst d. destruct x as [|d x]; [|cbn [urun utrk_next] in H; rewrite urun_no in H; discriminate H].
    exists [c; y; z]. split; [apply urn_word3; exists c, y, z; auto|reflexivity].
  - intros (u & Hu & E). apply urn_word3 in Hu. destruct Hu as (a & y & z & -> & _ & Hy & Hz). injection E as -> ->.
    cbn [urun utrk_next]. rewrite Hy. cbn [urun utrk_next]. rewrite Hz. reflexivity.
Qed.
Lemma inf_char_iff c : inf_char c = true <-> (c = "0"%byte \/ upper c = true \/ lower c = true).
Proof.
  unfold inf_char. split.
  - intros H. apply orb_true_iff in H as [H|H]; [apply orb_true_iff in H as [H|H]|]; [left; apply is_eq; exact H|auto|auto].
  - intros [->|[->| ->]]; [reflexivity|rewrite orb_true_r; reflexivity|rewrite orb_true_r; reflexivity].
Qed.
Lemma at_char_iff (P Q : byte -> Prop) y : (forall c, P c <-> Q c) -> at_char P y <-> at_char Q y.
Proof. intros H. unfold at_char. split; intros (c & y' & E & K); exists c, y'; (split; [exact E|apply H; exact K]). Qed.
Lemma nid8_err s e : ref_nid8141 PRFC8141Only 4 s = WErr e ->
  exists x y, s = x ++ y /\ furthest nid8141 x y /\
    ((informal_here x y /\ e = mkErr Err8141InformalID 7) \/ (~ informal_here x y /\ e = mkErr Err8141Identifier (4 + zlen x))).
Proof.
  assert (Hext : extends nid8141 []).
  { exists (B "ab"). apply nid8141_cons. split; [reflexivity|]. split; [reflexivity|]. split; [cbn; lia|]. split; reflexivity. }
  assert (Hno : forall y, ~ informal_here [] y).
  { intros y [(u & Hu & E) _]. destruct u; discriminate E. }
  unfold ref_nid8141. destruct s as [|c s].
  { intros H. injection H as <-. exists [], []. split; [reflexivity|]. split; [apply furthest_here; [exact Hext|discriminate]|]. right. split; [apply Hno|reflexivity]. }
  destruct (alnum c) eqn:Ea.
  2:{ intros H. injection H as <-. exists [], (c :: s). split; [reflexivity|]. split; [apply furthest_here; [exact Hext|]|right; split; [apply Hno|reflexivity]].
      intros d s' w E H. injection E as <- _. apply nid8141_cons in H. destruct H; congruence. }
  replace (looks_urn PRFC8141Only (c :: s)) with false by reflexivity. rewrite andb_false_r, wcons_err.
  intros H. apply nid8w_err in H; [|discriminate]. destruct H as (x & y & -> & H1 & H2). exists (c :: x), y. split; [reflexivity|].
  split; [eapply furthest_step; [|exact H1]; intros w; rewrite nid8141_cons; tauto|].
  assert (HI : ihere (if isl "u" c then U1 else UNo) x y <-> informal_here (c :: x) y).
  { unfold ihere, informal_here. rewrite (at_char_iff _ _ y inf_char_iff). destruct (isl "u" c) eqn:Eu.
    - rewrite (urun_u4 c x Eu). reflexivity.
    - rewrite urun_no. split; [intros [H _]; discriminate H|]. intros [(u & Hu & E) _]. apply urn_word3 in Hu. destruct Hu as (a & b & d & -> & Hu & _).
      injection E as -> _. congruence. }
  destruct H2 as [[Hi ->]|[Hi ->]]; [left|right]; rewrite <- HI; (split; [exact Hi|]); f_equal; rewrite ?zlen_cons; [|lia].
  destruct Hi as [Hi _]. destruct (isl "u" c) eqn:Eu; [|rewrite urun_no in Hi; discriminate Hi]. apply (urun_u4 c x Eu) in Hi.
  destruct Hi as (u & Hu & E). apply urn_word3 in Hu. destruct Hu as (a & b & d & -> & _). injection E as _ ->. reflexivity.
Qed.
Lemma nid8_iff s e : ref_nid8141 PRFC8141Only 4 s = WErr e <->
  exists x y, s = x ++ y /\ furthest nid8141 x y /\ unfinished nid8141 then_colon s /\
    ((informal_here x y /\ e = mkErr Err8141InformalID 7) \/ (~ informal_here x y /\ e = mkErr Err8141Identifier (4 + zlen x))).
Proof.
  assert (Hp : urn_word (B "urn")) by reflexivity. split.
  - intros H. destruct (nid8_err s e H) as (x & y & E & H1 & H2). exists x, y. split; [exact E|]. split; [exact H1|]. split; [|exact H2].
    intros w z Ew Hw (c & z' & -> & ->). rewrite Ew in H. change (w ++ ":"%byte :: z') with (w ++ colon ++ z') in H.
    rewrite (ref_nid8141_complete PRFC8141Only (B "urn")) in H by auto. discriminate H.
  - intros (x & y & E & H1 & H2 & H3). pose proof (ref_nid8141_sound PRFC8141Only (B "urn") s 4 Hp) as K.
    pose proof (nid8_err s) as Hs. destruct (ref_nid8141 PRFC8141Only 4 s) as [e'| |w z]; [|contradiction|].
    + f_equal. destruct (Hs e' eq_refl) as (x' & y' & E' & K1 & K2). rewrite E in E'. destruct (furthest_uniq _ _ _ _ _ H1 K1 E') as [<- <-].
      intuition congruence.
    + destruct K as (K1 & K2 & _). exfalso. apply (H2 w (colon ++ z) K1 K2). exists ":"%byte, z. auto.
Qed.
