(* An error reported before the end of the input does not depend on what follows. *)
From Coq Require Import Lia.
From Verif Require Import GoBase MachineSyntax MachineTables Machine Urn Spec SpecErr SpecErr8 Ref Exec ParseThm Api PropsA PropsErr PropsErrB PropsErr8 PropsErr8b PropsErr8c.
Local Open Scope Z_scope.

Lemma stops_app P c y t : stops P (c :: y) -> stops P (c :: y ++ t).
Proof. intros [H|(c' & y' & E & H)]; [discriminate H|]. injection E as <- <-. right. eauto. Qed.
Lemma at_char_app P y t : at_char P y -> at_char P (y ++ t).
Proof. intros (c & y' & -> & H). exists c, (y' ++ t). auto. Qed.
Lemma stops_back P c y t : stops P (c :: y ++ t) -> stops P (c :: y).
Proof. intros [H|(c' & y' & E & H)]; [discriminate H|]. injection E as <- _. right. eauto. Qed.
Lemma at_char_back P c y t : at_char P (c :: y ++ t) -> at_char P (c :: y).
Proof. intros (c' & y' & E & H). injection E as <- _. exists c, y. auto. Qed.

Lemma stuck_app ws x c y t : stuck ws x (c :: y) -> stuck ws x (c :: y ++ t).
Proof. intros [H1 H2]. split; [exact H1|]. intros c' y' w v E. injection E as <- _. eapply H2; reflexivity. Qed.

Lemma prefix_err_app s e t : prefix_err s e -> e_col e < zlen s -> prefix_err (s ++ t) e.
Proof.
  intros (x & y & -> & H & ->) Hc. cbn [e_col] in Hc. destruct y as [|c y]; [rewrite app_nil_r in Hc; lia|].
  exists x, (c :: y ++ t). split; [rewrite <- app_assoc; reflexivity|]. split; [|reflexivity].
  unfold lowers in *. cbn [map] in *. rewrite map_app. apply stuck_app, H.
Qed.
Lemma nid_stuck_app x c y t : nid_stuck x (c :: y) -> nid_stuck x (c :: y ++ t).
Proof.
  intros [[-> H]|(H1 & H2 & H3 & H)]; [left|right]; (split; [auto|]); [apply stops_app, H|].
  split; [exact H2|]. split; [exact H3|apply stops_app, H].
Qed.
Lemma esc_stuck_app cls why x c y t : esc_stuck cls why x (c :: y) -> esc_stuck cls why x (c :: y ++ t).
Proof.
  destruct why; cbn [esc_stuck]; intros H.
  - destruct H as [_ H]; discriminate H.
  - destruct H as (H1 & H2 & H). split; [exact H1|]. split; [exact H2|]. apply (at_char_app _ (c :: y)), H.
  - destruct H as (H1 & H2 & H). split; [exact H1|]. split; [exact H2|]. apply (at_char_app _ (c :: y)), H.
  - destruct H as (H1 & H). split; [exact H1|]. apply (at_char_app _ (c :: y)), H.
  - destruct H as [_ H]; discriminate H.
Qed.

Lemma lookahead_app s t : u_lookahead s -> u_lookahead (s ++ t).
Proof.
  intros (c & H1 & H2 & H3). exists c. split; [|split; [exact H2|]]; rewrite nth_error_app1; auto; apply nth_error_Some; congruence.
Qed.
Lemma lookahead_back s t : 8 <= zlen s -> u_lookahead (s ++ t) -> u_lookahead s.
Proof.
  intros Hl (c & H1 & H2 & H3). unfold zlen in Hl. rewrite nth_error_app1 in H1 by lia. rewrite nth_error_app1 in H3 by lia.
  exists c. auto.
Qed.

Lemma err2141_app s e t : err2141 s e -> e_col e < zlen s -> u_lookahead s \/ ~ u_lookahead (s ++ t) -> err2141 (s ++ t) e.
Proof.
  intros [H|[(p & r & -> & H1 & H2 & ->)|[(p & x & y & -> & H1 & H2 & H3 & ->)|(p & nid & x & y & why & -> & H1 & H2 & H3 & H4 & ->)]]] Hc Hl.
  - left. apply prefix_err_app; assumption.
  - right; left. exists p, (r ++ t). split; [rewrite <- !app_assoc; reflexivity|]. split; [exact H1|]. split; [apply lookahead_app, H2|reflexivity].
  - right; right; left. destruct y as [|c y].
    { cbn [e_col] in Hc. rewrite app_nil_r, !zlen_app in Hc. unfold colon in Hc. rewrite zlen_cons, zlen_nil in Hc.
      apply (f_equal zlen) in H1. unfold lowers, zlen in H1. rewrite map_length in H1. change (Z.of_nat (List.length p)) with (zlen p) in H1.
      cbn in H1. lia. }
    exists p, x, (c :: y ++ t). split; [rewrite <- !app_assoc; reflexivity|]. split; [exact H1|].
    split; [destruct Hl as [Hl|Hl]; [contradiction|exact Hl]|]. split; [apply nid_stuck_app, H3|reflexivity].
  - right; right; right. destruct y as [|c y].
    { exfalso. assert (K : e_col (mkErr (match why with Missing | Illegal => ErrSpecificString | _ => ErrHex end) (5 + zlen nid + zlen x)) = 5 + zlen nid + zlen x) by reflexivity.
      rewrite K in Hc. rewrite app_nil_r, !zlen_app in Hc. unfold colon in Hc. rewrite zlen_cons, zlen_nil in Hc.
      apply (f_equal zlen) in H1. unfold lowers, zlen in H1. rewrite map_length in H1. change (Z.of_nat (List.length p)) with (zlen p) in H1.
      cbn in H1. lia. }
    exists p, nid, x, (c :: y ++ t), why. split; [rewrite <- !app_assoc; reflexivity|]. split; [exact H1|].
    split; [destruct Hl as [Hl|Hl]; [contradiction|exact Hl]|]. split; [exact H3|]. split; [apply esc_stuck_app, H4|reflexivity].
Qed.

Lemma urn_word_zlen p : urn_word p -> zlen p = 3.
Proof. intros H. apply (f_equal (@List.length byte)) in H. unfold lowers in H. rewrite map_length in H. unfold zlen. rewrite H. reflexivity. Qed.

Ltac zl2 := repeat rewrite ?zlen_app, ?zlen_cons, ?zlen_nil, ?app_nil_r in *; unfold colon in *; repeat rewrite ?zlen_app, ?zlen_cons, ?zlen_nil in *.

Lemma errscim_app s e t : errscim s e -> e_col e < zlen s -> e_kind e <> ErrSCIMOtherIncomplete -> errscim (s ++ t) e.
Proof.
  intros [H|[(p & x & y & -> & H1 & H2 & ->)|[(p & x & y & -> & H1 & H2 & ->)|[(p & t0 & x & y & -> & H1 & H2 & H3 & H4 & ->)|
    (p & t0 & name & x & y & why & -> & H1 & H2 & H3 & H4 & ->)]]]] Hc Hk; [left; apply prefix_err_app; assumption|right..];
    cbn [e_col] in Hc; (destruct y as [|c y]; [exfalso|]).
  - pose proof (urn_word_zlen p H1). zl2. lia.
  - left. exists p, x, (c :: y ++ t). split; [rewrite <- !app_assoc; reflexivity|]. split; [exact H1|]. split; [apply stuck_app, H2|reflexivity].
  - pose proof (urn_word_zlen p H1). change (zlen scim_nid) with 16 in *. zl2. change (zlen scim_nid) with 16 in *. lia.
  - right; left. exists p, x, (c :: y ++ t). split; [rewrite <- !app_assoc; reflexivity|]. split; [exact H1|]. split; [apply stuck_app, H2|reflexivity].
  - pose proof (urn_word_zlen p H1). zl2. change (zlen scim_nid) with 16 in *. lia.
  - right; right; left. exists p, t0, x, (c :: y ++ t). split; [rewrite <- !app_assoc; reflexivity|]. split; [exact H1|]. split; [exact H2|].
    split; [exact H3|]. split; [|reflexivity]. destruct H4 as [[-> H4]|[H4 H5]]; [left; split; [reflexivity|apply stops_app, H4]|right].
    split; [exact H4|apply (at_char_app _ (c :: y)), H5].
  - pose proof (urn_word_zlen p H1). destruct why; cbn [e_kind e_col] in *; try congruence;
      zl2; change (zlen scim_nid) with 16 in *; lia.
  - right; right; right. exists p, t0, name, x, (c :: y ++ t), why. split; [rewrite <- !app_assoc; reflexivity|]. split; [exact H1|]. split; [exact H2|].
    split; [exact H3|]. split; [apply esc_stuck_app, H4|reflexivity].
Qed.

(* ---- RFC 8141 ------------------------------------------------------------------------ *)
Lemma informal_here_head x c y t : informal_here x (c :: y) <-> informal_here x (c :: t).
Proof. split; intros [H K]; (split; [exact H|]); eapply (at_first _ [] c); exact K. Qed.

Lemma err8141_app s e t : err8141 s e -> e_col e < zlen s -> err8141 (s ++ t) e.
Proof.
  intros [H|[(p & x & y & -> & H1 & H2 & H3 & H4)|[(p & nid & x & y & k & -> & H1 & H2 & H3 & H4 & H5 & ->)|
    [(p & nid & nss & x & y & k & -> & H1 & H2 & H3 & H4 & H5 & H6 & ->)|
    [(p & nid & nss & r & x & y & k & -> & H1 & H2 & H3 & H4 & H5 & H6 & H7 & H8 & ->)|
     (s0 & p & nid & nss & r & q & x & y & H1 & -> & H2 & H3 & H4 & ->)]]]]] Hc; [left; apply prefix_err_app; assumption|right..];
    cbn [e_col] in Hc.
  - left. exists p, x, (y ++ t). split; [rewrite <- !app_assoc; reflexivity|]. split; [exact H1|].
    destruct y as [|c y].
    { exfalso. pose proof (urn_word_zlen p H1). destruct H4 as [[(_ & c' & y' & E & _) _]|[_ ->]]; [discriminate E|]. cbn [e_col] in Hc. zl2. lia. }
    cbn [app]. split; [eapply furthest_head, H2|]. split; [|destruct H4 as [[H4 ->]|[H4 ->]]; [left|right]; rewrite (informal_here_head x c y (y ++ t)) in H4; auto].
    eapply unf_move; [|exact H2|exact H3|]; [auto|]. intros w v _ _ K. eapply at_first, K.
  - right; left. destruct y as [|c y]. { exfalso. pose proof (urn_word_zlen p H1). zl2. lia. }
    exists p, nid, x, (c :: y ++ t), k. split; [rewrite <- !app_assoc; reflexivity|]. split; [exact H1|]. split; [exact H2|].
    split; [eapply furthest_head, H3|]. split; [|split; [exact H5|reflexivity]].
    eapply unf_move; [|exact H3|exact H4|]; [auto|]. intros w v _ _ K. eapply stops_first, K.
  - right; right; left. destruct y as [|c y]. { exfalso. pose proof (urn_word_zlen p H1). zl2. change (zlen (B "?+")) with 2 in Hc. lia. }
    exists p, nid, nss, x, (c :: y ++ t), k. split; [rewrite <- !app_assoc; reflexivity|]. split; [exact H1|]. split; [exact H2|]. split; [exact H3|].
    split; [eapply furthest_head, H4|]. split; [|split; [eapply first_of_move, H6|reflexivity]].
    eapply unf_r; [exact H4|exact H5].
  - right; right; right; left. destruct y as [|c y]. { exfalso. pose proof (urn_word_zlen p H1). zl2. change (zlen (B "?=")) with 2 in Hc. lia. }
    exists p, nid, nss, r, x, (c :: y ++ t), k. split; [rewrite <- !app_assoc; reflexivity|]. split; [exact H1|]. split; [exact H2|]. split; [exact H3|]. split; [exact H4|].
    split; [destruct H5 as [H5|H5]; [left; exact H5|right; eapply at_first, H5]|].
    split; [eapply furthest_head, H6|]. split; [|split; [eapply first_of_move, H8|reflexivity]].
    eapply unf_move; [|exact H6|exact H7|]; [left; assumption|]. intros w v _ _ K. eapply stops_first, K.
  - right; right; right; right. destruct y as [|c y]. { exfalso. zl2. lia. }
    exists s0, p, nid, nss, r, q, x, (c :: y ++ t). split; [exact H1|]. split; [rewrite <- !app_assoc; cbn [app]; rewrite <- app_assoc; reflexivity|].
    split; [eapply furthest_head, H2|]. split; [intros [_ K]; discriminate K|]. split; [exact H4|reflexivity].
Qed.

(* ---- Parse ------------------------------------------------------------------------------ *)
Theorem errors_final m s t m1 uo e : reachable m -> three (m_parsingMode m) ->
  machine_Parse m s = Ret (m1, uo, Some e) -> e_col e < zlen s ->
  (m_parsingMode m = PRFC2141Only -> u_lookahead s \/ ~ u_lookahead (s ++ t)) ->
  e_kind e <> ErrSCIMOtherIncomplete ->
  exists m2, machine_Parse m (s ++ t) = Ret (m2, None, Some e).
Proof.
  intros Hr Hm Hp Hc Hl Hk. destruct (parse_reach m (s ++ t) Hr) as (m2 & uo2 & eo2 & Hp2 & _).
  assert (K : eo2 = Some e).
  { destruct Hm as [Hm|[Hm|Hm]].
    - apply (parse_err2141 m (s ++ t) m2 uo2 eo2 Hr Hm Hp2). apply err2141_app; auto. apply (parse_err2141 m s m1 uo (Some e) Hr Hm Hp); reflexivity.
    - apply (parse_errscim m (s ++ t) m2 uo2 eo2 Hr Hm Hp2). apply errscim_app; auto. apply (parse_errscim m s m1 uo (Some e) Hr Hm Hp); reflexivity.
    - apply (parse_err8141 m (s ++ t) m2 uo2 eo2 Hr Hm Hp2). apply err8141_app; auto. apply (parse_err8141 m s m1 uo (Some e) Hr Hm Hp); reflexivity. }
  subst eo2. exists m2. rewrite Hp2. f_equal. f_equal. f_equal.
  destruct (never_both m (s ++ t) m2 uo2 (Some e) Hr Hp2) as [K|K]; [exact K|discriminate K].
Qed.
