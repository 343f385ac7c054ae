(* The exact number of bytes moved by a call of Parse that accepts, per mode. *)
From Coq Require Import Lia.
From Verif Require Import GoBase MachineSyntax MachineTables Machine Spec Exec Ref RefSpec RefSpec8b Api Cost PropsCost PropsCostB PropsCostExact PropsCostExact2 PropsCostExact3 SpecCost.
Local Open Scope Z_scope.

(* ---- letters turned into lower case ----------------------------------------------------------------- *)
Lemma low_diff b : (if Byte.eqb b (low b) then 0 else 1) = (if upper b then 1 else 0).
Proof. destruct b; reflexivity. Qed.
Lemma pct_step cls c : cls "%"%byte = false -> cls c = true -> Byte.eqb c "%" = false.
Proof. intros H0 H. destruct (Byte.eqb c "%") eqn:E; [|reflexivity]. apply Byte.byte_dec_bl in E. subst. congruence. Qed.
Lemma eqb_r b : Byte.eqb b b = true.
Proof. destruct b; reflexivity. Qed.
Lemma sc_changed esc cls w : cls "%"%byte = false -> escaped esc cls w -> forall n,
  fold_left scst w (0%nat, n) = (0%nat, n + changed w (norm_pct w)).
Proof.
  intros Hc H. induction H as [|c w Hcl H IH|a b w Ha Hb H IH]; intros n.
  - cbn [fold_left norm_pct changed]. rewrite Z.add_0_r. reflexivity.
  - cbn [fold_left norm_pct]. pose proof (pct_step cls c Hc Hcl) as E. rewrite E. cbn [changed]. rewrite eqb_r.
    unfold scst at 2. cbn [fst snd nexte hit]. rewrite E, Z.add_0_r. apply IH.
  - cbn [fold_left norm_pct]. change (Byte.eqb "%" "%") with true. cbn iota. cbn [changed]. change (Byte.eqb "%" "%") with true. cbn iota.
    rewrite !low_diff. unfold scst at 2 3 4. cbn [fst snd nexte hit]. change (Byte.eqb "%" "%") with true. cbn iota. cbn [nexte hit].
    rewrite IH. f_equal. lia.
Qed.
Lemma sc_esc esc cls w : cls "%"%byte = false -> escaped esc cls w -> snd (sc w) = changed w (norm_pct w).
Proof. intros Hc H. unfold sc. rewrite (sc_changed esc cls w Hc H). reflexivity. Qed.

(* ---- from the start ---------------------------------------------------------------------------------- *)
Lemma exact_cost m s m' u : reachable m -> List.In (m_startParsingAt m) [1; 44; 83]%N -> machine_Parse m s = Ret (m', Some u, None) ->
  Parse_cost m s = K (zc (m_startParsingAt m)) u.
Proof.
  intros H Hs Hp. unfold machine_Parse in Hp. unfold Parse_cost.
  destruct (run (parse_fuel (List.length s)) LEnter (parse_init m s, zeroURN)) as [[m1 u1]| |] eqn:Er; cbn [bind] in Hp; try discriminate Hp.
  destruct (N.ltb (m_cs m1) first_final || N.eqb (m_cs m1) en_fail) eqn:Ej; [discriminate Hp|]. injection Hp as <- <-.
  destruct (run_inv _ _ _ _ Er ltac:(discriminate)) as (f & l & x & S1 & R1 & C1).
  set (st := m_startParsingAt m) in *.
  assert (Hst : (0 < st <= 193)%N /\ dead st = false /\ ph st = PStart /\ rejecting st = true).
  { destruct Hs as [<-|[<-|[<-|[]]]]; repeat split; reflexivity || discriminate. }
  destruct Hst as (H1 & H2 & H3 & H4).
  assert (Ha : Acc st (m_parsingMode m) (m_parsingModeSet m) st [] s 0 zeroURN (m1, u1) (Parse_cost m s)).
  { exists f. unfold Parse_cost. rewrite C1. cbn [app]. change (zlen (@nil byte)) with 0.
    change (cfg st (m_parsingMode m) (m_parsingModeSet m) s st 0 0) with (parse_init m s).
    cbn [step parse_init m_p m_pe m_cs] in S1. fold st in S1.
    assert (Q : l = nextl s /\ x = (parse_init m s, zeroURN)).
    { destruct s as [|b s].
      - injection S1 as <- <-. auto.
      - replace (0 =? zlen (b :: s)) with false in S1 by (symmetry; apply Z.eqb_neq; rewrite zlen_cons; pose proof (zlen_nonneg s); lia).
        replace (N.eqb st 0) with false in S1 by (symmetry; apply N.eqb_neq; lia). injection S1 as <- <-. auto. }
    destruct Q as [-> ->]. split; [exact R1|]. split; [exact Ej|]. change (step_cost LEnter (parse_init m s, zeroURN)) with 0. lia. }
  assert (Hi : Inv (zc st) st [] 0 zeroURN 0).
  { split; [reflexivity|]. rewrite H3. auto. }
  pose proof (acc_inv _ _ _ _ s st [] 0 zeroURN 0 _ _ H1 H2 Hi Ha) as Q. cbn [snd] in Q. unfold Parse_cost in Q. lia.
Qed.

(* ---- the three modes ---------------------------------------------------------------------------------- *)
Lemma exact_2141 : forall m s prefix nid nss, reachable m -> m_parsingMode m = PRFC2141Only ->
  urn2141 alnum s prefix nid nss -> ~ u_lookahead s ->
  Parse_cost m s = 3 + zlen nid + 2 * zlen nss + 3 * changed nss (norm_pct nss).
Proof.
  intros m s prefix nid nss H Hm Hu Hl. destruct (reach_start m H) as (Hs & _ & _). specialize (Hs Hm).
  destruct (parse2141_ok m s prefix nid nss H Hm Hu Hl) as (m' & u & Hp & Hpub). destruct Hu as (_ & _ & _ & _ & He).
  rewrite (exact_cost m s m' u H ltac:(rewrite Hs; cbn; auto) Hp), Hs. change (zc 1) with false.
  destruct u as [pr id ss no ki sm r q f rs qs tl]. unfold pub_of, res2141 in Hpub. cbn [u_prefix u_ID u_SS u_norm u_kind u_scim u_r u_q u_f] in Hpub. injection Hpub as -> -> -> -> -> Hsm -> -> ->.
  unfold K, kc. cbn [u_ID u_SS u_scim u_r u_q u_f]. destruct sm; [discriminate Hsm|]. rewrite (sc_esc alnum sss nss eq_refl He).
  change (zlen (@nil byte)) with 0. cbn [sc fold_left snd marks kscim kd]. lia.
Qed.
Lemma exact_scim : forall m s prefix t name other, reachable m -> m_parsingMode m = PRFC7643Only ->
  urnscim s prefix t name other ->
  let ss := scim_ss t name other in
  Parse_cost m s = 3 + zlen scim_nid + zlen t + zlen name + zlen other + 2 * zlen ss + 3 * changed ss (norm_pct ss).
Proof.
  intros m s prefix t name other H Hm Hu ss. destruct (reach_start m H) as (_ & Hs & _). specialize (Hs Hm).
  destruct (parsescim_ok m s prefix t name other H Hm Hu) as (m' & u & Hp & Hpub). destruct Hu as (_ & _ & Ht & Hn & Ho).
  rewrite (exact_cost m s m' u H ltac:(rewrite Hs; cbn; auto) Hp), Hs. change (zc 44) with false.
  destruct u as [pr id ss' no ki sm r q f rs qs tl]. unfold pub_of, resscim in Hpub. cbn [u_prefix u_ID u_SS u_norm u_kind u_scim u_r u_q u_f] in Hpub. injection Hpub as -> -> -> -> -> Hsm -> -> ->.
  unfold K, kc. cbn [u_ID u_SS u_scim u_r u_q u_f]. destruct sm as [[ty na ot po]|]; [|discriminate Hsm]. cbn [s_Type s_Name s_Other] in Hsm. injection Hsm as -> -> ->.
  fold ss. rewrite (sc_esc alnum sss ss eq_refl (PropsB.scim_ss_esc t name other Ht Hn Ho)).
  assert (El : zlen (Type_String (TypeFromString t)) = zlen t) by (destruct Ht as [->|[->| ->]]; reflexivity).
  cbn [kscim s_Type s_Name s_Other]. rewrite El.
  change (zlen (@nil byte)) with 0. cbn [sc fold_left snd marks kd]. lia.
Qed.
Lemma opt_kc (P : bytes -> Prop) w : (forall v, P v -> escaped alnum frag_char v) -> opt_ok P w ->
  kc (opt_val w) = zlen (opt_val w) + changed (opt_val w) (norm_pct (opt_val w)).
Proof.
  intros HP H. unfold kc. destruct w as [w|]; [|reflexivity]. cbn [opt_val opt_ok] in *. rewrite (sc_esc alnum frag_char w eq_refl (HP w H)). reflexivity.
Qed.
Lemma exact_8141 : forall m s prefix nid nss r q f, reachable m -> m_parsingMode m = PRFC8141Only ->
  urn8141 s prefix nid nss r q f ->
  let R := opt_val r in let Q := opt_val q in let F := opt_val f in
  Parse_cost m s = 3 + (if dashed nid then 3 else 0) + zlen nid + 2 * zlen nss + 3 * changed nss (norm_pct nss) +
    (zlen R + changed R (norm_pct R) + marks 0 R) + (zlen Q + changed Q (norm_pct Q)) + (zlen F + changed F (norm_pct F)).
Proof.
  intros m s prefix nid nss r q f H Hm Hu R Q F. destruct (reach_start m H) as (_ & _ & Hs). specialize (Hs Hm).
  destruct (parse8141_ok m s prefix nid nss r q f H Hm Hu) as (m' & u & Hp & Hpub). destruct Hu as (_ & _ & _ & (He & _) & Hr & Hq & Hf).
  rewrite (exact_cost m s m' u H ltac:(rewrite Hs; cbn; auto) Hp), Hs. change (zc 83) with true.
  destruct u as [pr id ss no ki sm r' q' f' rs qs tl]. unfold pub_of, res8141 in Hpub. cbn [u_prefix u_ID u_SS u_norm u_kind u_scim u_r u_q u_f] in Hpub. injection Hpub as -> -> -> -> -> Hsm -> -> ->.
  unfold K. cbn [u_ID u_SS u_scim u_r u_q u_f]. destruct sm; [discriminate Hsm|]. rewrite (sc_esc alnum pchar_slash nss eq_refl He).
  rewrite (opt_kc r_component r), (opt_kc q_component q), (opt_kc fragment f); auto.
  2: intros v [[Hv _] _]; exact Hv. 2: intros v [[Hv _] _]; exact Hv.
  fold R Q F. unfold kd. cbn [kscim andb]. lia.
Qed.
