(* Proofs behind Properties.v: normalisation, equality, relation of the modes (C16-C22,
   C31-C34, C36). *)
From Coq Require Import Lia.
From Verif Require Import GoBase MachineSyntax MachineTables Machine Urn Spec Ref Exec SimBase
  ParseThm RefSpec RefSpec8 RefSpec8b Api PropsA.
Local Open Scope Z_scope.

(* ---- lower-casing facts ------------------------------------------------------------ *)
Lemma low_idem b : low (low b) = low b. Proof. destruct b; reflexivity. Qed.
Lemma low_alnum b : alnum (low b) = alnum b. Proof. destruct b; reflexivity. Qed.
Lemma low_nidc b : nid_char (low b) = nid_char b. Proof. destruct b; reflexivity. Qed.
Lemma low_colon b : low b = ":"%byte -> b = ":"%byte. Proof. destruct b; try discriminate; reflexivity. Qed.
Lemma low_lower b : lower_byte b = low b. Proof. destruct b; reflexivity. Qed.
Lemma nidc_ascii b : nid_char b = true -> is_ascii b = true. Proof. destruct b; try discriminate; reflexivity. Qed.
Lemma lowers_idem w : lowers (lowers w) = lowers w.
Proof. unfold lowers. rewrite map_map. apply map_ext, low_idem. Qed.
Lemma ToLower_nid uni w : forallb nid_char w = true -> ToLower uni w = lowers w.
Proof.
  intros H. unfold ToLower. replace (forallb is_ascii w) with true.
  - apply map_ext, low_lower.
  - symmetry. apply forallb_forall. intros x Hx. apply nidc_ascii. rewrite forallb_forall in H. auto.
Qed.
Lemma ToLower_scim uni : ToLower uni scim_nid = scim_nid.
Proof. reflexivity. Qed.

Lemma is_pct b : Byte.eqb b "%" = true <-> b = "%"%byte.
Proof. destruct b; split; try discriminate; reflexivity. Qed.
Lemma pct_dec (c : byte) : c = "%"%byte \/ Byte.eqb c "%" = false.
Proof. destruct (Byte.eqb c "%") eqn:E; [left; apply is_pct; exact E|right; reflexivity]. Qed.
Lemma norm_plain c w : Byte.eqb c "%" = false -> norm_pct (c :: w) = c :: norm_pct w.
Proof. intros H. cbn [norm_pct]. rewrite H. reflexivity. Qed.
Lemma norm_esc a b w : norm_pct ("%"%byte :: a :: b :: w) = "%"%byte :: low a :: low b :: norm_pct w.
Proof. reflexivity. Qed.
Lemma cls_nopct (cls : byte -> bool) c : cls "%"%byte = false -> cls c = true -> Byte.eqb c "%" = false.
Proof. intros H1 H2. destruct (pct_dec c) as [->|E]; [congruence|exact E]. Qed.

Lemma norm_escaped (cls : byte -> bool) w : cls "%"%byte = false -> escaped alnum cls w -> escaped alnum cls (norm_pct w).
Proof.
  intros Hc H. induction H as [|c w Hcc H IH|a b w Ha Hb H IH].
  - apply esc_nil.
  - rewrite norm_plain by (eapply cls_nopct; eauto). apply esc_plain; assumption.
  - rewrite norm_esc. apply esc_pct; rewrite ?low_alnum; assumption.
Qed.
Lemma norm_idem (cls : byte -> bool) w : cls "%"%byte = false -> escaped alnum cls w -> norm_pct (norm_pct w) = norm_pct w.
Proof.
  intros Hc H. induction H as [|c w Hcc H IH|a b w Ha Hb H IH].
  - reflexivity.
  - assert (E : Byte.eqb c "%" = false) by (eapply cls_nopct; eauto).
    rewrite (norm_plain c w E), norm_plain, IH by exact E. reflexivity.
  - rewrite !norm_esc, !low_idem, IH. reflexivity.
Qed.
Lemma norm_len (cls : byte -> bool) w : cls "%"%byte = false -> escaped alnum cls w -> List.length (norm_pct w) = List.length w.
Proof.
  intros Hc H. induction H as [|c w Hcc H IH|a b w Ha Hb H IH].
  - reflexivity.
  - rewrite norm_plain by (eapply cls_nopct; eauto). cbn [List.length]. lia.
  - rewrite norm_esc. cbn [List.length]. lia.
Qed.

(* ---- C16 ---------------------------------------------------------------------------- *)
Definition pctb (o : option byte) : bool := match o with Some b => Byte.eqb b "%" | None => false end.
Definition after_pctb (w : bytes) (i : nat) : bool :=
  match i with
  | O => false
  | S j => pctb (nth_error w j) || match j with O => false | S k => pctb (nth_error w k) end
  end.
Lemma pctb_iff o : pctb o = true <-> o = Some "%"%byte.
Proof. destruct o as [b|]; cbn; [rewrite is_pct; split; congruence|split; discriminate]. Qed.
Lemma after_pctb_iff w i : after_pctb w i = true <-> after_pct w i.
Proof.
  unfold after_pctb, after_pct. destruct i as [|j].
  - split; [discriminate|]. intros [(j & H & _)|(j & H & _)]; discriminate H.
  - rewrite orb_true_iff, pctb_iff. split.
    + intros [H|H]; [left; eauto|]. destruct j as [|k]; [discriminate H|]. apply pctb_iff in H. right. eauto.
    + intros [(j' & E & H)|(j' & E & H)].
      * injection E as <-. auto.
      * injection E as ->. right. apply pctb_iff. exact H.
Qed.
Lemma alnum_pct c : alnum c = true -> Byte.eqb c "%" = false.
Proof. apply (cls_nopct alnum). reflexivity. Qed.
Lemma norm_at (cls : byte -> bool) w : cls "%"%byte = false -> escaped alnum cls w ->
  forall i, nth_error (norm_pct w) i = option_map (fun c => if after_pctb w i then low c else c) (nth_error w i).
Proof.
  intros Hc H. induction H as [|c w Hcc H IH|a b w Ha Hb H IH]; intros i.
  - destruct i; reflexivity.
  - assert (E : Byte.eqb c "%" = false) by (eapply cls_nopct; eauto). rewrite norm_plain by exact E.
    destruct i as [|i]; [reflexivity|]. cbn [nth_error]. rewrite IH.
    replace (after_pctb (c :: w) (S i)) with (after_pctb w i); [reflexivity|].
    destruct i as [|[|i]]; cbn; rewrite ?E, ?orb_false_r; reflexivity.
  - rewrite norm_esc. apply alnum_pct in Ha, Hb.
    destruct i as [|[|[|i]]]; try reflexivity.
    { cbn. rewrite Ha. reflexivity. }
    cbn [nth_error]. rewrite IH.
    replace (after_pctb ("%"%byte :: a :: b :: w) (S (S (S i)))) with (after_pctb w i); [reflexivity|].
    destruct i as [|[|i]]; cbn; rewrite ?Ha, ?Hb, ?orb_false_r; reflexivity.
Qed.

Lemma sss_pctf : sss "%"%byte = false. Proof. reflexivity. Qed.
Lemma pchs_pctf : pchar_slash "%"%byte = false. Proof. reflexivity. Qed.
Lemma frag_pctf : frag_char "%"%byte = false. Proof. reflexivity. Qed.

Lemma esc_app esc cls a b : escaped esc cls a -> escaped esc cls b -> escaped esc cls (a ++ b).
Proof.
  intros H K. induction H as [|c w Hcc H IH|x y w Ha Hb H IH]; cbn [app];
    [exact K|apply esc_plain; assumption|apply esc_pct; assumption].
Qed.
Lemma esc_forall esc (cls : byte -> bool) w : forallb cls w = true -> escaped esc cls w.
Proof.
  induction w as [|c w IH]; intros H; [apply esc_nil|]. cbn in H. apply andb_true_iff in H as [H1 H2].
  apply esc_plain; auto.
Qed.
Lemma esc_incl esc (c1 c2 : byte -> bool) w : (forall b, c1 b = true -> c2 b = true) -> escaped esc c1 w -> escaped esc c2 w.
Proof.
  intros Hi H. induction H; [apply esc_nil|apply esc_plain; auto|apply esc_pct; auto].
Qed.
Lemma alnum_sss b : alnum b = true -> sss b = true. Proof. unfold sss. intros ->. reflexivity. Qed.
Lemma sss_pchs b : sss b = true -> pchar_slash b = true.
Proof. unfold pchar_slash, pchar. intros ->. reflexivity. Qed.

Lemma scim_ss_esc t n o : scim_type t -> scim_name n -> o = [] \/ scim_other o -> escaped alnum sss (scim_ss t n o).
Proof.
  intros Ht [_ Hn] Ho. unfold scim_ss. apply esc_app.
  { destruct Ht as [->|[->| ->]]; apply esc_forall; reflexivity. }
  apply esc_app; [apply esc_forall; reflexivity|]. apply esc_app.
  { apply (esc_incl _ alnum); [exact alnum_sss|apply esc_forall; exact Hn]. }
  destruct Ho as [->|[_ Ho]]; [apply esc_nil|]. destruct o; [apply esc_nil|]. apply esc_app; [apply esc_forall; reflexivity|exact Ho].
Qed.
Lemma scim_norm t n o : scim_type t -> scim_name n -> norm_pct (scim_ss t n o) = scim_ss t n (norm_pct o).
Proof.
  assert (Ha : forall a b, forallb (fun c => negb (Byte.eqb c "%")) a = true -> norm_pct (a ++ b) = a ++ norm_pct b).
  { induction a as [|c a IH]; intros b H; [reflexivity|]. cbn in H. apply andb_true_iff in H as [H1 H2].
    cbn [app]. rewrite norm_plain, IH by (auto; destruct (Byte.eqb c "%"); auto; discriminate). reflexivity. }
  intros Ht [_ Hn]. unfold scim_ss. rewrite Ha by (destruct Ht as [->|[->| ->]]; reflexivity).
  rewrite Ha by reflexivity. rewrite Ha.
  2:{ apply forallb_forall. intros x Hx. rewrite forallb_forall in Hn. rewrite (alnum_pct x); auto. }
  do 3 f_equal. destruct o as [|c o]; [reflexivity|]. unfold scim_tail. rewrite Ha by reflexivity.
  destruct (norm_pct (c :: o)) eqn:E; [|reflexivity].
  cbn in E. destruct (Byte.eqb c "%"); [|discriminate E]. destruct o as [|? [|? ?]]; discriminate E.
Qed.

(* the NSS of any parsed URN is an escaped string *)
Lemma parsed_SS mode s u : parsed mode s u -> mode = PRFC2141Only \/ mode = PRFC7643Only \/ mode = PRFC8141Only ->
  escaped alnum pchar_slash (u_SS u) /\ u_norm u = norm_pct (u_SS u).
Proof.
  intros H [->|[->| ->]].
  - destruct (parts2141 s u H) as (p & (_ & _ & _ & _ & Hs) & _ & E & _). split; [|exact E].
    apply (esc_incl _ sss); [exact sss_pchs|exact Hs].
  - destruct (partsscim s u H) as (p & t & sc & (_ & _ & Ht & Hn & Ho) & _ & _ & _ & _ & Es & E & _). split; [|exact E].
    rewrite Es. apply (esc_incl _ sss); [exact sss_pchs|]. apply scim_ss_esc; assumption.
  - destruct (parts8141 s u H) as (p & r & q & f & (_ & _ & _ & [Hs _] & _) & _ & E & _). split; [exact Hs|exact E].
Qed.
Lemma norm_spec mode s u : parsed mode s u -> mode = PRFC2141Only \/ mode = PRFC7643Only \/ mode = PRFC8141Only ->
  List.length (u_norm u) = List.length (u_SS u) /\
  forall i c, nth_error (u_SS u) i = Some c ->
    (after_pct (u_SS u) i -> nth_error (u_norm u) i = Some (low c)) /\
    (~ after_pct (u_SS u) i -> nth_error (u_norm u) i = Some c).
Proof.
  intros H Hm. destruct (parsed_SS mode s u H Hm) as [He ->]. split; [apply (norm_len pchar_slash); auto|].
  intros i c Hi. rewrite (norm_at pchar_slash) by auto. rewrite Hi. cbn [option_map].
  split; intros K; [apply after_pctb_iff in K; rewrite K; reflexivity|].
  destruct (after_pctb (u_SS u) i) eqn:E; [apply after_pctb_iff in E; contradiction|reflexivity].
Qed.

(* ---- C17: the normal form ------------------------------------------------------------------ *)
Lemma lowers_urn w : urn_word (lowers w) <-> urn_word w.
Proof. unfold urn_word. rewrite lowers_idem. reflexivity. Qed.
Lemma forallb_lowers w : forallb nid_char (lowers w) = forallb nid_char w.
Proof. induction w as [|c w IH]; [reflexivity|]. cbn. rewrite low_nidc. unfold lowers in IH. rewrite IH. reflexivity. Qed.
Lemma head_lowers w : head_in alnum w -> head_in alnum (lowers w).
Proof. intros (c & r & -> & H). exists (low c), (lowers r). split; [reflexivity|]. rewrite low_alnum. exact H. Qed.
Lemma nid2141_lowers w : nid2141 w -> nid2141 (lowers w).
Proof.
  intros (H1 & H2 & H3 & H4). unfold nid2141. split; [unfold lowers; rewrite map_length; exact H1|]. split; [apply head_lowers; exact H2|].
  split; [rewrite forallb_lowers; exact H3|]. rewrite lowers_urn. exact H4.
Qed.
Lemma low_dash c : low c = "-"%byte -> c = "-"%byte. Proof. destruct c; try discriminate; reflexivity. Qed.
Lemma low_inf c : low c = "0"%byte \/ upper (low c) = true \/ lower (low c) = true ->
  c = "0"%byte \/ upper c = true \/ lower c = true.
Proof. destruct c; cbn; intros [H|[H|H]]; try discriminate H; auto. Qed.
Lemma map_app_inv {A C} (f : A -> C) l : forall a b, map f l = a ++ b ->
  exists a' b', l = a' ++ b' /\ map f a' = a /\ map f b' = b.
Proof.
  induction l as [|x l IH]; intros a b H.
  - destruct a; [|discriminate H]. destruct b; [|discriminate H]. exists [], []. auto.
  - destruct a as [|y a].
    + exists [], (x :: l). auto.
    + cbn in H. injection H as E H. destruct (IH _ _ H) as (a' & b' & -> & E1 & E2).
      exists (x :: a'), b'. cbn. rewrite E, E1. auto.
Qed.
Lemma informal_lowers w : informal (lowers w) -> informal w.
Proof.
  intros (u & c & r & H & Hu & Hc). unfold lowers in H. apply map_app_inv in H as (a & b & -> & E1 & E2).
  destruct b as [|x [|y b]]; try discriminate E2. cbn in E2. injection E2 as E3 E4 _. apply low_dash in E3. subst x c.
  exists a, y, b. split; [reflexivity|]. split; [|apply low_inf; exact Hc].
  apply lowers_urn. unfold lowers. rewrite E1. exact Hu.
Qed.
Lemma nid8141_lowers w : nid8141 w -> nid8141 (lowers w).
Proof.
  intros (H1 & H2 & H3 & (c & r & E & H4) & H5). unfold nid8141. split; [unfold lowers; rewrite map_length; exact H1|].
  split; [rewrite forallb_lowers; exact H2|]. split; [apply head_lowers; exact H3|]. split.
  - exists (low c), (lowers r). split; [rewrite E; unfold lowers; rewrite map_app; reflexivity|]. rewrite low_alnum. exact H4.
  - intros K. apply H5, informal_lowers, K.
Qed.

(* same length and the same letters up to case *)
Definition sim := Forall2 (fun a b => low a = low b).
Lemma sim_refl w : sim w w. Proof. induction w; constructor; auto. Qed.
Lemma sim_lowers w : sim w (lowers w).
Proof. induction w; constructor; auto. symmetry. apply low_idem. Qed.
Lemma sim_norm w : escaped alnum sss w -> sim w (norm_pct w).
Proof.
  intros H. induction H as [|c w Hcc H IH|a b w Ha Hb H IH].
  - constructor.
  - rewrite norm_plain by (eapply cls_nopct; eauto; reflexivity). constructor; auto.
  - rewrite norm_esc. repeat constructor; auto; symmetry; apply low_idem.
Qed.
Lemma sim_nth a b : sim a b -> forall i, match nth_error a i, nth_error b i with
  | Some x, Some y => low x = low y | None, None => True | _, _ => False end.
Proof.
  induction 1; intros [|i]; cbn; auto. apply IHForall2.
Qed.
Lemma sim_u a b : sim a b -> u_lookahead b -> u_lookahead a.
Proof.
  intros H (c & H4 & Hc & H7). pose proof (sim_nth a b H 4) as K4. pose proof (sim_nth a b H 7) as K7.
  rewrite H4 in K4. rewrite H7 in K7.
  destruct (nth_error a 4) as [x|] eqn:E4; [|contradiction]. destruct (nth_error a 7) as [y|] eqn:E7; [|contradiction].
  exists x. split; [exact E4|]. split; [congruence|]. f_equal. rewrite E7. f_equal. apply low_colon. rewrite K7. reflexivity.
Qed.
Lemma urn_word_len3 w : urn_word w -> List.length w = 3%nat.
Proof. intros H. unfold urn_word, lowers in H. apply (f_equal (@List.length byte)) in H. rewrite map_length in H. exact H. Qed.

Lemma sim_app a b c d : sim a b -> sim c d -> sim (a ++ c) (b ++ d).
Proof. apply Forall2_app. Qed.
Lemma sim_urn p : urn_word p -> sim p (B "urn").
Proof. intros H. rewrite <- H. apply sim_lowers. Qed.

Lemma urn_is : urn_word (B "urn"). Proof. reflexivity. Qed.
Lemma norm_ne w : w <> [] -> norm_pct w <> [].
Proof.
  destruct w as [|c w]; [intros H; contradiction H; reflexivity|]. intros _ E. cbn in E.
  destruct (Byte.eqb c "%"); [|discriminate E]. destruct w as [|? [|? ?]]; discriminate E.
Qed.

(* the text of the normal form *)
Lemma normtext uni u : ToLower uni (u_ID u) <> [] -> u_norm u <> [] ->
  URN_String (Normalize uni u) = B "urn" ++ colon ++ ToLower uni (u_ID u) ++ colon ++ u_norm u.
Proof.
  intros H1 H2. rewrite String_text; [|exact H1|exact H2]. unfold string_text, Normalize.
  cbn [u_ID u_SS u_prefix u_r u_q u_f or_urn B]. cbn [app]. rewrite app_nil_r. reflexivity.
Qed.
Lemma lowers_ne w : w <> [] -> lowers w <> [].
Proof. destruct w; [intros H; contradiction H; reflexivity|discriminate]. Qed.

Lemma bytes_eqb_eq a : forall b, bytes_eqb a b = true <-> a = b.
Proof.
  induction a as [|x a IH]; intros [|y b]; cbn [bytes_eqb]; try (split; [discriminate|discriminate] || (split; reflexivity)).
  rewrite andb_true_iff, IH. unfold beqb. split; [intros [H ->]; apply beq_eq in H; subst; reflexivity|].
  intros H; injection H as -> ->. split; [apply beq_refl|reflexivity].
Qed.
Lemma beqb_refl w : bytes_eqb w w = true.
Proof. apply bytes_eqb_eq. reflexivity. Qed.
Lemma Equal_iff uni u v : Equal uni u (Some v) = true <->
  ToLower uni (u_ID u) = ToLower uni (u_ID v) /\ u_norm u = u_norm v.
Proof.
  unfold Equal, Normalize. cbn [u_prefix u_ID u_SS]. rewrite !andb_true_iff, !bytes_eqb_eq. tauto.
Qed.

Lemma nss8_norm w : nss8141 w -> nss8141 (norm_pct w).
Proof.
  intros [H (c & r & -> & Hc)]. split; [apply norm_escaped; [reflexivity|exact H]|].
  destruct (pct_dec c) as [->|E].
  - destruct r as [|a [|b r]].
    + eexists _, _. split; [reflexivity|discriminate].
    + eexists _, _. split; [reflexivity|discriminate].
    + rewrite norm_esc. eexists _, _. split; [reflexivity|discriminate].
  - rewrite norm_plain by exact E. eauto.
Qed.

Lemma parsed_ID uni mode s u : parsed mode s u -> three mode -> ToLower uni (u_ID u) = lowers (u_ID u) /\ u_ID u <> [] /\ u_SS u <> [].
Proof.
  intros H [->|[->| ->]].
  - destruct (parts2141 s u H) as (p & (_ & _ & Hn & Hs & _) & _). split; [|split; [apply nid2141_ne; exact Hn|exact Hs]].
    apply ToLower_nid. apply Hn.
  - destruct (partsscim s u H) as (p & t & sc & (_ & _ & Ht & _) & _ & _ & _ & Ei & Es & _). rewrite Ei, Es. split; [reflexivity|].
    split; [discriminate|apply scim_ss_ne; exact Ht].
  - destruct (parts8141 s u H) as (p & r & q & f & (_ & _ & Hn & Hs & _) & _).
    split; [|split; [apply nid8141_ne; exact Hn|apply nss8141_ne; exact Hs]]. apply ToLower_nid. apply Hn.
Qed.

Lemma norm_text uni mode s u : parsed mode s u -> three mode ->
  URN_String (Normalize uni u) = B "urn" ++ colon ++ lowers (u_ID u) ++ colon ++ norm_pct (u_SS u).
Proof.
  intros H Hm. destruct (parsed_ID uni mode s u H Hm) as (E1 & H1 & H2).
  destruct (parsed_SS mode s u H Hm) as [_ E2].
  rewrite normtext, E1, E2; [reflexivity|rewrite E1; apply lowers_ne; exact H1|rewrite E2; apply norm_ne; exact H2].
Qed.

(* normalised text is accepted, with the lower-cased ID and the normalised SS *)
Lemma norm_parsed uni mode s u : parsed mode s u -> three mode ->
  exists u', parsed mode (URN_String (Normalize uni u)) u' /\ u_ID u' = lowers (u_ID u) /\ u_SS u' = norm_pct (u_SS u) /\
    u_norm u' = norm_pct (u_SS u).
Proof.
  intros H Hm. pose proof (norm_text uni mode s u H Hm) as Et.
  destruct Hm as [->|[->| ->]].
  - destruct (parsed2141_inv s u H) as (p & n & x & Hu & Hl & Ep). apply pub_fields in Ep. cbn in Ep.
    destruct Ep as (_ & E2 & E3 & _). rewrite E2, E3 in *. destruct Hu as (Hs & Hp & Hn & Hne & He).
    destruct (parsed2141_ok (URN_String (Normalize uni u)) (B "urn") (lowers n) (norm_pct x)) as (u' & K1 & K2).
    + split; [exact Et|]. split; [exact urn_is|]. split; [apply nid2141_lowers; exact Hn|]. split; [apply norm_ne; exact Hne|].
      apply norm_escaped; [reflexivity|exact He].
    + rewrite Et. intros K. apply Hl. rewrite Hs. eapply sim_u; [|exact K].
      repeat apply sim_app; auto using sim_refl, sim_urn, sim_lowers, sim_norm.
    + exists u'. apply pub_fields in K2. cbn in K2. destruct K2 as (_ & -> & -> & -> & _). rewrite (norm_idem sss) by auto. auto.
  - destruct (parsedscim_inv s u H) as (p & t & n & o & Hu & Ep). apply pub_fields in Ep. cbn in Ep.
    destruct Ep as (_ & E2 & E3 & _). rewrite E2, E3 in *. destruct Hu as (Hs & Hp & Ht & Hn & Ho).
    rewrite (scim_norm t n o) in Et by assumption.
    assert (Hc : escaped alnum sss (scim_ss t n o)) by (apply scim_ss_esc; assumption).
    destruct (parsedscim_ok (URN_String (Normalize uni u)) (B "urn") t n (norm_pct o)) as (u' & K1 & K2).
    + split; [exact Et|]. split; [exact urn_is|]. split; [exact Ht|]. split; [exact Hn|].
      destruct Ho as [->|[Ho1 Ho2]]; [left; reflexivity|right]. split; [apply norm_ne; exact Ho1|]. apply norm_escaped; [reflexivity|exact Ho2].
    + exists u'. apply pub_fields in K2. cbn in K2. destruct K2 as (_ & -> & -> & -> & _).
      rewrite <- (scim_norm t n o) by assumption. rewrite (norm_idem sss) by auto. auto.
  - destruct (parsed8141_inv s u H) as (p & n & x & r & q & f & Hu & Ep). apply pub_fields in Ep. cbn in Ep.
    destruct Ep as (_ & E2 & E3 & _). rewrite E2, E3 in *. destruct Hu as (Hs & Hp & Hn & Hss & _).
    destruct (parsed8141_ok (URN_String (Normalize uni u)) (B "urn") (lowers n) (norm_pct x) None None None) as (u' & K1 & K2).
    + split; [rewrite Et; cbn [tail8141 opt_part app]; rewrite app_nil_r; reflexivity|]. split; [exact urn_is|].
      split; [apply nid8141_lowers; exact Hn|]. split; [apply nss8_norm; exact Hss|]. repeat split.
    + exists u'. apply pub_fields in K2. cbn in K2. destruct K2 as (_ & -> & -> & -> & _).
      rewrite (norm_idem pchar_slash) by (reflexivity || apply Hss). auto.
Qed.
Lemma norm_stable uni mode s u : parsed mode s u -> three mode ->
  exists u', parsed mode (URN_String (Normalize uni u)) u' /\ Equal uni u (Some u') = true /\
    URN_String (Normalize uni u') = URN_String (Normalize uni u) /\
    URN_String u' = URN_String (Normalize uni u).
Proof.
  intros H Hm. destruct (norm_parsed uni mode s u H Hm) as (u' & K & E1 & E2 & E3). exists u'.
  split; [exact K|].
  destruct (parsed_ID uni _ _ _ H Hm) as (F1 & _). destruct (parsed_ID uni _ _ _ K Hm) as (F2 & _).
  destruct (parsed_SS _ _ _ H Hm) as (F3 & F4). 
  assert (Et : URN_String (Normalize uni u') = URN_String (Normalize uni u)).
  { rewrite (norm_text uni _ _ _ K Hm), (norm_text uni _ _ _ H Hm), E1, E2, lowers_idem, (norm_idem pchar_slash) by auto. reflexivity. }
  split; [|split; [exact Et|]].
  - apply Equal_iff. rewrite F1, F2, E1, E3, F4, lowers_idem. auto.
  - destruct Hm as [->|[->| ->]]; [apply String2141; exact K|apply Stringscim; exact K|].
    destruct (String8141 _ _ K) as (p & r & q & f & Hu & Hsh & E). 
    rewrite (norm_text uni _ _ _ H (or_intror (or_intror eq_refl))) in *.
    (* the normal form has no component and a lower-case prefix *)
    pose proof Hu as Hu'. destruct Hu as (Hs & Hp & Hn & _).
    destruct (urn8141_unique _ _ _ _ _ _ _ (B "urn") (lowers (u_ID u)) (norm_pct (u_SS u)) None None None Hu') as (-> & _ & _ & -> & -> & ->).
    { split; [cbn [tail8141 opt_part app]; rewrite app_nil_r; reflexivity|]. split; [exact urn_is|].
      destruct (parts8141 s u H) as (p2 & r2 & q2 & f2 & (_ & _ & Hn2 & Hss2 & _) & _).
      split; [apply nid8141_lowers; exact Hn2|]. split; [apply nss8_norm; exact Hss2|]. repeat split. }
    rewrite E. cbn [tail8141 opt_part nonempty_opt app]. rewrite app_nil_r, E1, E2. f_equal.
    destruct Hsh as [[Hw (r' & Er)]|[_ ->]]; [|reflexivity].
    (* a NID beginning with urn- is already lower case *)
    rewrite E1 in Er. pose proof (f_equal lowers Er) as Er2. rewrite lowers_idem in Er2. unfold lowers in Er2 at 2. rewrite map_app in Er2.
    rewrite Er in Er2. fold (lowers (u_prefix u')) in Er2.
    apply app_len_inj in Er2; [|unfold lowers; rewrite map_length; reflexivity].
    destruct Er2 as [Er2 _]. rewrite Er2. exact Hw.
Qed.

(* ---- C18 ---------------------------------------------------------------------------------------- *)
Lemma norm_not_idem uni mode s u : parsed mode s u -> three mode ->
  Equal uni u (Some (Normalize uni u)) = false /\
  u_SS (Normalize uni (Normalize uni u)) = [] /\ u_SS (Normalize uni u) <> [] /\
  URN_String (Normalize uni (Normalize uni u)) = [] /\ URN_String (Normalize uni u) <> [].
Proof.
  intros H Hm. destruct (parsed_ID uni _ _ _ H Hm) as (F1 & F2 & F3). destruct (parsed_SS _ _ _ H Hm) as (F4 & F5).
  assert (Hn : u_norm u <> []) by (rewrite F5; apply norm_ne; exact F3).
  split; [|split; [reflexivity|split; [exact Hn|split; [apply String_empty; right; reflexivity|]]]].
  - destruct (Equal _ _ _) eqn:E; [|reflexivity]. apply Equal_iff in E. destruct E as [_ E]. contradiction.
  - rewrite (norm_text uni _ _ _ H Hm). discriminate.
Qed.

(* ---- C19 ----------------------------------------------------------------------------------------- *)
Lemma Equal_refl uni u : Equal uni u (Some u) = true.
Proof. apply Equal_iff. auto. Qed.
Lemma Equal_sym uni u v : Equal uni u (Some v) = Equal uni v (Some u).
Proof.
  destruct (Equal uni u (Some v)) eqn:E; destruct (Equal uni v (Some u)) eqn:F; try reflexivity.
  - apply Equal_iff in E as [E1 E2]. assert (Equal uni v (Some u) = true) by (apply Equal_iff; auto). congruence.
  - apply Equal_iff in F as [E1 E2]. assert (Equal uni u (Some v) = true) by (apply Equal_iff; auto). congruence.
Qed.
Lemma Equal_trans uni u v w : Equal uni u (Some v) = true -> Equal uni v (Some w) = true -> Equal uni u (Some w) = true.
Proof. rewrite !Equal_iff. intros [-> ->] [-> ->]. auto. Qed.

(* ---- C20 ------------------------------------------------------------------------------------------- *)
Lemma name_fields mode s u nid nss : parsed mode s u -> name_of mode s nid nss ->
  (mode <> PRFC7643Only -> u_ID u = nid /\ u_SS u = nss) /\
  (mode = PRFC7643Only -> nid = B "ietf" /\ nss = B "params:scim:" ++ u_SS u /\ u_ID u = scim_nid).
Proof.
  intros H [[-> (p & Hu)]|[[-> (p & t & n & o & Hu & -> & ->)]|[-> (p & r & q & f & Hu)]]].
  - split; [|discriminate]. intros _. destruct (parts2141 s u H) as (p2 & Hu2 & _).
    destruct (urn2141_unique _ _ _ _ _ _ _ Hu Hu2) as (_ & -> & ->). auto.
  - split; [intros K; contradiction K; reflexivity|]. intros _. destruct (partsscim s u H) as (p2 & t2 & sc & Hu2 & _ & _ & _ & Ei & Es & _).
    destruct (urnscim_unique _ _ _ _ _ _ _ _ _ Hu Hu2) as (_ & -> & -> & ->). rewrite Es. auto.
  - split; [|discriminate]. intros _. destruct (parts8141 s u H) as (p2 & r2 & q2 & f2 & Hu2 & _).
    destruct (urn8141_unique _ _ _ _ _ _ _ _ _ _ _ _ _ Hu Hu2) as (_ & -> & -> & _). auto.
Qed.
Lemma Equal_lex uni mode1 mode2 s1 s2 u1 u2 nid1 nss1 nid2 nss2 :
  parsed mode1 s1 u1 -> parsed mode2 s2 u2 -> name_of mode1 s1 nid1 nss1 -> name_of mode2 s2 nid2 nss2 ->
  (mode1 = PRFC7643Only <-> mode2 = PRFC7643Only) ->
  (Equal uni u1 (Some u2) = true <-> lex_equiv nid1 nss1 nid2 nss2).
Proof.
  intros H1 H2 N1 N2 Hm.
  assert (T1 : three mode1) by (destruct N1 as [[-> _]|[[-> _]|[-> _]]]; unfold three; auto).
  assert (T2 : three mode2) by (destruct N2 as [[-> _]|[[-> _]|[-> _]]]; unfold three; auto).
  rewrite Equal_iff. destruct (parsed_ID uni _ _ _ H1 T1) as (-> & _). destruct (parsed_ID uni _ _ _ H2 T2) as (-> & _).
  destruct (parsed_SS _ _ _ H1 T1) as (_ & ->). destruct (parsed_SS _ _ _ H2 T2) as (_ & ->).
  destruct (name_fields _ _ _ _ _ H1 N1) as [A1 B1]. destruct (name_fields _ _ _ _ _ H2 N2) as [A2 B2].
  unfold lex_equiv. destruct (Z.eq_dec mode1 PRFC7643Only) as [E|E].
  - destruct (B1 E) as (-> & -> & ->). destruct (B2 (proj1 Hm E)) as (-> & -> & ->).
    change (norm_pct (B "params:scim:" ++ u_SS u1)) with (B "params:scim:" ++ norm_pct (u_SS u1)).
    change (norm_pct (B "params:scim:" ++ u_SS u2)) with (B "params:scim:" ++ norm_pct (u_SS u2)).
    split; intros [_ K]; (split; [reflexivity|]); [rewrite K; reflexivity|apply app_inv_head in K; exact K].
  - destruct (A1 E) as (-> & ->). destruct (A2 (fun K => E (proj2 Hm K))) as (-> & ->). reflexivity.
Qed.
Lemma Equal_scim_other uni mode s1 s2 u1 u2 : parsed PRFC7643Only s1 u1 -> parsed mode s2 u2 ->
  mode = PRFC2141Only \/ mode = PRFC8141Only -> Equal uni u1 (Some u2) = false.
Proof.
  intros H1 H2 Hm. destruct (Equal uni u1 (Some u2)) eqn:E; [|reflexivity]. exfalso. apply Equal_iff in E as [E _].
  destruct (partsscim _ _ H1) as (p & t & sc & _ & _ & _ & _ & Ei & _). rewrite Ei in E.
  assert (T2 : three mode) by (destruct Hm as [->| ->]; unfold three; auto).
  destruct (parsed_ID uni _ _ _ H2 T2) as (F & _). rewrite F, ToLower_scim in E.
  assert (K : forallb nid_char (u_ID u2) = true).
  { destruct Hm as [->| ->].
    - destruct (parts2141 _ _ H2) as (p2 & (_ & _ & (_ & _ & K & _) & _) & _). exact K.
    - destruct (parts8141 _ _ H2) as (p2 & r2 & q2 & f2 & (_ & _ & (_ & K & _) & _) & _). exact K. }
  rewrite <- forallb_lowers, <- E in K. discriminate K.
Qed.

(* ---- C33: relation of the modes ------------------------------------------------------------------ *)
Lemma scim_in_2141 s u : parsed PRFC7643Only s u ->
  exists v, parsed PRFC2141Only s v /\ u_ID v = B "ietf" /\ u_SS v = B "params:scim:" ++ u_SS u /\ u_norm v = B "params:scim:" ++ u_norm u.
Proof.
  intros H. destruct (partsscim s u H) as (p & t & sc & (Hs & Hp & Ht & Hn & Ho) & _ & _ & _ & Ei & Es & En & _).
  destruct (parsed2141_ok s p (B "ietf") (B "params:scim:" ++ u_SS u)) as (v & K1 & K2).
  - split; [rewrite Hs, Es; reflexivity|]. split; [exact Hp|]. split; [|split; [discriminate|]].
    + split; [cbn; lia|]. split; [eexists _, _; split; reflexivity|]. split; [reflexivity|discriminate].
    + rewrite Es. apply esc_app; [apply esc_forall; reflexivity|apply scim_ss_esc; assumption].
  - rewrite Hs. intros (c & H4 & Hc & _). apply urn_word3 in Hp. destruct Hp as (a & b & c' & -> & _). cbn in H4. injection H4 as <-. discriminate Hc.
  - exists v. apply pub_fields in K2. cbn in K2. destruct K2 as (_ & -> & -> & -> & _). rewrite En. auto.
Qed.
Lemma u2141_in_8141 s u : parsed PRFC2141Only s u -> nid8141 (u_ID u) ->
  exists v, parsed PRFC8141Only s v /\ u_ID v = u_ID u /\ u_SS v = u_SS u /\ u_norm v = u_norm u /\
    u_r v = [] /\ u_q v = [] /\ u_f v = [].
Proof.
  intros H Hn. destruct (parts2141 s u H) as (p & (Hs & Hp & _ & Hne & He) & _ & En & _).
  destruct (parsed8141_ok s p (u_ID u) (u_SS u) None None None) as (v & K1 & K2).
  - split; [cbn [tail8141 opt_part app]; rewrite app_nil_r; exact Hs|]. split; [exact Hp|]. split; [exact Hn|]. split; [|repeat split].
    split; [apply (esc_incl _ sss); [exact sss_pchs|exact He]|]. 
    destruct (u_SS u) as [|c r]; [contradiction Hne; reflexivity|]. exists c, r. split; [reflexivity|]. intros ->.
    inversion He; subst; discriminate.
  - exists v. apply pub_fields in K2. cbn in K2. destruct K2 as (_ & -> & -> & -> & _ & _ & -> & -> & ->). rewrite En. auto 10.
Qed.
Lemma scim_in_8141 s u : parsed PRFC7643Only s u ->
  exists v, parsed PRFC8141Only s v /\ u_ID v = B "ietf" /\ u_SS v = B "params:scim:" ++ u_SS u /\ u_norm v = B "params:scim:" ++ u_norm u /\
    u_r v = [] /\ u_q v = [] /\ u_f v = [].
Proof.
  intros H. destruct (scim_in_2141 s u H) as (v & K & E1 & E2 & E3). destruct (u2141_in_8141 s v K) as (w & K2 & F).
  - rewrite E1. split; [cbn; lia|]. split; [reflexivity|]. split; [eexists _, _; split; reflexivity|].
    split; [exists "f"%byte, (B "iet"); split; reflexivity|].
    intros (x & c & r & E & Hx & _). apply urn_word3 in Hx. destruct Hx as (a & b & d & -> & _ & _ & Hd). cbn in E.
    injection E as _ _ _ E _. discriminate E.
  - exists w. rewrite E1, E2, E3 in F. auto.
Qed.
Lemma u8141_in_2141 s u : parsed PRFC8141Only s u -> forallb (fun b => negb (one_of "~&/?#" b)) s = true ->
  nid2141 (u_ID u) -> ~ u_lookahead s ->
  exists v, parsed PRFC2141Only s v /\ u_ID v = u_ID u /\ u_SS v = u_SS u /\ u_norm v = u_norm u.
Proof.
  intros H Hc Hn Hl. destruct (parts8141 s u H) as (p & r & q & f & (Hs & Hp & _ & Hss & _) & _ & En & _).
  assert (Hc2 : forall b, In b s -> one_of "~&/?#" b = false).
  { intros b Hb. rewrite forallb_forall in Hc. specialize (Hc b Hb). destruct (one_of "~&/?#" b); [discriminate Hc|reflexivity]. }
  assert (Ht : tail8141 r q f = []).
  { destruct (tail8141 r q f) as [|b l] eqn:E; [reflexivity|]. exfalso.
    assert (Hb : one_of "~&/?#" b = true).
    { unfold tail8141 in E. destruct r as [r|]; [injection E as <- _; reflexivity|]. destruct q as [q|]; [injection E as <- _; reflexivity|].
      destruct f as [f|]; [injection E as <- _; reflexivity|discriminate E]. }
    rewrite Hc2 in Hb; [discriminate Hb|]. rewrite Hs, ?in_app_iff. cbn. tauto. }
  rewrite Ht, app_nil_r in Hs.
  destruct (parsed2141_ok s p (u_ID u) (u_SS u)) as (v & K1 & K2); [|exact Hl|].
  - split; [exact Hs|]. split; [exact Hp|]. split; [exact Hn|]. split; [apply nss8141_ne; exact Hss|].
    destruct Hss as [He _]. assert (Hi : forall b, In b (u_SS u) -> one_of "~&/?#" b = false).
    { intros b Hb. apply Hc2. rewrite Hs, ?in_app_iff. tauto. }
    clear - He Hi. induction He as [|c w Hcc H IH|x y w Ha Hb H IH].
    + apply esc_nil.
    + apply esc_plain; [|apply IH; intros; apply Hi; right; assumption]. specialize (Hi c (or_introl eq_refl)).
      revert Hcc Hi. clear. destruct c; cbn; try discriminate; reflexivity.
    + apply esc_pct; auto. apply IH. intros; apply Hi; cbn; auto.
  - exists v. apply pub_fields in K2. cbn in K2. destruct K2 as (_ & -> & -> & -> & _). auto.
Qed.

(* ---- C34, C36: the characters of an accepted text ----------------------------------------------------- *)
Lemma pct_app a b : pct_ok a -> pct_ok b -> pct_ok (a ++ b).
Proof.
  intros H1 H2 x y E. revert a b H1 H2 y E. induction x as [|c x IH]; intros a b H1 H2 y E.
  - destruct a as [|d a]; [apply (H2 []); exact E|]. cbn in E. injection E as -> E.
    destruct (H1 [] a eq_refl) as (u & v & a' & -> & K). subst y. exists u, v, (a' ++ b). auto.
  - destruct a as [|d a]; [apply (H2 (c :: x)); exact E|]. cbn in E. injection E as -> E.
    apply (IH a b); auto. intros x' y' E'. apply (H1 (c :: x')). rewrite E'. reflexivity.
Qed.
Lemma pct_free w : forallb (fun c => negb (Byte.eqb c "%")) w = true -> pct_ok w.
Proof. intros H x y ->. rewrite forallb_app in H. cbn in H. rewrite andb_false_r in H. discriminate H. Qed.
Lemma pct_one c : Byte.eqb c "%" = false -> pct_ok [c].
Proof. intros H. apply pct_free. cbn. rewrite H. reflexivity. Qed.
Lemma pct_nil : pct_ok []. Proof. apply pct_free. reflexivity. Qed.
Lemma pct_esc (cls : byte -> bool) w : cls "%"%byte = false -> escaped alnum cls w -> pct_ok w.
Proof.
  intros Hc H. induction H as [|c w Hcc H IH|a b w Ha Hb H IH].
  - apply pct_nil.
  - apply (pct_app [c] w); [apply pct_one; eapply cls_nopct; eauto|exact IH].
  - change (pct_ok (["%"%byte; a; b] ++ w)). apply pct_app; [|exact IH]. intros x y E.
    destruct x as [|x1 x]; cbn in E; [injection E as <-; eauto 6|]. injection E as _ E.
    apply alnum_pct in Ha, Hb. exfalso.
    destruct x as [|x2 x]; cbn in E; [injection E as -> _; discriminate Ha|]. injection E as _ E.
    destruct x as [|x3 x]; cbn in E; [injection E as -> _; discriminate Hb|]. injection E as _ E. destruct x; discriminate E.
Qed.
Lemma pct_nid w : forallb nid_char w = true -> pct_ok w.
Proof. intros H. apply (pct_esc nid_char); [reflexivity|apply esc_forall; exact H]. Qed.
Lemma pct_urn w : urn_word w -> pct_ok w.
Proof.
  intros H. apply pct_nid. rewrite <- forallb_lowers, H. reflexivity.
Qed.
Lemma pct_part (P : bytes -> Prop) i o : (forall w, P w -> pct_ok w) -> pct_ok i -> opt_ok P o -> pct_ok (opt_part i o).
Proof. intros HP Hi Ho. destruct o as [w|]; [apply pct_app; auto|apply pct_nil]. Qed.

Lemma pct_parsed mode s u : parsed mode s u -> three mode -> pct_ok s.
Proof.
  intros H [->|[->| ->]].
  - destruct (parts2141 s u H) as (p & (-> & Hp & (_ & _ & Hn & _) & _ & He) & _).
    repeat apply pct_app; auto using pct_urn, pct_nid; try (apply pct_free; reflexivity). apply (pct_esc sss); auto.
  - destruct (partsscim s u H) as (p & t & sc & (-> & Hp & Ht & Hn & Ho) & _).
    repeat apply pct_app; auto using pct_urn; try (apply pct_free; reflexivity).
    + destruct Ht as [->|[->| ->]]; apply pct_free; reflexivity.
    + apply (pct_esc alnum); [reflexivity|]. apply esc_forall. apply Hn.
    + destruct Ho as [->|[_ Ho]]; [apply pct_nil|]. destruct (s_Other sc) as [|c o] eqn:E; [apply pct_nil|].
      apply pct_app; [apply pct_free; reflexivity|apply (pct_esc sss); auto].
  - destruct (parts8141 s u H) as (p & r & q & f & (-> & Hp & (_ & Hn & _) & [He _] & Hr & Hq & Hf) & _).
    assert (Hcm : forall w, component w -> pct_ok w) by (intros w [Hw _]; apply (pct_esc frag_char); auto).
    repeat apply pct_app; auto using pct_urn, pct_nid; try (apply pct_free; reflexivity).
    + apply (pct_esc pchar_slash); auto.
    + apply (pct_part r_component); [intros w [Hw _]; auto|apply pct_free; reflexivity|exact Hr].
    + apply (pct_part q_component); [intros w [Hw _]; auto|apply pct_free; reflexivity|exact Hq].
    + apply (pct_part fragment); [intros w Hw; apply (pct_esc frag_char); auto|apply pct_free; reflexivity|exact Hf].
Qed.

Lemma uc_esc (cls : byte -> bool) w : (forall b, cls b = true -> url_char b = true) -> escaped alnum cls w -> forallb url_char w = true.
Proof.
  intros Hi H. assert (Ha : forall b, alnum b = true -> url_char b = true) by (unfold url_char; intros b ->; reflexivity).
  induction H; cbn [forallb]; [reflexivity|rewrite Hi; auto|]. rewrite (Ha a), (Ha b), IHescaped; auto.
Qed.
Lemma uc_all (cls : byte -> bool) w : (forall b, cls b = true -> url_char b = true) -> forallb cls w = true -> forallb url_char w = true.
Proof. intros Hi H. apply (uc_esc cls); [exact Hi|apply esc_forall; exact H]. Qed.
Lemma uc_nidc b : nid_char b = true -> url_char b = true. Proof. destruct b; try discriminate; reflexivity. Qed.
Lemma uc_sss b : sss b = true -> url_char b = true. Proof. destruct b; try discriminate; reflexivity. Qed.
Lemma uc_pchs b : pchar_slash b = true -> url_char b = true. Proof. destruct b; try discriminate; reflexivity. Qed.
Lemma uc_frag b : frag_char b = true -> url_char b = true. Proof. destruct b; try discriminate; reflexivity. Qed.
Lemma uc_alnum b : alnum b = true -> url_char b = true. Proof. destruct b; try discriminate; reflexivity. Qed.
Lemma uc_urn w : urn_word w -> forallb url_char w = true.
Proof. intros H. apply (uc_all nid_char); [exact uc_nidc|]. rewrite <- forallb_lowers, H. reflexivity. Qed.
Lemma uc_part (P : bytes -> Prop) i o : (forall w, P w -> forallb url_char w = true) -> forallb url_char i = true ->
  opt_ok P o -> forallb url_char (opt_part i o) = true.
Proof. intros HP Hi Ho. destruct o as [w|]; [|reflexivity]. cbn [opt_part]. rewrite forallb_app, Hi, HP; auto. Qed.
Lemma chars_parsed mode s u : parsed mode s u -> three mode -> forallb url_char s = true.
Proof.
  intros H [->|[->| ->]].
  - destruct (parts2141 s u H) as (p & (-> & Hp & (_ & _ & Hn & _) & _ & He) & _).
    rewrite !forallb_app, (uc_urn p Hp), (uc_all _ _ uc_nidc Hn), (uc_esc _ _ uc_sss He). reflexivity.
  - destruct (partsscim s u H) as (p & t & sc & (-> & Hp & Ht & Hn & Ho) & _).
    rewrite !forallb_app, (uc_urn p Hp), (uc_esc _ _ uc_sss (scim_ss_esc _ _ _ Ht Hn Ho)). reflexivity.
  - destruct (parts8141 s u H) as (p & r & q & f & (-> & Hp & (_ & Hn & _) & [He _] & Hr & Hq & Hf) & _).
    unfold tail8141.
    assert (Hcm : forall w, component w -> forallb url_char w = true) by (intros w [Hw _]; apply (uc_esc _ _ uc_frag Hw)).
    rewrite !forallb_app, (uc_urn p Hp), (uc_all _ _ uc_nidc Hn), (uc_esc _ _ uc_pchs He).
    rewrite (uc_part r_component), (uc_part q_component), (uc_part fragment); auto.
    + intros w Hw. apply (uc_esc _ _ uc_frag Hw).
    + intros w [Hw _]. auto.
    + intros w [Hw _]. auto.
Qed.
Lemma url_char_plain b : url_char b = true ->
  (33 <= Z.of_N (Byte.to_N b) <= 126) /\ b <> """"%byte /\ b <> "\"%byte /\ b <> "<"%byte /\ b <> ">"%byte.
Proof. destruct b; cbn; try discriminate; intros _; repeat split; try discriminate; lia. Qed.

(* ---- C31, C32 ---------------------------------------------------------------------------------------- *)
Lemma type_rt t : t = TSchemas \/ t = TAPI \/ t = TParam -> TypeFromString (Type_String t) = t.
Proof. intros [->|[->| ->]]; reflexivity. Qed.
Lemma type_uns s : TypeFromString s = TUnsupported <-> s <> B "schemas" /\ s <> B "api" /\ s <> B "param".
Proof.
  unfold TypeFromString. split.
  - intros H. repeat split; intros ->; discriminate H.
  - intros (H1 & H2 & H3).
    destruct (bytes_eqb s (B "schemas")) eqn:E1; [apply bytes_eqb_eq in E1; contradiction|].
    destruct (bytes_eqb s (B "api")) eqn:E2; [apply bytes_eqb_eq in E2; contradiction|].
    destruct (bytes_eqb s (B "param")) eqn:E3; [apply bytes_eqb_eq in E3; contradiction|]. reflexivity.
Qed.
Lemma type_inj t1 t2 : Type_String t1 = Type_String t2 -> Type_String t1 <> [] -> t1 = t2.
Proof.
  unfold Type_String, TSchemas, TAPI, TParam.
  destruct (Z.eqb_spec t1 1) as [->|N1]; [|destruct (Z.eqb_spec t1 2) as [->|N2]; [|destruct (Z.eqb_spec t1 3) as [->|N3]]];
  (destruct (Z.eqb_spec t2 1) as [->|M1]; [|destruct (Z.eqb_spec t2 2) as [->|M2]; [|destruct (Z.eqb_spec t2 3) as [->|M3]]]);
  intros H K; try reflexivity; try discriminate H; contradiction K; reflexivity.
Qed.
Lemma type_empty t : Type_String t = [] <-> t <> TSchemas /\ t <> TAPI /\ t <> TParam.
Proof.
  unfold Type_String. split.
  - intros H. repeat split; intros ->; discriminate H.
  - intros (H1 & H2 & H3). apply Z.eqb_neq in H1, H2, H3. rewrite H1, H2, H3. reflexivity.
Qed.
Lemma type_string_scim t : scim_type t -> Type_String (TypeFromString t) = t.
Proof. intros [->|[->| ->]]; reflexivity. Qed.
Lemma SCIM_text s : SCIM_String s = B "urn" ++ colon ++ scim_nid ++ colon ++ scim_ss (Type_String (s_Type s)) (s_Name s) (s_Other s).
Proof.
  unfold SCIM_String, scim_ss, scim_tail. destruct (s_Other s) as [|c o]; cbn [is_empty negb].
  - rewrite app_nil_r. reflexivity.
  - cbn [app B scim_nid colon]. rewrite <- !app_assoc. reflexivity.
Qed.
Lemma scim_string_parsed s u : parsed PRFC7643Only s u ->
  exists sc prefix rest, URN_SCIM u = Some sc /\ s = prefix ++ rest /\ urn_word prefix /\ SCIM_String sc = lowers prefix ++ rest.
Proof.
  intros H. destruct (partsscim s u H) as (p & t & sc & (Hs & Hp & Ht & _) & _ & E1 & E2 & _ & _ & _ & Ek & _).
  exists sc, p, (colon ++ scim_nid ++ colon ++ scim_ss t (s_Name sc) (s_Other sc)).
  split; [unfold URN_SCIM; rewrite Ek; exact E1|]. split; [exact Hs|]. split; [exact Hp|].
  rewrite SCIM_text, E2, type_string_scim by exact Ht. rewrite Hp. reflexivity.
Qed.
Lemma scim_string_rt sc : s_Type sc = TSchemas \/ s_Type sc = TAPI \/ s_Type sc = TParam -> scim_name (s_Name sc) ->
  s_Other sc = [] \/ scim_other (s_Other sc) ->
  exists u sc', parsed PRFC7643Only (SCIM_String sc) u /\ URN_SCIM u = Some sc' /\
    s_Type sc' = s_Type sc /\ s_Name sc' = s_Name sc /\ s_Other sc' = s_Other sc.
Proof.
  intros Ht Hn Ho.
  destruct (parsedscim_ok (SCIM_String sc) (B "urn") (Type_String (s_Type sc)) (s_Name sc) (s_Other sc)) as (u & K1 & K2).
  - split; [apply SCIM_text|]. split; [reflexivity|]. split; [|auto].
    destruct Ht as [->|[->| ->]]; unfold scim_type; cbn; auto.
  - apply pub_fields in K2. cbn in K2. destruct K2 as (_ & _ & _ & _ & Ek & Es & _).
    destruct (u_scim u) as [sc'|] eqn:E; [|discriminate Es]. injection Es as E1 E2 E3.
    exists u, sc'. split; [exact K1|]. split; [unfold URN_SCIM; rewrite Ek; exact E|].
    rewrite E1, type_rt by exact Ht. auto.
Qed.

(* ---- C04, C26: machines of the same mode ----------------------------------------------------------- *)
Lemma reach_set m : reachable m -> m_parsingMode m <> PDefault -> m_parsingModeSet m = true.
Proof.
  induction 1 as [|m x Hm IH|m s m' uo eo Hm IH Hp]; intros D.
  - exfalso. apply D. reflexivity.
  - reflexivity.
  - destruct (parse_reach_inv _ _ _ _ _ Hm Hp) as (_ & (_ & K' & K) & _). rewrite K. apply IH. rewrite <- K'. exact D.
Qed.
Lemma parse_mode_eq m1 m2 s : reachable m1 -> reachable m2 -> m_parsingMode m1 = m_parsingMode m2 ->
  three (m_parsingMode m1) -> machine_Parse m1 s = machine_Parse m2 s.
Proof.
  intros H1 H2 E T. symmetry. apply parse_init_eq. unfold same_mode.
  assert (D : m_parsingMode m1 <> PDefault) by (destruct T as [T|[T|T]]; rewrite T; discriminate).
  rewrite (reach_set m1 H1 D), (reach_set m2 H2) by (rewrite <- E; exact D). rewrite E. split; [|auto].
  destruct (reach_start m1 H1) as (A1 & A2 & A3). destruct (reach_start m2 H2) as (B1 & B2 & B3).
  destruct T as [T|[T|T]]; rewrite E in T.
  - rewrite A1, B1 by congruence. reflexivity.
  - rewrite A2, B2 by congruence. reflexivity.
  - rewrite A3, B3 by congruence. reflexivity.
Qed.
Lemma new_last l x : m_parsingMode (NewMachine (l ++ [x])) = x.
Proof.
  unfold NewMachine. rewrite fold_left_app. cbn [fold_left].
  cbn [machine_WithParsingMode m_parsingModeSet]. reflexivity.
Qed.
Lemma new_none : m_parsingMode (NewMachine []) = PRFC2141Only.
Proof. reflexivity. Qed.
Lemma default_nil s : exists m', machine_Parse (NewMachine [PDefault]) s = Ret (m', None, None).
Proof.
  destruct (parse_reach (NewMachine [PDefault]) s (reach_new _)) as (m' & uo & eo & Hp & _ & _ & _ & Ho).
  cbn in Ho. destruct Ho as [-> ->]. eauto.
Qed.

Lemma zero_nil s : exists m', machine_Parse zero_machine s = Ret (m', None, None).
Proof.
  destruct (parse_reach zero_machine s reach_zero) as (m' & uo & eo & Hp & _ & _ & _ & Ho).
  cbn in Ho. destruct Ho as [-> ->]. eauto.
Qed.

(* ---- C12 ------------------------------------------------------------------------------------------ *)
Lemma kind_any u : (IsSCIM u = true <-> RFC u = KRFC7643) /\
  (URN_SCIM u <> None -> RFC u = KRFC7643) /\ (RFC u = KRFC7643 -> URN_SCIM u = u_scim u).
Proof.
  unfold IsSCIM, URN_SCIM, RFC. rewrite Z.eqb_eq. destruct (Z.eqb_spec (u_kind u) KRFC7643) as [E|E]; cbn [negb].
  - repeat split; auto.
  - split; [tauto|]. split; [intros H; contradiction H; reflexivity|intros H; contradiction].
Qed.

(* ---- C14, C21 ------------------------------------------------------------------------------------- *)
Lemma shown_fun prefix nid a b : shown_prefix prefix nid a -> shown_prefix prefix nid b -> a = b.
Proof. rewrite !shown_iff. congruence. Qed.
Lemma String8141_iff2 s u prefix r q f : parsed PRFC8141Only s u -> urn8141 s prefix (u_ID u) (u_SS u) r q f ->
  (URN_String u = s <-> shown_prefix prefix (u_ID u) prefix /\ f <> Some []).
Proof.
  intros H Hu. rewrite (String8141_iff s u prefix r q f H Hu).
  destruct (parts8141 s u H) as (p2 & r2 & q2 & f2 & Hu2 & Hsh & _).
  destruct (urn8141_unique _ _ _ _ _ _ _ _ _ _ _ _ _ Hu Hu2) as (<- & _).
  split; intros [H1 H2]; (split; [|exact H2]); [rewrite H1 in Hsh; exact Hsh|].
  eapply shown_fun; eauto.
Qed.
Lemma components_ignored uni s1 s2 u1 u2 p1 p2 nid nss r1 q1 f1 r2 q2 f2 :
  parsed PRFC8141Only s1 u1 -> parsed PRFC8141Only s2 u2 ->
  urn8141 s1 p1 nid nss r1 q1 f1 -> urn8141 s2 p2 nid nss r2 q2 f2 ->
  Equal uni u1 (Some u2) = true /\ URN_String (Normalize uni u1) = URN_String (Normalize uni u2).
Proof.
  intros H1 H2 N1 N2. split.
  - apply (Equal_lex uni PRFC8141Only PRFC8141Only s1 s2 u1 u2 nid nss nid nss); auto.
    + right; right. split; [reflexivity|]. eauto 6.
    + right; right. split; [reflexivity|]. eauto 6.
    + tauto.
    + split; reflexivity.
  - rewrite (norm_text uni _ _ _ H1), (norm_text uni _ _ _ H2) by (unfold three; auto).
    destruct (parts8141 _ _ H1) as (a1 & b1 & c1 & d1 & M1 & _). destruct (parts8141 _ _ H2) as (a2 & b2 & c2 & d2 & M2 & _).
    destruct (urn8141_unique _ _ _ _ _ _ _ _ _ _ _ _ _ N1 M1) as (_ & <- & <- & _).
    destruct (urn8141_unique _ _ _ _ _ _ _ _ _ _ _ _ _ N2 M2) as (_ & <- & <- & _). reflexivity.
Qed.

(* ---- the normal form as a value ------------------------------------------------ *)
Lemma normalized_bare uni u : RFC (Normalize uni u) = KNONE /\
  IsSCIM (Normalize uni u) = false /\ URN_SCIM (Normalize uni u) = None /\
  RComponent (Normalize uni u) = [] /\ QComponent (Normalize uni u) = [] /\ FComponent (Normalize uni u) = [] /\
  (URN_String (Normalize uni u) <> [] -> firstn 4 (URN_String (Normalize uni u)) = B "urn:").
Proof.
  repeat (split; [reflexivity|]). unfold URN_String, Normalize. cbn. 
  destruct (negb _ && negb _); [intros _; reflexivity|congruence].
Qed.

Lemma handbuilt_ascii uni id1 ss1 id2 ss2 :
  (forall c, List.In c (id1 ++ id2) -> (Byte.to_N c < 128)%N) ->
  (Equal uni (handbuilt id1 ss1) (Some (handbuilt id2 ss2)) = true <-> lowers id1 = lowers id2).
Proof.
  assert (A : forall w, (forall c, List.In c w -> (Byte.to_N c < 128)%N) -> ToLower uni w = lowers w).
  { intros w H. unfold ToLower. replace (forallb is_ascii w) with true.
    - unfold lowers. apply map_ext. exact low_lower.
    - symmetry. apply forallb_forall. intros c Hc. specialize (H c Hc). unfold is_ascii. 
      destruct c; try reflexivity; vm_compute in H; discriminate H. }
  intros H. rewrite Equal_iff. cbn.
  rewrite (A id1), (A id2) by (intros c Hc; apply H, in_or_app; auto). tauto.
Qed.
