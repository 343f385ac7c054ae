(* Proofs behind Properties.v: totality, language and parts (C01-C15). *)
From Coq Require Import Lia.
From Verif Require Import GoBase MachineSyntax MachineTables Machine Urn Spec Ref Exec SimBase
  ParseThm RefSpec RefSpec8 RefSpec8b Api.
Local Open Scope Z_scope.

(* ---- C02: counting the steps of the goto program ---------------------------------- *)
Lemma run_steps fuel : forall l x y, run fuel l x = Ret y -> exists n, (n <= fuel)%nat /\ steps l x n y.
Proof.
  induction fuel as [|fuel IH]; intros l x y H.
  - destruct l; cbn in H; try discriminate H. injection H as ->. exists O. split; [lia|constructor].
  - assert (Hl : l = LOut \/ l <> LOut) by (destruct l; auto; right; discriminate).
    destruct Hl as [->|Hl].
    + cbn in H. injection H as ->. exists O. split; [lia|constructor].
    + assert (Hr : (do r <- step l x; let '(l', x') := r in run fuel l' x') = Ret y)
        by (destruct l; try exact H; contradiction Hl; reflexivity).
      destruct (step l x) as [[l' x']| |] eqn:Hs; try discriminate Hr. cbn [bind] in Hr.
      destruct (IH _ _ _ Hr) as (n & Hn & K). exists (S n). split; [lia|]. econstructor; eauto.
Qed.

Lemma parse_run m s m' uo eo : machine_Parse m s = Ret (m', uo, eo) ->
  exists u, run (parse_fuel (List.length s)) LEnter (parse_init m s, zeroURN) = Ret (m', u).
Proof.
  unfold machine_Parse. destruct (run _ _ _) as [[m2 u]| |]; cbn [bind]; try discriminate.
  intros H. exists u. destruct (_ || _); injection H as <- _ _; reflexivity.
Qed.

Lemma parse_steps m s : reachable m ->
  exists n y, steps LEnter (parse_init m s, zeroURN) n y /\ (n <= 4 * List.length s + 16)%nat.
Proof.
  intros H. destruct (parse_reach m s H) as (m' & uo & eo & Hp & _).
  destruct (parse_run _ _ _ _ _ Hp) as [u Hr]. destruct (run_steps _ _ _ _ Hr) as (n & Hn & K). eauto.
Qed.

(* ---- C04 --------------------------------------------------------------------------- *)
Lemma parse_init_eq m m' s : same_mode m m' -> machine_Parse m' s = machine_Parse m s.
Proof.
  intros (H1 & H2 & H3). unfold machine_Parse, parse_init. rewrite H1, H2, H3. reflexivity.
Qed.
Lemma parse_reuse m s0 m1 uo0 eo0 s : reachable m -> machine_Parse m s0 = Ret (m1, uo0, eo0) ->
  machine_Parse m1 s = machine_Parse m s.
Proof.
  intros H Hp. apply parse_init_eq. destruct (parse_reach_inv _ _ _ _ _ H Hp) as (_ & K & _). exact K.
Qed.
Lemma new_error options : machine_Error (NewMachine options) = None.
Proof.
  unfold NewMachine, machine_Error.
  assert (H : forall l m, m_err (fold_left (fun m o => machine_WithParsingMode o m) l m) = m_err m).
  { induction l as [|x l IH]; intros m; cbn [fold_left]; [reflexivity|]. rewrite IH. reflexivity. }
  destruct (m_parsingModeSet _); [|unfold machine_WithParsingMode; cbn [m_err]]; rewrite H; reflexivity.
Qed.

(* ---- C05, C07, C09: languages ---------------------------------------------------------- *)
Lemma lang2141 m s m' uo eo : reachable m -> m_parsingMode m = PRFC2141Only ->
  machine_Parse m s = Ret (m', uo, eo) ->
  ((uo <> None /\ eo = None) <-> (exists prefix nid nss, urn2141 alnum s prefix nid nss) /\ ~ u_lookahead s).
Proof.
  intros H Hm Hp. split.
  - intros [Hu He]. destruct uo as [u|]; [|contradiction Hu; reflexivity]. subst eo.
    destruct (parsed2141_inv s u) as (p & n & x & H1 & H2 & _); [exists m, m'; auto|]. eauto 6.
  - intros [(p & n & x & H1) H2]. destruct (parse2141_ok m s p n x H Hm H1 H2) as (m2 & u & Hp2 & _).
    rewrite Hp in Hp2. injection Hp2 as <- -> ->. split; [discriminate|reflexivity].
Qed.
Lemma langscim m s m' uo eo : reachable m -> m_parsingMode m = PRFC7643Only ->
  machine_Parse m s = Ret (m', uo, eo) ->
  ((uo <> None /\ eo = None) <-> exists prefix t name other, urnscim s prefix t name other).
Proof.
  intros H Hm Hp. split.
  - intros [Hu He]. destruct uo as [u|]; [|contradiction Hu; reflexivity]. subst eo.
    destruct (parsedscim_inv s u) as (p & t & n & x & H1 & _); [exists m, m'; auto|]. eauto 6.
  - intros (p & t & n & x & H1). destruct (parsescim_ok m s p t n x H Hm H1) as (m2 & u & Hp2 & _).
    rewrite Hp in Hp2. injection Hp2 as <- -> ->. split; [discriminate|reflexivity].
Qed.
Lemma lang8141 m s m' uo eo : reachable m -> m_parsingMode m = PRFC8141Only ->
  machine_Parse m s = Ret (m', uo, eo) ->
  ((uo <> None /\ eo = None) <-> exists prefix nid nss r q f, urn8141 s prefix nid nss r q f).
Proof.
  intros H Hm Hp. split.
  - intros [Hu He]. destruct uo as [u|]; [|contradiction Hu; reflexivity]. subst eo.
    destruct (parsed8141_inv s u) as (p & n & x & r & q & f & H1 & _); [exists m, m'; auto|]. eauto 8.
  - intros (p & n & x & r & q & f & H1). destruct (parse8141_ok m s p n x r q f H Hm H1) as (m2 & u & Hp2 & _).
    rewrite Hp in Hp2. injection Hp2 as <- -> ->. split; [discriminate|reflexivity].
Qed.

(* ---- C06, C08, C10, C12: parts ------------------------------------------------------------ *)
Lemma pub_fields u v : pub_of u = v ->
  u_prefix u = p_prefix v /\ u_ID u = p_ID v /\ u_SS u = p_SS v /\ u_norm u = p_norm v /\ u_kind u = p_kind v /\
  (match u_scim u with Some s => Some (s_Type s, s_Name s, s_Other s) | None => None end) = p_scim v /\
  u_r u = p_r v /\ u_q u = p_q v /\ u_f u = p_f v.
Proof. intros <-. repeat split. Qed.

Lemma parts2141 s u : parsed PRFC2141Only s u ->
  exists prefix, urn2141 alnum s prefix (u_ID u) (u_SS u) /\ u_prefix u = prefix /\
    u_norm u = norm_pct (u_SS u) /\ u_kind u = KRFC2141 /\ u_scim u = None /\
    u_r u = [] /\ u_q u = [] /\ u_f u = [].
Proof.
  intros H. destruct (parsed2141_inv s u H) as (p & n & x & H1 & _ & H2).
  apply pub_fields in H2. cbn in H2. destruct H2 as (E1 & E2 & E3 & E4 & E5 & E6 & E7 & E8 & E9).
  exists p. rewrite E2, E3, E4. destruct (u_scim u); [discriminate E6|]. auto 10.
Qed.
Lemma partsscim s u : parsed PRFC7643Only s u ->
  exists prefix t sc, urnscim s prefix t (s_Name sc) (s_Other sc) /\ u_prefix u = prefix /\
    u_scim u = Some sc /\ s_Type sc = TypeFromString t /\ u_ID u = scim_nid /\
    u_SS u = scim_ss t (s_Name sc) (s_Other sc) /\
    u_norm u = norm_pct (u_SS u) /\ u_kind u = KRFC7643 /\
    u_r u = [] /\ u_q u = [] /\ u_f u = [].
Proof.
  intros H. destruct (parsedscim_inv s u H) as (p & t & n & o & H1 & H2).
  apply pub_fields in H2. cbn in H2. destruct H2 as (E1 & E2 & E3 & E4 & E5 & E6 & E7 & E8 & E9).
  destruct (u_scim u) as [sc|]; [|discriminate E6]. injection E6 as F1 F2 F3.
  exists p, t, sc. rewrite F2, F3, E2, E3, E4. auto 12.
Qed.
Lemma parts8141 s u : parsed PRFC8141Only s u ->
  exists prefix r q f, urn8141 s prefix (u_ID u) (u_SS u) r q f /\ shown_prefix prefix (u_ID u) (u_prefix u) /\
    u_norm u = norm_pct (u_SS u) /\ u_kind u = KRFC8141 /\ u_scim u = None /\
    u_r u = opt_val r /\ u_q u = opt_val q /\ u_f u = opt_val f.
Proof.
  intros H. destruct (parsed8141_inv s u H) as (p & n & x & r & q & f & H1 & H2).
  apply pub_fields in H2. cbn in H2. destruct H2 as (E1 & E2 & E3 & E4 & E5 & E6 & E7 & E8 & E9).
  exists p, r, q, f. rewrite E2, E3, E4. destruct (u_scim u); [discriminate E6|].
  rewrite shown_iff. auto 10.
Qed.

(* ---- C11 ------------------------------------------------------------------------------------ *)
Lemma nilnil2141 m s m' uo eo : reachable m ->
  m_parsingMode m = PRFC2141Only \/ m_parsingMode m = PRFC7643Only ->
  machine_Parse m s = Ret (m', uo, eo) -> (eo = None <-> uo <> None).
Proof.
  intros H [Hm|Hm] Hp.
  - pose proof (parse2141_ref m s m' uo eo H Hm Hp) as Ho.
    pose proof (ref2141_sound PRFC2141Only ltac:(discriminate) s) as K.
    destruct (ref2141 PRFC2141Only s); [|destruct Ho as [-> ->]|contradiction].
    + destruct Ho as (u & -> & -> & _). split; [discriminate|reflexivity].
    + split; [discriminate|intros HH; contradiction HH; reflexivity].
  - pose proof (parsescim_ref m s m' uo eo H Hm Hp) as Ho.
    pose proof (ref_scim_sound PRFC7643Only s) as K.
    destruct (ref_scim PRFC7643Only s); [|destruct Ho as [-> ->]|contradiction].
    + destruct Ho as (u & -> & -> & _). split; [discriminate|reflexivity].
    + split; [discriminate|intros HH; contradiction HH; reflexivity].
Qed.
Lemma never_both m s m' uo eo : reachable m -> machine_Parse m s = Ret (m', uo, eo) -> uo = None \/ eo = None.
Proof.
  intros H Hp. destruct (parse_reach_inv _ _ _ _ _ H Hp) as (_ & _ & _ & Ho). apply outcome_eq in Ho.
  destruct uo, eo; auto; contradiction.
Qed.
Lemma nilnil8141 m s m' uo eo : reachable m -> m_parsingMode m = PRFC8141Only ->
  machine_Parse m s = Ret (m', uo, eo) -> ((uo = None /\ eo = None) <-> silent8141 s).
Proof.
  intros H Hm Hp. pose proof (parse8141_ref m s m' uo eo H Hm Hp) as Ho.
  split.
  - intros [-> ->]. apply outcome_eq in Ho. pose proof (ref8141_sound PRFC8141Only s) as K. rewrite Ho in K. auto.
  - intros Hs. rewrite (ref8141_silent PRFC8141Only s eq_refl Hs) in Ho. exact Ho.
Qed.

(* ---- C13, C14, C23: String ------------------------------------------------------------------- *)
Lemma is_empty_iff w : is_empty w = true <-> w = [].
Proof. destruct w; split; try reflexivity; discriminate. Qed.

Lemma String_text u : u_ID u <> [] -> u_SS u <> [] ->
  URN_String u = string_text (or_urn (u_prefix u)) (u_ID u) (u_SS u) (u_r u) (u_q u) (u_f u).
Proof.
  intros H1 H2. unfold URN_String, string_text.
  destruct (u_ID u) as [|i id]; [contradiction H1; reflexivity|].
  destruct (u_SS u) as [|c ss]; [contradiction H2; reflexivity|].
  cbn [is_empty negb andb].
  destruct (u_prefix u) as [|x p]; cbn [is_empty];
   destruct (u_r u); cbn [is_empty negb]; destruct (u_q u); cbn [is_empty negb]; destruct (u_f u); cbn [is_empty negb];
   cbn [app]; rewrite ?app_nil_r; repeat (rewrite <- app_assoc; cbn [app]); reflexivity.
Qed.
Lemma String_empty u : u_ID u = [] \/ u_SS u = [] -> URN_String u = [].
Proof.
  unfold URN_String. intros [->| ->]; [reflexivity|]. rewrite andb_false_r. reflexivity.
Qed.

Lemma nid2141_ne w : nid2141 w -> w <> [].
Proof. intros (H & _) ->. cbn in H. lia. Qed.
Lemma nid8141_ne w : nid8141 w -> w <> [].
Proof. intros (H & _) ->. cbn in H. lia. Qed.
Lemma urn_word_ne w : urn_word w -> w <> [].
Proof. intros H ->. discriminate H. Qed.
Lemma nss8141_ne w : nss8141 w -> w <> [].
Proof. intros (_ & c & r & -> & _). discriminate. Qed.
Lemma scim_ss_ne t n o : scim_type t -> scim_ss t n o <> [].
Proof. intros [->|[->| ->]]; discriminate. Qed.

Lemma nonempty_match {A} (w : bytes) (d : A) (k : A) : w <> [] -> (match w with [] => d | _ => k end) = k.
Proof. destruct w; [intros H; contradiction H; reflexivity|reflexivity]. Qed.
Lemma prefix_match (w : bytes) : w <> [] -> or_urn w = w.
Proof. destruct w; [intros H; contradiction H; reflexivity|reflexivity]. Qed.

Lemma String2141 s u : parsed PRFC2141Only s u -> URN_String u = s.
Proof.
  intros H. destruct (parts2141 s u H) as (p & (Hs & Hp & Hn & Hne & _) & Ep & _ & _ & _ & E1 & E2 & E3).
  rewrite String_text; [|apply nid2141_ne; exact Hn|exact Hne].
  rewrite Ep, E1, E2, E3, prefix_match by (apply urn_word_ne; exact Hp). unfold string_text. cbn [app].
  rewrite app_nil_r. auto.
Qed.
Lemma Stringscim s u : parsed PRFC7643Only s u -> URN_String u = s.
Proof.
  intros H. destruct (partsscim s u H) as (p & t & sc & (Hs & Hp & Ht & _) & Ep & _ & _ & Ei & Ess & _ & _ & E1 & E2 & E3).
  rewrite String_text; [|rewrite Ei; discriminate|rewrite Ess; apply scim_ss_ne; exact Ht].
  rewrite Ep, Ei, Ess, E1, E2, E3, prefix_match by (apply urn_word_ne; exact Hp). unfold string_text. cbn [app].
  rewrite app_nil_r. auto.
Qed.

Lemma shown_word prefix nid out : urn_word prefix -> shown_prefix prefix nid out -> urn_word out.
Proof. intros H [[H1 _]|[_ ->]]; assumption. Qed.

Lemma comp_ne w : component w -> w <> [].
Proof. intros (_ & c & r & -> & _). discriminate. Qed.

Lemma tail_text r q f : opt_ok r_component r -> opt_ok q_component q ->
  (match opt_val r with [] => [] | _ => B "?+" ++ opt_val r end) ++
  (match opt_val q with [] => [] | _ => B "?=" ++ opt_val q end) ++
  (match opt_val f with [] => [] | _ => B "#" ++ opt_val f end) = tail8141 r q (nonempty_opt f).
Proof.
  intros Hr Hq. unfold tail8141.
  assert (H1 : (match opt_val r with [] => [] | _ => B "?+" ++ opt_val r end) = opt_part (B "?+") r).
  { destruct r as [r|]; [|reflexivity]. cbn [opt_val opt_part opt_ok] in *. destruct Hr as [Hr _]. apply comp_ne in Hr.
    destruct r; [contradiction Hr; reflexivity|reflexivity]. }
  assert (H2 : (match opt_val q with [] => [] | _ => B "?=" ++ opt_val q end) = opt_part (B "?=") q).
  { destruct q as [q|]; [|reflexivity]. cbn [opt_val opt_part opt_ok] in *. destruct Hq as [Hq _]. apply comp_ne in Hq.
    destruct q; [contradiction Hq; reflexivity|reflexivity]. }
  rewrite H1, H2. f_equal. f_equal. destruct f as [[|c f]|]; reflexivity.
Qed.

Lemma String8141 s u : parsed PRFC8141Only s u ->
  exists prefix r q f, urn8141 s prefix (u_ID u) (u_SS u) r q f /\ shown_prefix prefix (u_ID u) (u_prefix u) /\
    URN_String u = u_prefix u ++ colon ++ u_ID u ++ colon ++ u_SS u ++ tail8141 r q (nonempty_opt f).
Proof.
  intros H. destruct (parts8141 s u H) as (p & r & q & f & Hu & Hsh & _ & _ & _ & E1 & E2 & E3).
  exists p, r, q, f. split; [exact Hu|]. split; [exact Hsh|].
  destruct Hu as (Hs & Hp & Hn & Hss & Hr & Hq & Hf).
  rewrite String_text; [|apply nid8141_ne; exact Hn|apply nss8141_ne; exact Hss].
  rewrite E1, E2, E3, prefix_match by (apply urn_word_ne; eapply shown_word; eauto).
  unfold string_text. rewrite (tail_text r q f) by assumption. reflexivity.
Qed.

(* exactly when String() gives the input back *)
Lemma tail_none_iff r q f : tail8141 r q (nonempty_opt f) = tail8141 r q f <-> f <> Some [].
Proof.
  unfold tail8141. destruct f as [[|c f]|]; cbn [nonempty_opt].
  - split; [|intros H; contradiction H; reflexivity]. intros H. apply app_inv_head in H. apply app_inv_head in H. discriminate H.
  - split; [discriminate|reflexivity].
  - split; [discriminate|reflexivity].
Qed.
Lemma String8141_iff s u prefix r q f : parsed PRFC8141Only s u -> urn8141 s prefix (u_ID u) (u_SS u) r q f ->
  (URN_String u = s <-> u_prefix u = prefix /\ f <> Some []).
Proof.
  intros H Hu. destruct (String8141 s u H) as (p' & r' & q' & f' & Hu' & Hsh & E).
  destruct (urn8141_unique _ _ _ _ _ _ _ _ _ _ _ _ _ Hu Hu') as (<- & _ & _ & <- & <- & <-).
  destruct Hu as (Hs & Hp & _). rewrite E, Hs. split.
  - intros K. destruct (urn_word_app _ _ _ _ (shown_word _ _ _ Hp Hsh) Hp K) as [K1 K2]. split; [exact K1|].
    do 4 apply app_inv_head in K2. apply (tail_none_iff r q f). exact K2.
  - intros [-> K]. apply (tail_none_iff r q f) in K. rewrite K. reflexivity.
Qed.

(* ---- C15: re-parsing String() ------------------------------------------------------------------ *)
Lemma reparse2141 s u : parsed PRFC2141Only s u -> parsed PRFC2141Only (URN_String u) u.
Proof. intros H. rewrite (String2141 s u H). exact H. Qed.
Lemma reparsescim s u : parsed PRFC7643Only s u -> parsed PRFC7643Only (URN_String u) u.
Proof. intros H. rewrite (Stringscim s u H). exact H. Qed.
Lemma reparse8141 s u : parsed PRFC8141Only s u ->
  exists u', parsed PRFC8141Only (URN_String u) u' /\ pub_of u' = pub_of u.
Proof.
  intros H. destruct (String8141 s u H) as (p & r & q & f & Hu & Hsh & E).
  destruct (parts8141 s u H) as (p2 & r2 & q2 & f2 & Hu2 & Hsh2 & E1 & E2 & E3 & E4 & E5 & E6).
  destruct (urn8141_unique _ _ _ _ _ _ _ _ _ _ _ _ _ Hu Hu2) as (<- & _ & _ & <- & <- & <-).
  destruct Hu as (Hs & Hp & Hn & Hss & Hr & Hq & Hf).
  destruct (parsed8141_ok (URN_String u) (u_prefix u) (u_ID u) (u_SS u) r q (nonempty_opt f)) as (u' & Hp' & K).
  { split; [exact E|]. split; [eapply shown_word; eauto|]. split; [exact Hn|]. split; [exact Hss|]. split; [exact Hr|]. split; [exact Hq|].
    destruct f as [[|c f]|]; cbn; auto. }
  exists u'. split; [exact Hp'|]. rewrite K. unfold res8141, pub_of. rewrite E1, E2, E3, E4, E5, E6.
  apply shown_iff in Hsh2. f_equal.
  - destruct (starts_urn_dash (u_ID u)) eqn:Ed; [auto|reflexivity].
  - destruct f as [[|c f]|]; reflexivity.
Qed.

(* ---- C12 -------------------------------------------------------------------------------------- *)
Lemma kind_of_mode mode s u : parsed mode s u -> mode = PRFC2141Only \/ mode = PRFC7643Only \/ mode = PRFC8141Only ->
  RFC u = (if mode =? PRFC2141Only then KRFC2141 else if mode =? PRFC7643Only then KRFC7643 else KRFC8141) /\
  (IsSCIM u = true <-> mode = PRFC7643Only) /\ (URN_SCIM u <> None <-> mode = PRFC7643Only).
Proof.
  intros H Hm. unfold RFC, IsSCIM, URN_SCIM. destruct Hm as [->|[->| ->]].
  - destruct (parts2141 s u H) as (p & _ & _ & _ & -> & -> & _). cbn. repeat split; try discriminate; intros K; contradiction K; reflexivity.
  - destruct (partsscim s u H) as (p & t & sc & _ & _ & -> & _ & _ & _ & _ & -> & _). cbn. repeat split; discriminate.
  - destruct (parts8141 s u H) as (p & r & q & f & _ & _ & _ & -> & -> & _). cbn. repeat split; try discriminate; intros K; contradiction K; reflexivity.
Qed.

(* ---- urn.Parse ---------------------------------------------------------------------------------- *)
Lemma Parse_total s options : exists uo ok, Parse s options = Ret (s, uo, ok).
Proof.
  unfold Parse. destruct (parse_reach (NewMachine options) s (reach_new _)) as (m' & uo & eo & -> & Hd & _).
  cbn [bind]. rewrite Hd. destruct eo; eauto.
Qed.
Lemma Parse_ok s options uo ok : m_parsingMode (NewMachine options) = PRFC2141Only \/ m_parsingMode (NewMachine options) = PRFC7643Only ->
  Parse s options = Ret (s, uo, ok) -> (ok = true <-> uo <> None).
Proof.
  intros Hm. unfold Parse. destruct (parse_reach (NewMachine options) s (reach_new _)) as (m' & uo' & eo & Hp & Hd & _).
  rewrite Hp. cbn [bind]. rewrite Hd. pose proof (nilnil2141 _ _ _ _ _ (reach_new options) Hm Hp) as K.
  destruct eo as [e|]; intros H; injection H as <- <-.
  - split; [discriminate|intros HH; contradiction HH; reflexivity].
  - tauto.
Qed.

(* ---- C06: the parts by colons ---------------------------------------------------------------------- *)
Lemma nid_nocolon w : forallb nid_char w = true -> ~ In ":"%byte w.
Proof. intros H K. rewrite forallb_forall in H. specialize (H _ K). discriminate H. Qed.
Lemma urn_nocolon w : urn_word w -> ~ In ":"%byte w.
Proof.
  intros H K. unfold urn_word in H. apply (in_map low) in K. fold (lowers w) in K. rewrite H in K.
  cbn in K. intuition discriminate.
Qed.
Lemma colons2141 s u : parsed PRFC2141Only s u ->
  (exists a, s = a ++ colon ++ u_ID u ++ colon ++ u_SS u /\ ~ In ":"%byte a /\ ~ In ":"%byte (u_ID u)) /\
  RComponent u = [] /\ QComponent u = [] /\ FComponent u = [].
Proof.
  intros H. destruct (parts2141 s u H) as (p & (Hs & Hp & (_ & _ & Hn & _) & _) & _ & _ & _ & _ & E).
  split; [|exact E]. exists p. auto using nid_nocolon, urn_nocolon.
Qed.
