(* Reference walks against the grammars of Spec.v: shared parts, RFC 2141 and SCIM. *)
From Coq Require Import Lia.
From Verif Require Import GoBase MachineSyntax Machine Spec Ref Exec SimBase Sim2141 SimScim.
Local Open Scope Z_scope.

Lemma beq_eq a b : Byte.eqb a b = true -> a = b.
Proof. apply Byte.byte_dec_bl. Qed.
Lemma beq_refl a : Byte.eqb a a = true.
Proof. apply Byte.byte_dec_lb. reflexivity. Qed.

(* ---- fixed words ---------------------------------------------------------------- *)
Lemma ref_lit_sound e ps : forall pos s, wp (ref_lit e ps pos s) (fun _ => True) False
  (fun w r => s = w ++ r /\ Forall2 (fun (p : byte -> bool) c => p c = true) ps w).
Proof.
  induction ps as [|p ps IH]; intros pos s; cbn [ref_lit]; [cbn; auto|].
  destruct s as [|c s]; [exact I|]. destruct (p c) eqn:E; [|exact I].
  apply wp_wcons. eapply wp_mono; [apply IH|auto|auto|]. cbn beta. intros w r [-> H]. split; [reflexivity|].
  constructor; assumption.
Qed.
Lemma ref_lit_complete e ps w : Forall2 (fun (p : byte -> bool) c => p c = true) ps w ->
  forall pos r, ref_lit e ps pos (w ++ r) = WGo w r.
Proof.
  induction 1 as [|p c ps w Hc _ IH]; intros pos r; cbn [ref_lit app]; [reflexivity|].
  rewrite Hc, IH. reflexivity.
Qed.
Lemma lit_is l w : Forall2 (fun (p : byte -> bool) c => p c = true) (map is l) w <-> w = l.
Proof.
  split.
  - revert w. induction l as [|a l IH]; cbn [map]; intros w H; inversion H; subst; [reflexivity|].
    f_equal; [|auto]. apply is_eq. assumption.
  - intros ->. induction l as [|a l IH]; cbn [map]; constructor; auto. apply is_refl.
Qed.

(* ---- "urn:" ----------------------------------------------------------------------- *)
Lemma urn_word3 w : urn_word w <-> exists a b c, w = [a; b; c] /\ isl "u" a = true /\ isl "r" b = true /\ isl "n" c = true.
Proof.
  unfold urn_word, lowers. split.
  - intros H. destruct w as [|a [|b [|c [|d w]]]]; cbn [map] in H; try discriminate H.
    exists a, b, c. injection H as H1 H2 H3. split; [reflexivity|]. unfold isl. rewrite H1, H2, H3. auto.
  - intros (a & b & c & -> & H1 & H2 & H3). unfold isl in *. apply beq_eq in H1, H2, H3.
    cbn [map]. rewrite H1, H2, H3. reflexivity.
Qed.
Lemma urn_word_len w : urn_word w -> zlen w = 3.
Proof. intros H. apply urn_word3 in H. destruct H as (a & b & c & -> & _). reflexivity. Qed.

Lemma ref_prefix_sound s : wp (ref_prefix s) (fun _ => True) False
  (fun w r => exists p, w = p ++ colon /\ urn_word p /\ s = p ++ colon ++ r).
Proof.
  eapply wp_mono; [apply ref_lit_sound|auto|auto|]. cbn beta. intros w r [-> H].
  inversion H as [|? a ? ? Ha H']; subst. inversion H' as [|? b ? ? Hb H'']; subst.
  inversion H'' as [|? c ? ? Hc H3]; subst. inversion H3 as [|? d ? ? Hd H4]; subst. inversion H4; subst.
  apply is_eq in Hd. subst d. exists [a; b; c]. repeat split. apply urn_word3. exists a, b, c. auto.
Qed.
Lemma ref_prefix_complete p r : urn_word p -> ref_prefix (p ++ colon ++ r) = WGo (p ++ colon) r.
Proof.
  intros H. apply urn_word3 in H. destruct H as (a & b & c & -> & H1 & H2 & H3).
  rewrite app_assoc. apply ref_lit_complete. repeat (constructor; auto).
Qed.

(* ---- RFC 2141 NID ------------------------------------------------------------------- *)
Lemma nid_char_colon c : nid_char c = true -> is ":" c = false.
Proof. intros H. destruct (is ":" c) eqn:E; [|reflexivity]. apply is_eq in E. subst c. discriminate H. Qed.

Lemma ref_nidw_eq n pos s : ref_nidw n pos s =
  match s with
  | [] => WErr (mkErr ErrIdentifier pos)
  | c :: s' =>
      if is ":" c then WGo [] s'
      else if nid_char c then
        match n with
        | O => WErr (mkErr ErrIdentifier pos)
        | S n' => wcons c (ref_nidw n' (pos + 1) s')
        end
      else WErr (mkErr ErrIdentifier pos)
  end.
Proof. destruct n; reflexivity. Qed.

Lemma ref_nidw_sound s : forall n pos, wp (ref_nidw n pos s) (fun _ => True) False
  (fun w r => s = w ++ colon ++ r /\ forallb nid_char w = true /\ (List.length w <= n)%nat).
Proof.
  induction s as [|c s IH]; intros n pos; rewrite ref_nidw_eq; [exact I|].
  destruct (is ":" c) eqn:E.
  - apply is_eq in E. subst c. cbn. repeat split. lia.
  - destruct (nid_char c) eqn:En; [|exact I]. destruct n as [|n]; [exact I|].
    apply wp_wcons. eapply wp_mono; [apply IH|auto|auto|]. cbn beta. intros w r (-> & H1 & H2).
    cbn [app forallb List.length]. rewrite En, H1. repeat split. lia.
Qed.
Lemma ref_nidw_complete w : forall n pos r, forallb nid_char w = true -> (List.length w <= n)%nat ->
  ref_nidw n pos (w ++ colon ++ r) = WGo w r.
Proof.
  induction w as [|c w IH]; intros n pos r H Hn; cbn [app].
  - rewrite ref_nidw_eq. reflexivity.
  - cbn [forallb List.length] in *. apply andb_prop in H. destruct H as [Hc H]. destruct n as [|n]; [lia|].
    rewrite ref_nidw_eq. rewrite (nid_char_colon _ Hc), Hc, IH by (auto; lia). reflexivity.
Qed.

Lemma alnum_nid_char c : alnum c = true -> nid_char c = true.
Proof. unfold nid_char. intros ->. reflexivity. Qed.

Section M.
Variable mode : Z.
Hypothesis Hmode : mode <> PRFC8141Only.

Lemma looks_urn_nth s : looks_urn mode s = true <-> nth_error s 3 = Some ":"%byte.
Proof.
  unfold looks_urn. replace (mode =? PRFC8141Only) with false by (symmetry; apply Z.eqb_neq; exact Hmode).
  cbn [negb andb]. destruct (nth_error s 3) as [c|]; [|split; discriminate]. split.
  - intros H. apply beq_eq in H. subst. reflexivity.
  - intros H. injection H as ->. apply beq_refl.
Qed.

Lemma u_lookahead_cons p c s : urn_word p ->
  (u_lookahead (p ++ colon ++ c :: s) <-> isl "u" c && looks_urn mode (c :: s) = true).
Proof.
  intros Hp. apply urn_word3 in Hp. destruct Hp as (x & y & z & -> & _).
  unfold u_lookahead. cbn [app colon nth_error]. rewrite andb_true_iff, looks_urn_nth. cbn [nth_error].
  split.
  - intros (d & H1 & H2 & H3). injection H1 as <-. split; [|exact H3]. unfold isl. rewrite H2. reflexivity.
  - intros [H1 H2]. exists c. split; [reflexivity|]. split; [|exact H2]. unfold isl in H1. apply beq_eq in H1. exact H1.
Qed.

Lemma ref_nid2141_sound p s pos : urn_word p ->
  wp (ref_nid2141 mode pos s) (fun _ => True) False
     (fun w r => s = w ++ colon ++ r /\ nid2141 w /\ ~ u_lookahead (p ++ colon ++ s)).
Proof.
  intros Hp. unfold ref_nid2141. destruct s as [|c s]; [exact I|]. destruct (alnum c) eqn:Ea; [|exact I].
  destruct (isl "u" c && looks_urn mode (c :: s)) eqn:El; [exact I|].
  apply wp_wcons. eapply wp_mono; [apply ref_nidw_sound|auto|auto|]. cbn beta. intros w r (-> & H1 & H2).
  assert (Hla : ~ u_lookahead (p ++ colon ++ (c :: w ++ colon ++ r))).
  { rewrite (u_lookahead_cons _ _ _ Hp). rewrite El. discriminate. }
  split; [reflexivity|]. split; [|exact Hla]. unfold nid2141. cbn [forallb List.length].
  rewrite (alnum_nid_char _ Ea), H1. split; [lia|]. split; [exists c, w; auto|]. split; [reflexivity|].
  intros Hu. apply urn_word3 in Hu. destruct Hu as (x & y & z & Hw & Hx & _). injection Hw as -> ->.
  apply Hla. rewrite (u_lookahead_cons _ _ _ Hp), andb_true_iff, looks_urn_nth. split; [exact Hx|reflexivity].
Qed.
Lemma ref_nid2141_complete p w r pos : urn_word p -> nid2141 w -> ~ u_lookahead (p ++ colon ++ w ++ colon ++ r) ->
  ref_nid2141 mode pos (w ++ colon ++ r) = WGo w r.
Proof.
  intros Hp (Hl & (c & w' & -> & Hc) & Hall & _) Hla. cbn [app] in *.
  rewrite (u_lookahead_cons _ _ _ Hp) in Hla.
  unfold ref_nid2141. rewrite Hc. destruct (isl "u" c && _); [exfalso; apply Hla; reflexivity|].
  cbn [forallb List.length] in *. apply andb_prop in Hall. destruct Hall as [_ Hall].
  change (w' ++ ":"%byte :: r) with (w' ++ colon ++ r). rewrite ref_nidw_complete by (auto; lia). reflexivity.
Qed.

(* ---- NSS ------------------------------------------------------------------------------ *)
Lemma sss_pct c : sss c = true -> is "%" c = false.
Proof. intros H. destruct (is "%" c) eqn:E; [|reflexivity]. apply is_eq in E. subst c. discriminate H. Qed.
Lemma ref_nss_complete eS eH xE xH w : escaped alnum sss w -> forall k pos, (k = EStart -> w <> []) ->
  ref_nss eS eH xE xH k pos w = WGo w [].
Proof.
  induction 1 as [|c w Hc Hw IH|a b w Ha Hb Hw IH]; intros k pos Hk; cbn [ref_nss].
  - destruct k; [contradiction Hk; reflexivity|reflexivity|reflexivity].
  - rewrite (sss_pct _ Hc), Hc, IH by discriminate. reflexivity.
  - rewrite is_refl, Ha, Hb, IH by discriminate. reflexivity.
Qed.

Lemma ref_nss_sound eS eH xE xH k pos s :
  wp (ref_nss eS eH xE xH k pos s) (fun _ => True) False
     (fun w r => r = [] /\ w = s /\ escaped alnum sss w /\ (k = EStart -> w <> [])).
Proof. apply (ref_nss_escaped eS eH xE xH (List.length s)). lia. Qed.

(* ---- RFC 2141 ---------------------------------------------------------------------------- *)
Definition res2141 (prefix nid nss : bytes) : pub :=
  mkPub prefix nid nss (norm_pct nss) KRFC2141 None [] [] [].

Theorem ref2141_sound s :
  match ref2141 mode s with
  | OUrn v => exists prefix nid nss,
      urn2141 alnum s prefix nid nss /\ ~ u_lookahead s /\ v = res2141 prefix nid nss
  | OErr _ => True
  | ONil => False
  end.
Proof.
  unfold ref2141. pose proof (ref_prefix_sound s) as H1.
  destruct (ref_prefix s) as [e| |pre rest]; [exact I|exact H1|]. destruct H1 as (p & -> & Hp & ->).
  pose proof (ref_nid2141_sound p rest 4 Hp) as H2.
  destruct (ref_nid2141 mode 4 rest) as [e| |nid rest2]; [exact I|exact H2|]. destruct H2 as (-> & Hn & Hla).
  unfold ref_nss2141.
  pose proof (ref_nss_sound ErrSpecificString (hx mode ErrSpecificString) (mkErr ErrSpecificString) (mkErr (hx mode ErrSpecificString)) EStart (5 + zlen nid) rest2) as H3.
  destruct (ref_nss _ _ _ _ _ _ _) as [e| |nss rest3]; [exact I|exact H3|]. destruct H3 as (-> & -> & He & Hne).
  exists p, nid, rest2. split; [|split].
  - split; [reflexivity|]. split; [exact Hp|]. split; [exact Hn|]. split; [apply Hne; reflexivity|exact He].
  - exact Hla.
  - unfold res2141. apply urn_word3 in Hp. destruct Hp as (x & y & z & -> & _). reflexivity.
Qed.

Theorem ref2141_complete s prefix nid nss :
  urn2141 alnum s prefix nid nss -> ~ u_lookahead s -> ref2141 mode s = OUrn (res2141 prefix nid nss).
Proof.
  intros (-> & Hp & Hn & Hne & He) Hla. unfold ref2141.
  rewrite ref_prefix_complete by exact Hp. rewrite (ref_nid2141_complete prefix) by auto.
  unfold ref_nss2141. rewrite ref_nss_complete by auto. unfold res2141.
  apply urn_word3 in Hp. destruct Hp as (x & y & z & -> & _). reflexivity.
Qed.
End M.

(* ---- SCIM ---------------------------------------------------------------------------------- *)
Lemma ref_scimtype_sound pos s : wp (ref_scimtype pos s) (fun _ => True) False
  (fun w r => exists t, w = t ++ colon /\ scim_type t /\ s = t ++ colon ++ r).
Proof.
  unfold ref_scimtype. destruct s as [|c s]; [exact I|].
  destruct (is "a" c) eqn:E1; [|destruct (is "p" c) eqn:E2; [|destruct (is "s" c) eqn:E3; [|exact I]]].
  - apply is_eq in E1. subst c. apply wp_wcons. eapply wp_mono; [apply ref_lit_sound|auto|auto|].
    cbn beta. intros w r [-> H]. apply lit_is in H. subst w. exists (B "api"). repeat split. right; left; reflexivity.
  - apply is_eq in E2. subst c. apply wp_wcons. eapply wp_mono; [apply ref_lit_sound|auto|auto|].
    cbn beta. intros w r [-> H]. apply lit_is in H. subst w. exists (B "param"). repeat split. right; right; reflexivity.
  - apply is_eq in E3. subst c. apply wp_wcons. eapply wp_mono; [apply ref_lit_sound|auto|auto|].
    cbn beta. intros w r [-> H]. apply lit_is in H. subst w. exists (B "schemas"). repeat split. left; reflexivity.
Qed.
Lemma ref_scimtype_complete pos t r : scim_type t -> ref_scimtype pos (t ++ colon ++ r) = WGo (t ++ colon) r.
Proof. intros [->|[->| ->]]; reflexivity. Qed.

Lemma ref_name_complete w : forall f pos r, forallb alnum w = true -> (f = true -> w <> []) ->
  (r = [] \/ exists r', r = ":"%byte :: r') -> ref_name f pos (w ++ r) = WGo w r.
Proof.
  induction w as [|c w IH]; intros f pos r H Hf Hr; cbn [app].
  - destruct f; [contradiction Hf; reflexivity|]. destruct Hr as [->|[r' ->]]; reflexivity.
  - cbn [forallb] in H. apply andb_prop in H. destruct H as [Hc H]. cbn [ref_name]. rewrite Hc, IH; auto. discriminate.
Qed.

Definition resscim (prefix t name other : bytes) : pub :=
  mkPub prefix scim_nid (scim_ss t name other) (norm_pct (scim_ss t name other)) KRFC7643
        (Some (TypeFromString t, name, other)) [] [] [].

Theorem ref_scim_sound mode s :
  match ref_scim mode s with
  | OUrn v => exists prefix t name other, urnscim s prefix t name other /\ v = resscim prefix t name other
  | OErr _ => True
  | ONil => False
  end.
Proof.
  unfold ref_scim. pose proof (ref_prefix_sound s) as H1.
  destruct (ref_prefix s) as [e| |pre rest]; [exact I|exact H1|]. destruct H1 as (p & -> & Hp & ->).
  pose proof (ref_lit_sound ErrSCIMNamespace (map is (B "ietf:params:scim:")) 4 rest) as H2.
  destruct (ref_lit _ _ _ _) as [e| |w rest2]; [exact I|exact H2|]. destruct H2 as [-> H2]. apply lit_is in H2. subst w.
  pose proof (ref_scimtype_sound 21 rest2) as H3.
  destruct (ref_scimtype 21 rest2) as [e| |tc rest3]; [exact I|exact H3|]. destruct H3 as (t & -> & Ht & ->).
  rewrite (removelast_app t) by discriminate. cbn [removelast colon]. rewrite app_nil_r.
  pose proof (ref_name_alnum rest3 true (21 + zlen (t ++ [":"%byte]))) as H4.
  destruct (ref_name true _ rest3) as [e| |name rest4]; [exact I|exact H4|]. destruct H4 as (Hal & Hne & -> & Hr).
  assert (Hpre : firstn 3 (p ++ colon) = p).
  { apply urn_word3 in Hp. destruct Hp as (x & y & z & -> & _). reflexivity. }
  rewrite Hpre. destruct rest4 as [|c rest4].
  - exists p, t, name, []. unfold urnscim, resscim, scim_ss. cbn [scim_tail]. rewrite !app_nil_r.
    split; [|reflexivity]. split; [reflexivity|]. repeat split; auto.
  - destruct Hr as [Hr|[r' Hr]]; [discriminate|]. injection Hr as -> ->.
    unfold ref_other.
    match goal with |- context [ref_nss ?a ?b ?c ?d ?k ?q ?s] => pose proof (ref_nss_sound a b c d k q s) as H5;
      destruct (ref_nss a b c d k q s) as [e| |other rest5] end; [exact I|exact H5|].
    destruct H5 as (-> & -> & He & Hoe). specialize (Hoe eq_refl).
    exists p, t, name, r'. unfold urnscim, resscim, scim_ss, scim_tail.
    destruct r' as [|c r']; [contradiction Hoe; reflexivity|].
    split; [|reflexivity]. split; [reflexivity|].
    repeat split; auto. right. split; [discriminate|exact He].
Qed.

Theorem ref_scim_complete mode s prefix t name other :
  urnscim s prefix t name other -> ref_scim mode s = OUrn (resscim prefix t name other).
Proof.
  intros (-> & Hp & Ht & (Hne & Hal) & Ho). unfold ref_scim.
  rewrite ref_prefix_complete by exact Hp.
  change (scim_nid ++ colon ++ scim_ss t name other) with (B "ietf:params:scim:" ++ scim_ss t name other).
  rewrite ref_lit_complete by (apply lit_is; reflexivity). unfold scim_ss.
  rewrite ref_scimtype_complete by exact Ht.
  rewrite (removelast_app t) by discriminate. cbn [removelast colon]. rewrite app_nil_r.
  assert (Hpre : firstn 3 (prefix ++ colon) = prefix).
  { apply urn_word3 in Hp. destruct Hp as (x & y & z & -> & _). reflexivity. }
  rewrite Hpre. unfold resscim, scim_ss.
  destruct Ho as [->|[Hon Hoe]].
  - cbn [scim_tail]. rewrite ref_name_complete by auto. rewrite app_nil_r. reflexivity.
  - destruct other as [|c other]; [contradiction Hon; reflexivity|]. cbn [scim_tail].
    rewrite ref_name_complete; [|assumption|auto|right; eexists; reflexivity].
    cbn [colon app]. unfold ref_other. rewrite ref_nss_complete by auto. reflexivity.
Qed.
