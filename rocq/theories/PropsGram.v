(* The ragel source and the RFC grammars against the languages of the three modes. *)
From Coq Require Import Lia NArith List Bool Init.Byte Strings.Byte Strings.String.
From Verif Require Import GoBase Spec RegLang Ragel SpecRfc.
Import ListNotations.
Local Open Scope lang_scope.

(* ---- classes of one byte -------------------------------------------------------------- *)
Definition one (L : lang) (f : byte -> bool) : Prop := forall w, L w <-> exists c, w = [c] /\ f c = true.
Lemma one_cls f : one (cls f) f.
Proof. intros w. reflexivity. Qed.
Lemma one_lit s c : B s = [c] -> one (lit s) (fun x => Byte.eqb x c).
Proof.
  intros E w. unfold lit. rewrite E. split.
  - intros ->. exists c. split; [reflexivity|]. destruct c; reflexivity.
  - intros (x & -> & H). apply byte_dec_bl in H. subst x. reflexivity.
Qed.
Lemma one_alt a b f g : one a f -> one b g -> one (a ||| b) (fun c => f c || g c).
Proof.
  intros Ha Hb w. unfold alt. rewrite (Ha w), (Hb w). split.
  - intros [(c & -> & H)|(c & -> & H)]; exists c; rewrite H; auto. rewrite orb_true_r. auto.
  - intros (c & -> & H). apply orb_true_iff in H as [H|H]; eauto.
Qed.
Lemma one_ext L f g : one L f -> (forall c, f c = g c) -> one L g.
Proof. intros H E w. rewrite (H w). split; intros (c & -> & K); exists c; [rewrite <- E|rewrite E]; auto. Qed.
Ltac ones := repeat first [apply one_alt | apply one_cls | (eapply one_lit; reflexivity)].
Ltac bytes256 := let c := fresh "c" in intros c; destruct c; reflexivity.
Ltac class := eapply one_ext; [ones|bytes256].

(* ---- repetition -------------------------------------------------------------------------- *)
Lemma times_one L f n w : one L f -> (times n L w <-> List.length w = n /\ forallb f w = true).
Proof.
  intros H. revert w. induction n as [|n IH]; intros w.
  - cbn. split; [intros ->; auto|]. intros [K _]. destruct w; [reflexivity|discriminate K].
  - cbn [times]. split.
    + intros (x & y & -> & Hx & Hy). apply H in Hx as (c & -> & Hc). apply IH in Hy as [Hl Hf]. cbn. rewrite Hl, Hc, Hf. auto.
    + intros [Hl Hf]. destruct w as [|c w]; [discriminate Hl|]. cbn in Hl, Hf. apply andb_true_iff in Hf as [Hc Hf].
      exists [c], w. split; [reflexivity|]. split; [apply H; eauto|]. apply IH. split; [lia|exact Hf].
Qed.
Lemma rep_one L f lo hi w : one L f -> (rep lo hi L w <-> (lo <= List.length w <= hi)%nat /\ forallb f w = true).
Proof.
  intros H. unfold rep. split.
  - intros (n & Hn & K). apply (times_one _ _ _ _ H) in K as [<- K]. auto.
  - intros [Hn K]. exists (List.length w). split; [exact Hn|]. apply (times_one _ _ _ _ H). auto.
Qed.
Lemma star_one L f w : one L f -> (star L w <-> forallb f w = true).
Proof.
  intros H. unfold star. split.
  - intros (n & K). apply (times_one _ _ _ _ H) in K as [_ K]. exact K.
  - intros K. exists (List.length w). apply (times_one _ _ _ _ H). auto.
Qed.
Lemma star_nil (L : lang) : star L [].
Proof. exists O. reflexivity. Qed.
Lemma star_app (L : lang) x y : L x -> star L y -> star L (x ++ y).
Proof. intros Hx (n & Hy). exists (S n), x, y. auto. Qed.

(* ---- plain characters and escapes -------------------------------------------------------- *)
Definition unit (L : lang) (g f : byte -> bool) : Prop :=
  forall w, L w <-> (exists c, w = [c] /\ f c = true) \/ (exists a b, w = ["%"%byte; a; b] /\ g a = true /\ g b = true).
Definition triple (L : lang) (g : byte -> bool) : Prop :=
  forall w, L w <-> exists a b, w = ["%"%byte; a; b] /\ g a = true /\ g b = true.
Lemma unit_l A H f g : one A f -> triple H g -> unit (A ||| H) g f.
Proof. intros Ha Hh w. unfold alt. rewrite (Ha w), (Hh w). reflexivity. Qed.
Lemma unit_r U A f h g : unit U g f -> one A h -> unit (U ||| A) g (fun c => f c || h c).
Proof.
  intros Hu Ha w. unfold alt. rewrite (Hu w), (Ha w). split.
  - intros [[(c & -> & K)|K]|(c & -> & K)]; [|right; exact K|]; left; exists c; rewrite K; auto. rewrite orb_true_r. auto.
  - intros [(c & -> & K)|K]; [|auto]. apply orb_true_iff in K as [K|K]; eauto.
Qed.
Lemma unit_ext U f f' g g' : unit U g f -> (forall c, f c = f' c) -> (forall c, g c = g' c) -> unit U g' f'.
Proof.
  intros H Ef Eg w. rewrite (H w). split; intros [(c & -> & K)|(a & b & -> & K1 & K2)].
  - left; exists c; rewrite <- Ef; auto.
  - right; exists a, b; rewrite <- !Eg; auto.
  - left; exists c; rewrite Ef; auto.
  - right; exists a, b; rewrite !Eg; auto.
Qed.
Lemma rl_hex_triple : triple rl_hex alnum.
Proof.
  assert (H : one (rl_digit ||| rl_lower ||| rl_upper) alnum) by class.
  intros w. unfold rl_hex. split.
  - intros (x & y & -> & -> & Hy). apply (rep_one _ _ _ _ _ H) in Hy as [Hl Hf].
    destruct y as [|a [|b [|? ?]]]; cbn in Hl; try lia. cbn in Hf. exists a, b. split; [reflexivity|].
    apply andb_true_iff in Hf as [-> Hf]. apply andb_true_iff in Hf as [-> _]. auto.
  - intros (a & b & -> & Ha & Hb). exists ["%"%byte], [a; b]. split; [reflexivity|]. split; [reflexivity|].
    apply (rep_one _ _ _ _ _ H). split; [cbn; lia|]. cbn. rewrite Ha, Hb. reflexivity.
Qed.
Lemma pct_triple H g : one H g -> triple (lit "%" ;; H ;; H) g.
Proof.
  intros K w. split.
  - intros (x & y & -> & (x1 & x2 & -> & -> & Hx) & Hy). apply K in Hx as (a & -> & Ha). apply K in Hy as (b & -> & Hb).
    exists a, b. auto.
  - intros (a & b & -> & Ha & Hb). exists ["%"%byte; a], [b]. split; [reflexivity|]. split; [|apply K; eauto].
    exists ["%"%byte], [a]. split; [reflexivity|]. split; [reflexivity|apply K; eauto].
Qed.

Lemma star_unit U f g w : unit U g f -> (star U w <-> escaped g f w).
Proof.
  intros H. split.
  - intros (n & K). revert w K. induction n as [|n IH]; intros w K; [cbn in K; subst; constructor|].
    destruct K as (x & y & -> & Hx & Hy). apply IH in Hy. apply H in Hx as [(c & -> & Hc)|(a & b & -> & Ha & Hb)]; cbn [app]; solve [apply esc_pct; auto | apply esc_plain; auto].
  - induction 1 as [|c w Hc _ IH|a b w Ha Hb _ IH]; [apply star_nil| |].
    + apply (star_app U [c] w); [apply H; left; eauto|exact IH].
    + apply (star_app U ["%"%byte; a; b] w); [apply H; right; eauto|exact IH].
Qed.
Lemma plus_unit U f g w : unit U g f -> (plus U w <-> w <> [] /\ escaped g f w).
Proof.
  intros H. unfold plus. split.
  - intros (x & y & -> & Hx & Hy). apply (star_unit _ _ _ _ H) in Hy.
    apply H in Hx as [(c & -> & Hc)|(a & b & -> & Ha & Hb)]; (split; [discriminate|]); cbn [app]; solve [apply esc_pct; auto | apply esc_plain; auto].
  - intros [Hn He]. destruct He as [|c w Hc Hw|a b w Ha Hb Hw]; [contradiction Hn; reflexivity| |].
    + exists [c], w. split; [reflexivity|]. split; [apply H; left; eauto|apply (star_unit _ _ _ _ H); exact Hw].
    + exists ["%"%byte; a; b], w. split; [reflexivity|]. split; [apply H; right; eauto|apply (star_unit _ _ _ _ H); exact Hw].
Qed.
(* a first character of class f, then class f' *)
Lemma head_unit U U' f f' g w : unit U g f -> unit U' g f' -> (forall c, f c = true -> f' c = true) -> f' "%"%byte = false ->
  (cat U (star U') w <-> escaped g f' w /\ exists c r, w = c :: r /\ (f c = true \/ c = "%"%byte)).
Proof.
  intros H H' Hf Hp. split.
  - intros (x & y & -> & Hx & Hy). apply (star_unit _ _ _ _ H') in Hy.
    apply H in Hx as [(c & -> & Hc)|(a & b & -> & Ha & Hb)]; (split; [cbn [app]; solve [apply esc_pct; auto | apply esc_plain; auto]|]); cbn [app]; eexists _, _; (split; [reflexivity|]); auto.
  - intros [He (c & r & -> & Hc)]. inversion He as [|? ? Hc' Hr E|a b r' Ha Hb Hr E]; subst.
    + destruct Hc as [Hc| ->]; [|congruence].
      exists [c], r. split; [reflexivity|]. split; [apply H; left; eauto|]. apply (star_unit _ _ _ _ H'). exact Hr.
    + exists ["%"%byte; a; b], r'. split; [reflexivity|]. split; [apply H; right; eauto|]. apply (star_unit _ _ _ _ H'). exact Hr.
Qed.

(* ---- the building blocks of machine.go.rl ------------------------------------------------- *)
Lemma pre_iff w : (chars "uU" ;; chars "rR" ;; chars "nN") w <-> urn_word w.
Proof.
  split.
  - intros (x & y & -> & (x1 & x2 & -> & (a & -> & Ha) & (b & -> & Hb)) & (c & -> & Hc)).
    assert (Ka : low a = "u"%byte) by (revert Ha; destruct a; cbn; try discriminate; reflexivity).
    assert (Kb : low b = "r"%byte) by (revert Hb; destruct b; cbn; try discriminate; reflexivity).
    assert (Kc : low c = "n"%byte) by (revert Hc; destruct c; cbn; try discriminate; reflexivity).
    unfold urn_word. cbn. rewrite Ka, Kb, Kc. reflexivity.
  - unfold urn_word. destruct w as [|a [|b [|c [|? ?]]]]; try discriminate. cbn. intros E. injection E as Ea Eb Ec.
    exists [a; b], [c]. split; [reflexivity|]. split; [exists [a], [b]; split; [reflexivity|]; split|].
    + exists a. split; [reflexivity|]. revert Ea. destruct a; cbn; try discriminate; reflexivity.
    + exists b. split; [reflexivity|]. revert Eb. destruct b; cbn; try discriminate; reflexivity.
    + exists c. split; [reflexivity|]. revert Ec. destruct c; cbn; try discriminate; reflexivity.
Qed.
Lemma rl_pre_iff w : rl_pre w <-> urn_word w.
Proof. apply pre_iff. Qed.
Lemma rl_alnum_one : one rl_alnum alnum. Proof. unfold rl_alnum, rl_digit, rl_lower, rl_upper, range. class. Qed.
Lemma rl_dash_one : one (rl_alnum ||| lit "-") nid_char. Proof. eapply one_ext; [apply one_alt; [apply rl_alnum_one|ones; reflexivity]|bytes256]. Qed.
Lemma rl_sss_one : one rl_sss sss. Proof. unfold rl_sss. eapply one_ext; [apply one_alt; [apply rl_alnum_one|apply one_cls]|bytes256]. Qed.
Lemma rl_unit : unit (rl_sss ||| rl_hex) alnum sss.
Proof. apply unit_l; [apply rl_sss_one|apply rl_hex_triple]. Qed.
Lemma rl_nss_iff w : rl_nss w <-> nss2141 alnum w.
Proof. apply plus_unit. exact rl_unit. Qed.
Lemma rl_nid_iff w : rl_nid w <-> (1 <= List.length w <= 32)%nat /\ head_in alnum w /\ forallb nid_char w = true.
Proof.
  split.
  - intros (x & y & -> & Hx & Hy). apply rl_alnum_one in Hx as (c & -> & Hc). apply (rep_one _ _ _ _ _ rl_dash_one) in Hy as [Hl Hf].
    cbn. split; [lia|]. split; [eexists _, _; split; [reflexivity|exact Hc]|]. rewrite Hf. unfold nid_char. rewrite Hc. reflexivity.
  - intros (Hl & (c & r & -> & Hc) & Hf). cbn in Hl, Hf. apply andb_true_iff in Hf as [_ Hf]. exists [c], r. split; [reflexivity|].
    split; [apply rl_alnum_one; eauto|]. apply (rep_one _ _ _ _ _ rl_dash_one). split; [lia|exact Hf].
Qed.
Lemma rl_nid_not_urn_iff w : rl_nid_not_urn w <-> nid2141 w.
Proof. unfold rl_nid_not_urn, minus, nid2141. rewrite rl_nid_iff, rl_pre_iff. tauto. Qed.

Lemma rl_urn_iff s : rl_urn s <-> exists p nid nss, urn2141 alnum s p nid nss.
Proof.
  split.
  - intros (x & y & -> & (x1 & x2 & -> & Hp & ->) & (z & nss & -> & (nid & x3 & -> & Hn & ->) & Hs)).
    apply rl_pre_iff in Hp. apply rl_nid_not_urn_iff in Hn. apply rl_nss_iff in Hs. exists x1, nid, nss.
    split; [|auto]. rewrite <- !app_assoc. reflexivity.
  - intros (p & nid & nss & -> & Hp & Hn & Hs). apply rl_pre_iff in Hp. apply rl_nid_not_urn_iff in Hn. apply rl_nss_iff in Hs.
    exists (p ++ colon), (nid ++ colon ++ nss). split; [rewrite <- !app_assoc; reflexivity|].
    split; [exists p, colon; repeat split; auto|]. exists (nid ++ colon), nss. split; [rewrite <- !app_assoc; reflexivity|].
    split; [exists nid, colon; repeat split; auto|exact Hs]; try apply Hn.
Qed.

Lemma rl_scim_iff s : rl_scim_only s <-> exists p t n o, urnscim s p t n o.
Proof.
  split.
  - intros (x & y & -> & (p & x2 & -> & Hp & ->) & (z & o & -> & (z1 & n & -> & (z2 & z3 & -> & (z4 & t & -> & (z5 & z6 & -> & -> & ->) & Ht) & ->) & Hn) & Ho)).
    apply rl_pre_iff in Hp.
    assert (Kt : scim_type t) by (destruct Ht as [[Ht|Ht]|Ht]; rewrite Ht; unfold scim_type; auto).
    assert (Kn : scim_name n).
    { destruct Hn as (a & b & -> & Ha & Hb). apply rl_alnum_one in Ha as (c & -> & Hc). apply (star_one _ _ _ rl_alnum_one) in Hb.
      split; [discriminate|]. cbn. rewrite Hc. exact Hb. }
    destruct Ho as [->|(c & o' & -> & -> & Ho)].
    + exists p, t, n, []. split; [unfold scim_ss; cbn [scim_tail]; rewrite <- !app_assoc; reflexivity|]. auto.
    + apply (plus_unit _ _ _ _ rl_unit) in Ho. exists p, t, n, o'. split; [|auto].
      unfold scim_ss. destruct o' as [|? ?]; [destruct Ho as [[] _]; reflexivity|]. cbn [scim_tail]. rewrite <- !app_assoc. reflexivity.
  - intros (p & t & n & o & -> & Hp & Ht & [Hn Hf] & Ho). apply rl_pre_iff in Hp.
    exists (p ++ colon), (scim_nid ++ colon ++ scim_ss t n o). split; [rewrite <- !app_assoc; reflexivity|].
    split; [exists p, colon; repeat split; auto|].
    exists (scim_nid ++ colon ++ t ++ colon ++ n), (scim_tail o). split; [unfold scim_ss; rewrite <- !app_assoc; reflexivity|]. split.
    + exists (scim_nid ++ colon ++ t ++ colon), n. split; [rewrite <- !app_assoc; reflexivity|]. split.
      * exists (scim_nid ++ colon ++ t), colon. split; [rewrite <- !app_assoc; reflexivity|]. split; [|reflexivity].
        exists (scim_nid ++ colon), t. split; [rewrite <- !app_assoc; reflexivity|]. split.
        { exists scim_nid, colon. repeat split. }
        unfold rl_scim_type, alt, lit. destruct Ht as [->|[->| ->]]; auto.
      * destruct n as [|c n]; [contradiction Hn; reflexivity|]. cbn in Hf. apply andb_true_iff in Hf as [Hc Hf].
        exists [c], n. split; [reflexivity|]. split; [apply rl_alnum_one; eauto|apply (star_one _ _ _ rl_alnum_one); exact Hf].
    + destruct o as [|c o]; [left; reflexivity|right]. destruct Ho as [Ho|Ho]; [discriminate Ho|].
      exists colon, (c :: o). split; [reflexivity|]. split; [reflexivity|]. apply (plus_unit _ _ _ _ rl_unit). exact Ho.
Qed.
