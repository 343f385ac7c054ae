(* RFC 8141: the ragel source and the RFC grammar against the language of the mode. *)
From Coq Require Import Lia NArith List Bool Init.Byte Strings.Byte Strings.String.
From Verif Require Import GoBase Spec RegLang Ragel SpecRfc PropsGram.
Import ListNotations.
Local Open Scope lang_scope.

(* the grammar of Spec over an escape class *)
Definition nss_g (g : byte -> bool) (w : bytes) : Prop := escaped g pchar_slash w /\ exists c r, w = c :: r /\ c <> "/"%byte.
Definition comp_g (g : byte -> bool) (w : bytes) : Prop := escaped g frag_char w /\ exists c r, w = c :: r /\ c <> "/"%byte /\ c <> "?"%byte.
Definition nid_g (w : bytes) : Prop :=
  (2 <= List.length w <= 32)%nat /\ forallb nid_char w = true /\ head_in alnum w /\ exists c r, w = r ++ [c] /\ alnum c = true.

Lemma pchar_not_slash c : pchar c = true -> c <> "/"%byte /\ c <> "?"%byte.
Proof. intros H. split; intros ->; discriminate H. Qed.
Lemma slash_pchar c : pchar_slash c = true -> c <> "/"%byte -> pchar c = true.
Proof. destruct c; intros H K; try reflexivity; try discriminate H; contradiction K; reflexivity. Qed.
Lemma frag_pchar c : frag_char c = true -> c <> "/"%byte -> c <> "?"%byte -> pchar c = true.
Proof. destruct c; intros H K K'; try reflexivity; try discriminate H; try (contradiction K; reflexivity); contradiction K'; reflexivity. Qed.
Lemma nss_of U U' g w : unit U g pchar -> unit U' g pchar_slash -> (cat U (star U') w <-> nss_g g w).
Proof.
  intros H H'. rewrite (head_unit U U' pchar pchar_slash g w H H'); [|intros c Hc; unfold pchar_slash; rewrite Hc; reflexivity|reflexivity].
  unfold nss_g. split; intros [He (c & r & -> & Hc)]; (split; [exact He|]); exists c, r; (split; [reflexivity|]).
  - destruct Hc as [Hc| ->]; [apply pchar_not_slash; exact Hc|discriminate].
  - inversion He as [|? ? Hc' Hr E|a b r' Ha Hb Hr E]; subst; auto. left. apply slash_pchar; auto.
Qed.
Lemma comp_of U U' g w : unit U g pchar -> unit U' g frag_char -> (cat U (star U') w <-> comp_g g w).
Proof.
  intros H H'. rewrite (head_unit U U' pchar frag_char g w H H'); [|intros c Hc; unfold frag_char; rewrite Hc; reflexivity|reflexivity].
  unfold comp_g. split; intros [He (c & r & -> & Hc)]; (split; [exact He|]); exists c, r; (split; [reflexivity|]).
  - destruct Hc as [Hc| ->]; [apply pchar_not_slash; exact Hc|split; discriminate].
  - destruct Hc as [Hc Hc2]. inversion He as [|? ? Hc' Hr E|a b r' Ha Hb Hr E]; subst; auto. left. apply frag_pchar; auto.
Qed.
Lemma nid_of A D w : one A alnum -> one D nid_char -> ((A ;; rep 0 30 D ;; A) w <-> nid_g w).
Proof.
  intros HA HD. split.
  - intros (x & y & -> & (x1 & x2 & -> & H1 & H2) & H3). apply HA in H1 as (a & -> & Ha). apply HA in H3 as (b & -> & Hb).
    apply (rep_one _ _ _ _ _ HD) in H2 as [Hl Hf]. split; [rewrite !app_length; cbn; lia|]. split; [|split].
    + rewrite !forallb_app. cbn. unfold nid_char at 1 3. rewrite Ha, Hb, Hf. reflexivity.
    + exists a, (x2 ++ [b]). auto.
    + exists b, ([a] ++ x2). auto.
  - intros (Hl & Hf & (a & r & -> & Ha) & (b & r' & E & Hb)). cbn in Hl.
    destruct r' as [|a' r']; [injection E as -> ->; cbn in Hl; lia|]. injection E as <- ->.
    exists (a :: r'), [b]. split; [reflexivity|]. split; [|apply HA; eauto]. exists [a], r'. split; [reflexivity|].
    split; [apply HA; eauto|]. apply (rep_one _ _ _ _ _ HD). rewrite app_length in Hl. cbn in Hl. split; [lia|].
    cbn in Hf. rewrite forallb_app in Hf. apply andb_true_iff in Hf as [_ Hf]. apply andb_true_iff in Hf as [Hf _]. exact Hf.
Qed.

(* ---- machine.go.rl -------------------------------------------------------------------- *)
Lemma rl_pchar_unit : unit rl_pchar alnum pchar.
Proof. unfold rl_pchar. eapply unit_ext; [apply unit_l; [apply one_alt; [apply one_alt; [apply rl_sss_one|ones; reflexivity]|ones; reflexivity]|apply rl_hex_triple]|bytes256|bytes256]. Qed.
Lemma rl_slash_unit : unit (rl_pchar ||| lit "/") alnum pchar_slash.
Proof. eapply unit_ext; [apply unit_r; [apply rl_pchar_unit|ones; reflexivity]|bytes256|bytes256]. Qed.
Lemma rl_frag_unit : unit (rl_pchar ||| lit "/" ||| lit "?") alnum frag_char.
Proof. eapply unit_ext; [apply unit_r; [apply rl_slash_unit|ones; reflexivity]|bytes256|bytes256]. Qed.
Lemma rl_component_iff w : rl_component w <-> component w.
Proof. exact (comp_of _ _ alnum w rl_pchar_unit rl_frag_unit). Qed.
Lemma rl_nss8_iff w : rl_nss_rfc8141 w <-> nss8141 w.
Proof. exact (nss_of _ _ alnum w rl_pchar_unit rl_slash_unit). Qed.
Lemma rl_fragment_iff w : rl_fragment w <-> fragment w.
Proof. exact (star_unit _ _ _ w rl_frag_unit). Qed.
Lemma rl_nid8_iff w : rl_nid_rfc8141 w <-> nid_g w.
Proof. exact (nid_of _ _ w rl_alnum_one rl_dash_one). Qed.

Lemma nid_informal w : nid_g w -> rl_informal_id w -> informal w.
Proof.
  intros (_ & _ & _ & (c & r & -> & Hc)) (u & y & E & Hu & (d & y' & -> & -> & Hy)).
  apply rl_pre_iff in Hu.
  assert (K : one (rl_lower ||| range "A" "z" ||| lit "0") (fun c => in_range "a" "z" c || in_range "A" "z" c || Byte.eqb c "0"))
    by (apply one_alt; [apply one_alt; apply one_cls|eapply one_lit; reflexivity]).
  apply K in Hy as (e & -> & He). exists u, e, []. split; [exact E|]. split; [exact Hu|].
  assert (c = e).
  { assert (E2 : r ++ [c] = (u ++ ["-"%byte]) ++ [e]) by (rewrite E, <- app_assoc; reflexivity). apply app_inj_tail in E2. tauto. }
  subst e. revert Hc He. clear. destruct c; cbn; intros; try discriminate; auto.
Qed.

Lemma nid_not_nil w : nid_g w -> w <> [].
Proof. intros (Hl & _) ->. cbn in Hl. lia. Qed.

Theorem rl_8141_in s p nid nss r q f : urn8141 s p nid nss r q f -> rl_rfc8141_only s.
Proof.
  intros (-> & Hp & (Hl & Hf & Hh & Ht & Hi) & Hs & Hr & Hq & Hg). apply rl_pre_iff in Hp. apply rl_nss8_iff in Hs.
  assert (Hn : nid_g nid) by (split; auto).
  exists (p ++ colon ++ nid ++ colon ++ nss ++ opt_part (B "?+") r ++ opt_part (B "?=") q), (opt_part (B "#") f).
  split; [unfold tail8141; rewrite <- !app_assoc; reflexivity|]. split.
  2:{ destruct f as [f|]; [right|left; reflexivity]. exists (B "#"), f. split; [reflexivity|]. split; [reflexivity|apply rl_fragment_iff; exact Hg]. }
  exists (p ++ colon ++ nid ++ colon ++ nss), (opt_part (B "?+") r ++ opt_part (B "?=") q). split; [rewrite <- !app_assoc; reflexivity|]. split.
  - exists (p ++ colon ++ nid ++ colon), nss. split; [rewrite <- !app_assoc; reflexivity|]. split; [|exact Hs].
    exists (p ++ colon ++ nid), colon. split; [rewrite <- !app_assoc; reflexivity|]. split; [|reflexivity].
    exists (p ++ colon), nid. split; [rewrite <- !app_assoc; reflexivity|]. split; [exists p, colon; repeat split; auto|].
    split; [apply rl_nid8_iff; exact Hn|]. intros [K|K]; [exact (nid_not_nil _ Hn K)|]. apply Hi. apply nid_informal; auto.
  - assert (KR : forall w, component w -> forall L, plus (L ||| rl_component) w).
    { intros w Hw L. exists w, []. split; [symmetry; apply app_nil_r|]. split; [right; apply rl_component_iff; exact Hw|apply star_nil]. }
    assert (KQ : forall q, opt_ok q_component q -> opt rl_q_component (opt_part (B "?=") q)).
    { intros [q'|] Hq'; [right|left; reflexivity]. exists (B "?="), q'. split; [reflexivity|]. split; [reflexivity|]. apply KR. exact (proj1 Hq'). }
    destruct r as [r|].
    + right. left. exists (B "?+" ++ r), (opt_part (B "?=") q). split; [reflexivity|]. split; [|apply KQ; exact Hq].
      exists (B "?+"), r. split; [reflexivity|]. split; [reflexivity|]. apply KR. exact (proj1 Hr).
    + destruct q as [q|]; [|left; reflexivity]. right; right. destruct (KQ (Some q) Hq) as [K|K]; [discriminate K|exact K].
Qed.

(* ---- occurrences --------------------------------------------------------------------------- *)
Definition occurs (k w : bytes) : Prop := exists x y, w = x ++ k ++ y.
Lemma occurs_dec (a b : byte) w : occurs [a; b] w \/ ~ occurs [a; b] w.
Proof.
  induction w as [|c w [IH|IH]].
  - right. intros (x & y & E). apply (f_equal (@List.length _)) in E. rewrite !app_length in E. cbn in E. lia.
  - left. destruct IH as (x & y & ->). exists (c :: x), y. reflexivity.
  - destruct w as [|d w].
    + right. intros (x & y & E). apply (f_equal (@List.length _)) in E. rewrite !app_length in E. cbn in E. lia.
    + destruct (byte_eq_dec c a) as [->|Na]; [destruct (byte_eq_dec d b) as [->|Nb]|].
      * left. exists [], w. reflexivity.
      * right. intros ([|? x] & y & E); [injection E as E _; auto|]. injection E as _ E. apply IH. exists x, y. exact E.
      * right. intros ([|? x] & y & E); [injection E as E _; auto|]. injection E as _ E. apply IH. exists x, y. exact E.
Qed.
(* two occurrences are the same or apart *)
Lemma two_occ (a b : byte) x y x' y' : a <> b -> x ++ [a; b] ++ y = x' ++ [a; b] ++ y' ->
  (x = x' /\ y = y') \/ (exists z, x' = x ++ [a; b] ++ z /\ y = z ++ [a; b] ++ y') \/ (exists z, x = x' ++ [a; b] ++ z /\ y' = z ++ [a; b] ++ y).
Proof.
  intros N. revert x'. induction x as [|c x IH]; intros [|d x'] E.
  - injection E as ->. auto.
  - cbn [app] in E. injection E as -> E. destruct x' as [|e x'].
    + injection E as E _. congruence.
    + injection E as -> ->. right. left. exists x'. auto.
  - cbn [app] in E. injection E as -> E. destruct x as [|e x].
    + injection E as E _. congruence.
    + injection E as -> <-. right. right. exists x. auto.
  - cbn [app] in E. injection E as -> E. destruct (IH x' E) as [[-> ->]|[(z & -> & ->)|(z & -> & ->)]]; [auto|right; left|right; right]; exists z; auto.
Qed.

Lemma esc_app g f x y : escaped g f x -> escaped g f y -> escaped g f (x ++ y).
Proof. induction 1; intros; cbn [app]; [assumption|apply esc_plain; auto|apply esc_pct; auto]. Qed.
Lemma esc_cut (g f : byte -> bool) c w : escaped g f w -> g c = false -> c <> "%"%byte -> forall x y, w = x ++ c :: y ->
  escaped g f x /\ f c = true /\ escaped g f y.
Proof.
  intros H Hg Hc. induction H as [|d w Hd Hw IH|a b w Ha Hb Hw IH]; intros x y E.
  - destruct x; discriminate E.
  - destruct x as [|e x]; injection E as -> E.
    + subst y. split; [apply esc_nil|auto].
    + destruct (IH x y E) as (K1 & K2). split; [apply esc_plain; auto|auto].
  - destruct x as [|e x]; injection E as E0 E; [congruence|subst e].
    destruct x as [|e x]; injection E as E0 E; [congruence|subst e].
    destruct x as [|e x]; injection E as E0 E; [congruence|subst e].
    destruct (IH x y E) as (K1 & K2). split; [apply esc_pct; auto|auto].
Qed.
Lemma esc_no_hash (g f : byte -> bool) w : escaped g f w -> g "#"%byte = false -> f "#"%byte = false -> ~ In "#"%byte w.
Proof.
  intros H Hg Hf. induction H as [|d w Hd Hw IH|a b w Ha Hb Hw IH]; intros K.
  - exact K.
  - destruct K as [->|K]; [congruence|auto].
  - destruct K as [K|[->|[->|K]]]; [discriminate K|congruence|congruence|auto].
Qed.
Lemma comp_app x y : component x -> component y -> component (x ++ y).
Proof.
  intros [H1 (c & r & -> & H2)] [H3 _]. split; [apply esc_app; auto|]. exists c, (r ++ y). auto.
Qed.

(* (k | component)+ is a component, or contains k *)
Lemma plus_comp k w : plus (lit k ||| rl_component) w -> (component w \/ exists x y, w = x ++ B k ++ y /\ (x = [] \/ component x)).
Proof.
  intros (x & y & -> & Hx & (n & Hy)). revert x Hx y Hy. induction n as [|n IH]; intros x Hx y Hy.
  - cbn in Hy. subst y. rewrite app_nil_r. destruct Hx as [E|E]; [right; rewrite E|left; apply rl_component_iff; exact E].
    exists [], []. rewrite app_nil_r. auto.
  - destruct Hx as [E|E]; [right; rewrite E; exists [], y; auto|]. apply rl_component_iff in E as Hx.
    destruct Hy as (x' & y' & -> & Hx' & Hy'). destruct (IH x' Hx' y' Hy') as [K|(a & b & K & Ka)].
    + left. apply comp_app; auto.
    + right. rewrite K. exists (x ++ a), b. split; [rewrite <- app_assoc; reflexivity|]. right.
      destruct Ka as [->|Ka]; [rewrite app_nil_r; exact Hx|apply comp_app; auto].
Qed.

Definition plain_head (w : bytes) : Prop := ~ In "#"%byte w.
Lemma plain_app x y : plain_head x -> plain_head y -> plain_head (x ++ y).
Proof. unfold plain_head. rewrite in_app_iff. tauto. Qed.
Lemma comp_plain w : component w -> plain_head w.
Proof. intros [H _]. eapply esc_no_hash; [exact H|reflexivity|reflexivity]. Qed.
Lemma once_no k h w t : once k (h ++ B k ++ w ++ t) -> plain_head h -> plain_head w -> ~ occurs (B k) w.
Proof.
  intros Ho Hh Hw (x & y & E). apply (plain_app h x Hh); [intros K; apply Hw; rewrite E; apply in_or_app; auto|].
  apply (Ho h x (y ++ t)). rewrite E, <- !app_assoc. reflexivity.
Qed.
(* the same, first occurrence further left *)
Lemma once_no2 k h v w t : once k (h ++ B k ++ v ++ w ++ t) -> plain_head h -> plain_head v -> plain_head w -> ~ occurs (B k) w.
Proof.
  intros Ho Hh Hv Hw (x & y & E). apply (plain_app h (v ++ x) Hh).
  - apply plain_app; [exact Hv|]. intros K; apply Hw; rewrite E; apply in_or_app; auto.
  - apply (Ho h (v ++ x) (y ++ t)). rewrite E, <- !app_assoc. reflexivity.
Qed.

(* a text of the plain grammar is accepted when it does not repeat the openers *)
Lemma r_split h w t : plain_head h -> component w -> once "?+" (h ++ B "?+" ++ w ++ t) -> once "?=" (h ++ B "?+" ++ w ++ t) ->
  exists r q, opt_ok r_component (Some r) /\ opt_ok q_component q /\ w = r ++ opt_part (B "?=") q.
Proof.
  intros Hh Hw O1 O2. pose proof (comp_plain w Hw) as Pw. pose proof (once_no _ _ _ _ O1 Hh Pw) as N1.
  assert (R1 : forall x y, w = x ++ B "?+" ++ y -> exists y', y = "/"%byte :: y') by (intros x y E; exfalso; apply N1; exists x, y; exact E).
  destruct (occurs_dec "?" "=" w) as [(x & y & E)|N2].
  2:{ exists w, None. cbn. rewrite app_nil_r. split; [|auto]. split; [exact Hw|]. split; [exact R1|].
      intros x y E. exfalso. apply N2. exists x, y. exact E. }
  assert (U : forall x' y', w = x' ++ B "?=" ++ y' -> x' = x /\ y' = y).
  { intros x' y' E'. rewrite E in E'. destruct (two_occ "?" "=" x y x' y' ltac:(discriminate) E') as [[-> ->]|[(z & -> & ->)|(z & -> & ->)]]; [auto| |].
    - exfalso. apply (once_no2 "?=" (h ++ B "?+" ++ x) [] (z ++ B "?=" ++ y') t).
      + rewrite E in O2. rewrite <- !app_assoc in O2 |- *. exact O2.
      + apply plain_app; [exact Hh|]. apply plain_app; [intros [K|[K|[]]]; discriminate K|]. intros K; apply Pw; rewrite E; apply in_or_app; auto.
      + intros [].
      + intros K. apply Pw. rewrite E. apply in_or_app. right. right. right. exact K.
      + exists z, y'. reflexivity.
    - exfalso. apply (once_no2 "?=" (h ++ B "?+" ++ x') [] (z ++ B "?=" ++ y) t).
      + rewrite E, E' in O2. rewrite <- !app_assoc in O2 |- *. exact O2.
      + apply plain_app; [exact Hh|]. apply plain_app; [intros [K|[K|[]]]; discriminate K|]. intros K; apply Pw; rewrite E, E'; apply in_or_app; auto.
      + intros [].
      + intros K. apply Pw. rewrite E, E'. apply in_or_app. right. right. right. exact K.
      + exists z, y. reflexivity. }
  destruct Hw as [He (c & r & Ec & Hc1 & Hc2)].
  destruct (esc_cut _ _ "?" w He eq_refl ltac:(discriminate) x ("="%byte :: y) E) as (Ex & _ & Ey).
  assert (Ey' : escaped alnum frag_char y) by (inversion Ey; subst; auto).
  assert (Keep : y = [] \/ (exists y', y = "/"%byte :: y') \/ (exists y', y = "?"%byte :: y') ->
    exists r0 q, opt_ok r_component (Some r0) /\ opt_ok q_component q /\ w = r0 ++ opt_part (B "?=") q).
  { intros K. exists w, None. cbn. rewrite app_nil_r. split; [|auto]. split; [split; [exact He|exists c, r; auto]|].
    split; [exact R1|]. intros x' y' E'. destruct (U x' y' E') as [-> ->]. exact K. }
  destruct y as [|d y]; [apply Keep; auto|].
  destruct (byte_eq_dec d "/") as [->|D1]; [apply Keep; right; left; eauto|].
  destruct (byte_eq_dec d "?") as [->|D2]; [apply Keep; right; right; eauto|].
  exists x, (Some (d :: y)). split; [|split].
  - destruct x as [|c' x]; [rewrite Ec in E; injection E as -> _; contradiction Hc2; reflexivity|].
    assert (c' = c) by (rewrite Ec in E; injection E as -> _; reflexivity). subst c'.
    split; [split; [exact Ex|exists c, x; auto]|]. split.
    + intros a b K. exfalso. apply N1. exists a, (b ++ B "?=" ++ d :: y). rewrite E, K, <- !app_assoc. reflexivity.
    + intros a b K. exfalso. destruct (U a (b ++ B "?=" ++ d :: y)) as [K1 K2]; [rewrite E, K, <- !app_assoc; reflexivity|].
      apply (f_equal (@List.length _)) in K2. rewrite !app_length in K2. cbn in K2. lia.
  - split; [split; [exact Ey'|exists d, y; auto]|]. intros a b K. exfalso.
    destruct (U (x ++ B "?=" ++ a) b) as [K1 K2]; [rewrite E, K, <- !app_assoc; reflexivity|].
    apply (f_equal (@List.length _)) in K1. rewrite !app_length in K1. cbn in K1. lia.
  - exact E.
Qed.

Lemma nss_plain w : nss8141 w -> plain_head w.
Proof. intros [H _]. eapply esc_no_hash; [exact H|reflexivity|reflexivity]. Qed.
Lemma nid_plain w : nid_g w -> plain_head w.
Proof. intros (_ & H & _) K. rewrite forallb_forall in H. specialize (H _ K). discriminate H. Qed.
Lemma word_plain p : urn_word p -> plain_head p.
Proof.
  intros H K. unfold urn_word, lowers in H. apply (in_map low) in K. rewrite H in K. cbn in K.
  destruct K as [K|[K|[K|[]]]]; discriminate K.
Qed.
Lemma colon_plain : plain_head colon.
Proof. intros [K|[]]. discriminate K. Qed.
Lemma r2_urn_iff w : r2_urn w <-> urn_word w.
Proof. apply pre_iff. Qed.
Lemma alpha_one : one r8_ALPHA (fun c => upper c || lower c).
Proof. unfold r8_ALPHA, range. class. Qed.
Lemma alpha_iff c : r8_ALPHA [c] <-> upper c = true \/ lower c = true.
Proof. rewrite (alpha_one [c]). split; [intros (d & E & H); injection E as <-; apply orb_true_iff; exact H|intros H; exists c; split; [reflexivity|apply orb_true_iff; exact H]]. Qed.
Lemma informal_of p nid t : urn_word p -> informal nid -> informal_name (p ++ colon ++ nid ++ t).
Proof.
  intros Hp (u & c & r & -> & Hu & Hc). exists p, u, c, (r ++ t). split; [cbn [app colon]; rewrite <- app_assoc; reflexivity|].
  split; [apply r2_urn_iff; exact Hp|]. split; [apply r2_urn_iff; exact Hu|].
  destruct Hc as [->|Hc]; [auto|]. left. apply alpha_iff. exact Hc.
Qed.

Lemma conv p nid nss R Q F : urn_word p -> nid_g nid -> nss8141 nss ->
  (match R with None => True | Some w => plus (lit "?+" ||| rl_component) w end) ->
  (match Q with None => True | Some w => plus (lit "?=" ||| rl_component) w end) ->
  opt_ok fragment F ->
  forall s, s = p ++ colon ++ nid ++ colon ++ nss ++ opt_part (B "?+") R ++ opt_part (B "?=") Q ++ opt_part (B "#") F ->
  ~ informal_name s -> once "?+" s -> once "?=" s ->
  exists r q, urn8141 s p nid nss r q F.
Proof.
  intros Hp Hn Hs HR HQ HF s E Hi O1 O2.
  set (h := p ++ colon ++ nid ++ colon ++ nss).
  assert (Ph : plain_head h) by (unfold h; repeat apply plain_app; auto using word_plain, colon_plain, nid_plain, nss_plain).
  assert (Es : s = h ++ opt_part (B "?+") R ++ opt_part (B "?=") Q ++ opt_part (B "#") F) by (unfold h; rewrite E, <- !app_assoc; reflexivity).
  assert (Ni : nid8141 nid).
  { destruct Hn as (H1 & H2 & H3 & H4). split; [exact H1|]. split; [exact H2|]. split; [exact H3|]. split; [exact H4|].
    intros K. apply Hi. rewrite E. apply informal_of; auto. }
  assert (Pk : forall a : byte, a <> "#"%byte -> plain_head ["?"%byte; a]) by (intros a Ha [K|[K|[]]]; [discriminate K|auto]).
  (* an opener occurs once *)
  assert (KR : forall w, R = Some w -> component w).
  { intros w ->. destruct (plus_comp "?+" w HR) as [K|(x & y & -> & Kx)]; [exact K|exfalso].
    apply (plain_app h x Ph); [destruct Kx as [->|Kx]; [intros []|apply comp_plain; exact Kx]|].
    apply (O1 h x (y ++ opt_part (B "?=") Q ++ opt_part (B "#") F)). rewrite Es. cbn [opt_part]. rewrite <- !app_assoc. reflexivity. }
  assert (PR : plain_head (opt_part (B "?+") R)).
  { destruct R as [w|]; [|intros []]. cbn. apply (plain_app (B "?+") w); [apply Pk; discriminate|]. apply comp_plain. auto. }
  assert (KQ : forall w, Q = Some w -> component w).
  { intros w ->. destruct (plus_comp "?=" w HQ) as [K|(x & y & -> & Kx)]; [exact K|exfalso].
    apply (plain_app (h ++ opt_part (B "?+") R) x); [apply plain_app; auto|destruct Kx as [->|Kx]; [intros []|apply comp_plain; exact Kx]|].
    apply (O2 (h ++ opt_part (B "?+") R) x (y ++ opt_part (B "#") F)). rewrite Es. cbn [opt_part]. rewrite <- !app_assoc. reflexivity. }
  assert (QQ : forall w, Q = Some w -> q_component w).
  { intros w Ew. split; [auto|]. intros x y K. exfalso.
    apply (once_no "?=" (h ++ opt_part (B "?+") R) w (opt_part (B "#") F)).
    - rewrite Es, Ew in O2. cbn [opt_part] in O2. rewrite <- !app_assoc in O2 |- *. exact O2.
    - apply plain_app; auto.
    - apply comp_plain; auto.
    - exists x, y. exact K. }
  assert (Done : forall r q, opt_ok r_component r -> opt_ok q_component q ->
    opt_part (B "?+") R ++ opt_part (B "?=") Q = opt_part (B "?+") r ++ opt_part (B "?=") q -> urn8141 s p nid nss r q F).
  { intros r q Hr Hq Eq. split; [|auto 10]. rewrite E. unfold tail8141.
    rewrite (app_assoc (opt_part (B "?+") R)), Eq, <- (app_assoc (opt_part (B "?+") r)). reflexivity. }
  destruct R as [w|].
  2:{ exists None, Q. apply Done; [exact I| |reflexivity]. destruct Q as [w|]; [apply QQ; reflexivity|exact I]. }
  destruct Q as [w'|].
  - exists (Some w), (Some w'). apply Done; [|apply QQ; reflexivity|reflexivity]. split; [apply KR; reflexivity|].
    assert (Pw : plain_head w) by (apply comp_plain; auto). split; intros x y K; exfalso.
    + apply (once_no "?+" h w (B "?=" ++ w' ++ opt_part (B "#") F)); [|exact Ph|exact Pw|exists x, y; exact K].
      rewrite Es in O1. cbn [opt_part] in O1. rewrite <- !app_assoc in O1. exact O1.
    + apply (plain_app (h ++ B "?+" ++ x) y).
      * apply plain_app; [exact Ph|]. apply plain_app; [apply Pk; discriminate|]. intros L. apply Pw. rewrite K. apply in_or_app. auto.
      * intros L. apply Pw. rewrite K. apply in_or_app. right. right. right. exact L.
      * apply (O2 (h ++ B "?+" ++ x) y (w' ++ opt_part (B "#") F)). rewrite Es, K. cbn [opt_part]. rewrite <- !app_assoc. reflexivity.
  - destruct (r_split h w (opt_part (B "#") F)) as (r & q & Hr & Hq & Ew); [exact Ph|apply KR; reflexivity| | |].
    + rewrite Es in O1. cbn [opt_part] in O1. rewrite <- !app_assoc in O1. exact O1.
    + rewrite Es in O2. cbn [opt_part] in O2. rewrite <- !app_assoc in O2. exact O2.
    + exists (Some r), q. apply Done; [exact Hr|exact Hq|]. cbn [opt_part]. rewrite Ew, app_nil_r, app_assoc. reflexivity.
Qed.

Theorem rl_8141_conv s : rl_rfc8141_only s -> ~ informal_name s -> once "?+" s -> once "?=" s ->
  exists p nid nss r q f, urn8141 s p nid nss r q f.
Proof.
  intros (x & F & E & (x2 & X & -> & (x3 & nss & -> & (x4 & x5 & -> & (x6 & nid & -> & (p & x7 & -> & Hp & ->) & [Hn _]) & ->) & Hs) & HX) & HF) Hi O1 O2.
  apply rl_pre_iff in Hp. apply rl_nid8_iff in Hn. apply rl_nss8_iff in Hs.
  assert (KF : exists f, F = opt_part (B "#") f /\ opt_ok fragment f).
  { destruct HF as [->|(y & f & -> & Ey & Hf)]; [exists None; cbn; auto|]. unfold lit in Ey; subst y. exists (Some f). split; [reflexivity|apply rl_fragment_iff; exact Hf]. }
  destruct KF as (f & -> & Hf).
  assert (KX : exists R Q, X = opt_part (B "?+") R ++ opt_part (B "?=") Q /\
    (match R with None => True | Some w => plus (lit "?+" ||| rl_component) w end) /\
    (match Q with None => True | Some w => plus (lit "?=" ||| rl_component) w end)).
  { destruct HX as [->|[(y & Y & -> & (y1 & w & -> & Ey & Hw) & [->|(y2 & w' & -> & Ey2 & Hw')])|(y1 & w & -> & Ey & Hw)]];
      try (unfold rl_r_start, rl_q_start, lit in Ey; subst y1); try (unfold rl_q_start, lit in Ey2; subst y2).
    - exists None, None. cbn. auto.
    - exists (Some w), None. cbn. split; [rewrite app_nil_r; reflexivity|auto].
    - exists (Some w), (Some w'). split; [reflexivity|auto].
    - exists None, (Some w). split; [reflexivity|auto]. }
  destruct KX as (R & Q & -> & HR & HQ).
  destruct (conv p nid nss R Q f Hp Hn Hs HR HQ Hf s) as (r & q & H); auto; [rewrite E, <- !app_assoc; reflexivity|]. eauto 8.
Qed.

(* ---- RFC 8141 --------------------------------------------------------------------------- *)
Lemma hexdig_one : one r8_HEXDIG hexdig. Proof. unfold r8_HEXDIG, r8_DIGIT, range. class. Qed.
Lemma r8_pchar_unit : unit r8_pchar hexdig pchar.
Proof.
  unfold r8_pchar. eapply unit_ext.
  - apply unit_r; [apply unit_r; [apply unit_r; [apply unit_l|]|]|].
    + unfold r8_unreserved, r8_ALPHA, r8_DIGIT, range. ones; reflexivity.
    + apply pct_triple. apply hexdig_one.
    + unfold r8_sub_delims. ones; reflexivity.
    + ones; reflexivity.
    + ones; reflexivity.
  - bytes256.
  - bytes256.
Qed.
Lemma r8_slash_unit : unit (r8_pchar ||| lit "/") hexdig pchar_slash.
Proof. eapply unit_ext; [apply unit_r; [apply r8_pchar_unit|ones; reflexivity]|bytes256|bytes256]. Qed.
Lemma r8_frag_unit : unit (r8_pchar ||| lit "/" ||| lit "?") hexdig frag_char.
Proof. eapply unit_ext; [apply unit_r; [apply r8_slash_unit|ones; reflexivity]|bytes256|bytes256]. Qed.
Lemma r8_alphanum_one : one r8_alphanum alnum. Proof. unfold r8_alphanum, r8_ALPHA, r8_DIGIT, range. class. Qed.
Lemma r8_ldh_one : one r8_ldh nid_char. Proof. unfold r8_ldh. eapply one_ext; [apply one_alt; [apply r8_alphanum_one|ones; reflexivity]|bytes256]. Qed.

Lemma esc_mono (g g' f : byte -> bool) w : (forall c, g c = true -> g' c = true) -> escaped g f w -> escaped g' f w.
Proof. intros H. induction 1; [apply esc_nil|apply esc_plain; auto|apply esc_pct; auto]. Qed.
Lemma hex_alnum c : hexdig c = true -> alnum c = true.
Proof. destruct c; intros H; try reflexivity; discriminate H. Qed.
Lemma hexdig_iff a : r8_HEXDIG [a] <-> hexdig a = true.
Proof. rewrite (hexdig_one [a]). split; [intros (d & E & H); injection E as <-; exact H|intros H; exists a; auto]. Qed.
Lemma esc_hex (f : byte -> bool) w : escaped alnum f w -> f "%"%byte = false -> forall h t, hex_ok (h ++ w ++ t) -> escaped hexdig f w.
Proof.
  intros H Hp. induction H as [|c w Hc Hw IH|a b w Ha Hb Hw IH]; intros h t Hh.
  - apply esc_nil.
  - apply esc_plain; [exact Hc|]. apply (IH (h ++ [c]) t). rewrite <- app_assoc. exact Hh.
  - destruct (Hh h (a :: b :: w ++ t) eq_refl) as (a' & b' & y' & E & K1 & K2). injection E as <- <- _.
    apply esc_pct; [apply hexdig_iff; exact K1|apply hexdig_iff; exact K2|]. apply (IH (h ++ ["%"%byte; a; b]) t). rewrite <- app_assoc. exact Hh.
Qed.

Theorem r8_accepted_valid s p nid nss r q f : urn8141 s p nid nss r q f -> hex_ok s -> r8_namestring s.
Proof.
  intros (E & Hp & (Hl & Hf & Hh & Ht & Hi) & [Hs Hs'] & Hr & Hq & Hg) Hx. apply pre_iff in Hp.
  assert (Hn : nid_g nid) by (split; auto).
  assert (Ks : r8_NSS nss).
  { apply (nss_of _ _ hexdig nss r8_pchar_unit r8_slash_unit). split; [|exact Hs'].
    apply (esc_hex pchar_slash nss Hs eq_refl (p ++ colon ++ nid ++ colon) (tail8141 r q f)). rewrite <- !app_assoc. rewrite <- E. exact Hx. }
  assert (KC : forall w h t, component w -> s = h ++ w ++ t -> (r8_pchar ;; star (r8_pchar ||| lit "/" ||| lit "?")) w).
  { intros w h t [Hw Hw'] Ew. apply (comp_of _ _ hexdig w r8_pchar_unit r8_frag_unit). split; [|exact Hw'].
    apply (esc_hex frag_char w Hw eq_refl h t). rewrite <- Ew. exact Hx. }
  exists (p ++ colon ++ nid ++ colon ++ nss ++ opt_part (B "?+") r ++ opt_part (B "?=") q), (opt_part (B "#") f).
  split; [rewrite E; unfold tail8141; rewrite <- !app_assoc; reflexivity|]. split.
  2:{ destruct f as [f|]; [right|left; reflexivity]. exists (B "#"), f. split; [reflexivity|]. split; [reflexivity|].
      apply (star_unit _ _ _ f r8_frag_unit).
      apply (esc_hex frag_char f Hg eq_refl (p ++ colon ++ nid ++ colon ++ nss ++ opt_part (B "?+") r ++ opt_part (B "?=") q ++ B "#") []).
      rewrite app_nil_r, <- !app_assoc. unfold tail8141 in E. cbn [opt_part] in E. rewrite E in Hx. exact Hx. }
  exists (p ++ colon ++ nid ++ colon ++ nss), (opt_part (B "?+") r ++ opt_part (B "?=") q). split; [rewrite <- !app_assoc; reflexivity|]. split.
  - exists (p ++ colon ++ nid ++ colon), nss. split; [rewrite <- !app_assoc; reflexivity|]. split; [|exact Ks].
    exists (p ++ colon ++ nid), colon. split; [rewrite <- !app_assoc; reflexivity|]. split; [|reflexivity].
    exists (p ++ colon), nid. split; [rewrite <- !app_assoc; reflexivity|]. split; [exists p, colon; repeat split; auto|].
    apply (nid_of _ _ nid r8_alphanum_one r8_ldh_one). exact Hn.
  - right. exists (opt_part (B "?+") r), (opt_part (B "?=") q). split; [reflexivity|]. split.
    + destruct r as [r|]; [right|left; reflexivity]. exists (B "?+"), r. split; [reflexivity|]. split; [reflexivity|].
      apply (KC r (p ++ colon ++ nid ++ colon ++ nss ++ B "?+") (opt_part (B "?=") q ++ opt_part (B "#") f)); [exact (proj1 Hr)|].
      rewrite E. unfold tail8141. cbn [opt_part]. rewrite <- !app_assoc. reflexivity.
    + destruct q as [q|]; [right|left; reflexivity]. exists (B "?="), q. split; [reflexivity|]. split; [reflexivity|].
      apply (KC q (p ++ colon ++ nid ++ colon ++ nss ++ opt_part (B "?+") r ++ B "?=") (opt_part (B "#") f)); [exact (proj1 Hq)|].
      rewrite E. unfold tail8141. cbn [opt_part]. rewrite <- !app_assoc. reflexivity.
Qed.

Lemma r8_comp_in w : (r8_pchar ;; star (r8_pchar ||| lit "/" ||| lit "?")) w -> forall L, plus (L ||| rl_component) w.
Proof.
  intros H L. apply (comp_of _ _ hexdig w r8_pchar_unit r8_frag_unit) in H as [H1 H2].
  exists w, []. split; [symmetry; apply app_nil_r|]. split; [right|apply star_nil]. apply rl_component_iff.
  split; [apply (esc_mono hexdig); [exact hex_alnum|exact H1]|exact H2].
Qed.

Theorem r8_valid_accepted s : r8_namestring s -> ~ informal_name s -> once "?+" s -> once "?=" s ->
  exists p nid nss r q f, urn8141 s p nid nss r q f.
Proof.
  intros (x & F & E & (x2 & X & -> & (x3 & nss & -> & (x4 & x5 & -> & (x6 & nid & -> & (p & x7 & -> & Hp & ->) & Hn) & ->) & Hs) & HX) & HF) Hi O1 O2.
  apply pre_iff in Hp. apply (nid_of _ _ nid r8_alphanum_one r8_ldh_one) in Hn.
  apply (nss_of _ _ hexdig nss r8_pchar_unit r8_slash_unit) in Hs as [Hs Hs'].
  assert (Ks : nss8141 nss) by (split; [apply (esc_mono hexdig); [exact hex_alnum|exact Hs]|exact Hs']).
  assert (KF : exists f, F = opt_part (B "#") f /\ opt_ok fragment f).
  { destruct HF as [->|(y & f & -> & Ey & Hf)]; [exists None; cbn; auto|]. unfold lit in Ey; subst y. exists (Some f). split; [reflexivity|].
    apply (star_unit _ _ _ f r8_frag_unit) in Hf. apply (esc_mono hexdig); [exact hex_alnum|exact Hf]. }
  destruct KF as (f & -> & Hf).
  assert (KX : exists R Q, X = opt_part (B "?+") R ++ opt_part (B "?=") Q /\
    (match R with None => True | Some w => plus (lit "?+" ||| rl_component) w end) /\
    (match Q with None => True | Some w => plus (lit "?=" ||| rl_component) w end)).
  { destruct HX as [->|(y & Y & -> & HR & HQ)]; [exists None, None; cbn; auto|].
    assert (K1 : exists R, y = opt_part (B "?+") R /\ match R with None => True | Some w => plus (lit "?+" ||| rl_component) w end).
    { destruct HR as [->|(y1 & w & -> & Ey & Hw)]; [exists None; cbn; auto|]. unfold lit in Ey; subst y1. exists (Some w). split; [reflexivity|]. apply r8_comp_in. exact Hw. }
    assert (K2 : exists Q, Y = opt_part (B "?=") Q /\ match Q with None => True | Some w => plus (lit "?=" ||| rl_component) w end).
    { destruct HQ as [->|(y1 & w & -> & Ey & Hw)]; [exists None; cbn; auto|]. unfold lit in Ey; subst y1. exists (Some w). split; [reflexivity|]. apply r8_comp_in. exact Hw. }
    destruct K1 as (R & -> & HR'). destruct K2 as (Q & -> & HQ'). exists R, Q. auto. }
  destruct KX as (R & Q & -> & HR & HQ).
  destruct (conv p nid nss R Q f Hp Hn Ks HR HQ Hf s) as (r & q & H); auto; [rewrite E, <- !app_assoc; reflexivity|]. eauto 8.
Qed.

(* ---- RFC 2141 ------------------------------------------------------------------------------ *)
Lemma r2_let_num_one : one r2_let_num alnum. Proof. unfold r2_let_num, r2_upper, r2_lower, r2_number, range. class. Qed.
Lemma r2_let_num_hyp_one : one r2_let_num_hyp nid_char.
Proof. unfold r2_let_num_hyp, r2_upper, r2_lower, r2_number, range. eapply one_ext; [ones; reflexivity|bytes256]. Qed.
Lemma r2_hex_one : one r2_hex hexdig. Proof. unfold r2_hex, r2_number, range. class. Qed.
Lemma r2_plain_one : one (r2_upper ||| r2_lower ||| r2_number ||| r2_other) sss.
Proof. unfold r2_upper, r2_lower, r2_number, r2_other, range. eapply one_ext; [ones; reflexivity|bytes256]. Qed.
Lemma r2_unit : unit (r2_upper ||| r2_lower ||| r2_number ||| r2_other ||| lit "%" ;; r2_hex ;; r2_hex) hexdig sss.
Proof. apply unit_l; [apply r2_plain_one|apply pct_triple; apply r2_hex_one]. Qed.
Lemma r2_NID_iff w : r2_NID w <-> (1 <= List.length w <= 32)%nat /\ head_in alnum w /\ forallb nid_char w = true.
Proof.
  split.
  - intros (x & y & -> & Hx & Hy). apply r2_let_num_one in Hx as (c & -> & Hc).
    assert (K : (List.length y <= 31)%nat /\ forallb nid_char y = true).
    { destruct Hy as [->|Hy]; [cbn; split; [lia|reflexivity]|]. apply (rep_one _ _ _ _ _ r2_let_num_hyp_one) in Hy. split; [lia|apply Hy]. }
    destruct K as [Hl Hf]. cbn. split; [lia|]. split; [eexists _, _; split; [reflexivity|exact Hc]|]. rewrite Hf. unfold nid_char. rewrite Hc. reflexivity.
  - intros (Hl & (c & r & -> & Hc) & Hf). cbn in Hl, Hf. apply andb_true_iff in Hf as [_ Hf]. exists [c], r. split; [reflexivity|].
    split; [apply r2_let_num_one; eauto|]. destruct r as [|d r]; [left; reflexivity|right].
    apply (rep_one _ _ _ _ _ r2_let_num_hyp_one). split; [cbn in *; lia|exact Hf].
Qed.
Theorem r2_strict_iff s : r2_URN_strict s <-> exists p nid nss, urn2141 hexdig s p nid nss.
Proof.
  split.
  - intros (x & nss & -> & (x1 & x2 & -> & (x3 & nid & -> & (p & x4 & -> & Hp & ->) & [Hn Hu]) & ->) & Hs).
    apply pre_iff in Hp. apply r2_NID_iff in Hn. apply (plus_unit _ _ _ _ r2_unit) in Hs. exists p, nid, nss.
    split; [rewrite <- !app_assoc; reflexivity|]. split; [exact Hp|]. split; [|exact Hs]. destruct Hn as (H1 & H2 & H3).
    split; [exact H1|]. split; [exact H2|]. split; [exact H3|]. intros K. apply Hu. apply pre_iff. exact K.
  - intros (p & nid & nss & -> & Hp & (H1 & H2 & H3 & H4) & Hs). apply pre_iff in Hp.
    exists (p ++ colon ++ nid ++ colon), nss. split; [rewrite <- !app_assoc; reflexivity|].
    split; [|apply (plus_unit _ _ _ _ r2_unit); exact Hs].
    exists (p ++ colon ++ nid), colon. split; [rewrite <- !app_assoc; reflexivity|]. split; [|reflexivity].
    exists (p ++ colon), nid. split; [rewrite <- !app_assoc; reflexivity|]. split; [exists p, colon; repeat split; auto|].
    split; [apply r2_NID_iff; auto|]. intros K. apply H4. apply pre_iff. exact K.
Qed.
Lemma r2_strict_weak s : r2_URN_strict s -> r2_URN s.
Proof.
  intros (x & nss & -> & (x1 & x2 & -> & (x3 & nid & -> & Hp & [Hn Hu]) & ->) & Hs).
  exists ((x3 ++ nid) ++ B ":"), nss. split; [reflexivity|]. split; [exists (x3 ++ nid), (B ":"); split; [reflexivity|]; split; [|reflexivity]; exists x3, nid; auto|].
  assert (K : forall w, (r2_upper ||| r2_lower ||| r2_number ||| r2_other ||| lit "%" ;; r2_hex ;; r2_hex) w -> r2_URN_chars w).
  { unfold r2_URN_chars, r2_trans, alt. tauto. }
  destruct Hs as (a & b & -> & Ha & (n & Hb)). exists a, b. split; [reflexivity|]. split; [apply K; exact Ha|]. exists n.
  revert b Hb. clear -K. induction n as [|n IH]; intros b Hb; [exact Hb|]. destruct Hb as (x & y & -> & Hx & Hy). exists x, y. auto.
Qed.
Theorem r2_hex_back s p nid nss : urn2141 alnum s p nid nss -> hex_ok s -> urn2141 hexdig s p nid nss.
Proof.
  intros (E & Hp & Hn & [Hs He]) Hx. split; [exact E|]. split; [exact Hp|]. split; [exact Hn|]. split; [exact Hs|].
  apply (esc_hex sss nss He eq_refl (p ++ colon ++ nid ++ colon) []). rewrite app_nil_r, <- !app_assoc. rewrite <- E. exact Hx.
Qed.
Theorem r2_hex_in s p nid nss : urn2141 hexdig s p nid nss -> urn2141 alnum s p nid nss.
Proof.
  intros (E & Hp & Hn & [Hs He]). split; [exact E|]. split; [exact Hp|]. split; [exact Hn|]. split; [exact Hs|].
  apply (esc_mono hexdig); [exact hex_alnum|exact He].
Qed.

(* ---- RFC 7643 ------------------------------------------------------------------------------- *)
Lemma alnum_esc g w : forallb alnum w = true -> escaped g sss w.
Proof.
  induction w as [|c w IH]; [constructor|]. cbn. intros H. apply andb_true_iff in H as [Hc Hw]. apply esc_plain; [|auto].
  unfold sss. rewrite Hc. reflexivity.
Qed.
Theorem r7_accepted_valid s p t n o : urnscim s p t n o -> hex_ok s -> r7_URN s.
Proof.
  intros (E & Hp & Ht & [Hn Hf] & Ho) Hx. apply pre_iff in Hp.
  exists (p ++ B ":ietf:params:scim:" ++ t ++ colon), (n ++ scim_tail o).
  split; [rewrite E; unfold scim_ss; rewrite <- !app_assoc; reflexivity|]. split.
  - exists (p ++ B ":ietf:params:scim:" ++ t), colon. split; [rewrite <- !app_assoc; reflexivity|]. split; [|reflexivity].
    exists (p ++ B ":ietf:params:scim:"), t. split; [rewrite <- !app_assoc; reflexivity|]. split; [exists p, (B ":ietf:params:scim:"); repeat split; auto|].
    unfold r7_type, alt, lit. destruct Ht as [->|[->| ->]]; auto.
  - apply (plus_unit _ _ _ _ r2_unit). split; [destruct n; [contradiction Hn; reflexivity|discriminate]|].
    apply esc_app; [apply alnum_esc; exact Hf|]. destruct o as [|c o]; [apply esc_nil|]. cbn [scim_tail colon app]. apply esc_plain; [reflexivity|].
    destruct Ho as [Ho|[_ Ho]]; [discriminate Ho|].
    apply (esc_hex sss (c :: o) Ho eq_refl (p ++ colon ++ scim_nid ++ colon ++ t ++ colon ++ n ++ colon) []).
    rewrite app_nil_r. rewrite E in Hx. unfold scim_ss in Hx. cbn [scim_tail] in Hx. rewrite <- !app_assoc in *. exact Hx.
Qed.

Lemma r7_alnum_iff s : r7_URN_alnum s -> exists p t n o, urnscim s p t n o /\ (o = [] \/ o <> [] /\ escaped hexdig sss o).
Proof.
  intros (x & O & -> & (x1 & n & -> & (x2 & x3 & -> & (x4 & t & -> & (p & x5 & -> & Hp & E5) & Ht) & E3) & Hn) & HO).
  unfold lit in E5, E3. subst x5 x3. apply pre_iff in Hp.
  assert (Kt : scim_type t) by (destruct Ht as [[Ht|Ht]|Ht]; rewrite Ht; unfold scim_type; auto).
  assert (Kn : scim_name n).
  { destruct Hn as (a & b & -> & Ha & Hb). apply r2_let_num_one in Ha as (c & -> & Hc). apply (star_one _ _ _ r2_let_num_one) in Hb.
    split; [discriminate|]. cbn. rewrite Hc. exact Hb. }
  destruct HO as [->|(c & o & -> & Ec & Ho)].
  - exists p, t, n, []. split; [|auto]. split; [unfold scim_ss; cbn [scim_tail]; rewrite <- !app_assoc; reflexivity|]. auto.
  - unfold lit in Ec. subst c. apply (plus_unit _ _ _ _ r2_unit) in Ho. exists p, t, n, o. split; [|auto]. destruct Ho as [Ho1 Ho2].
    split; [|split; [exact Hp|split; [exact Kt|split; [exact Kn|right; split; [exact Ho1|apply (esc_mono hexdig); [exact hex_alnum|exact Ho2]]]]]].
    unfold scim_ss. destruct o as [|? ?]; [contradiction Ho1; reflexivity|]. cbn [scim_tail]. rewrite <- !app_assoc. reflexivity.
Qed.

(* ---- valid texts have hexadecimal escapes ---------------------------------------------------- *)
Lemma hex_ok_nopct w : ~ In "%"%byte w -> hex_ok w.
Proof. intros H x y E. exfalso. apply H. rewrite E. apply in_or_app. right. left. reflexivity. Qed.
Lemma hex_ok_app x y : hex_ok x -> hex_ok y -> hex_ok (x ++ y).
Proof.
  intros Hx Hy a b E. revert a E. induction x as [|c x IH]; intros a E; [apply (Hy a b E)|].
  destruct a as [|d a].
  - injection E as -> <-. destruct (Hx [] x eq_refl) as (a' & b' & y' & -> & K1 & K2). exists a', b', (y' ++ y). auto.
  - injection E as -> E. apply (IH) with (a := a); [|exact E]. intros u v Ev. apply (Hx (d :: u) v). rewrite Ev. reflexivity.
Qed.
Lemma esc_hex_ok (f : byte -> bool) w : escaped hexdig f w -> f "%"%byte = false -> hex_ok w.
Proof.
  intros H Hf. induction H as [|c w Hc Hw IH|a b w Ha Hb Hw IH].
  - intros [|? ?] y E; discriminate E.
  - apply (hex_ok_app [c] w); [|exact IH]. apply hex_ok_nopct. intros [->|[]]. congruence.
  - apply (hex_ok_app ["%"%byte; a; b] w); [|exact IH]. intros x y E.
    assert (Na : a <> "%"%byte) by (intros ->; discriminate Ha). assert (Nb : b <> "%"%byte) by (intros ->; discriminate Hb).
    destruct x as [|? x]; cbn [app] in E; [injection E as E; subst y; exists a, b, []; split; [reflexivity|split; apply hexdig_iff; auto]|injection E as E0 E].
    destruct x as [|? x]; cbn [app] in E; [injection E as E1 E; congruence|injection E as E1 E].
    destruct x as [|? x]; cbn [app] in E; [injection E as E2 E; congruence|injection E as E2 E]. destruct x; discriminate E.
Qed.
Lemma word_nopct p : urn_word p -> ~ In "%"%byte p.
Proof.
  intros H K. unfold urn_word, lowers in H. apply (in_map low) in K. rewrite H in K. cbn in K.
  destruct K as [K|[K|[K|[]]]]; discriminate K.
Qed.
Lemma nid_nopct w : forallb nid_char w = true -> ~ In "%"%byte w.
Proof. intros H K. rewrite forallb_forall in H. specialize (H _ K). discriminate H. Qed.
Lemma colon_hex : hex_ok colon.
Proof. apply hex_ok_nopct. intros [K|[]]. discriminate K. Qed.
Theorem r2_strict_hex s : r2_URN_strict s -> hex_ok s.
Proof.
  rewrite r2_strict_iff. intros (p & nid & nss & -> & Hp & (_ & _ & Hn & _) & [_ Hs]).
  apply hex_ok_app; [apply hex_ok_nopct, word_nopct, Hp|]. apply hex_ok_app; [apply colon_hex|].
  apply hex_ok_app; [apply hex_ok_nopct, nid_nopct, Hn|]. apply hex_ok_app; [apply colon_hex|]. exact (esc_hex_ok sss nss Hs eq_refl).
Qed.
Theorem r8_hex s : r8_namestring s -> hex_ok s.
Proof.
  intros (x & F & E & (x2 & X & -> & (x3 & nss & -> & (x4 & x5 & -> & (x6 & nid & -> & (p & x7 & -> & Hp & E7) & Hn) & E5) & Hs) & HX) & HF).
  unfold lit in E7, E5. subst x7 x5 s. apply pre_iff in Hp. apply (nid_of _ _ nid r8_alphanum_one r8_ldh_one) in Hn as (_ & Hn & _).
  apply (nss_of _ _ hexdig nss r8_pchar_unit r8_slash_unit) in Hs as [Hs _].
  assert (Hk : forall a : byte, a <> "%"%byte -> hex_ok ["?"%byte; a]) by (intros a Ha; apply hex_ok_nopct; intros [K|[K|[]]]; [discriminate K|auto]).
  assert (HC : forall w, (r8_pchar ;; star (r8_pchar ||| lit "/" ||| lit "?")) w -> hex_ok w).
  { intros w Hw. apply (comp_of _ _ hexdig w r8_pchar_unit r8_frag_unit) in Hw as [Hw _]. exact (esc_hex_ok frag_char w Hw eq_refl). }
  apply hex_ok_app; [apply hex_ok_app; [apply hex_ok_app; [apply hex_ok_app; [apply hex_ok_app; [apply hex_ok_app|]|]|]|]|].
  - apply hex_ok_nopct, word_nopct, Hp.
  - apply colon_hex.
  - apply hex_ok_nopct, nid_nopct, Hn.
  - apply colon_hex.
  - exact (esc_hex_ok pchar_slash nss Hs eq_refl).
  - destruct HX as [->|(y & Y & -> & HR & HQ)]; [apply hex_ok_nopct; intros []|]. apply hex_ok_app.
    + destruct HR as [->|(y1 & w & -> & Ey & Hw)]; [apply hex_ok_nopct; intros []|]. unfold lit in Ey. subst y1. apply (hex_ok_app (B "?+") w); [apply Hk; discriminate|auto].
    + destruct HQ as [->|(y1 & w & -> & Ey & Hw)]; [apply hex_ok_nopct; intros []|]. unfold lit in Ey. subst y1. apply (hex_ok_app (B "?=") w); [apply Hk; discriminate|auto].
  - destruct HF as [->|(y & f & -> & Ey & Hf)]; [apply hex_ok_nopct; intros []|]. unfold lit in Ey. subst y.
    apply hex_ok_app; [apply hex_ok_nopct; intros [K|[]]; discriminate K|]. apply (star_unit _ _ _ f r8_frag_unit) in Hf. exact (esc_hex_ok frag_char f Hf eq_refl).
Qed.

(* ---- every accepted text is in the loose grammar of RFC 2141 ------------------------------------ *)
Lemma r2_trans_one : one r2_trans (fun c => sss c || one_of "%/?#" c).
Proof. unfold r2_trans, r2_upper, r2_lower, r2_number, r2_other, r2_reserved, range. eapply one_ext; [ones; reflexivity|bytes256]. Qed.
Lemma esc_trans w : escaped alnum sss w -> star r2_URN_chars w.
Proof.
  assert (K : forall c w, (sss c || one_of "%/?#" c) = true -> star r2_URN_chars w -> star r2_URN_chars (c :: w)).
  { intros c v Hc Hv. apply (star_app _ [c] v); [|exact Hv]. left. apply r2_trans_one. eauto. }
  induction 1 as [|c w Hc _ IH|a b w Ha Hb _ IH]; [apply star_nil|apply K; [rewrite Hc; reflexivity|exact IH]|].
  assert (Sa : forall c, alnum c = true -> (sss c || one_of "%/?#" c) = true) by (intros c Hc; unfold sss; rewrite Hc; reflexivity).
  apply K; [reflexivity|]. apply K; [auto|]. apply K; [auto|]. exact IH.
Qed.
Theorem r2_accepted s p nid nss : urn2141 alnum s p nid nss -> r2_URN s.
Proof.
  intros (-> & Hp & (H1 & H2 & H3 & H4) & [Hs He]). apply pre_iff in Hp.
  exists (p ++ colon ++ nid ++ colon), nss. split; [rewrite <- !app_assoc; reflexivity|]. split.
  - exists (p ++ colon ++ nid), colon. split; [rewrite <- !app_assoc; reflexivity|]. split; [|reflexivity].
    exists (p ++ colon), nid. split; [rewrite <- !app_assoc; reflexivity|]. split; [exists p, colon; repeat split; auto|]. apply r2_NID_iff; auto.
  - apply esc_trans in He. destruct He as (n & H). destruct n as [|n]; [contradiction Hs; exact H|]. destruct H as (x & y & -> & Hx & Hy).
    exists x, y. split; [reflexivity|]. split; [exact Hx|exists n; exact Hy].
Qed.

(* ---- helpers for the examples -------------------------------------------------------------------- *)
Lemma rl_make p nid nss X F : urn_word p -> nid_g nid -> ~ rl_informal_id nid -> nss8141 nss -> opt rl_rq_components X -> opt rl_f_component F ->
  rl_rfc8141_only (p ++ colon ++ nid ++ colon ++ nss ++ X ++ F).
Proof.
  intros Hp Hn Hi Hs HX HF. apply rl_pre_iff in Hp. apply rl_nss8_iff in Hs.
  exists (p ++ colon ++ nid ++ colon ++ nss ++ X), F. split; [rewrite <- !app_assoc; reflexivity|]. split; [|exact HF].
  exists (p ++ colon ++ nid ++ colon ++ nss), X. split; [rewrite <- !app_assoc; reflexivity|]. split; [|exact HX].
  exists (p ++ colon ++ nid ++ colon), nss. split; [rewrite <- !app_assoc; reflexivity|]. split; [|exact Hs].
  exists (p ++ colon ++ nid), colon. split; [rewrite <- !app_assoc; reflexivity|]. split; [|reflexivity].
  exists (p ++ colon), nid. split; [rewrite <- !app_assoc; reflexivity|]. split; [exists p, colon; repeat split; auto|].
  split; [apply rl_nid8_iff; exact Hn|]. intros [K|K]; [exact (nid_not_nil _ Hn K)|exact (Hi K)].
Qed.
Lemma r8_make p nid nss X F : urn_word p -> nid_g nid -> nss_g hexdig nss -> opt r8_rq_components X -> opt (lit "#" ;; r8_f_component) F ->
  r8_namestring (p ++ colon ++ nid ++ colon ++ nss ++ X ++ F).
Proof.
  intros Hp Hn Hs HX HF. apply pre_iff in Hp. apply (nss_of _ _ hexdig nss r8_pchar_unit r8_slash_unit) in Hs.
  exists (p ++ colon ++ nid ++ colon ++ nss ++ X), F. split; [rewrite <- !app_assoc; reflexivity|]. split; [|exact HF].
  exists (p ++ colon ++ nid ++ colon ++ nss), X. split; [rewrite <- !app_assoc; reflexivity|]. split; [|exact HX].
  exists (p ++ colon ++ nid ++ colon), nss. split; [rewrite <- !app_assoc; reflexivity|]. split; [|exact Hs].
  exists (p ++ colon ++ nid), colon. split; [rewrite <- !app_assoc; reflexivity|]. split; [|reflexivity].
  exists (p ++ colon), nid. split; [rewrite <- !app_assoc; reflexivity|]. split; [exists p, colon; repeat split; auto|].
  apply (nid_of _ _ nid r8_alphanum_one r8_ldh_one). exact Hn.
Qed.
Fixpoint occb (k w : bytes) : bool :=
  (if list_eq_dec byte_eq_dec (firstn (List.length k) w) k then true else false) || match w with [] => false | _ :: w => occb k w end.
Lemma occ_len k w x y : occb k w = false -> w = x ++ k ++ y -> False.
Proof.
  revert w. induction x as [|c x IH]; intros w H E.
  - cbn [app] in E. subst w. destruct k as [|a k].
    + destruct y; cbn in H; discriminate H.
    + cbn [app occb List.length firstn] in H. rewrite firstn_app, Nat.sub_diag, firstn_all, app_nil_r in H. destruct (list_eq_dec byte_eq_dec (a :: k) (a :: k)); [discriminate H|congruence].
  - subst w. cbn [app occb] in H. apply orb_false_iff in H as [_ H]. exact (IH _ H eq_refl).
Qed.
Lemma no_in (a : byte) w : existsb (Byte.eqb a) w = false -> ~ In a w.
Proof. intros H K. rewrite <- not_true_iff_false in H. apply H. apply existsb_exists. exists a. split; [exact K|destruct a; reflexivity]. Qed.
Ltac esc_tac := repeat first [apply esc_nil | (apply esc_plain; [reflexivity|]) | (apply esc_pct; [reflexivity|reflexivity|])].
Ltac nid_tac := split; [cbn; lia|]; split; [reflexivity|]; split; [eexists _, _; split; reflexivity|];
  match goal with |- exists c r, ?w = r ++ [c] /\ _ => exists (last w "a"%byte), (removelast w); split; reflexivity end.
Ltac nss_tac := split; [esc_tac|eexists _, _; split; [reflexivity|discriminate]].
Ltac comp_tac := split; [esc_tac|eexists _, _; split; [reflexivity|split; discriminate]].
Ltac not_informal := let u := fresh in let y := fresh in let E := fresh in let Hu := fresh in
  intros (u & y & E & Hu & _); apply rl_pre_iff in Hu; apply (f_equal (@List.length _)) in E; apply (f_equal (@List.length _)) in Hu;
  unfold lowers in Hu; rewrite map_length in Hu; rewrite app_length in E; cbn in E, Hu; lia.
