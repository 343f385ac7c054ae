(* The tools on runes (RuneTools.v) do what the tools on bytes (Tools.v) do. *)
From Coq Require Import Lia.
From Verif Require Import GoBase Json Tools SpecJson SpecTools PropsTools PropsJson PropsJson2 RuneTools.
From Verif Require Spec.
Local Open Scope list_scope.

(* ---- DecodeRune ---------------------------------------------------------------------------- *)
Notation hi b := (128 <= Byte.to_N b)%N.
Lemma mod_drop (h m x : N) : (x < m)%N -> ((h * m + x) mod m = x)%N.
Proof. intros H. rewrite N.add_comm, N.mod_add by lia. apply N.mod_small. exact H. Qed.
Lemma cont_mod b x : cont b x -> (Byte.to_N b mod 64 = x)%N.
Proof. intros [E H]. rewrite E. apply (mod_drop 2 64). exact H. Qed.

Lemma decode_utf8 n v z : utf8 n v -> DecodeRune (v ++ z) = (n, List.length v).
Proof.
  intros H. destruct (N.lt_ge_cases n 128) as [Hn|Hn].
  - destruct H as [Hs [(a & -> & H1 & <-)|[(a & b & x & y & -> & K & _)|[(a & b & c & x & y & w & -> & K & _)|(a & b & c & d & x & y & w & t & -> & K & _)]]]]; [|exfalso; lia..].
    cbn. apply N.ltb_lt in H1. rewrite H1. reflexivity.
  - pose proof (utf8_len_complete n v z H Hn) as L. pose proof (utf8_high n v H Hn) as Hh.
    destruct H as [Hs [(a & -> & H1 & H2)|[(a & b & x & y & -> & H1 & Ha & Hb & E)|[(a & b & c & x & y & w & -> & H1 & Ha & Hb & Hc & E)|(a & b & c & d & x & y & w & t & -> & H1 & Ha & Hb & Hc & Hd & E)]]]].
    + exfalso; lia.
    + assert (F : (Byte.to_N a <? 128)%N = false) by (apply N.ltb_ge, Hh; left; reflexivity).
      cbn [app] in *. unfold DecodeRune. rewrite F, L. cbn [List.length map]. rewrite (cont_mod _ _ Hb), Ha.
      destruct Hb as [_ Hb]. rewrite (mod_drop 6 32) by lia. rewrite E. reflexivity.
    + assert (F : (Byte.to_N a <? 128)%N = false) by (apply N.ltb_ge, Hh; left; reflexivity).
      cbn [app] in *. unfold DecodeRune. rewrite F, L. cbn [List.length map]. rewrite (cont_mod _ _ Hb), (cont_mod _ _ Hc), Ha.
      destruct Hb as [_ Hb], Hc as [_ Hc]. rewrite (mod_drop 14 16) by lia. rewrite E. reflexivity.
    + assert (F : (Byte.to_N a <? 128)%N = false) by (apply N.ltb_ge, Hh; left; reflexivity).
      cbn [app] in *. unfold DecodeRune. rewrite F, L. cbn [List.length map]. rewrite (cont_mod _ _ Hb), (cont_mod _ _ Hc), (cont_mod _ _ Hd), Ha.
      destruct Hb as [_ Hb], Hc as [_ Hc], Hd as [_ Hd]. destruct Hs as [Hs _].
      rewrite (mod_drop 30 8) by lia. rewrite E. reflexivity.
Qed.
Lemma decode_bad c t : (forall n v z, utf8 n v -> c :: t <> v ++ z) -> DecodeRune (c :: t) = (RuneError, 1%nat).
Proof.
  intros H. unfold DecodeRune. destruct (Byte.to_N c <? 128)%N eqn:E.
  - exfalso. apply N.ltb_lt in E. apply (H (Byte.to_N c) [c] t); [|reflexivity]. split; [|left; eauto].
    split; [lia|]. unfold surrogate. lia.
  - destruct (utf8_len (c :: t)) as [|k] eqn:L; [reflexivity|].
    destruct (utf8_len_sound _ _ L) as (n & Hv & Hn). exfalso. apply (H n _ (skipn (S k) (c :: t)) Hv).
    symmetry. apply firstn_skipn.
Qed.
Lemma decode_low c t : (Byte.to_N c < 128)%N -> DecodeRune (c :: t) = (Byte.to_N c, 1%nat).
Proof. intros H. unfold DecodeRune. apply N.ltb_lt in H. rewrite H. reflexivity. Qed.
Lemma decode_high c t : hi c -> exists n k, DecodeRune (c :: t) = (n, S k) /\ (128 <= n)%N /\
  (S k <= List.length (c :: t))%nat /\ Forall (fun b => hi b) (firstn (S k) (c :: t)).
Proof.
  intros Hc. destruct (utf8_len (c :: t)) as [|k] eqn:L.
  - exists RuneError, 0%nat. split; [|split; [unfold RuneError; lia|split; [cbn; lia|repeat constructor; exact Hc]]].
    apply decode_bad. intros n v z Hv E.
    assert (Hn : (128 <= n)%N) by (eapply utf8_first; [exact Hv|exists z; exact E|exact Hc]).
    pose proof (utf8_len_complete n v z Hv Hn) as X. rewrite <- E, L in X. apply utf8_nonempty in Hv.
    destruct v; [contradiction|discriminate X].
  - destruct (utf8_len_sound _ _ L) as (n & Hv & Hn). destruct (utf8_app _ _ L) as [Hl _].
    exists n, k. split; [|split; [exact Hn|split; [exact Hl|]]].
    + rewrite <- (firstn_skipn (S k) (c :: t)) at 1. rewrite (decode_utf8 n _ _ Hv), firstn_length_le by exact Hl. reflexivity.
    + apply Forall_forall. exact (utf8_high n _ Hv Hn).
Qed.

(* ---- places -------------------------------------------------------------------------------- *)
Lemma skip_eq k : forall x, skip k x = mkPos (seen (prev x) (firstn k (rest x))) (skipn k (rest x)) (taken x ++ firstn k (rest x)) (caps x).
Proof.
  induction k as [|k IH]; intros [b s t g]; cbn [skip rest].
  - cbn. rewrite app_nil_r. reflexivity.
  - destruct s as [|c s]; [cbn; rewrite app_nil_r; reflexivity|]. rewrite IH. unfold advance. cbn [prev rest taken caps firstn skipn].
    rewrite <- app_assoc. reflexivity.
Qed.
Lemma low_or_high c : (Byte.to_N c < 128)%N \/ hi c.
Proof. apply N.lt_ge_cases. Qed.

(* ---- classes of ASCII characters ------------------------------------------------------------ *)
Definition small (p : N -> bool) (q : byte -> bool) : Prop :=
  (forall c, (128 <= c)%N -> p c = false) /\ forall b, q b = p (Byte.to_N b).
Definition large (p : N -> bool) (q : byte -> bool) : Prop :=
  (forall c, (128 <= c)%N -> p c = true) /\ forall b, q b = p (Byte.to_N b).

Lemma one_nil p x : rest x = [] -> one p x = [].
Proof. intros E. unfold one. rewrite E. reflexivity. Qed.
Lemma one_low p x c r : rest x = c :: r -> (Byte.to_N c < 128)%N -> one p x = if p (Byte.to_N c) then [advance c r x] else [].
Proof.
  intros E H. unfold one. rewrite E, (decode_low c r H). cbn [Nat.eqb]. destruct (p _); [|reflexivity]. cbn [skip]. rewrite E.
  destruct r; reflexivity.
Qed.
Lemma one_small p q x : small p q -> one p x = match rest x with c :: r => if q c then [advance c r x] else [] | [] => [] end.
Proof.
  intros [H1 H2]. destruct (rest x) as [|c r] eqn:E; [apply one_nil, E|]. rewrite H2.
  destruct (low_or_high c) as [Hc|Hc]; [apply (one_low p x c r E Hc)|].
  unfold one. rewrite E. destruct (decode_high c r Hc) as (n & k & -> & Hn & _). cbn [Nat.eqb].
  rewrite (H1 n Hn), (H1 _ Hc). reflexivity.
Qed.
Lemma star_small p q : small p q -> forall n x, (List.length (rest x) <= n)%nat -> ustar n p x = star q (rest x) x.
Proof.
  intros Hs. induction n as [|n IH]; intros x Hl; cbn [ustar].
  - destruct (rest x); [reflexivity|cbn in Hl; lia].
  - rewrite (one_small p q x Hs). destruct (rest x) as [|c r] eqn:E; [reflexivity|]. cbn [star].
    destruct (q c); [|reflexivity]. cbn [flat_map]. rewrite app_nil_r, IH by (cbn in *; lia). reflexivity.
Qed.

(* ---- the dot -------------------------------------------------------------------------------- *)
Section Dot.
Variables (p : N -> bool) (q : byte -> bool).
Hypothesis L : large p q.
Lemma dot_hi b : hi b -> q b = true.
Proof. destruct L as [H1 H2]. intros H. rewrite H2. apply H1, H. Qed.
Lemma far_skip : forall k x, Forall (fun b => hi b) (firstn k (rest x)) -> far q (skip k x) = far q x.
Proof.
  induction k as [|k IH]; intros x H; [reflexivity|]. cbn [skip]. destruct (rest x) as [|c r] eqn:E; [reflexivity|].
  cbn [firstn] in H. inversion H as [|? ? Hc Hr]; subst. rewrite IH by exact Hr. symmetry. apply far_go; [exact E|apply dot_hi, Hc].
Qed.
Lemma star_far : forall n x, (List.length (rest x) <= n)%nat -> exists tl, ustar n p x = far q x :: tl.
Proof.
  induction n as [|n IH]; intros x Hl; cbn [ustar].
  - destruct (rest x) eqn:E; [|cbn in Hl; lia]. rewrite far_stop by (rewrite E; exact I). eauto.
  - destruct (rest x) as [|c r] eqn:E.
    + rewrite one_nil by exact E. rewrite far_stop by (rewrite E; exact I). cbn. eauto.
    + destruct (low_or_high c) as [Hc|Hc].
      * rewrite (one_low p x c r E Hc). destruct (p (Byte.to_N c)) eqn:Hp.
        -- cbn [flat_map]. destruct (IH (advance c r x)) as (tl & ->); [cbn in *; lia|].
           rewrite (far_go q x c r E) by (destruct L as [_ ->]; exact Hp). cbn. eauto.
        -- rewrite far_stop by (rewrite E; destruct L as [_ ->]; exact Hp). cbn. eauto.
      * destruct (decode_high c r Hc) as (m & k & D & Hm & Hk & Hf). unfold one. rewrite E, D. cbn [Nat.eqb].
        destruct L as [H1 _]. rewrite (H1 m Hm). cbn [flat_map].
        destruct (IH (skip (S k) x)) as (tl & ->).
        { rewrite skip_eq. cbn [rest]. rewrite skipn_length, E. cbn [List.length] in *. lia. }
        rewrite far_skip by (rewrite E; exact Hf). cbn. eauto.
Qed.
Variable k : pos -> list pos.
Hypothesis Hk : forall y c r, rest y = c :: r -> hi c -> k y = [].
Lemma star_skip : forall j x, Forall (fun b => hi b) (firstn j (rest x)) ->
  flat_map k (star q (rest x) x) = flat_map k (star q (rest (skip j x)) (skip j x)).
Proof.
  induction j as [|j IH]; intros x H; [reflexivity|]. cbn [skip]. destruct (rest x) as [|c r] eqn:E; [rewrite E; reflexivity|].
  cbn [firstn] in H. inversion H as [|? ? Hc Hr]; subst. rewrite <- IH by exact Hr. cbn [star]. rewrite dot_hi by exact Hc.
  rewrite flat_map_app. cbn [flat_map]. rewrite (Hk x c r E Hc). rewrite !app_nil_r. reflexivity.
Qed.
Lemma star_dot : forall n x, (List.length (rest x) <= n)%nat -> flat_map k (ustar n p x) = flat_map k (star q (rest x) x).
Proof.
  induction n as [|n IH]; intros x Hl; cbn [ustar].
  - destruct (rest x); [reflexivity|cbn in Hl; lia].
  - destruct (rest x) as [|c r] eqn:E; [rewrite one_nil by exact E; reflexivity|].
    destruct (low_or_high c) as [Hc|Hc].
    + rewrite (one_low p x c r E Hc). cbn [star]. destruct L as [_ H2]. rewrite H2. destruct (p (Byte.to_N c)) eqn:Hp; [|reflexivity].
      cbn [flat_map]. rewrite app_nil_r, !flat_map_app. rewrite IH by (cbn in *; lia). reflexivity.
    + destruct (decode_high c r Hc) as (m & j & D & Hm & Hj & Hf). unfold one. rewrite E, D. cbn [Nat.eqb].
      destruct L as [H1 _]. rewrite (H1 m Hm). cbn [flat_map]. rewrite app_nil_r, flat_map_app. cbn [flat_map].
      rewrite (Hk x c r E Hc), !app_nil_r, IH.
      * rewrite <- E, <- star_skip; [reflexivity|rewrite E; exact Hf].
      * rewrite skip_eq. cbn [rest]. rewrite skipn_length, E. cbn [List.length] in *. lia.
Qed.
End Dot.

(* ---- expressions ----------------------------------------------------------------------------- *)
Definition same (u : ure) (r : re) : Prop := forall x, umatch u x = rmatch r x.
Definition heads (u : ure) (r : re) : Prop := forall x, hd_error (umatch u x) = hd_error (rmatch r x).
Lemma same_heads u r : same u r -> heads u r.
Proof. intros H x. rewrite H. reflexivity. Qed.
Lemma same_cls p q : small p q -> same (UCls p) (RCls q).
Proof. intros H x. apply one_small, H. Qed.
Lemma same_star p q : small p q -> same (UStar p) (RStar q).
Proof. intros H x. apply star_small; [exact H|lia]. Qed.
Lemma same_opt p q : small p q -> same (UOpt p) (ROpt q).
Proof. intros H x. cbn [umatch rmatch]. rewrite (one_small p q x H). destruct (rest x) as [|c r]; [reflexivity|]. destruct (q c); reflexivity. Qed.
Lemma same_bol : same UBol RBol.
Proof. intros x. reflexivity. Qed.
Lemma same_eol : same UEol REol.
Proof.
  intros x. cbn [umatch rmatch]. destruct (rest x) as [|c r]; [reflexivity|]. destruct (low_or_high c) as [Hc|Hc].
  - rewrite (decode_low c r Hc). destruct c; reflexivity.
  - destruct (decode_high c r Hc) as (n & k & -> & Hn & _). destruct (N.eqb_spec n 10); [lia|].
    replace (is_nl c) with false; [reflexivity|]. symmetry. unfold is_nl. destruct (Byte.eqb c nl) eqn:E; [|reflexivity].
    apply Byte.byte_dec_bl in E. subst c. cbn in Hc. lia.
Qed.
Lemma flat_same {A B} (f g : A -> list B) l : (forall x, f x = g x) -> flat_map f l = flat_map g l.
Proof. intros H. induction l as [|a l IH]; [reflexivity|]. cbn. rewrite H, IH. reflexivity. Qed.
Lemma flat_heads {A B} (f g : A -> list B) l : (forall x, hd_error (f x) = hd_error (g x)) -> hd_error (flat_map f l) = hd_error (flat_map g l).
Proof.
  intros H. induction l as [|a l IH]; [reflexivity|]. cbn. specialize (H a). destruct (f a), (g a); cbn in *; try discriminate H; [exact IH|exact H].
Qed.
Lemma same_cat a a' b b' : same a a' -> same b b' -> same (UCat a b) (RCat a' b').
Proof. intros Ha Hb x. cbn [umatch rmatch]. rewrite Ha. apply flat_same, Hb. Qed.
Lemma heads_cat a a' b b' : same a a' -> heads b b' -> heads (UCat a b) (RCat a' b').
Proof. intros Ha Hb x. cbn [umatch rmatch]. rewrite Ha. apply flat_heads, Hb. Qed.
Lemma same_group n u r : same u r -> same (UGroup n u) (RGroup n r).
Proof. intros H x. cbn [umatch rmatch]. rewrite H. reflexivity. Qed.
Lemma heads_group n u r : heads u r -> heads (UGroup n u) (RGroup n r).
Proof.
  intros H x. cbn [umatch rmatch]. specialize (H x). destruct (umatch u x), (rmatch r x); cbn in *; try discriminate H; [reflexivity|].
  injection H as ->. reflexivity.
Qed.
Lemma heads_dot p q : large p q -> heads (UStar p) (RStar q).
Proof.
  intros H x. cbn [umatch rmatch]. destruct (star_far p q H (List.length (rest x)) x) as (tl & ->); [lia|].
  destruct (star_hd q (rest x) x eq_refl) as (tl' & ->). reflexivity.
Qed.
(* nothing matches in front of a byte that is not ASCII *)
Definition shy (r : re) : Prop := forall y c s, rest y = c :: s -> hi c -> rmatch r y = [].
Lemma same_dot_cat p q u r : large p q -> same u r -> shy r -> same (UCat (UStar p) u) (RCat (RStar q) r).
Proof.
  intros H Hu Hs x. cbn [umatch rmatch]. rewrite (flat_same _ _ _ Hu). apply (star_dot p q H); [exact Hs|lia].
Qed.
Lemma heads_dot_group p q n u r : large p q -> heads u r -> shy r -> heads (UCat (UGroup n (UStar p)) u) (RCat (RGroup n (RStar q)) r).
Proof.
  intros H Hu Hs x. cbn [umatch rmatch]. rewrite (flat_heads _ _ _ Hu), !flat_of_map. f_equal.
  apply (star_dot p q H); [|lia]. intros y c s E Hc. eapply Hs; [exact E|exact Hc].
Qed.
Lemma shy_cls q : (forall c, hi c -> q c = false) -> shy (RCls q).
Proof. intros H y c s E Hc. cbn [rmatch]. rewrite E, H by exact Hc. reflexivity. Qed.
Lemma shy_eol : shy REol.
Proof.
  intros y c s E Hc. cbn [rmatch]. rewrite E. replace (is_nl c) with false; [reflexivity|]. symmetry. unfold is_nl.
  destruct (Byte.eqb c nl) eqn:F; [|reflexivity]. apply Byte.byte_dec_bl in F. subst c. cbn in Hc. lia.
Qed.
Lemma shy_cat a b : shy a -> shy (RCat a b).
Proof. intros H y c s E Hc. cbn [rmatch]. rewrite (H y c s E Hc). reflexivity. Qed.
Lemma shy_group n a : shy a -> shy (RGroup n a).
Proof. intros H y c s E Hc. cbn [rmatch]. rewrite (H y c s E Hc). reflexivity. Qed.
Lemma small_hi p q c : small p q -> hi c -> q c = false.
Proof. intros [H1 H2] H. rewrite H2. apply H1, H. Qed.

Ltac high := intros c H; unfold u_az, u_09, u_alnum, u_space, u_dot, is_rune, in_range;
  repeat match goal with
  | |- context [N.eqb ?a ?b] => destruct (N.eqb_spec a b); [exfalso; subst; cbn in H; lia|]
  | |- context [N.leb ?a ?b] => destruct (N.leb_spec a b); [|try (exfalso; lia)]
  end; try reflexivity; exfalso; lia.
Lemma small_az : small u_az re_az.
Proof. split; [high|]. intros b; destruct b; reflexivity. Qed.
Lemma small_09 : small u_09 re_09.
Proof. split; [high|]. intros b; destruct b; reflexivity. Qed.
Lemma small_alnum : small u_alnum re_alnum.
Proof. split; [high|]. intros b; destruct b; reflexivity. Qed.
Lemma small_space : small u_space re_space.
Proof. split; [high|]. intros b; destruct b; reflexivity. Qed.
Lemma small_is a : (Byte.to_N a < 128)%N -> small (is_rune a) (Byte.eqb a).
Proof.
  intros Ha. split.
  - intros c H. unfold is_rune. apply N.eqb_neq. lia.
  - intros b. unfold is_rune. destruct (Byte.eqb a b) eqn:E.
    + apply Byte.byte_dec_bl in E. subst. symmetry. apply N.eqb_refl.
    + symmetry. apply N.eqb_neq. intros F. assert (b = a); [|subst; rewrite Byte.byte_dec_lb in E by reflexivity; discriminate E].
      assert (G : Byte.of_N (Byte.to_N b) = Byte.of_N (Byte.to_N a)) by (rewrite F; reflexivity).
      rewrite !Byte.of_to_N in G. injection G as ->. reflexivity.
Qed.
Lemma small_us : small (is_rune "_") (fun c => Byte.eqb c "_").
Proof. split; [intros c H; unfold is_rune; apply N.eqb_neq; cbn; lia|]. intros b; destruct b; reflexivity. Qed.
Lemma small_nl : small (is_rune "010") is_nl.
Proof. split; [intros c H; unfold is_rune; apply N.eqb_neq; cbn; lia|]. intros b; destruct b; reflexivity. Qed.
Lemma large_dot : large u_dot dot.
Proof. split; [intros c H; unfold u_dot; destruct (N.eqb_spec c 10); [lia|reflexivity]|]. intros b; destruct b; reflexivity. Qed.

Lemma heads_snake : heads u_snake snake_re.
Proof.
  apply heads_dot_group; [exact large_dot| |].
  - apply heads_cat.
    + apply same_group, same_cat; [apply same_cls, small_az|]. apply same_cat; apply same_star; [apply small_az|apply small_09].
    + apply heads_cat; [apply same_cls, small_us|]. apply heads_cat; [apply same_group, same_cls, small_alnum|].
      apply heads_group, heads_dot, large_dot.
  - apply shy_cat, shy_group, shy_cat, shy_cls. intros c. apply (small_hi _ _ c small_az).
Qed.
Lemma same_lit w u r : Forall (fun b => (Byte.to_N b < 128)%N) (B w) -> same u r -> same (u_lit w u) (re_lit w r).
Proof.
  intros H K. unfold u_lit, re_lit. induction (B w) as [|b l IH]; [exact K|]. cbn [fold_right]. inversion H; subst.
  apply same_cat; [apply same_cls, small_is; assumption|auto].
Qed.
Lemma same_comment : same u_comment comment_re.
Proof.
  apply same_cat; [exact same_bol|]. apply same_cat; [apply same_star, small_space|].
  apply same_lit; [repeat constructor; cbn; lia|].
  apply same_dot_cat; [exact large_dot| |apply shy_cat, shy_eol].
  apply same_cat; [exact same_eol|]. apply same_cat; apply same_opt; [apply small_is; cbn; lia|exact small_nl].
Qed.

(* ---- where a match ends ---------------------------------------------------------------------- *)
Definition walk (x y : pos) : Prop := exists v, rest x = v ++ rest y /\ taken y = taken x ++ v /\ prev y = seen (prev x) v.
Lemma walk_refl x : walk x x.
Proof. exists []. rewrite app_nil_r. auto. Qed.
Lemma walk_trans x y z : walk x y -> walk y z -> walk x z.
Proof.
  intros (v & A1 & A2 & A3) (w & B1 & B2 & B3). exists (v ++ w). rewrite <- app_assoc, <- B1, app_assoc, <- A2, seen_app, <- A3. auto.
Qed.
Lemma walk_one x c r : rest x = c :: r -> walk x (advance c r x).
Proof. intros E. exists [c]. cbn. auto. Qed.
Lemma star_walk q : forall s x y, rest x = s -> In y (star q s x) -> walk x y.
Proof.
  induction s as [|c s IH]; intros x y E; cbn [star].
  - intros [<-|[]]. apply walk_refl.
  - destruct (q c).
    + intros H. apply in_app_or in H as [H|[<-|[]]]; [|apply walk_refl]. eapply walk_trans; [apply walk_one, E|]. eapply IH; [|exact H]. reflexivity.
    + intros [<-|[]]. apply walk_refl.
Qed.
Lemma match_walk r : forall x y, In y (rmatch r x) -> walk x y.
Proof.
  induction r as [q|q|q| | |a IHa b IHb|n a IHa]; intros x y; cbn [rmatch].
  - destruct (rest x) as [|c s] eqn:E; [intros []|]. destruct (q c); [|intros []]. intros [<-|[]]. apply walk_one, E.
  - apply star_walk. reflexivity.
  - destruct (rest x) as [|c s] eqn:E; [intros [<-|[]]; apply walk_refl|]. destruct (q c).
    + intros [<-|[<-|[]]]; [apply walk_one, E|apply walk_refl].
    + intros [<-|[]]. apply walk_refl.
  - destruct (prev x) as [c|]; [destruct (is_nl c)|]; intros H; first [destruct H as [<-|[]]; apply walk_refl | destruct H].
  - destruct (rest x) as [|c s]; [|destruct (is_nl c)]; intros H; first [destruct H as [<-|[]]; apply walk_refl | destruct H].
  - intros H. apply in_flat_map in H as (z & H1 & H2). eapply walk_trans; [apply IHa, H1|apply IHb, H2].
  - intros H. apply in_map_iff in H as (z & <- & H). destruct (IHa _ _ H) as (v & A). exists v. exact A.
Qed.
Lemma find_walk r : forall s b w y, find r b s = Some (w, y) ->
  s = w ++ taken y ++ rest y /\ prev y = seen b (w ++ taken y).
Proof.
  assert (K : forall s b y l, rmatch r (mkPos b s [] []) = y :: l -> s = taken y ++ rest y /\ prev y = seen b (taken y)).
  { intros s b y l E. destruct (match_walk r (mkPos b s [] []) y) as (v & A1 & A2 & A3); [rewrite E; left; reflexivity|].
    cbn [rest taken prev app] in *. subst v. auto. }
  induction s as [|c s IH]; intros b w y; cbn [find]; destruct (rmatch r _) as [|z l] eqn:E.
  - discriminate.
  - intros H; injection H as <- <-. exact (K _ _ _ _ E).
  - destruct (find r (Some c) s) as [[w' y']|] eqn:F; [|discriminate]. intros H; injection H as <- <-.
    destruct (IH _ _ _ F) as [-> ->]. auto.
  - intros H; injection H as <- <-. exact (K _ _ _ _ E).
Qed.

(* ---- the search ------------------------------------------------------------------------------ *)
(* no match begins inside a rune when none begins at the rune *)
Definition calm (r : re) : Prop := forall b c s, hi c -> rmatch r (mkPos b (c :: s) [] []) = [] -> rmatch r (mkPos (Some c) s [] []) = [].
Lemma calm_comment : calm comment_re.
Proof.
  intros b c s Hc _. apply no_bol_match. unfold is_nl. destruct (Byte.eqb c nl) eqn:F; [|reflexivity].
  apply Byte.byte_dec_bl in F. subst c. cbn in Hc. lia.
Qed.
Lemma calm_snake : calm snake_re.
Proof.
  intros b c s Hc H. pose proof (snake_match b (c :: s)) as K. destruct (conv1 (c :: s)) as [t|] eqn:E.
  { destruct K as (z & tl & m & K & _). rewrite K in H. discriminate H. }
  pose proof (snake_match (Some c) s) as M. destruct (conv1_tail c s) as [F _]; [|exact E|rewrite F in M; exact M].
  unfold is_nl. destruct (Byte.eqb c nl) eqn:F; [|reflexivity]. apply Byte.byte_dec_bl in F. subst c. cbn in Hc. lia.
Qed.
Lemma find_skip r : calm r -> forall j s b, Forall (fun c => hi c) (firstn j s) -> (j <= List.length s)%nat ->
  rmatch r (mkPos b s [] []) = [] ->
  find r b s = match find r (seen b (firstn j s)) (skipn j s) with Some (w, y) => Some (firstn j s ++ w, y) | None => None end.
Proof.
  intros Hr. induction j as [|j IH]; intros s b Hf Hl H.
  - cbn. destruct (find r b s) as [[w y]|]; reflexivity.
  - destruct s as [|c s]; [cbn in Hl; lia|]. cbn [firstn skipn] in *. inversion Hf as [|? ? Hc Hs]; subst. cbn [find]. rewrite H.
    rewrite (IH s (Some c)); [|exact Hs|cbn in Hl; lia|exact (Hr _ _ _ Hc H)]. change (seen b (c :: firstn j s)) with (seen (Some c) (firstn j s)).
    destruct (find r _ _) as [[w y]|]; reflexivity.
Qed.
Lemma find_same u r : heads u r -> calm r -> forall n s b, (List.length s < n)%nat -> ufind n u b s = find r b s.
Proof.
  intros Hu Hr. induction n as [|n IH]; intros s b Hl; [lia|]. cbn [ufind].
  specialize (Hu (mkPos b s [] [])). destruct (umatch u (mkPos b s [] [])) as [|y l] eqn:E.
  - assert (R : rmatch r (mkPos b s [] []) = []) by (destruct (rmatch r _); [reflexivity|discriminate Hu]).
    destruct s as [|c s]; [cbn [find]; rewrite R; reflexivity|]. destruct (low_or_high c) as [Hc|Hc].
    + rewrite (decode_low c s Hc), skip_eq. cbn [prev firstn skipn seen fold_left rest app]. cbn [find]. rewrite R.
      rewrite IH by (cbn in Hl; lia). destruct (find r (Some c) s) as [[w y]|]; reflexivity.
    + destruct (decode_high c s Hc) as (m & k & -> & Hm & Hk & Hf). rewrite skip_eq. cbn [prev rest].
      rewrite IH by (rewrite skipn_length; cbn [List.length] in *; lia). symmetry. apply find_skip; assumption.
  - destruct s; cbn [find]; (destruct (rmatch r _); [discriminate Hu|injection Hu as <-; reflexivity]).
Qed.

(* ---- the loops ------------------------------------------------------------------------------- *)
Lemma exec_eq u r b i : heads u r -> calm r ->
  doExecute u b i = match find r (seen None (firstn i b)) (skipn i b) with
                    | Some (w, y) => Some ((i + List.length w)%nat, (i + List.length w + List.length (taken y))%nat, caps y)
                    | None => None
                    end.
Proof. intros Hu Hr. unfold doExecute. rewrite skip_eq. cbn [prev rest]. rewrite (find_same u r Hu Hr) by lia. reflexivity. Qed.

Definition eats (r : re) : Prop := forall b s w y, find r b s = Some (w, y) -> taken y <> [].
Lemma eats_snake : eats snake_re.
Proof. intros b s w y H. pose proof (find_step_snake b s) as K. rewrite H in K. destruct K as (u & t & K). tauto. Qed.
Lemma eats_comment : eats comment_re.
Proof.
  intros b s. revert b. induction s as [|c s IH]; intros b w y; cbn [find].
  - destruct b as [c|]; [destruct (is_nl c) eqn:E|].
    + cbn. rewrite E. discriminate.
    + rewrite no_bol_match by exact E. discriminate.
    + cbn. discriminate.
  - destruct (rmatch comment_re _) as [|z l] eqn:E.
    + destruct (find comment_re (Some c) s) as [[w' y']|] eqn:F; [|discriminate]. intros H; injection H as <- <-. eapply IH, F.
    + intros H; injection H as <- <-. assert (Hb : bol b).
      { destruct b as [d|]; [|left; reflexivity]. destruct (is_nl d) eqn:En.
        - apply Byte.byte_dec_bl in En. subst d. right. reflexivity.
        - rewrite no_bol_match in E by exact En. discriminate E. }
      pose proof (comment_match b (c :: s) Hb) as K. destruct (ahead (c :: s)) as [t|] eqn:Ea; [|rewrite K in E; discriminate E].
      destruct K as (z' & l' & K & R & _). rewrite E in K. injection K as <- <-. pose proof (ahead_len _ _ Ea) as Hl. rewrite <- R in Hl.
      destruct (match_walk comment_re (mkPos b (c :: s) [] []) z) as (v & A1 & A2 & _); [rewrite E; left; reflexivity|].
      cbn [rest taken app] in *. intros G. rewrite G in A2. subst v. rewrite A1 in Hl. cbn in Hl. lia.
Qed.

Lemma firstn_plus {A} (b : list A) i k : firstn (i + k) b = firstn i b ++ firstn k (skipn i b).
Proof. revert b. induction i as [|i IH]; intros b; [reflexivity|]. destruct b; [cbn; rewrite firstn_nil; reflexivity|]. cbn. rewrite IH. reflexivity. Qed.
Lemma skipn_plus {A} (b : list A) i k : skipn (i + k) b = skipn k (skipn i b).
Proof. revert b. induction i as [|i IH]; intros b; [reflexivity|]. destruct b; [cbn; rewrite skipn_nil; reflexivity|]. cbn. apply IH. Qed.
Lemma firstn_exact {A} (v w : list A) : firstn (List.length v) (v ++ w) = v.
Proof. rewrite firstn_app, Nat.sub_diag, firstn_all, firstn_O, app_nil_r. reflexivity. Qed.
Lemma skipn_exact {A} (v w : list A) : skipn (List.length v) (v ++ w) = w.
Proof. rewrite skipn_app, Nat.sub_diag, skipn_all. reflexivity. Qed.

Section Loops.
Variables (u : ure) (r : re).
Hypotheses (Hu : heads u r) (Hc : calm r) (He : eats r).
(* one match: the place after it *)
Lemma after_match b i w y : (i <= List.length b)%nat -> find r (seen None (firstn i b)) (skipn i b) = Some (w, y) ->
  let j := (i + List.length w + List.length (taken y))%nat in
  (i < j)%nat /\ (j <= List.length b)%nat /\ rest y = skipn j b /\ prev y = seen None (firstn j b) /\ cut b i (i + List.length w) = w.
Proof.
  intros Hi F j. destruct (find_walk _ _ _ _ _ F) as [E P]. assert (T := He _ _ _ _ F).
  assert (Tl : (0 < List.length (taken y))%nat) by (destruct (taken y); [congruence|cbn; lia]).
  assert (Ll : (List.length b - i = List.length w + (List.length (taken y) + List.length (rest y)))%nat).
  { rewrite <- skipn_length, E, !app_length. reflexivity. }
  assert (Ej : j = (i + List.length (w ++ taken y))%nat) by (unfold j; rewrite app_length; lia).
  split; [unfold j; lia|]. split; [unfold j; lia|]. split; [|split].
  - rewrite Ej, skipn_plus, E, app_assoc, skipn_exact. reflexivity.
  - rewrite Ej, firstn_plus, E, app_assoc, firstn_exact, seen_app. exact P.
  - unfold cut. replace (i + List.length w - i)%nat with (List.length w) by lia. rewrite E. apply firstn_exact.
Qed.
Lemma matches_eq repl b : forall fuel fuel' i e, (i <= List.length b)%nat -> (List.length b - i < fuel)%nat -> (List.length b - i < fuel')%nat ->
  exists l, allMatches fuel u b i e = Ret l /\
    replace_all fuel' r repl (seen None (firstn i b)) (skipn i b) (Z.of_nat i) (Z.of_nat i) =
    Ret (fst (submatches b repl i l), Z.of_nat (snd (submatches b repl i l))).
Proof.
  induction fuel as [|fuel IH]; intros fuel' i e Hi Hf Hf'; [lia|]. cbn [allMatches]. destruct fuel' as [|fuel']; [lia|]. cbn [replace_all].
  replace (Nat.ltb (List.length b) i) with false by (symmetry; apply Nat.ltb_ge; exact Hi).
  rewrite (exec_eq u r b i Hu Hc). destruct (find r _ _) as [[w y]|] eqn:F; [|exists []; split; reflexivity].
  destruct (after_match b i w y Hi F) as (A1 & A2 & A3 & A4 & A5). cbv zeta in *.
  set (j := (i + List.length w + List.length (taken y))%nat) in *.
  replace (Nat.eqb j i) with false by (symmetry; apply Nat.eqb_neq; lia). cbn [andb negb].
  replace (Z.of_nat i + zlen w + zlen (taken y))%Z with (Z.of_nat j) by (unfold j, zlen; lia).
  destruct (IH fuel' j (Some j)) as (l & -> & B2); [lia|lia|lia|]. cbn [bind]. rewrite A3, A4, B2. cbn [bind fst snd].
  eexists. split; [reflexivity|]. cbn [submatches]. destruct (submatches b repl j l) as [t k]. cbn [fst snd]. rewrite A5. reflexivity.
Qed.
Lemma submatch_eq repl b : exists t k, go_replaceAllStringSubmatchFunc u b repl = Ret (t, k) /\
  replaceAllStringSubmatchFunc r b repl = Ret (t, Z.of_nat k).
Proof.
  unfold go_replaceAllStringSubmatchFunc, replaceAllStringSubmatchFunc.
  destruct (matches_eq repl b (List.length b + 2) (S (List.length b)) 0 None) as (l & -> & E); [lia..|].
  cbn [bind]. destruct (submatches b repl 0 l) as [t k]. exists t, k. split; [reflexivity|exact E].
Qed.
(* the first rune lies before a match that does not begin at once *)
Lemma find_width b s w y : find r b s = Some (w, y) -> w <> [] -> (snd (DecodeRune s) <= List.length w)%nat.
Proof.
  intros F Hw. rewrite <- (find_same u r Hu Hc (S (List.length s)) s b) in F by lia. cbn [ufind] in F.
  destruct (umatch u _) as [|z l]; [|injection F as <- _; contradiction].
  destruct s as [|c s]; [discriminate F|]. destruct (low_or_high c) as [Hl|Hl].
  - rewrite (decode_low c s Hl) in *. destruct (ufind _ _ _ _) as [[w' y']|]; [|discriminate F]. injection F as <- _. cbn. lia.
  - destruct (decode_high c s Hl) as (m & k & D & Hm & Hk & _). rewrite D in *. destruct (ufind _ _ _ _) as [[w' y']|]; [|discriminate F].
    injection F as <- _. cbn [snd app List.length]. cbn [List.length] in Hk. rewrite app_length, firstn_length_le by lia. lia.
Qed.
Hypothesis Hfirst : forall b c s, hi c -> rmatch r (mkPos b (c :: s) [] []) = [].
Lemma replace_eq b : forall fuel fuel' i, (i <= List.length b)%nat -> (List.length b - i < fuel)%nat -> (List.length b - i < fuel')%nat ->
  exists t k, replaceAll fuel u b i i = Ret t /\
    replace_all fuel' r (fun _ => []) (seen None (firstn i b)) (skipn i b) (Z.of_nat i) (Z.of_nat i) = Ret (t, k).
Proof.
  induction fuel as [|fuel IH]; intros fuel' i Hi Hf Hf'; [lia|]. cbn [replaceAll]. destruct fuel' as [|fuel']; [lia|]. cbn [replace_all].
  replace (Nat.ltb (List.length b) i) with false by (symmetry; apply Nat.ltb_ge; exact Hi).
  rewrite (exec_eq u r b i Hu Hc). destruct (find r _ _) as [[w y]|] eqn:F; [|eexists _, _; split; reflexivity].
  destruct (after_match b i w y Hi F) as (A1 & A2 & A3 & A4 & A5). cbv zeta in *.
  set (j := (i + List.length w + List.length (taken y))%nat) in *.
  assert (W : (i + snd (DecodeRune (skipn i b)) <= j)%nat).
  { destruct w as [|c0 w0].
    - destruct (find_walk _ _ _ _ _ F) as [E _]. assert (T := He _ _ _ _ F). cbn [app] in E.
      destruct (taken y) as [|c t] eqn:Et; [congruence|]. cbn [app] in E. rewrite E. destruct (low_or_high c) as [Hl|Hl].
      + rewrite (decode_low _ _ Hl). unfold j. cbn. lia.
      + exfalso. rewrite E in F. cbn [find] in F. rewrite (Hfirst _ _ _ Hl) in F.
        destruct (find r (Some c) (t ++ rest y)) as [[? ?]|]; [injection F; discriminate|discriminate F].
    - pose proof (find_width _ _ _ _ F) as K. specialize (K ltac:(discriminate)). unfold j. lia. }
  replace (Nat.ltb j (i + _)) with false by (symmetry; apply Nat.ltb_ge; exact W).
  replace (Nat.ltb j (i + 1)) with false by (symmetry; apply Nat.ltb_ge; lia).
  replace (Z.of_nat i + zlen w + zlen (taken y))%Z with (Z.of_nat j) by (unfold j, zlen; lia).
  destruct (IH fuel' j) as (t & k & B1 & B2); [lia|lia|lia|]. rewrite B1, A3, A4, B2, A5. cbn [bind fst snd app]. eauto.
Qed.
End Loops.

Lemma loop_same : forall fuel s, go_snake_loop fuel s = snake_loop fuel s.
Proof.
  induction fuel as [|fuel IH]; intros s; [reflexivity|]. cbn [go_snake_loop snake_loop].
  destruct (submatch_eq u_snake snake_re heads_snake calm_snake eats_snake snake_repl s) as (t & k & -> & ->). cbn [bind fst snd].
  rewrite IH. destruct k; reflexivity.
Qed.
Theorem snake_same s : go_snake2camel s = snake2camel s.
Proof. apply loop_same. Qed.

Lemma comment_first b c s : hi c -> rmatch comment_re (mkPos b (c :: s) [] []) = [].
Proof.
  intros H. unfold comment_re. assert (K : shy (RCat (RStar re_space) (re_lit "//line"
    (RCat (RStar dot) (RCat REol (RCat (ROpt (Byte.eqb "013")) (ROpt is_nl))))))).
  { intros y d t E Hd. cbn [rmatch]. rewrite E. cbn [star]. rewrite (small_hi _ _ d small_space Hd). cbn [flat_map].
    rewrite app_nil_r. set (k := RCat (RStar dot) _). change (re_lit "//line" k) with (RCat (RCls (Byte.eqb "/")) (re_lit "/line" k)).
    apply (shy_cat _ _ (shy_cls _ (fun e => small_hi _ _ e (small_is "/" eq_refl))) y d t E Hd). }
  remember (RCat (RStar re_space) _) as k eqn:Ek. clear Ek.
  assert (K' : forall d, rmatch k (mkPos d (c :: s) [] []) = []) by (intros d; exact (K (mkPos d (c :: s) [] []) c s eq_refl H)).
  cbn [rmatch prev]. destruct b as [d|]; [destruct (is_nl d)|]; cbn [flat_map]; rewrite ?K'; reflexivity.
Qed.
Theorem remove_same s : go_removeComments s = removeComments s.
Proof.
  unfold go_removeComments, removeComments.
  destruct (replace_eq u_comment comment_re (same_heads _ _ same_comment) calm_comment eats_comment comment_first s
              (List.length s + 2) (S (List.length s)) 0) as (t & k & E1 & E2); [lia..|].
  cbn [firstn skipn seen fold_left] in E2. change (Z.of_nat 0) with 0%Z in E2. rewrite E1, E2. reflexivity.
Qed.

(* ---- UTF-8 stays UTF-8 ----------------------------------------------------------------------- *)
Lemma ascii_utf8 c : (Byte.to_N c < 128)%N -> utf8 (Byte.to_N c) [c].
Proof. intros H. split; [split; [lia|unfold surrogate; lia]|]. left. eauto. Qed.
Lemma text_low c s : (Byte.to_N c < 128)%N -> utf8_text s -> utf8_text (c :: s).
Proof. intros H K. apply (text_cons (Byte.to_N c) [c] s (ascii_utf8 c H) K). Qed.
Lemma text_head c s : utf8_text (c :: s) -> ((Byte.to_N c < 128)%N /\ utf8_text s) \/
  exists n v t, utf8 n v /\ (128 <= n)%N /\ c :: s = v ++ t /\ utf8_text t.
Proof.
  intros H. inversion H as [|n v t Hv Ht E]. destruct (N.lt_ge_cases n 128) as [Hn|Hn]; [left|right; eauto 10].
  destruct Hv as [Hs [(a & -> & H1 & H2)|[(a & b & x & y & -> & K & _)|[(a & b & d & x & y & w & -> & K & _)|(a & b & d & e & x & y & w & u & -> & K & _)]]]]; [|exfalso; lia..].
  injection E as -> ->. rewrite H2. auto.
Qed.
Lemma camel_hi v s : Forall (fun c => hi c) v -> forall o, v <> [] -> camel o (v ++ s) = v ++ camel false s.
Proof.
  induction v as [|c v IH]; intros H o Hn; [contradiction|]. inversion H as [|? ? Hc Hv]; subst. cbn [app camel].
  assert (E : Byte.eqb c uscore = false /\ Spec.lower c = false /\ Spec.digit c = false).
  { clear -Hc. destruct c; try (exfalso; cbn in Hc; lia); repeat split; reflexivity. }
  destruct E as (-> & -> & ->). cbn [andb orb]. destruct v as [|d v]; [reflexivity|]. rewrite IH; [reflexivity|exact Hv|discriminate].
Qed.
Lemma low_alnum c : Spec.alnum c = true -> (Byte.to_N (capital c) < 128)%N.
Proof. destruct c; intros H; try discriminate H; cbn; lia. Qed.
Lemma alnum_low c : Spec.alnum c = true -> (Byte.to_N c < 128)%N.
Proof. destruct c; intros H; try discriminate H; cbn; lia. Qed.
Lemma camel_text : forall n s, (List.length s <= n)%nat -> utf8_text s -> forall o, utf8_text (camel o s).
Proof.
  induction n as [|n IH]; intros s Hl H o.
  { destruct s; [constructor|cbn in Hl; lia]. }
  destruct s as [|c s]; [constructor|]. cbn [List.length] in Hl. destruct (text_head c s H) as [[Hc Hs]|(m & v & t & Hv & Hm & E & Ht)].
  - cbn [camel]. destruct (Byte.eqb c uscore && o).
    + destruct s as [|d s]; [apply text_low; [exact Hc|constructor]|]. destruct (Spec.alnum d) eqn:Ed.
      * destruct (text_head d s Hs) as [[Hd Hs']|(m & v & t & Hv & Hm & E & Ht)].
        -- apply text_low; [apply low_alnum, Ed|]. apply IH; [cbn in Hl; lia|exact Hs'].
        -- exfalso. apply alnum_low in Ed. pose proof (utf8_nonempty m v Hv) as Hne. pose proof (utf8_high m v Hv Hm) as Hv'. clear Hv; rename Hv' into Hv.
           assert (hi d); [|lia]. destruct v as [|e v]; [contradiction Hne; reflexivity|]. injection E as -> _. apply Hv. left. reflexivity.
      * apply text_low; [exact Hc|]. apply IH; [lia|exact Hs].
    + apply text_low; [exact Hc|]. apply IH; [lia|exact Hs].
  - rewrite E. rewrite camel_hi.
    + apply (text_cons m); [exact Hv|]. apply IH; [|exact Ht]. apply (f_equal (@List.length byte)) in E. rewrite app_length in E.
      cbn [List.length] in E. apply utf8_nonempty in Hv. destruct v; [contradiction|cbn in E; lia].
    + apply Forall_forall. exact (utf8_high m v Hv Hm).
    + exact (utf8_nonempty m v Hv).
Qed.
Lemma text_app a b : utf8_text a -> utf8_text b -> utf8_text (a ++ b).
Proof. intros H K. induction H as [|n v s Hv Hs IH]; [exact K|]. rewrite <- app_assoc. exact (text_cons n v _ Hv IH). Qed.
Lemma lines_hi v s : Forall (fun c => hi c) v -> v <> [] ->
  lines (v ++ s) = match lines s with [] => [v] | l :: ls => (v ++ l) :: ls end.
Proof.
  induction v as [|c v IH]; intros H Hn; [contradiction|]. inversion H as [|? ? Hc Hv]; subst. cbn [app lines].
  replace (Byte.eqb c newline) with false by (clear -Hc; destruct c; try reflexivity; exfalso; cbn in Hc; lia).
  destruct v as [|d v]; [reflexivity|]. rewrite IH by (assumption || discriminate). destruct (lines s); reflexivity.
Qed.
Lemma lines_text : forall s, utf8_text s -> Forall utf8_text (lines s).
Proof.
  intros s H. induction H as [|n v s Hv Hs IH]; [constructor|]. destruct (N.lt_ge_cases n 128) as [Hn|Hn].
  - assert (E : exists a, v = [a] /\ (Byte.to_N a < 128)%N).
    { destruct Hv as [_ [(a & -> & H1 & H2)|[(a & b & x & y & -> & K & _)|[(a & b & d & x & y & w & -> & K & _)|(a & b & d & e & x & y & w & u & -> & K & _)]]]]; [|exfalso; lia..].
      exists a. split; [reflexivity|lia]. }
    destruct E as (a & -> & Ha). cbn [app lines]. destruct (Byte.eqb a newline).
    + constructor; [|exact IH]. apply text_low; [exact Ha|constructor].
    + destruct (lines s) as [|l ls]; [constructor; [apply text_low; [exact Ha|constructor]|constructor]|].
      inversion IH; subst. constructor; [apply text_low; assumption|assumption].
  - rewrite lines_hi; [|apply Forall_forall; exact (utf8_high n v Hv Hn)|exact (utf8_nonempty n v Hv)].
    assert (T : utf8_text v) by (rewrite <- (app_nil_r v); apply (text_cons n); [exact Hv|constructor]).
    destruct (lines s) as [|l ls]; [constructor; [exact T|constructor]|]. inversion IH; subst.
    constructor; [apply text_app; assumption|assumption].
Qed.
Lemma cleaned_sub ls ls' : cleaned ls ls' -> forall P, Forall P ls -> Forall P ls'.
Proof.
  induction 1 as [|bs d ls ls' Hb Hd H IH|l ls ls' Hn H IH]; intros P F; [constructor| |].
  - apply IH. apply Forall_app in F as [_ F]. inversion F; assumption.
  - inversion F; subst. constructor; auto.
Qed.
Lemma concat_text ls : Forall utf8_text ls -> utf8_text (List.concat ls).
Proof. induction 1; [constructor|]. cbn. apply text_app; assumption. Qed.
Theorem snake_text s t : go_snake2camel s = Ret t -> utf8_text s -> utf8_text t.
Proof. rewrite snake_same, snake_spec. intros E; injection E as <-. intros H. exact (camel_text _ s (le_n _) H false). Qed.
Theorem remove_text s t : go_removeComments s = Ret t -> utf8_text s -> utf8_text t.
Proof.
  rewrite remove_same. intros H K. apply remove_lines in H. rewrite <- (lines_concat t). apply concat_text.
  apply (cleaned_sub _ _ H), lines_text, K.
Qed.
