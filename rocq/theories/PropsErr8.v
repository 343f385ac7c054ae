(* The errors of RFC 8141 mode: SpecErr8.v is exactly what Parse reports (C25). *)
From Coq Require Import Lia.
From Verif Require Import GoBase MachineSyntax MachineTables Machine Urn Spec SpecErr SpecErr8 Ref Exec SimBase
  Sim8141 ParseThm RefSpec RefSpec8 RefSpec8b Api PropsA PropsB PropsErr.
Local Open Scope Z_scope.

(* ---- furthest beginnings --------------------------------------------------------------- *)
Lemma ext_prefix P x v : extends P (x ++ v) -> extends P x.
Proof. intros [w H]. exists (v ++ w). rewrite app_assoc. exact H. Qed.
Lemma furthest_uniq P x y x' y' : furthest P x y -> furthest P x' y' -> x ++ y = x' ++ y' -> x = x' /\ y = y'.
Proof.
  assert (G : forall x l y' y, extends P (x ++ l) -> (forall c y2, y = c :: y2 -> ~ extends P (x ++ [c])) -> y = l ++ y' -> l = []).
  { intros a l z t He Hn E. destruct l as [|c l]; [reflexivity|]. exfalso. apply (Hn c (l ++ z)); [exact E|].
    apply (ext_prefix P (a ++ [c]) l). rewrite <- app_assoc. exact He. }
  intros [H1 H2] [K1 K2] E. apply app_eq_app in E. destruct E as [l [[-> E]|[-> E]]].
  - assert (l = []) as -> by (eapply G; eauto). rewrite app_nil_r in *. split; [reflexivity|symmetry; exact E].
  - assert (l = []) as -> by (eapply G; eauto). rewrite app_nil_r in *. split; [reflexivity|exact E].
Qed.
Lemma furthest_step (P Q : bytes -> Prop) c x y : (forall w, P (c :: w) <-> Q w) -> furthest Q x y -> furthest P (c :: x) y.
Proof.
  intros H [[v H1] H2]. split; [exists v; apply H; exact H1|]. intros d y' E [w K]. apply (H2 d y' E). exists w. apply H. exact K.
Qed.
Lemma furthest_here P y : extends P [] -> (forall c y' w, y = c :: y' -> ~ P (c :: w)) -> furthest P [] y.
Proof. intros H1 H2. split; [exact H1|]. intros c y' E [w K]. apply (H2 c y' w E K). Qed.
Lemma furthest_iff (P Q : bytes -> Prop) x y : (forall w, P w <-> Q w) -> furthest P x y -> furthest Q x y.
Proof.
  intros H [[v H1] H2]. split; [exists v; apply H; exact H1|]. intros d y' E [w K]. apply (H2 d y' E). exists w. apply H. exact K.
Qed.

Lemma first_of_uniq A B a b c k k' : first_of A B a b c k -> first_of A B a b c k' -> k = k'.
Proof. unfold first_of. intuition congruence. Qed.
Lemma first_of_iff A B A' B' a b c k : (A <-> A') -> (B <-> B') -> first_of A' B' a b c k -> first_of A B a b c k.
Proof. unfold first_of. tauto. Qed.

Section Errs.
Variables kH kB kC : errconst.
Definition errs (P A : bytes -> Prop) (Bp : bytes -> bytes -> Prop) (pos : Z) (s : bytes) (e : perr) : Prop :=
  exists x y k, s = x ++ y /\ furthest P x y /\ first_of (A x) (Bp x y) kH kB kC k /\ e = mkErr k (pos + zlen x).

Lemma errs_step (P P' A A' : bytes -> Prop) (Bp B' : bytes -> bytes -> Prop) c pos s e :
  (forall w, P (c :: w) <-> P' w) -> (forall x, A (c :: x) <-> A' x) -> (forall x y, Bp (c :: x) y <-> B' x y) ->
  errs P' A' B' (pos + 1) s e -> errs P A Bp pos (c :: s) e.
Proof.
  intros HP HA HB (x & y & k & -> & H1 & H2 & ->). exists (c :: x), y, k. split; [reflexivity|].
  split; [eapply furthest_step; eauto|]. split; [|f_equal; rewrite zlen_cons; lia].
  revert H2. apply first_of_iff; [apply HA|apply HB].
Qed.
Lemma errs_step3 (P P' A A' : bytes -> Prop) (Bp B' : bytes -> bytes -> Prop) a b c pos s e :
  (forall w, P (a :: b :: c :: w) <-> P' w) -> (forall x, A (a :: b :: c :: x) <-> A' x) ->
  (forall x y, Bp (a :: b :: c :: x) y <-> B' x y) ->
  errs P' A' B' (pos + 3) s e -> errs P A Bp pos (a :: b :: c :: s) e.
Proof.
  intros HP HA HB (x & y & k & -> & H1 & H2 & ->). exists (a :: b :: c :: x), y, k. split; [reflexivity|].
  split; [|split; [|f_equal; rewrite !zlen_cons; lia]].
  - destruct H1 as [[v H1] H3]. split; [exists v; apply HP; exact H1|]. intros d y' E [w K]. apply (H3 d y' E). exists w. apply HP. exact K.
  - revert H2. apply first_of_iff; [apply HA|apply HB].
Qed.
Lemma errs_here P A Bp pos s k : extends P [] -> (forall c s' w, s = c :: s' -> ~ P (c :: w)) ->
  first_of (A []) (Bp [] s) kH kB kC k -> errs P A Bp pos s (mkErr k pos).
Proof.
  intros H1 H2 H3. exists [], s, k. split; [reflexivity|]. split; [apply furthest_here; assumption|]. split; [exact H3|].
  f_equal. unfold zlen; cbn; lia.
Qed.
(* P treats "%" as the start of an escape *)
Definition pct_lang (P : bytes -> Prop) : Prop :=
  (forall a, alnum a = true -> P ["%"%byte; a; "0"%byte]) /\
  (forall w, P ("%"%byte :: w) -> exists a b r, w = a :: b :: r /\ alnum a = true /\ alnum b = true).
Lemma errs_half1 P (A : bytes -> Prop) Bp pos s : pct_lang P -> A ["%"%byte] -> stops (fun c => alnum c = false) s ->
  errs P A Bp pos ("%"%byte :: s) (mkErr kH (pos + 1)).
Proof.
  intros [H1 H2] HA Hs. exists ["%"%byte], s, kH. split; [reflexivity|]. split; [|split; [left; auto|reflexivity]].
  split; [exists (B "00"); apply H1; reflexivity|]. intros c y' -> [w K].
  destruct (H2 _ K) as (a & b & r & E & Ha & _). injection E as <- _. destruct Hs as [Hs|(d & y & E & Hd)]; [discriminate Hs|].
  injection E as <- <-. congruence.
Qed.
Lemma errs_half2 P (A : bytes -> Prop) Bp pos a s : pct_lang P -> A ["%"%byte; a] -> alnum a = true -> stops (fun c => alnum c = false) s ->
  errs P A Bp pos ("%"%byte :: a :: s) (mkErr kH (pos + 2)).
Proof.
  intros [H1 H2] HA Ha Hs. exists ["%"%byte; a], s, kH. split; [reflexivity|]. split; [|split; [left; auto|reflexivity]].
  split; [exists (B "0"); apply H1; exact Ha|]. intros c y' -> [w K].
  destruct (H2 _ K) as (a' & b & r & E & _ & Hb). injection E as <- <- _. destruct Hs as [Hs|(d & y & E & Hd)]; [discriminate Hs|].
  injection E as <- <-. congruence.
Qed.
Lemma errs_uniq P A Bp pos s e e' : errs P A Bp pos s e -> errs P A Bp pos s e' -> e = e'.
Proof.
  intros (x & y & k & -> & H1 & H2 & ->) (x' & y' & k' & E & K1 & K2 & ->).
  destruct (furthest_uniq _ _ _ _ _ H1 K1 E) as [<- <-]. rewrite (first_of_uniq _ _ _ _ _ _ _ H2 K2). reflexivity.
Qed.
End Errs.

Lemma in_esc_nil : ~ in_esc [].
Proof. intros (w & t & E & _). destruct w; discriminate E. Qed.
Lemma in_esc_cons c x : in_esc (c :: x) <-> in_esc x \/ (c = "%"%byte /\ (List.length x <= 2)%nat).
Proof.
  split.
  - intros (w & t & E & Hl). destruct w as [|d w]; injection E as -> ->; [right; auto|]. left. exists w, t. auto.
  - intros [(w & t & -> & Hl)|[-> Hl]]; [exists (c :: w), t; auto|]. exists [], x. auto.
Qed.
Lemma in_esc_plain c x : c <> "%"%byte -> in_esc (c :: x) <-> in_esc x.
Proof. intros H. rewrite in_esc_cons. tauto. Qed.
Lemma alnum_pct a : alnum a = true -> a <> "%"%byte.
Proof. intros H ->. discriminate H. Qed.
Lemma in_esc_3 a b x : alnum a = true -> alnum b = true ->
  in_esc ("%"%byte :: a :: b :: x) <-> in_esc (B "%00" ++ x).
Proof.
  intros Ha Hb. change (B "%00" ++ x) with ("%"%byte :: "0"%byte :: "0"%byte :: x).
  rewrite !(in_esc_cons "%"). rewrite !in_esc_plain by (try discriminate; apply alnum_pct; assumption). reflexivity.
Qed.
Lemma in_esc_00 c x : in_esc (B "%00" ++ c :: x) <-> in_esc (c :: x).
Proof.
  change (B "%00" ++ c :: x) with ("%"%byte :: "0"%byte :: "0"%byte :: c :: x).
  rewrite in_esc_cons. rewrite !(in_esc_plain "0") by discriminate. cbn [List.length]. split; [intros [H|[_ H]]; [exact H|lia]|auto].
Qed.
Lemma in_esc_hex : in_esc (B "%00").
Proof. exists [], (B "00"). split; [reflexivity|cbn; lia]. Qed.
Lemma in_esc_half1 : in_esc ["%"%byte].
Proof. exists [], []. split; [reflexivity|cbn; lia]. Qed.
Lemma in_esc_half2 a : in_esc ["%"%byte; a].
Proof. exists [], [a]. split; [reflexivity|cbn; lia]. Qed.
Lemma in_esc_app w x : in_esc x -> in_esc (w ++ x).
Proof. intros (v & t & -> & H). exists (w ++ v), t. rewrite <- app_assoc. auto. Qed.

(* ---- escaped strings --------------------------------------------------------------------- *)
Lemma esc_c cls c w : c <> "%"%byte -> escaped alnum cls (c :: w) <-> cls c = true /\ escaped alnum cls w.
Proof.
  intros Hc. split; [|intros [H1 H2]; apply esc_plain; assumption]. intros H. inversion H; subst; [auto|]. contradiction Hc; reflexivity.
Qed.
Lemma esc_p cls w : cls "%"%byte = false -> escaped alnum cls ("%"%byte :: w) ->
  exists a b r, w = a :: b :: r /\ alnum a = true /\ alnum b = true /\ escaped alnum cls r.
Proof. intros Hc H. inversion H; subst; [congruence|]. exists a, b, w0. auto. Qed.
Lemma esc_3 cls a b w : cls "%"%byte = false -> alnum a = true -> alnum b = true ->
  escaped alnum cls ("%"%byte :: a :: b :: w) <-> escaped alnum cls w.
Proof.
  intros Hc Ha Hb. split; [|intros H; apply esc_pct; assumption]. intros H. apply esc_p in H; [|exact Hc].
  destruct H as (a' & b' & r & E & _ & _ & H). injection E as <- <- <-. exact H.
Qed.

Definition ectx (k : epos) : bytes := match k with EHex => B "%00" | _ => [] end.
Lemma ectx_plain k c x : c <> "%"%byte -> in_esc (ectx k ++ c :: x) <-> in_esc x.
Proof. intros H. destruct k; cbn [ectx app]; rewrite ?in_esc_00; apply in_esc_plain; exact H. Qed.
Lemma ectx_3 k a b x : alnum a = true -> alnum b = true -> in_esc (ectx k ++ "%"%byte :: a :: b :: x) <-> in_esc (ectx EHex ++ x).
Proof. intros Ha Hb. destruct k; cbn [ectx app]; rewrite ?in_esc_00; apply in_esc_3; assumption. Qed.

(* ---- NSS ------------------------------------------------------------------------------------ *)
Definition nres (k : epos) (w : bytes) : Prop :=
  escaped alnum pchar_slash w /\ (k = EStart -> exists c r, w = c :: r /\ c <> "/"%byte).
Notation errsN := (errs ErrHex ErrHex Err8141SpecificString).
Definition errs_nss (k : epos) := errsN (nres k) (fun x => in_esc (ectx k ++ x)) (fun _ _ => False).
Lemma nres_pct k : pct_lang (nres k).
Proof.
  split.
  - intros a Ha. split; [apply esc_pct; [exact Ha|reflexivity|apply esc_nil]|]. intros _. eexists _, _. split; [reflexivity|discriminate].
  - intros w [H _]. apply esc_p in H; [|reflexivity]. destruct H as (a & b & r & -> & Ha & Hb & _). exists a, b, r. auto.
Qed.
Lemma nres_3 k a b w : alnum a = true -> alnum b = true -> nres k ("%"%byte :: a :: b :: w) <-> nres EHex w.
Proof.
  intros Ha Hb. unfold nres. rewrite esc_3 by (auto; reflexivity). split; intros [H _]; (split; [exact H|]); [discriminate|].
  intros _. eexists _, _. split; [reflexivity|discriminate].
Qed.
Lemma nres_c k c w : pchar_slash c = true -> (k = EStart -> c <> "/"%byte) -> nres k (c :: w) <-> nres EPlain w.
Proof.
  intros Hc Hk. unfold nres. rewrite esc_c by (intros ->; discriminate Hc). split; intros [H _]; (split; [|discriminate || eauto]); tauto.
Qed.
Lemma nres_ext k : extends (nres k) [].
Proof. exists (B "a"). split; [apply esc_plain; [reflexivity|apply esc_nil]|]. intros _. eexists _, _. split; [reflexivity|discriminate]. Qed.

Lemma nss8_err n : forall s, (List.length s <= n)%nat -> forall k pos e,
  ref_nss8 PRFC8141Only k pos s = WErr e -> errs_nss k pos s e.
Proof.
  assert (Hnil : forall k pos e, ref_nss8 PRFC8141Only k pos [] = WErr e -> errs_nss k pos [] e).
  { intros k pos e H. destruct k; try discriminate H. injection H as <-. apply errs_here; [apply nres_ext|discriminate|].
    right; right. cbn. split; [apply in_esc_nil|tauto]. }
  induction n as [|n IH]; intros s Hn k pos e; (destruct s as [|c s1]; [apply Hnil|]); [cbn in Hn; lia|].
  cbn [ref_nss8]. cbn [List.length] in Hn. change (hx PRFC8141Only Err8141SpecificString) with ErrHex. destruct (is "%" c) eqn:Ec.
  - apply is_eq in Ec. subst c. destruct s1 as [|a s2].
    { intros H. injection H as <-. apply errs_half1; [apply nres_pct|apply in_esc_app, in_esc_half1|left; reflexivity]. }
    destruct (alnum a) eqn:Ea.
    2:{ intros H. injection H as <-. apply errs_half1; [apply nres_pct|apply in_esc_app, in_esc_half1|right; eauto]. }
    destruct s2 as [|b s3].
    { intros H. injection H as <-. apply errs_half2; [apply nres_pct|apply in_esc_app, in_esc_half2|exact Ea|left; reflexivity]. }
    destruct (alnum b) eqn:Eb.
    2:{ intros H. injection H as <-. apply errs_half2; [apply nres_pct|apply in_esc_app, in_esc_half2|exact Ea|right; eauto]. }
    rewrite !wcons_err. intros H. eapply errs_step3; [| | |apply (IH s3) in H; [exact H|cbn in Hn; lia]].
    + intros w. apply nres_3; assumption.
    + intros x. apply ectx_3; assumption.
    + reflexivity.
  - apply is_ne in Ec.
    assert (Hgo : pchar_slash c = true -> (k = EStart -> c <> "/"%byte) ->
      wcons c (ref_nss8 PRFC8141Only EPlain (pos + 1) s1) = WErr e -> errs_nss k pos (c :: s1) e).
    { intros Hc Hk. rewrite wcons_err. intros H. eapply errs_step; [| | |apply (IH s1) in H; [exact H|lia]].
      - intros w. apply nres_c; assumption.
      - intros x. apply ectx_plain. exact Ec.
      - reflexivity. }
    destruct (pchar c) eqn:Ep.
    { apply Hgo; [apply pchar_slash_of; exact Ep|]. intros _ ->. discriminate Ep. }
    assert (Hbad : (pchar_slash c = false \/ k = EStart /\ c = "/"%byte) -> forall kd, kd = (match k with EHex => ErrHex | _ => Err8141SpecificString end) ->
      errs_nss k pos (c :: s1) (mkErr kd pos)).
    { intros Hb kd ->. apply errs_here; [apply nres_ext| |].
      - intros d s' w E [H1 H2]. injection E as <- <-. destruct Hb as [Hb|[-> ->]].
        + apply esc_c in H1; [|exact Ec]. destruct H1; congruence.
        + destruct (H2 eq_refl) as (d & r & E & Hd). injection E as <- <-. apply Hd; reflexivity.
      - destruct k; cbn [ectx app]; [right; right; split; [apply in_esc_nil|tauto]..|left; split; [apply in_esc_hex|reflexivity]]. }
    assert (Hsl : pchar_slash c = is "/" c) by (unfold pchar_slash; rewrite Ep; reflexivity).
    destruct k.
    + intros H. injection H as <-. apply Hbad; [|reflexivity]. destruct (is "/" c) eqn:Es; [right; split; [reflexivity|apply is_eq; exact Es]|left; exact Hsl].
    + destruct (is "/" c) eqn:Es; [apply Hgo; [exact Hsl|discriminate]|]. destruct (_ || _); [discriminate|].
      intros H. injection H as <-. apply Hbad; [left; exact Hsl|reflexivity].
    + destruct (is "/" c) eqn:Es; [apply Hgo; [exact Hsl|discriminate]|]. destruct (_ || _); [discriminate|].
      intros H. injection H as <-. apply Hbad; [left; exact Hsl|reflexivity].
Qed.
Lemma nres_start w : nres EStart w <-> nss8141 w.
Proof. unfold nres, nss8141. split; intros [H1 H2]; (split; [exact H1|]); auto. Qed.
Lemma then_mark_iff z : then_mark z <-> nstop z.
Proof.
  unfold then_mark, stops, nstop. split.
  - intros [->|(c & y & -> & [->| ->])]; eauto.
  - intros [->|[[r ->]|[r ->]]]; [left; reflexivity|right|right]; eauto.
Qed.
Lemma nss8_iff pos s e : ref_nss8 PRFC8141Only EStart pos s = WErr e <->
  exists x y k, s = x ++ y /\ furthest nss8141 x y /\ unfinished nss8141 then_mark s /\
    first_of (in_esc x) False ErrHex ErrHex Err8141SpecificString k /\ e = mkErr k (pos + zlen x).
Proof.
  assert (Hs : forall e', ref_nss8 PRFC8141Only EStart pos s = WErr e' -> errs_nss EStart pos s e').
  { intros e'. apply (nss8_err (List.length s)); lia. }
  split.
  - intros H. destruct (Hs e H) as (x & y & k & E & H1 & H2 & H3). exists x, y, k. split; [exact E|].
    split; [eapply furthest_iff; [apply nres_start|exact H1]|]. split; [|auto].
    intros w z Ew Hw Hz. apply then_mark_iff in Hz. rewrite Ew in H. destruct Hw as [Hw1 Hw2].
    rewrite ref_nss8_complete in H by auto. discriminate H.
  - intros (x & y & k & E & H1 & H2 & H3 & H4). pose proof (ref_nss8_sound PRFC8141Only (List.length s) s (le_n _) EStart pos) as K.
    destruct (ref_nss8 PRFC8141Only EStart pos s) as [e'| |w z]; [|contradiction|].
    + f_equal. eapply errs_uniq; [apply Hs; reflexivity|]. exists x, y, k. split; [exact E|].
      split; [eapply furthest_iff; [intros w; symmetry; apply nres_start|exact H1]|]. auto.
    + destruct K as (K1 & K2 & K3 & K4). exfalso. apply (H2 w z K1); [split; auto|apply then_mark_iff; exact K4].
Qed.

(* ---- fragment --------------------------------------------------------------------------------- *)
Notation errsF := (errs ErrHex ErrHex ErrPrefix).
Definition errs_frag (k : epos) := errsF fragment (fun x => in_esc (ectx k ++ x)) (fun _ _ => False).
Lemma frag_pct : pct_lang fragment.
Proof.
  split.
  - intros a Ha. apply esc_pct; [exact Ha|reflexivity|apply esc_nil].
  - intros w H. apply esc_p in H; [|reflexivity]. destruct H as (a & b & r & -> & Ha & Hb & _). exists a, b, r. auto.
Qed.
Lemma frag8_err n : forall s, (List.length s <= n)%nat -> forall k pos e,
  ref_frag PRFC8141Only k pos s = WErr e -> errs_frag k pos s e /\ e_kind e = ErrHex.
Proof.
  change (forall s, (List.length s <= n)%nat -> forall k pos e,
  ref_frag PRFC8141Only k pos s = WErr e -> errs_frag k pos s e /\ e_kind e = ErrHex).
  induction n as [|n IH]; intros s Hn k pos e; (destruct s as [|c s1]; [discriminate|]); [cbn in Hn; lia|].
  cbn [ref_frag]. cbn [List.length] in Hn. change (hx_or_nil PRFC8141Only) with (fun p => WErr (mkErr ErrHex p)). cbn beta. destruct (is "%" c) eqn:Ec.
  - apply is_eq in Ec. subst c. destruct s1 as [|a s2].
    { intros H. injection H as <-. split; [|reflexivity]. apply errs_half1; [apply frag_pct|apply in_esc_app, in_esc_half1|left; reflexivity]. }
    destruct (alnum a) eqn:Ea.
    2:{ intros H. injection H as <-. split; [|reflexivity]. apply errs_half1; [apply frag_pct|apply in_esc_app, in_esc_half1|right; eauto]. }
    destruct s2 as [|b s3].
    { intros H. injection H as <-. split; [|reflexivity]. apply errs_half2; [apply frag_pct|apply in_esc_app, in_esc_half2|exact Ea|left; reflexivity]. }
    destruct (alnum b) eqn:Eb.
    2:{ intros H. injection H as <-. split; [|reflexivity]. apply errs_half2; [apply frag_pct|apply in_esc_app, in_esc_half2|exact Ea|right; eauto]. }
    rewrite !wcons_err. intros H. apply (IH s3) in H; [|cbn in Hn; lia]. destruct H as [H Hk]. split; [|exact Hk].
    eapply errs_step3; [| | |exact H].
    + intros w. apply esc_3; [reflexivity|assumption..].
    + intros x. apply ectx_3; assumption.
    + reflexivity.
  - apply is_ne in Ec. destruct (frag_char c) eqn:Ef.
    + rewrite wcons_err. intros H. apply (IH s1) in H; [|lia]. destruct H as [H Hk]. split; [|exact Hk].
      eapply errs_step; [| | |exact H].
      * intros w. unfold fragment. rewrite esc_c by exact Ec. tauto.
      * intros x. apply ectx_plain. exact Ec.
      * reflexivity.
    + destruct k; try discriminate. intros H. injection H as <-. split; [|reflexivity]. apply errs_here.
      * exists []. apply esc_nil.
      * intros d s' w E H. injection E as <- <-. apply esc_c in H; [|exact Ec]. destruct H; congruence.
      * left. split; [apply in_esc_hex|reflexivity].
Qed.
Lemma in_esc_lastk g : fragment g -> in_esc g -> lastk EStart g = EHex.
Proof.
  intros Hg (w & t & E & Hl). apply (lastk_hex g Hg). right. subst g.
  revert Hg. induction w as [|c w IH] using rev_ind.
  - cbn [app]. intros Hg. apply esc_p in Hg; [|reflexivity]. destruct Hg as (a & b & r & -> & _). cbn in Hl. destruct r; [|cbn in Hl; lia]. exists [], a, b. reflexivity.
  - clear IH. intros Hg. 
    assert (G : forall v, escaped alnum frag_char v -> forall w, v = w ++ "%"%byte :: t -> exists g a b, v = g ++ ["%"%byte; a; b]).
    { induction 1 as [|d v Hd Hv IH|a b v Ha Hb Hv IH]; intros w' E.
      - destruct w'; discriminate E.
      - destruct w' as [|d' w']; [injection E as -> _; discriminate Hd|]. injection E as _ E. destruct (IH w' E) as (g & a & b & ->). exists (d :: g), a, b. reflexivity.
      - destruct w' as [|x [|y [|z w']]].
        + injection E as <-. destruct v; [exists [], a, b; reflexivity|cbn in Hl; lia].
        + injection E as _ -> _. discriminate Ha.
        + injection E as _ _ -> _. discriminate Hb.
        + injection E as _ _ _ E. destruct (IH w' E) as (g & a' & b' & ->). exists ("%"%byte :: a :: b :: g), a', b'. reflexivity. }
    eapply G; [exact Hg|reflexivity].
Qed.
Lemma frag8_iff pos s e : ref_frag PRFC8141Only EStart pos s = WErr e <->
  exists x y, s = x ++ y /\ furthest fragment x y /\ ~ (fragment x /\ y = []) /\ in_esc x /\ e = mkErr ErrHex (pos + zlen x).
Proof.
  assert (Hs : forall e', ref_frag PRFC8141Only EStart pos s = WErr e' -> errs_frag EStart pos s e' /\ e_kind e' = ErrHex).
  { intros e'. apply (frag8_err (List.length s)); lia. }
  split.
  - intros H. destruct (Hs e H) as ((x & y & k & E & H1 & H2 & H3) & Hk). exists x, y. split; [exact E|]. split; [exact H1|].
    subst e. cbn in Hk. subst k. split; [|split; [|reflexivity]].
    + intros [Hx ->]. rewrite app_nil_r in E. subst s. rewrite ref_frag_complete in H by exact Hx. discriminate H.
    + destruct H2 as [[H2 _]|[(_ & H2 & _)|(_ & _ & H2)]]; [exact H2|contradiction|discriminate H2].
  - intros (x & y & E & H1 & H2 & H3 & H4). pose proof (ref_frag_sound PRFC8141Only (List.length s) s (le_n _) EStart pos) as K.
    pose proof (ref_frag_nil PRFC8141Only (List.length s) eq_refl s (le_n _) EStart pos) as N.
    destruct (ref_frag PRFC8141Only EStart pos s) as [e'| |w z].
    + f_equal. destruct (Hs e' eq_refl) as [Hs' _]. eapply errs_uniq; [exact Hs'|]. exists x, y, ErrHex. split; [exact E|]. split; [exact H1|].
      split; [left; auto|exact H4].
    + cbn [wp] in N. destruct N as (g & c & h & Eg & Hg & Hc & Hp & Hl). exfalso. apply Hl.
      assert (HF : furthest fragment g (c :: h)).
      { split; [exists []; rewrite app_nil_r; exact Hg|]. intros d y' Ed [v Hv]. injection Ed as <- <-.
        rewrite <- app_assoc in Hv. clear -Hv Hg Hc Hp. induction Hg as [|d g Hd Hg IH|a b g Ha Hb Hg IH]; cbn [app] in Hv.
        - apply esc_c in Hv; [|exact Hp]. destruct Hv; congruence.
        - apply esc_c in Hv; [|intros ->; discriminate Hd]. apply IH, Hv.
        - apply esc_3 in Hv; auto. }
      rewrite E in Eg. destruct (furthest_uniq _ _ _ _ _ H1 HF Eg) as [-> _]. apply in_esc_lastk; assumption.
    + destruct K as (-> & -> & Hw). exfalso. destruct H1 as [_ H1]. destruct y as [|c y].
      * rewrite app_nil_r in E. subst x. apply H2. auto.
      * apply (H1 c y eq_refl). exists y. rewrite <- app_assoc. cbn. rewrite <- E. exact Hw.
Qed.
