(* Letter case: which texts are accepted, and which error the others get, does not depend
   on the case of the letters. *)
From Coq Require Import Lia.
From Verif Require Import GoBase MachineSyntax MachineTables Machine Urn Spec SpecErr SpecErr8 Ref Exec SimBase SimPrefix ParseThm Api PropsA PropsErr PropsErrB PropsErr8 PropsErr8b PropsErr8c.
Local Open Scope Z_scope.

Definition cieq (a b : bytes) : Prop := lowers a = lowers b.
Definition ci (c d : byte) : Prop := low c = low d.
(* predicates that do not see the case *)
Definition cl (P : bytes -> Prop) : Prop := forall x x', cieq x x' -> P x -> P x'.
Definition clb (P : byte -> Prop) : Prop := forall c c', ci c c' -> P c -> P c'.

Lemma low_lower c : upper c = true -> lower (low c) = true.
Proof. destruct c; cbn; congruence. Qed.
Lemma ci_letter c d : ci c d -> upper d = false -> lower d = false -> c = d.
Proof.
  unfold ci. intros H Hu Hl. assert (E : low d = d) by (unfold low; rewrite Hu; reflexivity). rewrite E in H.
  destruct (upper c) eqn:Ec; [pose proof (low_lower c Ec) as K; rewrite H in K; congruence|]. unfold low in H. rewrite Ec in H. exact H.
Qed.
Lemma clb_class (f : byte -> bool) b : (forall c, f (low c) = f c) -> clb (fun c => f c = b).
Proof. intros H c c' E K. rewrite <- H, <- E, H. exact K. Qed.
Lemma clb_eq d : upper d = false -> lower d = false -> clb (fun c => c = d).
Proof. intros H1 H2 c c' E ->. apply ci_letter; auto. symmetry; exact E. Qed.
Lemma clb_ne d : upper d = false -> lower d = false -> clb (fun c => c <> d).
Proof. intros H1 H2 c c' E H K. subst c'. apply H, ci_letter; auto. Qed.
Lemma clb_or P Q : clb P -> clb Q -> clb (fun c => P c \/ Q c).
Proof. intros H K c c' E [L|L]; [left; eapply H|right; eapply K]; eauto. Qed.
Lemma clb_and P Q : clb P -> clb Q -> clb (fun c => P c /\ Q c).
Proof. intros H K c c' E [L L']. split; [eapply H|eapply K]; eauto. Qed.
Lemma clb_const (Q : Prop) : clb (fun _ => Q).
Proof. intros c c' _ H. exact H. Qed.
Lemma class_low : (forall c, alnum (low c) = alnum c) /\ (forall c, nid_char (low c) = nid_char c) /\ (forall c, sss (low c) = sss c) /\
  (forall c, pchar (low c) = pchar c) /\ (forall c, pchar_slash (low c) = pchar_slash c) /\ (forall c, frag_char (low c) = frag_char c).
Proof. repeat split; intros c; destruct c; vm_compute; reflexivity. Qed.
Lemma informal_low c : (is "0" (low c) || upper (low c) || lower (low c))%bool = (is "0" c || upper c || lower c)%bool.
Proof. destruct c; vm_compute; reflexivity. Qed.
Lemma clb_informal : clb (fun c => c = "0"%byte \/ upper c = true \/ lower c = true).
Proof.
  intros c c' E H. assert (K : (is "0" c || upper c || lower c)%bool = true).
  { destruct H as [->|[->| ->]]; [reflexivity|rewrite orb_true_r; reflexivity|apply orb_true_r]. }
  rewrite <- informal_low, E, informal_low in K. apply orb_prop in K. destruct K as [K|K]; auto. apply orb_prop in K. destruct K as [K|K]; auto.
  left. apply is_eq in K. exact K.
Qed.

(* ---- lists ------------------------------------------------------------------------- *)
Lemma cieq_sym a b : cieq a b -> cieq b a. Proof. unfold cieq; auto. Qed.
Lemma cieq_refl a : cieq a a. Proof. reflexivity. Qed.
Lemma cieq_app a b a' b' : cieq a a' -> cieq b b' -> cieq (a ++ b) (a' ++ b').
Proof. unfold cieq, lowers. intros H K. rewrite !map_app. congruence. Qed.
Lemma cieq_nil s : cieq [] s -> s = [].
Proof. destruct s; [reflexivity|discriminate]. Qed.
Lemma cieq_cons c a s : cieq (c :: a) s -> exists c' a', s = c' :: a' /\ ci c c' /\ cieq a a'.
Proof. destruct s as [|d s]; [discriminate|]. unfold cieq, lowers. cbn [map]. intros H. injection H as H1 H2. exists d, s. auto. Qed.
Lemma cieq_split a : forall b s, cieq (a ++ b) s -> exists a' b', s = a' ++ b' /\ cieq a a' /\ cieq b b'.
Proof.
  induction a as [|c a IH]; intros b s H; [exists [], s; auto using cieq_refl|].
  cbn [app] in H. apply cieq_cons in H. destruct H as (c' & s' & -> & H1 & H2). apply IH in H2. destruct H2 as (a' & b' & -> & H2 & H3).
  exists (c' :: a'), b'. split; [reflexivity|]. split; [|exact H3]. unfold cieq, lowers in *. cbn [map]. congruence.
Qed.
Definition plain (w : bytes) : Prop := Forall (fun c => upper c = false /\ lower c = false) w.
Lemma cieq_plain w s : plain w -> cieq w s -> s = w.
Proof.
  intros H. revert s. induction H as [|c w [H1 H2] _ IH]; intros s E; [apply cieq_nil, E|].
  apply cieq_cons in E. destruct E as (c' & s' & -> & E1 & E2). rewrite (IH s' E2). f_equal. apply ci_letter; auto. symmetry; exact E1.
Qed.
Lemma cieq_zlen a b : cieq a b -> zlen a = zlen b.
Proof. intros H. apply (f_equal (@List.length byte)) in H. unfold lowers in H. rewrite !map_length in H. unfold zlen. rewrite H. reflexivity. Qed.
Lemma cieq_len a b : cieq a b -> List.length a = List.length b.
Proof. intros H. apply (f_equal (@List.length byte)) in H. unfold lowers in H. rewrite !map_length in H. exact H. Qed.
Ltac pl := repeat constructor.

Lemma cl_forallb f : (forall c, f (low c) = f c) -> cl (fun x => forallb f x = true).
Proof.
  intros H x. induction x as [|c x IH]; intros x' E K; [apply cieq_nil in E; subst; reflexivity|].
  apply cieq_cons in E. destruct E as (c' & y & -> & E1 & E2). cbn [forallb] in *. apply andb_true_iff in K. destruct K as [K1 K2].
  apply andb_true_iff. split; [eapply (clb_class f true H); eauto|auto].
Qed.
Lemma cl_head f : (forall c, f (low c) = f c) -> cl (head_in f).
Proof.
  intros H x x' E (c & r & -> & K). apply cieq_cons in E. destruct E as (c' & y & -> & E1 & E2). exists c', y. split; [reflexivity|].
  eapply (clb_class f true H); eauto.
Qed.
Lemma cl_urn : cl urn_word.
Proof. intros x x' E H. unfold urn_word in *. rewrite <- E. exact H. Qed.
Lemma cl_not P : cl P -> cl (fun x => ~ P x).
Proof. intros H x x' E K L. apply K. eapply H; [apply cieq_sym|]; eauto. Qed.
Lemma cl_and P Q : cl P -> cl Q -> cl (fun x => P x /\ Q x).
Proof. intros H K x x' E [L1 L2]. split; eauto. Qed.
Lemma cl_or P Q : cl P -> cl Q -> cl (fun x => P x \/ Q x).
Proof. intros H K x x' E [L|L]; [left|right]; eauto. Qed.
Lemma cl_is w : plain w -> cl (fun x => x = w).
Proof. intros H x x' E ->. apply cieq_plain; auto. Qed.
Lemma cl_nil : cl (fun x => x = []).
Proof. apply cl_is. constructor. Qed.
Lemma cl_len (P : nat -> Prop) : cl (fun x => P (List.length x)).
Proof. intros x x' E H. rewrite <- (cieq_len x x' E). exact H. Qed.
Lemma cl_at P : clb P -> cl (at_char P).
Proof. intros H x x' E (c & r & -> & K). apply cieq_cons in E. destruct E as (c' & y & -> & E1 & E2). exists c', y. split; [reflexivity|eauto]. Qed.
Lemma cl_stops P : clb P -> cl (stops P).
Proof. intros H. unfold stops. apply cl_or; [apply cl_nil|apply (cl_at P H)]. Qed.
Lemma cl_escaped f g : (forall c, f (low c) = f c) -> (forall c, g (low c) = g c) -> cl (escaped f g).
Proof.
  intros Hf Hg x x' E H. revert x' E. induction H as [|c w Hc _ IH|a b w Ha Hb _ IH]; intros x' E.
  - apply cieq_nil in E. subst. constructor.
  - apply cieq_cons in E. destruct E as (c' & y & -> & E1 & E2). constructor; [eapply (clb_class g true Hg); eauto|auto].
  - apply cieq_cons in E. destruct E as (p & y & -> & E1 & E). apply cieq_cons in E. destruct E as (a' & z & -> & E2 & E).
    apply cieq_cons in E. destruct E as (b' & v & -> & E3 & E). assert (p = "%"%byte) as -> by (apply ci_letter; auto; symmetry; exact E1).
    apply esc_pct; [eapply (clb_class f true Hf); eauto..|auto].
Qed.
Lemma cl_app P Q : cl P -> cl Q -> cl (fun s => exists a b, s = a ++ b /\ P a /\ Q b).
Proof.
  intros H K s s' E (a & b & -> & Ha & Hb). apply cieq_split in E. destruct E as (a' & b' & -> & E1 & E2). exists a', b'. eauto.
Qed.
Lemma cl_ext P : cl P -> cl (extends P).
Proof. intros H x x' E [v K]. exists v. eapply H; [|exact K]. apply cieq_app; [exact E|reflexivity]. Qed.

Lemma cl_nid2141 : cl nid2141.
Proof.
  destruct class_low as (H1 & H2 & _). unfold nid2141. apply cl_and; [apply (cl_len (fun n => (1 <= n <= 32)%nat))|].
  apply cl_and; [apply cl_head, H1|]. apply cl_and; [apply cl_forallb, H2|]. apply cl_not, cl_urn.
Qed.
Lemma cl_informal : cl informal.
Proof.
  intros x x' E (u & c & r & -> & Hu & Hc). apply cieq_split in E. destruct E as (u' & y & -> & E1 & E).
  apply cieq_cons in E. destruct E as (d & y' & -> & E2 & E). apply cieq_cons in E. destruct E as (c' & r' & -> & E3 & E).
  assert (d = "-"%byte) as -> by (apply ci_letter; auto; symmetry; exact E2).
  exists u', c', r'. split; [reflexivity|]. split; [eapply cl_urn; eauto|]. eapply clb_informal; eauto.
Qed.
Lemma cl_nid8141 : cl nid8141.
Proof.
  destruct class_low as (H1 & H2 & _). unfold nid8141. apply cl_and; [apply (cl_len (fun n => (2 <= n <= 32)%nat))|].
  apply cl_and; [apply cl_forallb, H2|]. apply cl_and; [apply cl_head, H1|]. apply cl_and; [|apply cl_not, cl_informal].
  intros x x' E (c & r & -> & Hc). apply cieq_split in E. destruct E as (r' & y & -> & E1 & E).
  apply cieq_cons in E. destruct E as (c' & y' & -> & E2 & E). apply cieq_nil in E. subst y'. exists c', r'. split; [reflexivity|].
  eapply (clb_class alnum true H1); eauto.
Qed.
Lemma cl_first (P : byte -> Prop) : clb P -> cl (fun w => exists c r, w = c :: r /\ P c).
Proof. exact (cl_at P). Qed.
Lemma cl_nss8141 : cl nss8141.
Proof.
  destruct class_low as (H1 & _ & _ & _ & H5 & _). unfold nss8141. apply cl_and; [apply cl_escaped; auto|].
  apply (cl_at (fun c => c <> "/"%byte)). apply clb_ne; reflexivity.
Qed.
Lemma cl_component : cl component.
Proof.
  destruct class_low as (H1 & _ & _ & _ & _ & H6). unfold component. apply cl_and; [apply cl_escaped; auto|].
  apply (cl_at (fun c => c <> "/"%byte /\ c <> "?"%byte)). apply clb_and; apply clb_ne; reflexivity.
Qed.
Lemma cl_after w (Q : bytes -> Prop) : plain w -> cl Q -> cl (fun s => forall x y, s = x ++ w ++ y -> Q y).
Proof.
  intros Hw HQ s s' E H x' y' ->. apply cieq_sym in E. apply cieq_split in E. destruct E as (x & z & -> & E1 & E).
  apply cieq_split in E. destruct E as (w' & y & -> & E2 & E). apply cieq_plain in E2; [|exact Hw]. subst w'.
  eapply HQ; [apply cieq_sym; exact E|]. eapply H. reflexivity.
Qed.
Lemma cl_starts d : upper d = false -> lower d = false -> cl (fun y => exists y', y = d :: y').
Proof.
  intros H1 H2 x x' E [y ->]. apply cieq_cons in E. destruct E as (c & y' & -> & E1 & E). exists y'. f_equal. apply ci_letter; auto. symmetry; exact E1.
Qed.
Lemma cl_r : cl r_component.
Proof.
  unfold r_component. apply cl_and; [apply cl_component|]. apply cl_and.
  - apply (cl_after (B "?+")); [pl|]. apply cl_starts; reflexivity.
  - apply (cl_after (B "?=")); [pl|]. apply cl_or; [apply cl_nil|]. apply cl_or; apply cl_starts; reflexivity.
Qed.
Lemma cl_q : cl q_component.
Proof.
  unfold q_component. apply cl_and; [apply cl_component|]. apply (cl_after (B "?=")); [pl|]. apply cl_starts; reflexivity.
Qed.
Lemma cl_frag : cl fragment.
Proof. destruct class_low as (H1 & _ & _ & _ & _ & H6). apply cl_escaped; auto. Qed.

(* ---- the pieces of the error specifications ---------------------------------------- *)
Definition cl2 (P : bytes -> bytes -> Prop) : Prop :=
  forall x x' y y', cieq x x' -> cieq y y' -> P x y -> P x' y'.
Lemma cl2_and P Q : cl2 P -> cl2 Q -> cl2 (fun x y => P x y /\ Q x y).
Proof. intros H K x x' y y' E1 E2 [L1 L2]. split; eauto. Qed.
Lemma cl2_or P Q : cl2 P -> cl2 Q -> cl2 (fun x y => P x y \/ Q x y).
Proof. intros H K x x' y y' E1 E2 [L|L]; [left|right]; eauto. Qed.
Lemma cl2_l P : cl P -> cl2 (fun x _ => P x).
Proof. intros H x x' y y' E _. apply H, E. Qed.
Lemma cl2_r P : cl P -> cl2 (fun _ y => P y).
Proof. intros H x x' y y' _ E. apply H, E. Qed.
Lemma cl2_not P : cl2 P -> cl2 (fun x y => ~ P x y).
Proof. intros H x x' y y' E1 E2 K L. apply K. eapply H; [apply cieq_sym; exact E1|apply cieq_sym; exact E2|exact L]. Qed.

Ltac zcong := repeat match goal with K : cieq ?a ?b |- _ => rewrite (cieq_zlen a b K) in *; clear K end; reflexivity.
Ltac ne := first [apply clb_ne; reflexivity|apply clb_eq; reflexivity].
Lemma cl2_nid_stuck : cl2 nid_stuck.
Proof.
  destruct class_low as (H1 & H2 & _). unfold nid_stuck. apply cl2_or.
  - apply cl2_and; [apply cl2_l, cl_nil|apply cl2_r, cl_stops, clb_class, H1].
  - apply cl2_and; [apply cl2_l, cl_head, H1|]. apply cl2_and; [apply cl2_l, cl_forallb, H2|].
    apply cl2_and; [apply cl2_l; apply (cl_len (fun n => (n <= 32)%nat))|].
    intros x x' y y' E1 E2. rewrite <- (cieq_len x x' E1). apply cl_stops; [|exact E2]. apply clb_and; [ne|].
    apply clb_or; [apply clb_class, H2|apply clb_const].
Qed.
Lemma cl_ends_esc : cl ends_esc.
Proof.
  intros x x' E (w & a & b & ->). apply cieq_split in E. destruct E as (w' & z & -> & _ & E).
  apply cieq_cons in E. destruct E as (p & z1 & -> & E1 & E). apply cieq_cons in E. destruct E as (a' & z2 & -> & _ & E).
  apply cieq_cons in E. destruct E as (b' & z3 & -> & _ & E). apply cieq_nil in E. subst z3.
  assert (p = "%"%byte) as -> by (apply ci_letter; auto; symmetry; exact E1). exists w', a', b'. reflexivity.
Qed.
Lemma cl_half_esc : cl (half_esc sss).
Proof.
  destruct class_low as (H1 & _ & H3 & _). intros x x' E (w & t & -> & Hw & Ht). apply cieq_split in E. destruct E as (w' & z & -> & E1 & E).
  apply cieq_cons in E. destruct E as (p & t' & -> & E2 & E). assert (p = "%"%byte) as -> by (apply ci_letter; auto; symmetry; exact E2).
  exists w', t'. split; [reflexivity|]. split; [eapply (cl_escaped alnum sss H1 H3); eauto|].
  destruct Ht as [->|(a & -> & Ha)]; [left; apply cieq_nil, E|right].
  apply cieq_cons in E. destruct E as (a' & z & -> & E3 & E). apply cieq_nil in E. subst z. exists a'. split; [reflexivity|]. eapply (clb_class alnum true H1); eauto.
Qed.
Lemma cl2_esc_stuck why : cl2 (esc_stuck sss why).
Proof.
  destruct class_low as (H1 & _ & H3 & _).
  destruct why; cbn [esc_stuck].
  - apply cl2_and; [apply cl2_l, cl_nil|apply cl2_r, cl_nil].
  - apply cl2_and; [apply cl2_l, cl_escaped; auto|]. apply cl2_and; [apply cl2_l, cl_not, cl_ends_esc|].
    apply cl2_r, cl_at, clb_and; [ne|apply clb_class, H3].
  - apply cl2_and; [apply cl2_l, cl_escaped; auto|]. apply cl2_and; [apply cl2_l, cl_ends_esc|].
    apply cl2_r, cl_at, clb_and; [ne|apply clb_class, H3].
  - apply cl2_and; [apply cl2_l, cl_half_esc|]. apply cl2_r, cl_at, clb_class, H1.
  - apply cl2_and; [apply cl2_l, cl_half_esc|apply cl2_r, cl_nil].
Qed.
Lemma cl_lookahead : cl u_lookahead.
Proof.
  intros x x' E (c & H1 & H2 & H3).
  assert (K : forall i d, nth_error x i = Some d -> exists d', nth_error x' i = Some d' /\ ci d d').
  { intros i d H. assert (L : nth_error (lowers x) i = Some (low d)) by (unfold lowers; apply map_nth_error, H).
    rewrite E in L. unfold lowers in L. destruct (nth_error x' i) as [d'|] eqn:Ed.
    - exists d'. split; [reflexivity|]. erewrite map_nth_error in L by exact Ed. injection L as L. symmetry; exact L.
    - apply nth_error_None in Ed. assert (N : nth_error (map low x') i = None) by (apply nth_error_None; rewrite map_length; exact Ed). congruence. }
  destruct (K _ _ H1) as (c' & K1 & K2). destruct (K _ _ H3) as (d' & K3 & K4). exists c'. split; [exact K1|]. split; [rewrite <- K2; exact H2|].
  rewrite K3. f_equal. apply ci_letter; auto. symmetry; exact K4.
Qed.
Lemma cl_prefix_err e : cl (fun s => prefix_err s e).
Proof.
  intros s s' E (x & y & -> & H & ->). apply cieq_split in E. destruct E as (x' & y' & -> & E1 & E2). exists x', y'. split; [reflexivity|].
  rewrite <- E1, <- E2. split; [exact H|]. rewrite (cieq_zlen x x' E1). reflexivity.
Qed.

(* take a text apart along ++ and :: *)
Ltac ci_step :=
  match goal with
  | H : cieq (_ ++ _) ?s |- _ => is_var s; apply cieq_split in H; destruct H as (? & ? & -> & ? & H)
  | H : cieq (_ :: _) ?s |- _ => is_var s; apply cieq_cons in H; destruct H as (? & ? & -> & ? & H)
  | H : cieq colon ?s |- _ => is_var s; apply (cieq_plain colon) in H; [subst s|pl]
  | H : cieq (B ?w) ?s |- _ => is_var s; apply (cieq_plain (B w)) in H; [subst s|pl]
  | H : cieq [] ?s |- _ => is_var s; apply cieq_nil in H; subst s
  end.

Lemma cl_err2141 e : cl (fun s => err2141 s e).
Proof.
  intros s s' E [H|[(p & r & -> & H1 & H2 & ->)|[(p & x & y & -> & H1 & H2 & H3 & ->)|(p & nid & x & y & why & -> & H1 & H2 & H3 & H4 & ->)]]].
  - left. eapply cl_prefix_err; eauto.
  - right; left. assert (K : u_lookahead s') by (eapply cl_lookahead; eauto). repeat ci_step. eexists _, _. split; [reflexivity|]. split; [eapply cl_urn; eauto|]. auto.
  - right; right; left. assert (K : ~ u_lookahead s') by (eapply (cl_not _ cl_lookahead); eauto).
    repeat ci_step. eexists _, _, _. split; [reflexivity|]. split; [eapply cl_urn; eauto|]. split; [exact K|].
    split; [eapply cl2_nid_stuck; eauto|]. zcong.
  - right; right; right. assert (K : ~ u_lookahead s') by (eapply (cl_not _ cl_lookahead); eauto).
    repeat ci_step. eexists _, _, _, _, why. split; [reflexivity|]. split; [eapply cl_urn; eauto|]. split; [exact K|].
    split; [eapply cl_nid2141; eauto|]. split; [eapply cl2_esc_stuck; eauto|]. zcong.
Qed.

Lemma cl2_furthest P : cl P -> cl2 (furthest P).
Proof.
  intros H x x' y y' E1 E2 [K1 K2]. split; [eapply (cl_ext P H); eauto|]. intros c z -> [v L].
  apply cieq_sym in E2. apply cieq_cons in E2. destruct E2 as (c' & z' & -> & E2 & _).
  apply (K2 c' z' eq_refl). exists v. eapply H; [|exact L]. apply cieq_app; [|reflexivity]. apply cieq_app; [apply cieq_sym, E1|].
  unfold cieq, lowers. cbn [map]. rewrite E2. reflexivity.
Qed.
Lemma cl_unfinished P follow : cl P -> cl follow -> cl (unfinished P follow).
Proof.
  intros H K s s' E L w z -> Hw Hz. apply cieq_sym in E. ci_step. eapply L; [reflexivity|eapply H; eauto|eapply K; eauto].
Qed.
Lemma cl_in_esc : cl in_esc.
Proof.
  intros s s' E (w & t & -> & Ht). repeat ci_step. exists x, x2. split; [|rewrite <- (cieq_len t x2); auto].
  f_equal. f_equal. apply ci_letter; auto. symmetry; assumption.
Qed.
Lemma cl2_restart w : plain w -> cl2 (restart w).
Proof.
  intros Hw. destruct class_low as (_ & _ & _ & H4 & _). unfold restart. apply cl2_and.
  - apply cl2_l. intros s s' E [v ->]. apply cieq_split in E. destruct E as (v' & z & -> & _ & E). apply cieq_plain in E; [|exact Hw]. subst z. exists v'. reflexivity.
  - apply cl2_r, cl_stops. apply clb_or; [apply clb_class, H4|]. apply clb_or; [ne|]. apply clb_or; ne.
Qed.
Lemma cl_then_colon : cl then_colon. Proof. apply cl_at; ne. Qed.
Lemma cl_then_mark : cl then_mark. Proof. apply cl_stops, clb_or; ne. Qed.
Lemma cl_then_hash : cl then_hash. Proof. apply cl_stops; ne. Qed.
Lemma cl_opens_q : cl opens_q.
Proof. destruct class_low as (_ & _ & _ & H4 & _). apply cl_at, clb_or; [apply clb_class, H4|ne]. Qed.
Lemma cl_then_q : cl then_q.
Proof.
  unfold then_q. apply cl_or; [apply cl_then_hash|]. intros s s' E (t & -> & H). repeat ci_step. eexists. split; [reflexivity|]. eapply cl_opens_q; eauto.
Qed.
Lemma cl2_informal_here : cl2 informal_here.
Proof.
  unfold informal_here. apply cl2_and; [apply cl2_l|apply cl2_r, cl_at, clb_informal].
  intros s s' E (u & Hu & ->). repeat ci_step. eexists. split; [|reflexivity]. eapply cl_urn; eauto.
Qed.
Lemma cl2_first_of A Bp ka kb kc k : cl A -> cl2 Bp -> cl2 (fun x y => first_of (A x) (Bp x y) ka kb kc k).
Proof.
  intros H K. unfold first_of. apply cl2_or; [|apply cl2_or].
  - apply cl2_and; [apply cl2_l, H|apply cl2_l; intros ? ? ? L; exact L].
  - apply cl2_and; [apply cl2_l, cl_not, H|]. apply cl2_and; [exact K|apply cl2_l; intros ? ? ? L; exact L].
  - apply cl2_and; [apply cl2_l, cl_not, H|]. apply cl2_and; [apply cl2_not, K|apply cl2_l; intros ? ? ? L; exact L].
Qed.

Definition ciopt (r r' : option bytes) : Prop :=
  match r, r' with None, None => True | Some a, Some b => cieq a b | _, _ => False end.
Lemma cieq_opt i r s : plain i -> cieq (opt_part i r) s -> exists r', s = opt_part i r' /\ ciopt r r'.
Proof.
  intros Hi E. destruct r as [r|]; cbn [opt_part] in E.
  - apply cieq_split in E. destruct E as (i' & r' & -> & E1 & E2). apply cieq_plain in E1; [|exact Hi]. subst i'. exists (Some r'). auto.
  - apply cieq_nil in E. subst s. exists None. split; [reflexivity|exact I].
Qed.
Lemma opt_ok_ci P r r' : cl P -> ciopt r r' -> opt_ok P r -> opt_ok P r'.
Proof. intros H. destruct r, r'; cbn; try tauto. apply H. Qed.
Lemma ciopt_val r r' : ciopt r r' -> cieq (opt_val r) (opt_val r').
Proof. destruct r, r'; cbn; try tauto. reflexivity. Qed.

Ltac opt_step :=
  match goal with
  | H : cieq (opt_part (B ?i) _) ?s |- _ => is_var s; apply (cieq_opt (B i)) in H; [destruct H as (? & -> & H)|pl]
  end.
Ltac ci_all := repeat first [ci_step|opt_step].

Lemma ci_urn2141 s s' p n x : cieq s s' -> urn2141 alnum s p n x ->
  exists p' n' x', urn2141 alnum s' p' n' x' /\ cieq p p' /\ cieq n n' /\ cieq x x'.
Proof.
  destruct class_low as (H1 & _ & H3 & _).
  intros E (-> & Hp & Hn & Hx1 & Hx2). ci_all. eexists _, _, _. split; [|eauto].
  split; [reflexivity|]. split; [eapply cl_urn; eauto|]. split; [eapply cl_nid2141; eauto|].
  split; [eapply (cl_not _ cl_nil); eauto|eapply (cl_escaped alnum sss H1 H3); eauto].
Qed.
Lemma ci_urn8141 s s' p n x r q f : cieq s s' -> urn8141 s p n x r q f ->
  exists p' n' x' r' q' f', urn8141 s' p' n' x' r' q' f' /\ cieq p p' /\ cieq n n' /\ cieq x x' /\ ciopt r r' /\ ciopt q q' /\ ciopt f f'.
Proof.
  intros E (-> & Hp & Hn & Hx & Hr & Hq & Hf). unfold tail8141 in E. ci_all. eexists _, _, _, _, _, _. split; [|eauto 10].
  split; [reflexivity|]. split; [eapply cl_urn; eauto|]. split; [eapply cl_nid8141; eauto|]. split; [eapply cl_nss8141; eauto|].
  split; [eapply opt_ok_ci; eauto using cl_r|]. split; [eapply opt_ok_ci; eauto using cl_q|eapply opt_ok_ci; eauto using cl_frag].
Qed.
Lemma cieq_head c d a b : ci c d -> cieq a b -> cieq (c :: a) (d :: b).
Proof. unfold ci, cieq, lowers. cbn [map]. congruence. Qed.
Ltac fix_char := repeat match goal with
  | H : ci ?d ?c |- _ => is_var c; (let E := fresh in assert (E : c = d) by (apply ci_letter; auto; symmetry; exact H); subst c; clear H)
  end.

Ltac xy_app x y := match goal with
  | K1 : cieq x ?a, K2 : cieq y ?b |- _ => assert (cieq (x ++ y) (a ++ b)) by (apply cieq_app; auto)
  end.

Lemma cl_err8141 e : cl (fun s => err8141 s e).
Proof.
  intros s s' E [H|[(p & x & y & -> & H1 & H2 & H3 & H4)|[(p & nid & x & y & k & -> & H1 & H2 & H3 & H4 & H5 & ->)|
    [(p & nid & nss & x & y & k & -> & H1 & H2 & H3 & H4 & H5 & H6 & ->)|
    [(p & nid & nss & r & x & y & k & -> & H1 & H2 & H3 & H4 & H5 & H6 & H7 & H8 & ->)|
     (s0 & p & nid & nss & r & q & x & y & H1 & -> & H2 & H3 & H4 & ->)]]]]]; [left; eapply cl_prefix_err; eauto|right..].
  - left. ci_all. xy_app x y.
    eexists _, _, _. split; [reflexivity|]. split; [eapply cl_urn; eauto|].
    split; [eapply (cl2_furthest _ cl_nid8141); eauto|]. split; [eapply (cl_unfinished _ _ cl_nid8141 cl_then_colon); eauto|].
    destruct H4 as [[H4 ->]|[H4 ->]]; [left|right]; (split; [first [eapply cl2_informal_here|eapply (cl2_not _ cl2_informal_here)]; eauto|]); [reflexivity|].
    zcong.
  - right; left. ci_all. xy_app x y.
    eexists _, _, _, _, k. split; [reflexivity|]. split; [eapply cl_urn; eauto|]. split; [eapply cl_nid8141; eauto|].
    split; [eapply (cl2_furthest _ cl_nss8141); eauto|]. split; [eapply (cl_unfinished _ _ cl_nss8141 cl_then_mark); eauto|].
    split; [|zcong].
    eapply (cl2_first_of in_esc (fun _ _ => False) _ _ _ k cl_in_esc); [|eauto|eauto|exact H5]. intros ? ? ? ? _ _ L; exact L.
  - right; right; left. ci_all. xy_app x y.
    eexists _, _, _, _, _, k. split; [reflexivity|]. split; [eapply cl_urn; eauto|]. split; [eapply cl_nid8141; eauto|]. split; [eapply cl_nss8141; eauto|].
    split; [eapply (cl2_furthest (fun w => r_component w \/ w = B "?+")); [apply cl_or; [apply cl_r|apply cl_is; pl]|..]; eauto|].
    split; [eapply (cl_unfinished _ _ cl_r cl_then_q); eauto|].
    split; [|zcong].
    eapply (cl2_first_of in_esc (restart (B "?+")) _ _ _ k cl_in_esc); [apply cl2_restart; pl|eauto|eauto|exact H6].
  - right; right; right; left. ci_all. xy_app x y.
    eexists _, _, _, _, _, _, k. split; [reflexivity|]. split; [eapply cl_urn; eauto|]. split; [eapply cl_nid8141; eauto|]. split; [eapply cl_nss8141; eauto|].
    split; [eapply opt_ok_ci; eauto using cl_r|].
    split; [destruct H5 as [->|H5]; [left; match goal with K : ciopt None ?z |- _ => destruct z; [contradiction|reflexivity] end|right; eapply cl_opens_q; eauto]|].
    split; [eapply (cl2_furthest (fun w => q_component w \/ w = B "?=")); [apply cl_or; [apply cl_q|apply cl_is; pl]|..]; eauto|].
    split; [eapply (cl_unfinished _ _ cl_q cl_then_hash); eauto|].
    split; [eapply (cl2_first_of in_esc (restart (B "?=")) _ _ _ k cl_in_esc); [apply cl2_restart; pl|eauto|eauto|exact H8]|].
    match goal with K : cieq x _, K1 : cieq nid _, K2 : cieq nss _ |- _ => rewrite (cieq_zlen _ _ K), (cieq_zlen _ _ K1), (cieq_zlen _ _ K2) end. match goal with K : ciopt r ?z |- _ => replace (zlen (opt_part (B "?+") z)) with (zlen (opt_part (B "?+") r)); [reflexivity|];
      destruct r, z; try contradiction; [|reflexivity]; cbn [ciopt opt_part] in *; apply cieq_zlen, cieq_app; [reflexivity|exact K] end.
  - right; right; right; right. ci_all. fix_char. destruct (ci_urn8141 _ _ _ _ _ _ _ _ H H1) as (p' & n' & z' & r' & q' & f' & Hu & _ & _ & _ & _ & _ & Hf).
    destruct f'; [contradiction|]. eexists _, _, _, _, _, _, _, _. split; [exact Hu|]. split; [reflexivity|].
    split; [eapply (cl2_furthest _ cl_frag); eauto|]. split; [|split; [eapply cl_in_esc; eauto|zcong]].
    intros [L1 ->]. apply H3. split; [eapply cl_frag; [apply cieq_sym|]; eauto|]. apply cieq_sym in E. apply cieq_nil in E. exact E.
Qed.

Lemma cl_silent : cl silent8141.
Proof.
  destruct class_low as (_ & _ & _ & _ & _ & H6).
  intros s s' E [(p & nid & nss & t & -> & H1 & H2 & H3 & H4)|(s0 & p & nid & nss & r & q & g & c & h & H1 & -> & H2 & H3 & H4 & H5)].
  - left. ci_all. fix_char. eexists _, _, _, _. split; [reflexivity|]. split; [eapply cl_urn; eauto|]. split; [eapply cl_nid8141; eauto|]. split; [eapply cl_nss8141; eauto|].
    intros c r Hc. subst. apply cieq_sym in E. ci_all. destruct (H4 _ _ eq_refl). split; [eapply (clb_ne "+")|eapply (clb_ne "=")]; eauto; symmetry; eassumption.
  - right. ci_all. destruct (ci_urn8141 _ _ _ _ _ _ _ _ H H1) as (p' & n' & z' & r' & q' & f' & Hu & _ & _ & _ & _ & _ & Hf).
    destruct f'; [contradiction|]. assert (x1 = "#"%byte) as -> by (apply ci_letter; auto; symmetry; assumption).
    eexists _, _, _, _, _, _, _, _, _. split; [exact Hu|]. split; [reflexivity|]. split; [eapply cl_frag; eauto|].
    split; [eapply (clb_class frag_char false H6); eauto|]. split; [eapply (clb_ne "%"); eauto|].
    intros g' a b ->. match goal with K : cieq g _ |- _ => apply cieq_sym in K end. ci_all. fix_char. eapply H5. reflexivity.
Qed.

(* ---- Parse ------------------------------------------------------------------------------ *)
(* the parts of two URNs are the same but for the case of letters *)
Definition same_parts (u v : URN) : Prop :=
  cieq (u_prefix u) (u_prefix v) /\ cieq (u_ID u) (u_ID v) /\ cieq (u_SS u) (u_SS v) /\
  cieq (u_r u) (u_r v) /\ cieq (u_q u) (u_q v) /\ cieq (u_f u) (u_f v) /\ RFC u = RFC v.

Lemma eo_ext (eo eo' : option perr) : (forall e, eo = Some e <-> eo' = Some e) -> eo = eo'.
Proof.
  intros H. destruct eo as [e|]; [symmetry; apply H; reflexivity|]. destruct eo' as [e'|]; [apply H; reflexivity|reflexivity].
Qed.
Lemma cl_iff P s s' : cl P -> cieq s s' -> (P s <-> P s').
Proof. intros H E. split; apply H; [exact E|apply cieq_sym, E]. Qed.

Definition same_result (uo uo' : option URN) : Prop :=
  match uo, uo' with Some u, Some v => same_parts u v | None, None => True | _, _ => False end.

Theorem case_blind m s s' m1 uo eo m2 uo' eo' : reachable m ->
  m_parsingMode m = PRFC2141Only \/ m_parsingMode m = PRFC8141Only -> cieq s s' ->
  machine_Parse m s = Ret (m1, uo, eo) -> machine_Parse m s' = Ret (m2, uo', eo') -> eo = eo' /\ same_result uo uo'.
Proof.
  intros Hr [Hm|Hm] E Hp Hp'.
  - assert (Ee : eo = eo').
    { apply eo_ext. intros e. rewrite (parse_err2141 _ _ _ _ _ Hr Hm Hp), (parse_err2141 _ _ _ _ _ Hr Hm Hp'). apply (cl_iff _ s s' (cl_err2141 e) E). }
    split; [exact Ee|]. subst eo'. pose proof (never_both _ _ _ _ _ Hr Hp) as N. pose proof (never_both _ _ _ _ _ Hr Hp') as N'.
    pose proof (nilnil2141 _ _ _ _ _ Hr (or_introl Hm) Hp) as K. pose proof (nilnil2141 _ _ _ _ _ Hr (or_introl Hm) Hp') as K'.
    destruct uo as [u|], uo' as [v|]; cbn [same_result]; [| | |exact I].
    + destruct N as [N|N]; [discriminate N|]. subst eo.
      destruct (parts2141 s u) as (p & H1 & Ep & _ & Ek & _ & Er & Eq & Ef); [exists m, m1; auto|].
      destruct (parts2141 s' v) as (p' & H1' & Ep' & _ & Ek' & _ & Er' & Eq' & Ef'); [exists m, m2; auto|].
      destruct (ci_urn2141 s s' _ _ _ E H1) as (p2 & n2 & x2 & H2 & C1 & C2 & C3).
      destruct (urn2141_unique _ _ _ _ _ _ _ H1' H2) as (-> & E1 & E2). unfold same_parts. rewrite Ep, Ep', E1, E2, Er, Er', Eq, Eq', Ef, Ef'. unfold RFC. rewrite Ek, Ek'.
      repeat split; auto.
    + apply K'; [|reflexivity]. apply K. discriminate.
    + apply K; [|reflexivity]. apply K'. discriminate.
  - assert (Ee : eo = eo').
    { apply eo_ext. intros e. rewrite (parse_err8141 _ _ _ _ _ Hr Hm Hp), (parse_err8141 _ _ _ _ _ Hr Hm Hp'). apply (cl_iff _ s s' (cl_err8141 e) E). }
    split; [exact Ee|]. subst eo'. pose proof (never_both _ _ _ _ _ Hr Hp) as N. pose proof (never_both _ _ _ _ _ Hr Hp') as N'.
    pose proof (nilnil8141 _ _ _ _ _ Hr Hm Hp) as K. pose proof (nilnil8141 _ _ _ _ _ Hr Hm Hp') as K'.
    pose proof (cl_iff _ _ _ cl_silent E) as L.
    destruct uo as [u|], uo' as [v|]; cbn [same_result]; [| | |exact I].
    + destruct N as [N|N]; [discriminate N|]. subst eo.
      destruct (parts8141 s u) as (p & r & q & f & H1 & Ep & _ & Ek & _ & Er & Eq & Ef); [exists m, m1; auto|].
      destruct (parts8141 s' v) as (p' & r' & q' & f' & H1' & Ep' & _ & Ek' & _ & Er' & Eq' & Ef'); [exists m, m2; auto|].
      destruct (ci_urn8141 s s' _ _ _ _ _ _ E H1) as (p2 & n2 & x2 & r2 & q2 & f2 & H2 & C1 & C2 & C3 & C4 & C5 & C6).
      destruct (urn8141_unique _ _ _ _ _ _ _ _ _ _ _ _ _ H1' H2) as (-> & E1 & E2 & -> & -> & ->).
      unfold same_parts. unfold RFC. rewrite E1, E2, Er, Er', Eq, Eq', Ef, Ef', Ek, Ek'.
      apply shown_word in Ep; [|apply H1]. apply shown_word in Ep'; [|apply H2].
      repeat split; auto using ciopt_val. unfold cieq. rewrite Ep, Ep'. reflexivity.
    + destruct N as [N|N]; [discriminate N|]. subst eo. destruct K' as [K' _]. specialize (K' (conj eq_refl eq_refl)). apply L in K'. apply K in K'. destruct K' as [K' _]; discriminate K'.
    + destruct N' as [N'|N']; [discriminate N'|]. subst eo. destruct K as [K _]. specialize (K (conj eq_refl eq_refl)). apply L in K. apply K' in K. destruct K as [K _]; discriminate K.
Qed.

(* ---- SCIM mode: only the prefix ---------------------------------------------------------- *)
Lemma urn_len p q (a b : bytes) : urn_word p -> urn_word q -> p ++ a = q ++ b -> p = q /\ a = b.
Proof.
  intros Hp Hq E. assert (L : List.length p = List.length q) by (apply cieq_len; unfold cieq; rewrite Hp, Hq; reflexivity).
  clear Hp Hq. revert q L E. induction p as [|c p IH]; intros [|d q] L E; try discriminate L; [auto|].
  cbn [app] in E. injection E as -> E. injection L as L. destruct (IH q L E) as [-> ->]. auto.
Qed.
Lemma errscim_prefix p p' r e : urn_word p -> urn_word p' -> errscim (p ++ r) e -> errscim (p' ++ r) e.
Proof.
  intros Hp Hp' [H|[(q & x & y & E & H1 & H2)|[(q & x & y & E & H1 & H2)|[(q & t0 & x & y & E & H1 & H2)|(q & t0 & name & x & y & why & E & H1 & H2)]]]];
    [left; eapply cl_prefix_err; [|exact H]; apply cieq_app; [unfold cieq; rewrite Hp, Hp'; reflexivity|reflexivity]|..];
    destruct (urn_len p q _ _ Hp H1 E) as [<- ->]; right.
  - left. exists p', x, y. auto.
  - right; left. exists p', x, y. auto.
  - right; right; left. exists p', t0, x, y. auto.
  - right; right; right. exists p', t0, name, x, y, why. auto.
Qed.
Lemma urnscim_prefix p p' r q t n o : urn_word p -> urn_word p' -> urnscim (p ++ r) q t n o -> q = p /\ urnscim (p' ++ r) p' t n o.
Proof.
  intros Hp Hp' (E & H1 & H2). destruct (urn_len p q _ _ Hp H1 E) as [<- ->]. split; [reflexivity|]. split; [reflexivity|]. auto.
Qed.
Theorem case_scim m p p' r m1 uo eo m2 uo' eo' : reachable m -> m_parsingMode m = PRFC7643Only -> urn_word p -> urn_word p' ->
  machine_Parse m (p ++ r) = Ret (m1, uo, eo) -> machine_Parse m (p' ++ r) = Ret (m2, uo', eo') ->
  eo = eo' /\ (uo = None <-> uo' = None) /\
  forall u v, uo = Some u -> uo' = Some v -> u_ID u = u_ID v /\ u_SS u = u_SS v /\ u_norm u = u_norm v /\
    forall sc, URN_SCIM u = Some sc -> exists sc', URN_SCIM v = Some sc' /\ s_Type sc' = s_Type sc /\ s_Name sc' = s_Name sc /\ s_Other sc' = s_Other sc.
Proof.
  intros Hr Hm Hw Hw' Hp Hp'.
  assert (Ee : eo = eo').
  { apply eo_ext. intros e. rewrite (parse_errscim _ _ _ _ _ Hr Hm Hp), (parse_errscim _ _ _ _ _ Hr Hm Hp'). split; apply errscim_prefix; assumption. }
  split; [exact Ee|]. subst eo'. pose proof (nilnil2141 _ _ _ _ _ Hr (or_intror Hm) Hp) as K. pose proof (nilnil2141 _ _ _ _ _ Hr (or_intror Hm) Hp') as K'.
  split.
  { assert (L : uo <> None <-> uo' <> None) by (rewrite <- K, <- K'; reflexivity).
    destruct L as [L1 L2]. destruct uo as [u|], uo' as [v|]; split; intros Q; try reflexivity; try discriminate Q; exfalso;
      first [apply L1; [discriminate|reflexivity]|apply L2; [discriminate|reflexivity]]. }
  intros u v -> ->. assert (eo = None) as -> by (apply K; discriminate).
  destruct (partsscim (p ++ r) u) as (q & t & sc & H1 & _ & E1 & E2 & E3 & E4 & E5 & E6 & _); [exists m, m1; auto|].
  destruct (partsscim (p' ++ r) v) as (q' & t' & sc' & H1' & _ & E1' & E2' & E3' & E4' & E5' & E6' & _); [exists m, m2; auto|].
  destruct (urnscim_prefix p p' r q t _ _ Hw Hw' H1) as [-> H2]. destruct (urnscim_unique _ _ _ _ _ _ _ _ _ H1' H2) as (-> & -> & F1 & F2).
  rewrite E5, E5', E3, E3', E4, E4', F1, F2. split; [reflexivity|]. split; [reflexivity|]. split; [reflexivity|].
  unfold URN_SCIM. rewrite E6, E6'. cbn. intros s0 E. rewrite E1 in E. injection E as <-. exists sc'. split; [exact E1'|]. rewrite E2, E2'. auto.
Qed.
