(* The cost bounds for reachable machines. *)
From Coq Require Import Lia.
From Verif Require Import GoBase MachineSyntax MachineTables Machine Errors Urn Spec Exec Api Cost PropsCost.
Local Open Scope Z_scope.

Lemma parse_runs m s : reachable m ->
  exists y, run (parse_fuel (List.length s)) LEnter (parse_init m s, zeroURN) = Ret y.
Proof.
  intros H. destruct (parse_reach m s H) as (m' & uo & eo & Hp & _). unfold machine_Parse in Hp.
  destruct (run _ LEnter (parse_init m s, zeroURN)) as [y| |]; [eauto|discriminate Hp|discriminate Hp].
Qed.
Lemma reach_starts m : reachable m -> dom false (m_startParsingAt m) = true /\ rk (m_startParsingAt m) <= 9.
Proof.
  intros H. destruct (reach_good m H) as [G _]. unfold ParseThm.good in G.
  destruct G as [->|[[-> _]|[->| ->]]]; split; try reflexivity; vm_compute; discriminate.
Qed.

Lemma family_ok n : urn8141 (family n) (B "urn") (B "ab") (B "c") (Some (B "a" ++ rep n)) None None.
Proof.
  assert (Hrep : forall b, In b (B "a" ++ rep n) -> b = "a"%byte \/ b = "?"%byte).
  { intros b [<-|Hb]; [left; reflexivity|]. revert Hb. induction n as [|k IH]; [contradiction|].
    intros [<-|[<-|Hb]]; auto. }
  unfold urn8141. split; [|split; [reflexivity|split; [|split; [|split; [|split; exact I]]]]].
  - unfold tail8141, family. cbn [opt_part]. rewrite !app_nil_r. reflexivity.
  - unfold nid8141. split; [cbn; lia|]. split; [reflexivity|]. split; [exists "a"%byte, (B "b"); split; reflexivity|]. split; [exists "b"%byte, (B "a"); split; reflexivity|].
    intros (u & c & r & E & Hu & _). apply (f_equal (@List.length byte)) in E. apply (f_equal (@List.length byte)) in Hu.
    unfold lowers in Hu. rewrite map_length in Hu. rewrite app_length in E. cbn in *. lia.
  - split; [apply esc_plain; [reflexivity|apply esc_nil]|]. exists "c"%byte, []. split; [reflexivity|discriminate].
  - cbn [opt_ok]. split; [split|split].
    + apply esc_plain; [reflexivity|]. clear Hrep. induction n as [|k IH]; [constructor|].
      rewrite rep_S. apply esc_plain; [reflexivity|]. apply esc_plain; [reflexivity|exact IH].
    + exists "a"%byte, (rep n). repeat split; discriminate.
    + intros x y E. exfalso. destruct (Hrep "+"%byte); [rewrite E; apply in_or_app; right; right; left; reflexivity|discriminate|discriminate].
    + intros x y E. exfalso. destruct (Hrep "="%byte); [rewrite E; apply in_or_app; right; right; left; reflexivity|discriminate|discriminate].
Qed.

(* In RFC 2141 mode a call moves at most 7 bytes per byte of input, in SCIM mode at most 10. *)
Lemma cost_linear_2141 : forall m s, reachable m -> m_parsingMode m = PRFC2141Only ->
  Parse_cost m s <= 7 * zlen s.
Proof.
  intros m s H Hm. destruct (reach_start m H) as (Hs & _ & _).
  pose proof (parse_cost_bound true m s) as K. rewrite (Hs Hm) in K. specialize (K eq_refl (parse_runs m s H)).
  change (rk 1) with 6 in K. cbn [D] in K. lia.
Qed.

Lemma cost_linear_scim : forall m s, reachable m -> m_parsingMode m = PRFC7643Only ->
  Parse_cost m s <= 10 * zlen s.
Proof.
  intros m s H Hm. destruct (reach_start m H) as (_ & Hs & _).
  pose proof (parse_cost_bound true m s) as K. rewrite (Hs Hm) in K. specialize (K eq_refl (parse_runs m s H)).
  change (rk 44) with 9 in K. cbn [D] in K. lia.
Qed.

(* In every mode: each question mark of the input may add one more pass over the input. *)
Lemma cost_bound : forall m s, reachable m ->
  Parse_cost m s <= (10 + Z.of_nat (count_occ Byte.byte_eq_dec s "?"%byte)) * zlen s.
Proof.
  intros m s H. destruct (reach_starts m H) as [Hd Hr].
  pose proof (parse_cost_bound false m s Hd (parse_runs m s H)) as K. unfold qm in K. cbn [D] in K.
  pose proof (zlen_nonneg s). nia.
Qed.

(* In RFC 8141 mode no linear bound exists: the r-component is copied again at every
   question mark inside it.  The inputs are accepted. *)
Lemma cost_quadratic : forall m K, reachable m -> m_parsingMode m = PRFC8141Only ->
  exists s m' u, machine_Parse m s = Ret (m', Some u, None) /\ Parse_cost m s > K * zlen s.
Proof.
  intros m K H Hm. set (n := (Z.to_nat (2 * K + 11))).
  destruct (parse8141_ok m (family n) (B "urn") (B "ab") (B "c") (Some (B "a" ++ rep n)) None None H Hm (family_ok n))
    as (m' & u & Hp & _).
  exists (family n), m', u. split; [exact Hp|].
  destruct (reach_start m H) as (_ & _ & Hs). rewrite (Parse_cost_family m n (Hs Hm) Hm), zlen_family.
  assert (0 <= Z.of_nat n) by lia. destruct (Z.le_gt_cases 0 K).
  - replace (Z.of_nat n) with (2 * K + 11) by (unfold n; lia). nia.
  - nia.
Qed.
