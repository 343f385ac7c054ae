(* The check of PropsRagel.v for the tables of machine.go and the machine of machine.go.rl. *)
From Coq Require Import FMapPositive Lia Arith.
From Verif Require Import GoBase MachineSyntax MachineTables Machine RagelSem RagelRl PropsRagel ParseThm Api.
Local Open Scope Z_scope.

(* which state of machine.go each state of the specification corresponds to: the states in
   the order of their discovery, each entered from an earlier one *)
Definition note1 (t : PositiveMap.t N) (k v : N) : PositiveMap.t N :=
  match PositiveMap.find (N.succ_pos k) t with Some _ => t | None => PositiveMap.add (N.succ_pos k) v t end.
Definition at1 (t : PositiveMap.t N) (k : N) : N := match PositiveMap.find (N.succ_pos k) t with Some v => v | None => 0%N end.
Fixpoint pair_edges (cs : N) (reps : list N) (l : list (N * list stmt)) (t : PositiveMap.t N) : PositiveMap.t N :=
  match reps, l with
  | b :: reps, (to, _) :: r =>
      pair_edges cs reps r (match go_label cs b with Some (cs', _) => note1 t to cs' | None => t end)
  | _, _ => t
  end.
Fixpoint pair_nodes (k : N) (l : list (node (list stmt))) (t : PositiveMap.t N) : PositiveMap.t N :=
  match l with
  | [] => t
  | n :: r => pair_nodes (k + 1)%N r (if N.eqb k 0 then t else pair_edges (at1 t k) rl_sigma (n_edges n) t)
  end.
Definition pairing (l : list (node (list stmt))) (main scim r8141 fl : N) : list N :=
  let t := pair_nodes 0 l (note1 (note1 (note1 (note1 (note1 (PositiveMap.empty N) 0 0) main en_main) scim en_scim_only) r8141 en_rfc8141_only) fl en_fail) in
  map (fun k => at1 t (N.of_nat k)) (seq 0 (List.length l)).
Definition go_of : list N := Eval vm_compute in pairing rl_nodes at_main at_scim at_8141 at_fail.

(* stated for any tables, so that nothing below has to unfold the ones at hand *)
Definition all_ok (block sigma : list N) (G : list (node (list stmt))) (go : list N) (failed : N -> bool) (main scim r8141 fl : N) : bool :=
  check block sigma G go fl failed &&
  N.eqb (to_go go 0) 0 && N.eqb (to_go go main) en_main && N.eqb (to_go go scim) en_scim_only && N.eqb (to_go go r8141) en_rfc8141_only &&
  N.ltb 0 (N.of_nat (List.length go)) && N.ltb main (N.of_nat (List.length go)) && N.ltb scim (N.of_nat (List.length go)) &&
  N.ltb r8141 (N.of_nat (List.length go)).
Lemma all_ok_true : all_ok rl_block rl_sigma rl_nodes go_of rl_failed at_main at_scim at_8141 at_fail = true.
Proof. vm_cast_no_check (@eq_refl bool true). Qed.

Lemma generic_parse block sigma G go failed main scim r8141 fl : all_ok block sigma G go failed main scim r8141 fl = true ->
  forall m s entry m' u e, In (m_startParsingAt m, entry) [(0, 0); (en_main, main); (en_scim_only, scim); (en_rfc8141_only, r8141)]%N ->
  machine_Parse m s = Ret (m', u, e) -> rl_Parse block G failed entry (m_parsingMode m) s = Ret (m_data m', u, e).
Proof.
  intros H m s entry m' u e I. unfold all_ok in H. rewrite !andb_true_iff, !N.eqb_eq, !N.ltb_lt in H.
  destruct H as [[[[[[[[K H0] H1] H2] H3] V0] V1] V2] V3].
  apply (parse_sim block sigma G go fl failed K m s entry m' u e).
  - cbn [In] in I. destruct I as [E|[E|[E|[E|[]]]]]; apply pair_equal_spec in E; destruct E as [_ <-]; assumption.
  - cbn [In] in I. destruct I as [E|[E|[E|[E|[]]]]]; apply pair_equal_spec in E; destruct E as [<- <-]; symmetry; assumption.
Qed.
Lemma generic_entry main scim r8141 m : reachable m ->
  exists entry, In (m_startParsingAt m, entry) [(0, 0); (en_main, main); (en_scim_only, scim); (en_rfc8141_only, r8141)]%N.
Proof.
  intros H. destruct (proj1 (reach_good m H)) as [E|[[E _]|[E|E]]]; rewrite E.
  - exists 0%N. left. reflexivity.
  - exists main. right. left. reflexivity.
  - exists scim. right. right. left. reflexivity.
  - exists r8141. right. right. right. left. reflexivity.
Qed.
Lemma generic_reach block sigma G go failed main scim r8141 fl : all_ok block sigma G go failed main scim r8141 fl = true ->
  forall m s m' u e, reachable m -> machine_Parse m s = Ret (m', u, e) ->
  exists entry, In (m_startParsingAt m, entry) [(0, 0); (en_main, main); (en_scim_only, scim); (en_rfc8141_only, r8141)]%N /\
    rl_Parse block G failed entry (m_parsingMode m) s = Ret (m_data m', u, e).
Proof.
  intros A m s m' u e H P. destruct (generic_entry main scim r8141 m H) as [entry I]. exists entry. split; [exact I|].
  eapply generic_parse; eassumption.
Qed.
Lemma generic_modes block sigma G go failed main scim r8141 fl : all_ok block sigma G go failed main scim r8141 fl = true ->
  forall s mode entry, In (mode, entry) [(PRFC2141Only, main); (PRFC7643Only, scim); (PRFC8141Only, r8141)] ->
  exists m' u e, machine_Parse (NewMachine [mode]) s = Ret (m', u, e) /\ rl_Parse block G failed entry mode s = Ret (m_data m', u, e).
Proof.
  intros A s mode entry H. destruct (parse_reach (NewMachine [mode]) s (reach_new _)) as (m' & u & e & P & _). exists m', u, e. split; [exact P|].
  cbn [In] in H. destruct H as [E|[E|[E|[]]]]; apply pair_equal_spec in E; destruct E as [<- <-].
  - apply (generic_parse _ _ _ _ _ _ _ _ _ A (NewMachine [PRFC2141Only]) s main m' u e); [right; left; reflexivity|exact P].
  - apply (generic_parse _ _ _ _ _ _ _ _ _ A (NewMachine [PRFC7643Only]) s scim m' u e); [right; right; left; reflexivity|exact P].
  - apply (generic_parse _ _ _ _ _ _ _ _ _ A (NewMachine [PRFC8141Only]) s r8141 m' u e); [right; right; right; left; reflexivity|exact P].
Qed.

Definition ragel_reach := generic_reach rl_block rl_sigma rl_nodes go_of rl_failed at_main at_scim at_8141 at_fail all_ok_true.
Definition ragel_modes := generic_modes rl_block rl_sigma rl_nodes go_of rl_failed at_main at_scim at_8141 at_fail all_ok_true.

(* ---- the blocks: no class tells the bytes of one apart ----------------------------------- *)
Lemma alike_refl ps b : alike ps b b = true.
Proof. unfold alike. apply forallb_forall. intros p _. apply eqb_reflx. Qed.
Lemma block_in_alike ps b : forall reps i k, block_in ps b reps i = Some k ->
  exists j r, k = (i + N.of_nat j)%N /\ nth_error reps j = Some r /\ alike ps r b = true.
Proof.
  induction reps as [|x reps IH]; intros i k H; cbn [block_in] in H; [discriminate|].
  destruct (alike ps x b) eqn:E.
  - injection H as <-. exists O, x. split; [lia|]. split; [reflexivity|exact E].
  - destruct (IH _ _ H) as (j & r & -> & Hr & A). exists (S j), r. split; [lia|]. split; [exact Hr|exact A].
Qed.
Lemma blocks_from_alike ps : forall bs reps l reps', blocks_from ps bs reps = (l, reps') ->
  (exists more, reps' = reps ++ more) /\
  forall i b, nth_error bs i = Some b -> exists k r, nth_error l i = Some k /\ nth_error reps' (N.to_nat k) = Some r /\ alike ps r b = true.
Proof.
  induction bs as [|x bs IH]; intros reps l reps' H; cbn [blocks_from] in H.
  - injection H as <- <-. split; [exists []; rewrite app_nil_r; reflexivity|]. intros [|i] b E; discriminate E.
  - destruct (block_in ps x reps 0) as [k|] eqn:B.
    + destruct (blocks_from ps bs reps) as [l1 r1] eqn:F. injection H as <- <-. destruct (IH _ _ _ F) as [[more ->] Q].
      split; [eauto|]. intros [|i] b E; cbn [nth_error] in *; [|apply Q, E].
      injection E as <-. destruct (block_in_alike _ _ _ _ _ B) as (j & r & -> & Hr & A). exists (0 + N.of_nat j)%N, r. split; [reflexivity|].
      split; [|exact A]. replace (N.to_nat (0 + N.of_nat j)) with j by lia. rewrite nth_error_app1; [exact Hr|]. apply nth_error_Some. congruence.
    + destruct (blocks_from ps bs (reps ++ [x])) as [l1 r1] eqn:F. injection H as <- <-. destruct (IH _ _ _ F) as [[more ->] Q].
      split; [exists (x :: more); rewrite <- app_assoc; reflexivity|]. intros [|i] b E; cbn [nth_error] in *; [|apply Q, E].
      injection E as <-. exists (len reps), x. split; [reflexivity|]. split; [|apply alike_refl].
      unfold len. rewrite Nat2N.id, <- app_assoc, nth_error_app2 by lia. rewrite Nat.sub_diag. reflexivity.
Qed.
Lemma blocks_alike ps p b : In p ps -> (b < 256)%N ->
  exists k r, nth_error (fst (blocks ps)) (N.to_nat b) = Some k /\ nth_error (snd (blocks ps)) (N.to_nat k) = Some r /\ p b = p r.
Proof.
  intros I L. unfold blocks.
  assert (B : nth_error all_bytes (N.to_nat b) = Some b).
  { unfold all_bytes. rewrite nth_error_map, (nth_error_nth' _ O) by (rewrite seq_length; lia). rewrite seq_nth by lia. cbn [option_map]. f_equal. lia. }
  generalize dependent all_bytes. intros bs B.
  destruct (blocks_from ps bs []) as [l reps] eqn:E. destruct (blocks_from_alike _ _ _ _ _ E) as [_ Q].
  destruct (Q (N.to_nat b) b B) as (k & r & H1 & H2 & A).
  exists k, r. split; [exact H1|]. split; [exact H2|]. unfold alike in A. rewrite forallb_forall in A. specialize (A p I).
  apply eqb_prop in A. symmetry. exact A.
Qed.
