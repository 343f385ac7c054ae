(* machine.go does what ragel's semantics (RagelSem.v) makes of machine.go.rl (RagelRl.v). *)
From Coq Require Import Lia Arith.
From Verif Require Import GoBase MachineSyntax MachineTables Machine RagelSem.
Local Open Scope Z_scope.

(* ---- equality of statements -------------------------------------------------------------- *)
Definition errconst_eq (a b : errconst) : {a = b} + {a <> b}.
Proof. decide equality. Defined.
Definition cond_eq (a b : cond) : {a = b} + {a <> b}.
Proof. decide equality; try apply Z.eq_dec; apply N.eq_dec. Defined.
Fixpoint stmt_eq (a b : stmt) {struct a} : {a = b} + {a <> b}.
Proof.
  decide equality; try apply Z.eq_dec; try apply N.eq_dec; try apply errconst_eq; try apply cond_eq; apply (list_eq_dec stmt_eq).
Defined.
Definition code_eqb (a b : list stmt) : bool := if list_eq_dec stmt_eq a b then true else false.
Lemma code_eqb_eq a b : code_eqb a b = true -> a = b.
Proof. unfold code_eqb. destruct (list_eq_dec stmt_eq a b); [auto|discriminate]. Qed.

(* ---- the check ---------------------------------------------------------------------------- *)
Section Check.
  Context (block sigma : list N) (G : list (node (list stmt))) (go : list N) (fl : N).
  Definition to_go (n : N) : N := nth (N.to_nat n) go 0%N.
  Fixpoint ren (s : stmt) : stmt :=
    match s with
    | SSetCS n => SSetCS (to_go n)
    | SIf c t e => SIf c (map ren t) (map ren e)
    | _ => s
    end.
  (* every jump goes to state fl *)
  Fixpoint jumps (s : stmt) : bool :=
    match s with
    | SSetCS n => N.eqb n fl
    | SIf c t e => forallb jumps t && forallb jumps e
    | _ => true
    end.
  (* where machine.go goes in state cs on byte b *)
  Definition go_label (cs b : N) : option (N * option N) :=
    match resume_switch cs b with TOut => None | TTr n => tr_block n end.
  Definition label_eqb (x y : option (N * option N)) : bool :=
    match x, y with
    | Some (a, None), Some (b, None) => N.eqb a b
    | Some (a, Some f), Some (b, Some g) => N.eqb a b && N.eqb f g
    | None, None => true
    | _, _ => false
    end.
  (* the same way for all bytes of a block *)
  Definition uniform (cs : N) : bool :=
    let l := map (go_label cs) sigma in
    forallb (fun b => label_eqb (go_label cs (fst b)) (nth (N.to_nat (snd b)) l None)) (combine all_bytes block).
  Definition edge_ok (cs rep : N) (e : N * list stmt) : bool :=
    let '(to, c) := e in
    N.ltb to (N.of_nat (List.length go)) && forallb jumps c &&
    match go_label cs rep with
    | Some (cs', None) => N.eqb cs' (to_go to) && code_eqb c []
    | Some (cs', Some f) =>
        N.eqb cs' (to_go to) && match f_block f with Some bl => code_eqb bl (map ren c ++ [SGotoAgain]) | None => false end
    | None => false
    end.
  Fixpoint edges_ok (cs : N) (reps : list N) (l : list (N * list stmt)) : bool :=
    match reps, l with
    | [], [] => true
    | r :: reps, e :: l => edge_ok cs r e && edges_ok cs reps l
    | _, _ => false
    end.
  Definition table_ok (t : list N) (blk : N -> option (list stmt)) (cs : N) (c : list stmt) : bool :=
    forallb jumps c &&
    match index t (Z.of_N cs) with
    | Ret a => match blk a with Some bl => code_eqb bl (map ren c) | None => code_eqb c [] end
    | _ => false
    end.
  Definition node_ok (failed : N -> bool) (k : N) (n : node (list stmt)) : bool :=
    let cs := to_go k in
    Nat.eqb (List.length (n_edges n)) (List.length sigma) && Bool.eqb (n_final n) (negb (N.ltb cs first_final)) &&
    Bool.eqb (failed k) (N.eqb cs en_fail) && N.leb cs 193 &&
    Bool.eqb (N.eqb k 0) (N.eqb cs 0) &&
    (N.eqb k 0 || edges_ok cs sigma (n_edges n)) &&
    table_ok eof_actions eof_block cs (n_eof n) && table_ok to_state_actions to_state_block cs (n_to n).
  Fixpoint nodes_ok (failed : N -> bool) (k : N) (l : list (node (list stmt))) : bool :=
    match l with [] => true | n :: r => node_ok failed k n && nodes_ok failed (k + 1)%N r end.
  Definition zero_ok : bool :=
    match G with n :: _ => forallb (fun e => N.eqb (fst e) 0 && code_eqb (snd e) []) (n_edges n) | [] => false end.
  Definition check (failed : N -> bool) : bool :=
    Nat.eqb (List.length go) (List.length G) && N.ltb fl (N.of_nat (List.length go)) && zero_ok && nodes_ok failed 0 G &&
    Nat.eqb (List.length block) 256 && forallb (fun k => N.ltb k (N.of_nat (List.length sigma))) block &&
    forallb uniform (map N.of_nat (seq 1 193)).

  (* ---- and what it gives ------------------------------------------------------------------ *)
  Context (failed : N -> bool) (OK : check failed = true).

  Definition valid (n : N) : Prop := (n < N.of_nat (List.length go))%N.
  (* the same machine but for the numbers of the states *)
  Definition sim (x y : st) : Prop :=
    snd x = snd y /\ m_data (fst x) = m_data (fst y) /\ m_p (fst x) = m_p (fst y) /\ m_pe (fst x) = m_pe (fst y) /\
    m_eof (fst x) = m_eof (fst y) /\ m_pb (fst x) = m_pb (fst y) /\ m_err (fst x) = m_err (fst y) /\
    m_parsingMode (fst x) = m_parsingMode (fst y) /\ m_cs (fst x) = to_go (m_cs (fst y)) /\ valid (m_cs (fst y)) /\
    m_pe (fst y) = m_eof (fst y).

  Lemma fl_valid : valid fl.
  Proof. unfold check in OK. rewrite !andb_true_iff in OK. destruct OK as [[[[[[_ H] _] _] _] _] _]. apply N.ltb_lt in H. exact H. Qed.
  Lemma go_len : List.length go = List.length G.
  Proof. unfold check in OK. rewrite !andb_true_iff in OK. destruct OK as [[[[[[H _] _] _] _] _] _]. apply Nat.eqb_eq in H. exact H. Qed.

  Lemma nodes_nth l : forall k i n, nodes_ok failed k l = true -> nth_error l i = Some n -> node_ok failed (k + N.of_nat i) n = true.
  Proof.
    induction l as [|x l IH]; intros k [|i] n H E; cbn [nodes_ok nth_error] in *; try discriminate E; apply andb_prop in H; destruct H as [H1 H2].
    - injection E as ->. rewrite N.add_0_r. exact H1.
    - replace (k + N.of_nat (S i))%N with (k + 1 + N.of_nat i)%N by lia. eapply IH; eassumption.
  Qed.
  Lemma edges_nth cs : forall reps l i r e, edges_ok cs reps l = true -> nth_error reps i = Some r -> nth_error l i = Some e -> edge_ok cs r e = true.
  Proof.
    induction reps as [|x reps IH]; intros [|y l] [|i] r e H R E; cbn [edges_ok nth_error] in *; try discriminate; apply andb_prop in H; destruct H as [H1 H2].
    - congruence.
    - eapply IH; eassumption.
  Qed.
  Lemma label_eqb_eq x y : label_eqb x y = true -> x = y.
  Proof.
    destruct x as [[a [f|]]|], y as [[b [g|]]|]; cbn; try discriminate; try reflexivity; [rewrite andb_true_iff|];
      rewrite ?N.eqb_eq; [intros [-> ->]|intros ->]; reflexivity.
  Qed.
  Lemma index_in {T} (l : list T) i : (0 <= i < zlen l) -> exists x, index l i = Ret x /\ nth_error l (Z.to_nat i) = Some x.
  Proof.
    intros H. unfold index. replace (0 <=? i) with true by (symmetry; apply Z.leb_le; lia).
    replace (i <? zlen l) with true by (symmetry; apply Z.ltb_lt; lia). cbn [andb].
    destruct (nth_error l (Z.to_nat i)) as [x|] eqn:E; [eauto|]. apply nth_error_None in E. unfold zlen in H. lia.
  Qed.
  (* the block of a byte, and the byte that stands for it *)
  Lemma block_get b : exists k, index block (Z.of_N (Byte.to_N b)) = Ret k /\ nth_error block (N.to_nat (Byte.to_N b)) = Some k /\
    exists r, nth_error sigma (N.to_nat k) = Some r.
  Proof.
    pose proof OK as K. unfold check in K. rewrite !andb_true_iff in K. destruct K as [[[_ K1] K2] _]. apply Nat.eqb_eq in K1.
    pose proof (Byte.to_N_bounded b) as Hb.
    destruct (index_in block (Z.of_N (Byte.to_N b))) as (k & I & Hk); [unfold zlen; rewrite K1; lia|].
    replace (Z.to_nat (Z.of_N (Byte.to_N b))) with (N.to_nat (Byte.to_N b)) in Hk by lia.
    exists k. split; [exact I|]. split; [exact Hk|]. rewrite forallb_forall in K2. pose proof (K2 k (nth_error_In _ _ Hk)) as L. apply N.ltb_lt in L.
    destruct (nth_error sigma (N.to_nat k)) as [r|] eqn:E; [eauto|]. apply nth_error_None in E. lia.
  Qed.
  Lemma combine_nth_error {T U} (l : list T) : forall (k : list U) i x y, nth_error l i = Some x -> nth_error k i = Some y -> In (x, y) (combine l k).
  Proof.
    induction l as [|a l IH]; intros [|c k] [|i] x y E F; cbn in *; try discriminate.
    - left. congruence.
    - right. eapply IH; eassumption.
  Qed.
  Lemma uniform_get cs b k r : (cs <> 0)%N -> (cs <= 193)%N -> nth_error block (N.to_nat (Byte.to_N b)) = Some k ->
    nth_error sigma (N.to_nat k) = Some r -> go_label cs (Byte.to_N b) = go_label cs r.
  Proof.
    intros H0 H1 Hk Hr. pose proof OK as K. unfold check in K. rewrite !andb_true_iff in K. destruct K as [_ K]. rewrite forallb_forall in K.
    assert (I : In cs (map N.of_nat (seq 1 193))).
    { apply in_map_iff. exists (N.to_nat cs). split; [lia|]. apply in_seq. lia. }
    specialize (K cs I). unfold uniform in K. rewrite forallb_forall in K.
    pose proof (Byte.to_N_bounded b) as Hb.
    assert (A : nth_error all_bytes (N.to_nat (Byte.to_N b)) = Some (Byte.to_N b)).
    { unfold all_bytes. rewrite nth_error_map, (nth_error_nth' _ O) by (rewrite seq_length; lia). rewrite seq_nth by lia. cbn [option_map]. f_equal. lia. }
    specialize (K _ (combine_nth_error _ _ _ _ _ A Hk)). cbn [fst snd] in K. apply label_eqb_eq in K. rewrite K.
    apply nth_error_nth. rewrite nth_error_map, Hr. reflexivity.
  Qed.
  Lemma node_get k : valid k -> exists n, node_at G k = Ret n /\ node_ok failed k n = true.
  Proof.
    intros H. unfold valid in H. rewrite go_len in H. unfold node_at, index.
    replace (0 <=? Z.of_N k) with true by (symmetry; apply Z.leb_le; lia).
    replace (Z.of_N k <? zlen G) with true by (symmetry; apply Z.ltb_lt; unfold zlen; lia). cbn [andb].
    destruct (nth_error G (Z.to_nat (Z.of_N k))) as [n|] eqn:E; [|apply nth_error_None in E; lia].
    exists n. split; [reflexivity|]. pose proof OK as K. unfold check in K. rewrite !andb_true_iff in K. destruct K as [[[[_ K] _] _] _].
    pose proof (nodes_nth _ _ _ _ K E) as Q. replace (0 + N.of_nat (Z.to_nat (Z.of_N k)))%N with k in Q by lia. exact Q.
  Qed.

  (* ---- statements ------------------------------------------------------------------------- *)
  Fixpoint ssz (s : stmt) : nat :=
    match s with
    | SIf _ t e => let f := fix f l := match l with [] => O | s :: l => (ssz s + f l)%nat end in S (f t + f e)
    | _ => 1%nat
    end.
  Fixpoint lsz (l : list stmt) : nat := match l with [] => O | s :: l => (ssz s + lsz l)%nat end.
  Lemma ssz_if c t e : ssz (SIf c t e) = S (lsz t + lsz e).
  Proof. reflexivity. Qed.
  Lemma ssz_pos s : (0 < ssz s)%nat.
  Proof. destruct s; cbn; lia. Qed.
  Lemma exec_if' c t e x : exec_stmt (SIf c t e) x = (do b <- eval_cond c x; exec_block (if b then t else e) x).
  Proof. destruct x as [m u]. reflexivity. Qed.

  Definition rsim (a b : res (st * ctl)) : Prop :=
    match a, b with
    | Ret (x, c), Ret (y, d) => sim x y /\ c = d
    | Panic, Panic => True
    | OutOfFuel, OutOfFuel => True
    | _, _ => False
    end.
  Lemma cond_sim c x y : sim x y -> eval_cond c x = eval_cond c y.
  Proof.
    intros (H1 & H2 & H3 & H4 & H5 & H6 & H7 & H8 & _). destruct x as [m u], y as [m' u']. cbn [fst snd] in *. subst u'.
    induction c; cbn [eval_cond]; rewrite ?H2, ?H3, ?H4, ?H8; try reflexivity.
    - rewrite IHc. reflexivity.
    - rewrite IHc1, IHc2. reflexivity.
    - rewrite IHc1, IHc2. reflexivity.
  Qed.
  Lemma block_sim n : forall l, (lsz l <= n)%nat -> forallb jumps l = true ->
    forall x y, sim x y -> rsim (exec_block (map ren l) x) (exec_block l y).
  Proof.
    induction n as [|n IH]; intros [|s l] Hn Hj x y S; try (cbn; split; [exact S|reflexivity]).
    - cbn [lsz] in Hn. pose proof (ssz_pos s). lia.
    - cbn [lsz] in Hn. pose proof (ssz_pos s) as Hp. cbn [forallb] in Hj. apply andb_prop in Hj. destruct Hj as [Hs Hl].
      cbn [map exec_block].
      assert (Q : rsim (exec_stmt (ren s) x) (exec_stmt s y)).
      { destruct s as [| | | | | | | | |k| |c t e| | | | | | | | | | |];
        try (pose proof S as (H1 & H2 & H3 & H4 & H5 & H6 & H7 & H8 & H9 & H10 & H11);
             destruct x as [m u], y as [m' u']; cbn [fst snd] in *; subst u';
             cbn [ren exec_stmt]; unfold text; rewrite ?H2, ?H3, ?H6;
             repeat match goal with
             | |- context [slice ?a ?b ?c] => destruct (slice a b c); cbn [bind]
             | |- context [for_tolower ?a ?b ?c ?d] => destruct (for_tolower a b c d); cbn [bind]
             | |- context [u_scim ?v] => destruct (u_scim v)
             end; cbn [rsim]; try exact I;
             split; [unfold sim; cbn [fst snd m_data m_p m_pe m_eof m_pb m_err m_parsingMode m_cs set_data set_p set_pb set_err set_cs];
                     rewrite ?H3, ?H6; repeat split; try assumption; try reflexivity; try congruence|reflexivity]; fail).
        - cbn [jumps] in Hs. apply N.eqb_eq in Hs. subst k.
          pose proof S as (H1 & H2 & H3 & H4 & H5 & H6 & H7 & H8 & H9 & H10 & H11).
          destruct x as [m u], y as [m' u']; cbn [fst snd] in *; subst u'. cbn [ren exec_stmt rsim].
          split; [|reflexivity]. unfold sim; cbn [fst snd m_data m_p m_pe m_eof m_pb m_err m_parsingMode m_cs set_cs].
          repeat split; try assumption. apply fl_valid.
        - cbn [ren]. rewrite !exec_if', (cond_sim c x y S). destruct (eval_cond c y) as [b| |]; cbn [bind rsim]; try exact I.
          rewrite ssz_if in Hn. cbn [jumps] in Hs. apply andb_prop in Hs. destruct Hs as [Ht He].
          destruct b; apply IH; try assumption; lia. }
      destruct (exec_stmt (ren s) x) as [[x1 c1]| |], (exec_stmt s y) as [[y1 d1]| |]; cbn [rsim bind] in *; try contradiction; try exact I.
      destruct Q as [Q <-]. destruct c1; [|split; [exact Q|reflexivity]]. apply IH; [lia|exact Hl|exact Q].
  Qed.

  Lemma exec_app l : forall x, exec_block (l ++ [SGotoAgain]) x =
    do r <- exec_block l x; let '(y, c) := r in Ret (y, Again).
  Proof.
    induction l as [|s l IH]; intros x; cbn [app exec_block].
    - destruct x as [m u]. reflexivity.
    - destruct (exec_stmt s x) as [[y []]| |]; cbn [bind]; try reflexivity. apply IH.
  Qed.

  (* ---- steps ------------------------------------------------------------------------------ *)
  Lemma index_some {A} (l : list A) i a : index l i = Ret a -> nth_error l (Z.to_nat i) = Some a.
  Proof. unfold index. destruct (_ && _); [|discriminate]. destruct (nth_error l (Z.to_nat i)); [|discriminate]. congruence. Qed.

  Lemma resume_sim x y n b : sim x y -> m_cs (fst y) <> 0%N ->
    node_at G (m_cs (fst y)) = Ret n -> index (m_data (fst y)) (m_p (fst y)) = Ret b ->
    exists k to c, index block (Z.of_N (Byte.to_N b)) = Ret k /\ index (n_edges n) (Z.of_N k) = Ret (to, c) /\ forallb jumps c = true /\ valid to /\
      match go_label (m_cs (fst x)) (Byte.to_N b) with
      | Some (cs', None) => cs' = to_go to /\ c = []
      | Some (cs', Some f) => cs' = to_go to /\ f_block f = Some (map ren c ++ [SGotoAgain])
      | None => False
      end /\ m_cs (fst x) <> 0%N /\ (m_cs (fst x) <= 193)%N.
  Proof.
    intros (H1 & H2 & H3 & H4 & H5 & H6 & H7 & H8 & H9 & H10 & H11) Nz Hn Hb.
    destruct (node_get _ H10) as (n' & Hn' & K). rewrite Hn in Hn'. injection Hn' as <-.
    unfold node_ok in K. rewrite !andb_true_iff in K. destruct K as [[[[[[[K1 K2] K3] K4] K5] K6] K7] K8].
    apply Nat.eqb_eq in K1. apply N.leb_le in K4. rewrite <- H9 in *.
    replace (N.eqb (m_cs (fst y)) 0) with false in * by (symmetry; apply N.eqb_neq; exact Nz). cbn [orb] in K6.
    assert (Nx : m_cs (fst x) <> 0%N) by (intros Z0; rewrite Z0 in K5; discriminate K5).
    destruct (block_get b) as (k & Hk & Hk' & r & Hr).
    destruct (index_in (n_edges n) (Z.of_N k)) as ([to c] & I & E).
    { assert (N.to_nat k < List.length sigma)%nat by (apply nth_error_Some; congruence). unfold zlen. rewrite K1. lia. }
    replace (Z.to_nat (Z.of_N k)) with (N.to_nat k) in E by lia.
    pose proof (edges_nth _ _ _ _ _ _ K6 Hr E) as Q.
    unfold edge_ok in Q. rewrite !andb_true_iff in Q. destruct Q as [[Q1 Q2] Q3]. apply N.ltb_lt in Q1.
    exists k, to, c. split; [exact Hk|]. split; [exact I|]. split; [exact Q2|]. split; [exact Q1|]. split; [|split; [exact Nx|exact K4]].
    rewrite (uniform_get _ _ _ _ Nx K4 Hk' Hr).
    destruct (go_label (m_cs (fst x)) r) as [[cs' [f|]]|]; [| |discriminate Q3].
    - apply andb_prop in Q3. destruct Q3 as [A1 A2]. apply N.eqb_eq in A1. destruct (f_block f) as [bl|]; [|discriminate A2].
      apply code_eqb_eq in A2. subst. auto.
    - apply andb_prop in Q3. destruct Q3 as [A1 A2]. apply N.eqb_eq in A1. apply code_eqb_eq in A2. auto.
  Qed.

  Lemma table_sim t blk x y c : sim x y -> table_ok t blk (m_cs (fst x)) c = true ->
    exists a, index t (Z.of_N (m_cs (fst x))) = Ret a /\
      match blk a with
      | Some bl => rsim (exec_block bl x) (exec_block c y)
      | None => c = []
      end.
  Proof.
    intros S K. unfold table_ok in K. apply andb_prop in K. destruct K as [K1 K2].
    destruct (index t (Z.of_N (m_cs (fst x)))) as [a| |]; try discriminate K2. exists a. split; [reflexivity|].
    destruct (blk a) as [bl|]; apply code_eqb_eq in K2; [|exact K2]. subst bl. eapply block_sim; [apply le_n|exact K1|exact S].
  Qed.

  Lemma sim_cs x y k : sim x y -> valid k -> sim (set_cs (to_go k) (fst x), snd x) (set_cs k (fst y), snd y).
  Proof. intros (H1 & H2 & H3 & H4 & H5 & H6 & H7 & H8 & H9 & H10 & H11) V. unfold sim. cbn. repeat split; assumption. Qed.
  Lemma sim_p x y : sim x y -> sim (set_p (m_p (fst x) + 1) (fst x), snd x) (set_p (m_p (fst y) + 1) (fst y), snd y).
  Proof. intros (H1 & H2 & H3 & H4 & H5 & H6 & H7 & H8 & H9 & H10 & H11). unfold sim. cbn. repeat split; try assumption. congruence. Qed.

  Inductive at_point : label -> point -> st -> Prop :=
  | at_resume x : m_cs (fst x) <> 0%N -> at_point LResume PResume x
  | at_again x : at_point LAgain PAgain x
  | at_eof x : m_p (fst x) = m_eof (fst x) -> at_point LTestEof PEof x
  | at_out x : at_point LOut PDone x.

  Lemma run_sim fuel : forall l pt x y x' f', at_point l pt x -> sim x y -> run fuel l x = Ret x' -> (fuel <= f')%nat ->
    exists y', rl_run block G f' pt y = Ret y' /\ sim x' y'.
  Proof.
    induction fuel as [fuel IH] using lt_wf_ind. intros l pt x y x' f' P S R L.
    pose proof S as (H1 & H2 & H3 & H4 & H5 & H6 & H7 & H8 & H9 & H10 & H11).
    destruct (node_get _ H10) as (n & Hn & K).
    destruct P as [x Nz|x|x Pe|x].
    - (* a byte *)
      destruct fuel as [|fuel]; [discriminate R|]. destruct f' as [|f']; [lia|]. cbn [run rl_run] in *.
      assert (Nz' : m_cs (fst y) <> 0%N).
      { unfold node_ok in K. rewrite !andb_true_iff in K. destruct K as [[[[[[[K1 K2] K3] K4] K5] K6] K7] K8].
        intros Z0. rewrite Z0 in *. rewrite <- H9 in K5. apply eqb_prop in K5. symmetry in K5. apply N.eqb_eq in K5. contradiction. }
      destruct (index (m_data (fst y)) (m_p (fst y))) as [b| |] eqn:Hb.
      2,3: destruct x as [m u], y as [m' u']; cbn [fst snd] in *; cbn [step] in R; replace (N.eqb (m_cs m) 0) with false in R by (symmetry; apply N.eqb_neq; exact Nz);
        unfold node_ok in K; rewrite !andb_true_iff in K; destruct K as [[[[[[[K1 K2] K3] K4] K5] K6] K7] K8];
        apply N.leb_le in K4; rewrite <- H9 in K4; replace (N.ltb 193 (m_cs m)) with false in R by (symmetry; apply N.ltb_ge; exact K4);
        rewrite H2, H3, Hb in R; discriminate R.
      destruct (resume_sim x y n b S Nz' Hn Hb) as (k0 & to & c & Hk & He & Hj & Hv & Hg & _ & Hmax).
      destruct x as [m u], y as [m' u']; cbn [fst snd] in *. cbn [step] in R. cbn [rl_step].
      replace (N.eqb (m_cs m) 0) with false in R by (symmetry; apply N.eqb_neq; exact Nz).
      replace (N.ltb 193 (m_cs m)) with false in R by (symmetry; apply N.ltb_ge; exact Hmax).
      rewrite H2, H3, Hb in R. rewrite Hn, Hb. cbn [bind] in *. rewrite Hk. cbn [bind]. rewrite He. cbn [bind].
      unfold go_label in Hg. destruct (resume_switch (m_cs m) (Byte.to_N b)) as [k|]; [|contradiction].
      destruct fuel as [|fuel]; [discriminate R|]. cbn [run bind step] in R.
      destruct (tr_block k) as [[cs' [f|]]|]; [| |contradiction].
      + destruct Hg as [-> Ef]. cbn [bind] in R.
        destruct fuel as [|fuel]; [discriminate R|]. cbn [run step] in R. rewrite Ef, exec_app in R.
        pose proof (block_sim _ c (le_n _) Hj _ _ (sim_cs (m, u) (m', u') to S Hv)) as Q. cbn [fst snd] in Q.
        destruct (exec_block (map ren c) (set_cs (to_go to) m, u)) as [[x1 c1]| |]; cbn [bind] in R; try discriminate R.
        destruct (exec_block c (set_cs to m', u')) as [[y1 d1]| |]; cbn [rsim] in Q; try contradiction. cbn [bind fst].
        eapply (IH fuel); [lia|constructor|exact (proj1 Q)|exact R|lia].
      + destruct Hg as [-> ->]. cbn [exec_block bind fst]. cbn [bind] in R.
        eapply (IH fuel); [lia|constructor|exact (sim_cs (m, u) (m', u') to S Hv)|exact R|lia].
    - (* a state has been entered *)
      destruct fuel as [|fuel]; [discriminate R|]. destruct f' as [|f']; [lia|]. cbn [run rl_run] in *.
      unfold node_ok in K. rewrite !andb_true_iff in K. destruct K as [[[[[[[K1 K2] K3] K4] K5] K6] K7] K8]. rewrite <- H9 in *.
      destruct (table_sim _ _ x y _ S K8) as (a & Ha & Q).
      destruct x as [m u], y as [m' u']; cbn [fst snd] in *. cbn [step] in R. cbn [rl_step].
      rewrite Ha in R. rewrite Hn. cbn [bind] in *.
      destruct (to_state_block a) as [bl|].
      + destruct (exec_block bl (m, u)) as [[x1 [|]]| |]; cbn [bind] in R; try discriminate R.
        destruct (exec_block (n_to n) (m', u')) as [[[m1 u1] d1]| |]; cbn [rsim] in Q; try contradiction. destruct Q as [Q <-].
        cbn [bind]. eapply (IH fuel); [lia|constructor|exact Q|exact R|lia].
      + rewrite Q. cbn [exec_block bind]. apply eqb_prop in K5.
        rewrite <- K5 in R. destruct (N.eqb (m_cs m') 0) eqn:Z0; cbn [bind] in R.
        * eapply (IH fuel); [lia|constructor|exact S|exact R|lia].
        * cbn [m_p m_pe set_p] in *. rewrite H3, H4 in R.
          pose proof (sim_p _ _ S) as S'. cbn [fst snd] in S'. rewrite H3 in S'.
          destruct (m_p m' + 1 =? m_pe m') eqn:Ep; cbn [bind] in R.
          -- eapply (IH fuel); [lia| |exact S'|exact R|lia]. constructor. cbn. apply Z.eqb_eq in Ep. congruence.
          -- eapply (IH fuel); [lia| |exact S'|exact R|lia]. constructor. cbn. intros Z1. rewrite Z1 in K5. discriminate K5.
    - (* the end of the text *)
      destruct fuel as [|fuel]; [discriminate R|]. destruct f' as [|f']; [lia|]. cbn [run rl_run] in *.
      unfold node_ok in K. rewrite !andb_true_iff in K. destruct K as [[[[[[[K1 K2] K3] K4] K5] K6] K7] K8]. rewrite <- H9 in *.
      destruct (table_sim _ _ x y _ S K7) as (a & Ha & Q).
      destruct x as [m u], y as [m' u']; cbn [fst snd] in *. cbn [step] in R. cbn [rl_step].
      rewrite Pe, Z.eqb_refl, Ha in R. rewrite Hn. cbn [bind] in *.
      destruct (eof_block a) as [bl|].
      + destruct (exec_block bl (m, u)) as [[x1 c1]| |]; cbn [bind] in R; try discriminate R.
        destruct (exec_block (n_eof n) (m', u')) as [[y1 d1]| |]; cbn [rsim] in Q; try contradiction. destruct Q as [Q <-].
        destruct c1; cbn [bind] in *; (eapply (IH fuel); [lia|constructor|exact Q|exact R|lia]).
      + rewrite Q. cbn [exec_block bind]. eapply (IH fuel); [lia|constructor|exact S|exact R|lia].
    - exists y. split; [destruct f'; reflexivity|]. destruct fuel; cbn [run] in R; injection R as <-; exact S.
  Qed.

  Lemma zero_edge n b : node_at G 0 = Ret n -> node_ok failed 0 n = true ->
    exists k, index block (Z.of_N (Byte.to_N b)) = Ret k /\ index (n_edges n) (Z.of_N k) = Ret (0%N, []).
  Proof.
    intros Hn K. unfold node_ok in K. rewrite !andb_true_iff in K. destruct K as [[[[[[[K1 _] _] _] _] _] _] _]. apply Nat.eqb_eq in K1.
    destruct (block_get b) as (k & Hk & _ & r & Hr). exists k. split; [exact Hk|].
    pose proof OK as Q. unfold check in Q. rewrite !andb_true_iff in Q. destruct Q as [[[[[_ Q] _] _] _] _]. unfold zero_ok in Q.
    apply index_some in Hn. change (Z.to_nat (Z.of_N 0)) with O in Hn. destruct G as [|n0 G']; [discriminate Q|]. injection Hn as ->.
    destruct (index_in (n_edges n) (Z.of_N k)) as ([to c] & I & E).
    { assert (N.to_nat k < List.length sigma)%nat by (apply nth_error_Some; congruence). unfold zlen. rewrite K1. lia. }
    apply nth_error_In in E. rewrite forallb_forall in Q. specialize (Q _ E). cbn [fst snd] in Q. apply andb_prop in Q. destruct Q as [Q1 Q2].
    apply N.eqb_eq in Q1. apply code_eqb_eq in Q2. subst. exact I.
  Qed.

  Lemma parse_sim m s a m' u e : valid a -> m_startParsingAt m = to_go a ->
    machine_Parse m s = Ret (m', u, e) -> rl_Parse block G failed a (m_parsingMode m) s = Ret (m_data m', u, e).
  Proof.
    intros V E R. unfold machine_Parse in R. unfold rl_Parse.
    set (x := (parse_init m s, zeroURN)) in *.
    set (y := (mkMachine s a 0 (zlen s) (zlen s) 0 None a (m_parsingMode m) true, zeroURN)).
    assert (HS : sim x y) by (unfold sim, x, y; cbn; repeat split; assumption).
    assert (F : exists f2, parse_fuel (List.length s) = S (S (S f2))) by (exists (4 * List.length s + 13)%nat; unfold parse_fuel; lia).
    destruct F as [f2 F].
    destruct (run (parse_fuel (List.length s)) LEnter x) as [[m1 u1]| |] eqn:Rr; cbn [bind] in R; try discriminate R.
    assert (Q : exists y', rl_run block G (parse_fuel (List.length s)) (if zlen s =? 0 then PEof else PResume) y = Ret y' /\ sim (m1, u1) y').
    { rewrite F in Rr. remember (S (S f2)) as f1 eqn:Ef1. cbn [run] in Rr. unfold x in Rr. cbn [step] in Rr.
      change (m_p (parse_init m s)) with 0 in Rr. change (m_pe (parse_init m s)) with (zlen s) in Rr.
      change (m_cs (parse_init m s)) with (m_startParsingAt m) in Rr. fold x in Rr.
      destruct (zlen s =? 0) eqn:Ez.
      - apply Z.eqb_eq in Ez. rewrite Ez, Z.eqb_refl in Rr. cbn [bind] in Rr.
        eapply (run_sim f1 LTestEof PEof x y); [constructor; unfold x; cbn; symmetry; exact Ez|exact HS|exact Rr|lia].
      - rewrite Z.eqb_sym, Ez in Rr. destruct (N.eqb (m_startParsingAt m) 0) eqn:Z0; cbn [bind] in Rr.
        + assert (Ha : a = 0%N).
          { destruct (node_get _ V) as (n & Hn & K). unfold node_ok in K. rewrite !andb_true_iff in K. destruct K as [[[[[[[K1 K2] K3] K4] K5] K6] K7] K8].
            apply eqb_prop in K5. rewrite <- E, Z0 in K5. apply N.eqb_eq in K5. exact K5. }
          assert (Hx : (m1, u1) = x) by (destruct f1; cbn [run] in Rr; unfold x in *; congruence).
          rewrite Hx. exists y. split; [|exact HS]. rewrite F, Ef1. subst a.
          destruct (node_get _ V) as (n & Hn & K). destruct s as [|b s]; [discriminate Ez|].
          unfold y. cbn [rl_run rl_step m_cs m_data m_p].
          rewrite Hn. cbn [bind]. change (index (b :: s) 0) with (Ret b). cbn [bind].
          destruct (zero_edge n b Hn K) as (k & Hk & He). rewrite Hk. cbn [bind]. rewrite He. cbn [bind exec_block fst]. cbn [rl_run rl_step m_cs set_cs]. rewrite Hn. cbn [bind].
          assert (Ht : n_to n = []).
          { unfold node_ok in K. rewrite !andb_true_iff in K. destruct K as [[[[[[[K1 K2] K3] K4] K5] K6] K7] K8].
            apply eqb_prop in K5. symmetry in K5. apply N.eqb_eq in K5. rewrite K5 in K8. unfold table_ok in K8. apply andb_prop in K8. destruct K8 as [_ K8].
            vm_compute (index to_state_actions (Z.of_N 0)) in K8. cbn in K8. apply code_eqb_eq in K8. exact K8. }
          rewrite Ht. cbn [exec_block bind m_cs set_cs N.eqb]. reflexivity.
        + eapply (run_sim f1 LResume PResume x y); [constructor; unfold x; cbn; apply N.eqb_neq; exact Z0|exact HS|exact Rr|lia]. }
    destruct Q as ([m2 u2] & Q & S'). rewrite Q. cbn [bind].
    destruct S' as (H1 & H2 & H3 & H4 & H5 & H6 & H7 & H8 & H9 & H10 & H11). cbn [fst snd] in *. subst u2.
    destruct (node_get _ H10) as (n & Hn & K). rewrite Hn. cbn [bind].
    unfold node_ok in K. rewrite !andb_true_iff in K. destruct K as [[[[[[[K1 K2] K3] K4] K5] K6] K7] K8].
    apply eqb_prop in K2. apply eqb_prop in K3. rewrite K2, K3, negb_involutive, <- H9.
    destruct (_ || _); injection R as <- <- <-; rewrite <- H2, <- ?H7; reflexivity.
  Qed.
End Check.
