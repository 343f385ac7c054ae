(* Concurrent Parse calls on one slice: proofs. *)
From Coq Require Import Lia.
From Verif Require Import GoBase MachineSyntax MachineTables Machine Spec Ref Exec SimBase ParseThm RefSpec Api PropsA PropsB
  Conc ConcBase ConcInv ConcEarly.
Local Open Scope Z_scope.

(* ---- one call alone -------------------------------------------------------------- *)
Lemma MI_start m s : reachable m -> MI s LEnter (parse_init m s, zeroURN).
Proof.
  intros H. split; [reflexivity|]. destruct (reach_good m H) as [[G|G] _].
  - left. split; [|exact I]. cbn. rewrite G. reflexivity.
  - right. cbn [early parse_init m_cs m_p m_pb].
    assert (K : (m_startParsingAt m = 1 \/ m_startParsingAt m = 44 \/ m_startParsingAt m = 83)%N) by tauto.
    split; try reflexivity; try (cbn; lia); try (intros; cbn in *; contradiction);
      try (destruct K as [->|[->| ->]]; try reflexivity; discriminate).
Qed.

Lemma parse_steps_fin m s m' uo eo : machine_Parse m s = Ret (m', uo, eo) ->
  exists n y, steps LEnter (parse_init m s, zeroURN) n y /\ finish y = (m', uo, eo).
Proof.
  intros H. unfold machine_Parse in H. destruct (run (parse_fuel (List.length s)) LEnter (parse_init m s, zeroURN)) as [[m2 u]| |] eqn:E;
    cbn [bind] in H; try discriminate H.
  destruct (run_steps _ _ _ _ E) as (n & _ & K). exists n, (m2, u). split; [exact K|].
  unfold finish. destruct (_ || _); injection H as <- <- <-; reflexivity.
Qed.

(* without the last conditions: any run *)
Lemma any_path l x n y : steps l x n y -> exists k, mpath (okay False []) (At l, x) k (At LOut, y).
Proof.
  induction 1 as [x|l x l' x' n y Hl Hs H [k IH]].
  - exists 0%nat. apply mp_nil. intros [].
  - destruct (step_path False [] l x l' x' Hs Hl) as [k1 K1]; [intros []|intros []|].
    eexists. eapply mpath_app; [exact K1|exact IH].
Qed.

(* nothing is ever written when the escapes are plain *)
Lemma plain_path s l x n y : steps l x n y -> MI s l x -> plain_escapes s ->
  exists k, mpath (okay True s) (At l, x) k (At LOut, y).
Proof.
  intros H HM Hp. revert HM. induction H as [x|l x l' x' n y Hl Hs H IH]; intros HM.
  - exists 0%nat. apply mp_nil. intros _. split; [apply HM|exact I].
  - pose proof HM as [Hd _]. destruct (MI_step s l x l' x' HM Hl Hs) as [[C HM']|(W & _ & _ & HM')].
    + destruct (IH HM') as [k K]. destruct (step_path True s l x l' x' Hs Hl) as [k1 K1].
      * intros _. split; [exact Hd|]. destruct C as [_ C]. destruct (block_of l (fst x)); [left; exact C|exact I].
      * intros _. apply HM'.
      * eexists. eapply mpath_app; [exact K1|exact K].
    + specialize (HM' Hp). destruct (IH HM') as [k K]. destruct (step_path True s l x l' x' Hs Hl) as [k1 K1].
      * intros _. split; [exact Hd|]. destruct W as (_ & _ & WT & pre & post & -> & S1 & S2).
        right. split; [exact (WT Hp)|exact (writes_noLow _ _ S1 S2)].
      * intros _. apply HM'.
      * eexists. eapply mpath_app; [exact K1|exact K].
Qed.

(* ---- several calls ----------------------------------------------------------------- *)
Lemma nth_set_same {A} n (v : A) l : (n < List.length l)%nat -> nth_error (set_nth n v l) n = Some v.
Proof. revert l; induction n as [|n IH]; intros [|a l] L; cbn in *; try lia; auto. apply IH. lia. Qed.
Lemma nth_set_other {A} n k (v : A) l : n <> k -> nth_error (set_nth n v l) k = nth_error l k.
Proof. revert k l; induction n as [|n IH]; intros [|k] [|a l] L; cbn in *; try lia; auto. Qed.
Lemma set_nth_len {A} n (v : A) l : List.length (set_nth n v l) = List.length l.
Proof. revert l; induction n as [|n IH]; intros [|a l]; cbn; auto. Qed.
Lemma set_data_id m : set_data (m_data m) m = m.
Proof. destruct m; reflexivity. Qed.

Definition first (s : bytes) (m : machine) : thread := (At LEnter, (parse_init m s, zeroURN)).

(* call i is where it would be after as many steps alone *)
Definition alone (s : bytes) (ms : list machine) (k : nat -> nat) (c : conf) : Prop :=
  buf c = s /\ List.length (calls c) = List.length ms /\
  forall i m, nth_error ms i = Some m ->
    exists t, mrun (k i) (first s m) = Ret t /\ nth_error (calls c) i = Some t.

Lemma mrun_snoc k t t1 : mrun k t = Ret t1 -> mrun (S k) t = mstep t1.
Proof.
  intros H. replace (S k) with (k + 1)%nat by lia. rewrite mrun_add, H. cbn. destruct (mstep t1); reflexivity.
Qed.

Lemma alone_run s ms : (forall m, List.In m ms -> forall k, exists t, mrun k (first s m) = Ret t /\ m_data (fst (snd t)) = s) ->
  forall sched k c, alone s ms k c ->
  exists c', crun sched c = Ret c' /\ alone s ms (fun i => (k i + count_occ Nat.eq_dec sched i)%nat) c'.
Proof.
  intros Hq. induction sched as [|j sched IH]; intros k c Hc.
  - exists c. split; [reflexivity|]. destruct Hc as (H1 & H2 & H3). split; [exact H1|]. split; [exact H2|].
    intros i m Hm. destruct (H3 i m Hm) as (t & K1 & K2). exists t. cbn [count_occ]. rewrite Nat.add_0_r. auto.
  - destruct Hc as (H1 & H2 & H3). cbn [crun]. unfold cstep.
    destruct (nth_error (calls c) j) as [t|] eqn:Ej.
    + assert (Lj : (j < List.length ms)%nat) by (rewrite <- H2; apply nth_error_Some; congruence).
      destruct (nth_error ms j) as [m|] eqn:Em; [|apply nth_error_None in Em; lia].
      destruct (H3 j m Em) as (t0 & K1 & K2). rewrite K2 in Ej. injection Ej as ->.
      pose proof (nth_error_In _ _ Em) as Hin.
      destruct (Hq m Hin (k j)) as (t' & E1 & E2). rewrite K1 in E1. injection E1 as <-.
      destruct (Hq m Hin (S (k j))) as (t1 & F1 & F2). rewrite (mrun_snoc _ _ _ K1) in F1.
      destruct t as [pc [mm u]]. cbn [fst snd] in E2.
      assert (Es : set_data (buf c) mm = mm) by (rewrite H1, <- E2; apply set_data_id).
      assert (Ec : forall r, mstep (pc, (mm, u)) = r -> (do c' <- (do t <- mstep (pc, (set_data (buf c) mm, u));
            Ret (mkConf (m_data (fst (snd t))) (set_nth j t (calls c)))); crun sched c') =
          (do c' <- (do t <- r; Ret (mkConf (m_data (fst (snd t))) (set_nth j t (calls c)))); crun sched c'))
        by (intros r <-; rewrite Es; reflexivity).
      rewrite (Ec _ F1). clear Ec. cbn [bind].
      destruct (IH (fun i => if Nat.eq_dec j i then S (k i) else k i) (mkConf (m_data (fst (snd t1))) (set_nth j t1 (calls c)))) as (c' & C1 & C2).
      * split; [cbn; congruence|]. split; [cbn [calls]; rewrite set_nth_len; exact H2|].
        intros i m0 Hm0. cbn [calls]. destruct (Nat.eq_dec j i) as [<-|Hne].
        -- rewrite Em in Hm0. injection Hm0 as <-. exists t1. rewrite (mrun_snoc _ _ _ K1). split; [exact F1|].
           apply nth_set_same. rewrite H2. exact Lj.
        -- rewrite nth_set_other by exact Hne. exact (H3 i m0 Hm0).
      * exists c'. split; [exact C1|]. destruct C2 as (C2 & C3 & C4). split; [exact C2|]. split; [exact C3|].
        intros i m0 Hm0. destruct (C4 i m0 Hm0) as (tt & D1 & D2). exists tt. split; [|exact D2].
        rewrite <- D1. f_equal. cbn [count_occ]. destruct (Nat.eq_dec j i); lia.
    + cbn [bind]. destruct (IH k c (conj H1 (conj H2 H3))) as (c' & C1 & C2). exists c'. split; [exact C1|].
      destruct C2 as (C2 & C3 & C4). split; [exact C2|]. split; [exact C3|].
      intros i m0 Hm0. destruct (C4 i m0 Hm0) as (tt & D1 & D2). exists tt. split; [|exact D2].
      rewrite <- D1. f_equal. cbn [count_occ]. destruct (Nat.eq_dec j i) as [->|_]; [|lia].
      apply nth_error_None in Ej. assert (i < List.length ms)%nat by (apply nth_error_Some; congruence). lia.
Qed.

Lemma alone_start s ms : alone s ms (fun _ => 0%nat) (cstart s ms).
Proof.
  split; [reflexivity|]. split; [apply map_length|]. intros i m Hm. exists (first s m). split; [reflexivity|].
  unfold cstart. cbn [calls]. apply (map_nth_error (fun m => (At LEnter, (parse_init m s, zeroURN)))) in Hm. exact Hm.
Qed.

Lemma call_path s m : reachable m -> plain_escapes s ->
  exists K y, mpath (okay True s) (first s m) K (At LOut, y) /\ machine_Parse m s = Ret (finish y).
Proof.
  intros H Hp. destruct (parse_reach m s H) as (m' & uo & eo & E & _).
  destruct (parse_steps_fin _ _ _ _ _ E) as (n & y & Hs & Hf).
  destruct (plain_path s _ _ _ _ Hs (MI_start m s H) Hp) as [K HK]. exists K, y. split; [exact HK|]. rewrite Hf. exact E.
Qed.

Theorem conc_safe s ms sched : Forall reachable ms -> plain_escapes s ->
  exists c, crun sched (cstart s ms) = Ret c /\ buf c = s /\ (forall i, ~ about_to_write c i) /\
    (forall i m r, nth_error ms i = Some m -> returned c i r -> machine_Parse m s = Ret r).
Proof.
  intros Hms Hp. rewrite Forall_forall in Hms.
  destruct (alone_run s ms) with (sched := sched) (k := fun _ : nat => 0%nat) (c := cstart s ms) as (c & C1 & C2 & C3 & C4).
  - intros m Hm k. destruct (call_path s m (Hms m Hm) Hp) as (K & y & HK & _).
    destruct (mpath_at _ _ _ _ k HK) as (t & T1 & T2 & _). exists t. split; [exact T1|]. exact (proj1 (T2 I)).
  - apply alone_start.
  - exists c. split; [exact C1|]. split; [exact C2|]. split.
    + intros i (it & rest & a & x & Hi & Hw).
      assert (Li : (i < List.length ms)%nat) by (rewrite <- C3; apply nth_error_Some; congruence).
      destruct (nth_error ms i) as [m|] eqn:Em; [|apply nth_error_None in Em; lia].
      destruct (C4 i m Em) as (t & T1 & T2). rewrite Hi in T2. injection T2 as <-.
      destruct (call_path s m (Hms m (nth_error_In _ _ Em)) Hp) as (K & y & HK & _).
      destruct (mpath_at _ _ _ _ (0 + count_occ Nat.eq_dec sched i) HK) as (t & U1 & U2 & _). rewrite T1 in U1. injection U1 as <-.
      destruct (U2 I) as [_ U3]. cbn in U3. destruct it; contradiction.
    + intros i m r Em (x & Hx & Hf). destruct (C4 i m Em) as (t & T1 & T2). rewrite Hx in T2. injection T2 as <-.
      destruct (call_path s m (Hms m (nth_error_In _ _ Em)) Hp) as (K & y & HK & HP).
      set (k := (0 + count_occ Nat.eq_dec sched i)%nat) in *.
      assert (Q : mrun (k + K) (first s m) = Ret (At LOut, x)) by (rewrite mrun_add, T1; cbn [bind]; apply mrun_out).
      destruct (mpath_at _ _ _ _ (k + K) HK) as (t & U1 & _ & U3). rewrite Q in U1. injection U1 as <-.
      specialize (U3 ltac:(lia)). injection U3 as ->. rewrite HP, Hf. reflexivity.
Qed.

Theorem conc_finish s ms : Forall reachable ms -> plain_escapes s ->
  exists K, forall sched c, crun sched (cstart s ms) = Ret c ->
    forall i, (i < List.length ms)%nat -> (K <= count_occ Nat.eq_dec sched i)%nat -> exists r, returned c i r.
Proof.
  intros Hms Hp.
  assert (B : exists K, forall m, List.In m ms -> exists n y, (n <= K)%nat /\ mpath (okay True s) (first s m) n (At LOut, y)).
  { clear -Hms Hp. induction Hms as [|m ms Hm Hms [K IH]]; [exists 0%nat; intros m []|].
    destruct (call_path s m Hm Hp) as (n & y & HK & _). exists (n + K)%nat. intros m' [<-|Hi].
    - exists n, y. split; [lia|exact HK].
    - destruct (IH m' Hi) as (n' & y' & L & HK'). exists n', y'. split; [lia|exact HK']. }
  destruct B as [K B]. exists K. intros sched c Hc i Li Hk. rewrite Forall_forall in Hms.
  destruct (alone_run s ms) with (sched := sched) (k := fun _ : nat => 0%nat) (c := cstart s ms) as (c' & C1 & C2 & C3 & C4).
  - intros m Hm k. destruct (B m Hm) as (n & y & _ & HK).
    destruct (mpath_at _ _ _ _ k HK) as (t & T1 & T2 & _). exists t. split; [exact T1|]. exact (proj1 (T2 I)).
  - apply alone_start.
  - rewrite Hc in C1. injection C1 as <-.
    destruct (nth_error ms i) as [m|] eqn:Em; [|apply nth_error_None in Em; lia].
    destruct (C4 i m Em) as (t & T1 & T2). destruct (B m (nth_error_In _ _ Em)) as (n & y & L & HK).
    destruct (mpath_at _ _ _ _ (0 + count_occ Nat.eq_dec sched i) HK) as (t' & U1 & _ & U3). rewrite T1 in U1. injection U1 as <-.
    rewrite (U3 ltac:(lia)) in T2. exists (finish y), y. auto.
Qed.

(* ---- upper-case escapes: calls disturb each other -------------------------------------- *)
Lemma update_len {A} (d : list A) i v d' : update d i v = Ret d' -> List.length d' = List.length d.
Proof. unfold update. destruct (_ && _); [|discriminate]. intros [= <-]. apply set_nth_len. Qed.
Lemma for_len dd T pb d d' : for_tolower dd T pb d = Ret d' -> List.length d' = List.length d.
Proof.
  revert d; induction T as [|i T IH]; intros d H; cbn [for_tolower] in H; [injection H as <-; reflexivity|].
  destruct (index d (pb + i)); cbn [bind] in H; try discriminate H.
  destruct (update d (pb + i) (byte_add a dd)) as [d1| |] eqn:E; cbn [bind] in H; try discriminate H.
  rewrite (IH _ H). exact (update_len _ _ _ _ E).
Qed.
Lemma for_low dd T pb d d' j : for_tolower dd T pb d = Ret d' -> (forall i, List.In i T -> 0 <= i) ->
  Z.of_nat j < pb -> nth_error d' j = nth_error d j.
Proof.
  intros H HT Hj. revert d H; induction T as [|i T IH]; intros d H; cbn [for_tolower] in H; [injection H as <-; reflexivity|].
  destruct (index d (pb + i)); cbn [bind] in H; try discriminate H.
  destruct (update d (pb + i) (byte_add a dd)) as [d1| |] eqn:E; cbn [bind] in H; try discriminate H.
  rewrite (IH (fun i Hi => HT i (or_intror Hi)) _ H). unfold update in E. destruct (_ && _); [|discriminate E].
  injection E as <-. apply nth_set_other. pose proof (HT i (or_introl eq_refl)). lia.
Qed.

Lemma side_eff l m u m' u' c : forallb side l = true -> exec_block l (m, u) = Ret ((m', u'), c) ->
  m' = m /\ u_tolower u' = u_tolower u /\ u_norm u' = u_norm u /\ u_SS u' = u_SS u.
Proof.
  revert m u; induction l as [|a l IH]; intros m u Hs H.
  - injection H as <- <- <-. auto.
  - cbn [forallb] in Hs. apply andb_prop in Hs. destruct Hs as [Ha Hs]. cbn [exec_block] in H.
    destruct a; try discriminate Ha; cbn [exec_stmt] in H.
    + injection H as <- <- <-. auto.
    + cbn [bind] in H. apply IH in H; [|exact Hs]. exact H.
    + destruct (u_scim u) as [sc|]; [|discriminate H]. destruct (slice (m_data m) (s_pos sc) (m_p m)); cbn [bind] in H; try discriminate H.
      apply IH in H; [|exact Hs]. exact H.
    + destruct (u_scim u) as [sc|]; [|discriminate H]. destruct (slice (m_data m) (s_pos sc) (m_p m)); cbn [bind] in H; try discriminate H.
      apply IH in H; [|exact Hs]. exact H.
Qed.

Lemma step_block l m u l' x' b : step l (m, u) = Ret (l', x') -> block_of l m = Some b ->
  exists a c, mstep (At l, (m, u)) = Ret (In (map IStmt b) a, (m, u)) /\ exec_block b (m, u) = Ret (x', c).
Proof.
  destruct l; cbn [block_of step mstep]; intros H Hb; try discriminate Hb.
  - rewrite Hb in *. destruct (exec_block b (m, u)) as [[y [|]]| |]; cbn [bind] in H; try discriminate H.
    injection H as <- <-. eauto.
  - destruct (index to_state_actions (Z.of_N (m_cs m))) as [a| |]; cbn [bind] in *; try discriminate H. rewrite Hb in *.
    destruct (exec_block b (m, u)) as [[y [|]]| |]; cbn [bind] in H; try discriminate H. injection H as <- <-. eauto.
  - destruct (m_p m =? m_eof m); [|discriminate Hb].
    destruct (index eof_actions (Z.of_N (m_cs m))) as [a| |]; cbn [bind] in *; try discriminate H. rewrite Hb in *.
    destruct (exec_block b (m, u)) as [[y c]| |]; cbn [bind] in H; try discriminate H.
    destruct c; injection H as <- <-; eauto.
Qed.

Lemma mrun_S t t1 k : mstep t = Ret t1 -> mrun (S k) t = mrun k t1.
Proof. intros H. cbn [mrun]. rewrite H. reflexivity. Qed.

Definition disturbed (s d : bytes) : Prop :=
  List.length d = List.length s /\ (forall j, (j < 3)%nat -> nth_error d j = nth_error s j) /\ d <> s.

Lemma writer_disturbs s l x l' x' : writer s l x -> m_data (fst x) = s -> step l x = Ret (l', x') ->
  u_norm (snd x) = u_SS (snd x) -> u_norm (snd x') <> u_SS (snd x') ->
  exists k t, mrun k (At l, x) = Ret t /\ disturbed s (m_data (fst (snd t))).
Proof.
  destruct x as [m u], x' as [m' u']. cbn [fst snd]. intros (Hpb & HT & _ & pre & post & Hb & S1 & S2) Hd Hs He Hne.
  cbn [fst snd] in *. destruct (step_block _ _ _ _ _ _ Hs Hb) as (a & c & Hm & Hx).
  unfold nss_writes in Hx. rewrite exec_app in Hx.
  destruct (exec_block pre (m, u)) as [[[m0 u0] c0]| |] eqn:E0; cbn [bind] in Hx; try discriminate Hx.
  destruct (side_eff _ _ _ _ _ _ S1 E0) as (-> & A1 & A2 & A3).
  destruct c0; [|injection Hx as <- <- <-; congruence].
  pose proof Hx as Hx0.
  cbn [exec_block exec_stmt] in Hx.
  destruct (text m) as [t1| |] eqn:Et; cbn [bind] in Hx; try discriminate Hx. rename E0 into E0'.
  destruct (for_tolower 32 (u_tolower (uset_SS t1 u0)) (m_pb m) (m_data m)) as [d1| |] eqn:Ef; cbn [bind] in Hx; try discriminate Hx.
  destruct (text (set_data d1 m)) as [t2| |] eqn:Et2; cbn [bind] in Hx; try discriminate Hx.
  match type of Hx with context [for_tolower (-32) ?T ?p ?d] => destruct (for_tolower (-32) T p d) as [d2| |] end; cbn [bind] in Hx; try discriminate Hx.
  destruct (side_eff _ _ _ _ _ _ S2 Hx) as (-> & B1 & B2 & B3). cbn [uset_norm uset_SS u_norm u_SS u_tolower] in B1, B2, B3, Ef.
  set (l1 := pre ++ [SSetSS; SForTolower 32]).
  assert (E1 : exec_block l1 (m, u) = Ret ((set_data d1 m, uset_SS t1 u0), Fall)).
  { unfold l1. rewrite exec_app, E0'. cbn [bind exec_block exec_stmt]. rewrite Et. cbn [bind].
    cbn [uset_SS u_tolower]. rewrite Ef. reflexivity. }
  destruct (block_path False [] (bsize l1) l1 (m, u) (set_data d1 m, uset_SS t1 u0) Fall
              (map IStmt (SSetNorm :: SForTolower (-32) :: post)) a (le_n _) E1) as [k K]; try (intros []; fail).
  { intros _ []. }
  exists (S k), (In (map IStmt (SSetNorm :: SForTolower (-32) :: post)) a, (set_data d1 m, uset_SS t1 u0)).
  split.
  - etransitivity; [exact (mrun_S _ _ k Hm)|]. apply mpath_mrun in K. cbn [stop_at] in K. etransitivity; [|exact K]. f_equal.
    unfold l1, nss_writes. rewrite <- map_app, <- app_assoc. reflexivity.
  - cbn [fst snd set_data m_data]. rewrite <- Hd. split; [exact (for_len _ _ _ _ _ Ef)|]. split.
    + intros j Hj. eapply for_low; [exact Ef|rewrite A1; exact HT|lia].
    + intros ->. unfold text in Et, Et2. cbn [set_data m_data m_pb m_p] in Et2. rewrite Et in Et2. injection Et2 as <-.
      apply Hne. congruence.
Qed.

Lemma late_steps l x n y : steps l x n y -> late l x -> u_norm (snd y) = u_norm (snd x) /\ u_SS (snd y) = u_SS (snd x).
Proof.
  induction 1 as [x|l x l' x' n y Hl Hs H IH]; intros HL; [auto|].
  destruct (late_step _ _ _ _ HL Hl Hs) as [K1 [(_ & K2 & K3) _]]. destruct (IH K1) as [K4 K5]. split; congruence.
Qed.

Lemma run_disturbs s l x n y : steps l x n y -> MI s l x -> u_norm (snd x) = u_SS (snd x) ->
  u_norm (snd y) <> u_SS (snd y) ->
  exists k t, mrun k (At l, x) = Ret t /\ disturbed s (m_data (fst (snd t))).
Proof.
  induction 1 as [x|l x l' x' n y Hl Hs H IH]; intros HM He Hne; [contradiction|].
  destruct (MI_step s l x l' x' HM Hl Hs) as [[C HM']|(W & _ & L & _)].
  - destruct C as [(_ & C1 & C2) _]. destruct (IH HM') as (k & t & K1 & K2); [congruence|exact Hne|].
    destruct (step_path False [] l x l' x' Hs Hl) as [k1 P1]; [intros []|intros []|]. apply mpath_mrun in P1.
    exists (S k1 + k)%nat, t. rewrite mrun_add, P1. auto.
  - eapply writer_disturbs; eauto; [apply HM|].
    destruct L as [->|L].
    + inversion H; subst; [exact Hne|contradiction].
    + destruct (late_steps _ _ _ _ H L) as [K1 K2]. congruence.
Qed.

(* running call 0, then call 1 *)
Lemma crun_app a b c : crun (a ++ b) c = do c' <- crun a c; crun b c'.
Proof. revert c; induction a as [|i a IH]; intros c; [reflexivity|]. cbn. destruct (cstep i c); cbn; auto. Qed.

Lemma cstep_eq c i (pc : tpc) (m : machine) (u : URN) (t : thread) : nth_error (calls c) i = Some (pc, (m, u)) ->
  mstep (pc, (set_data (buf c) m, u)) = Ret t -> cstep i c = Ret (mkConf (m_data (fst (snd t))) (set_nth i t (calls c))).
Proof.
  intros H1 H2. unfold cstep. rewrite H1.
  transitivity (do t <- mstep (pc, (set_data (buf c) m, u)); Ret (mkConf (m_data (fst (snd t))) (set_nth i t (calls c)))); [reflexivity|].
  transitivity (do t <- Ret t; Ret (mkConf (m_data (fst (snd t))) (set_nth i t (calls c)))); [|reflexivity].
  rewrite <- H2. reflexivity.
Qed.
Lemma crun_one d i c pc m u k t : nth_error (calls c) i = Some (pc, (m, u)) -> buf c = d ->
  mrun k (pc, (set_data d m, u)) = Ret t -> (0 < k)%nat ->
  exists c', crun (repeat i k) c = Ret c' /\ buf c' = m_data (fst (snd t)) /\ nth_error (calls c') i = Some t /\
    (forall j, j <> i -> nth_error (calls c') j = nth_error (calls c) j).
Proof.
  intros Hi Hb Hr Hk. revert c pc m u d Hi Hb Hr. destruct k as [|k]; [lia|]. clear Hk.
  induction k as [|k IH]; intros c pc m u d Hi Hb Hr.
  - cbn [mrun] in Hr. destruct (mstep (pc, (set_data d m, u))) as [t1| |] eqn:E; cbn [bind] in Hr; try discriminate Hr.
    injection Hr as ->. cbn [repeat crun].
    exists (mkConf (m_data (fst (snd t))) (set_nth i t (calls c))). split.
    + rewrite (cstep_eq c i pc m u t Hi) by (rewrite Hb; exact E). reflexivity.
    + cbn [buf calls]. split; [reflexivity|]. split; [apply nth_set_same, nth_error_Some; congruence|].
      intros j Hj. apply nth_set_other. auto.
  - change (mrun (S (S k)) (pc, (set_data d m, u))) with (do t1 <- mstep (pc, (set_data d m, u)); mrun (S k) t1) in Hr.
    destruct (mstep (pc, (set_data d m, u))) as [[pc1 [m1 u1]]| |] eqn:E; try discriminate Hr.
    change (mrun (S k) (pc1, (m1, u1)) = Ret t) in Hr.
    set (c1 := mkConf (m_data m1) (set_nth i (pc1, (m1, u1)) (calls c))).
    assert (Hi1 : nth_error (calls c1) i = Some (pc1, (m1, u1))) by (apply nth_set_same, nth_error_Some; congruence).
    destruct (IH c1 pc1 m1 u1 (m_data m1) Hi1 eq_refl) as (c' & C1 & C2 & C3 & C4); [rewrite set_data_id; exact Hr|].
    exists c'. split.
    + change (repeat i (S (S k))) with (i :: repeat i (S k)). cbn [crun].
      assert (Ec : cstep i c = Ret c1) by (apply (cstep_eq c i pc m u (pc1, (m1, u1)) Hi); rewrite Hb; exact E).
      rewrite Ec. exact C1.
    + split; [exact C2|]. split; [exact C3|]. intros j Hj. rewrite C4 by exact Hj. apply nth_set_other. auto.
Qed.

Lemma set_parse_init m s d : List.length d = List.length s -> set_data d (parse_init m s) = parse_init m d.
Proof. intros H. unfold parse_init, set_data. cbn. unfold zlen. rewrite H. reflexivity. Qed.

(* the five parts of the text that the caller gets back *)
Definition five (u : URN) := (u_ID u, u_SS u, u_r u, u_q u, u_f u).

(* two texts with the same five parts and the same first three bytes are the same *)
Lemma opt_same (f g : option bytes) (P : bytes -> Prop) : (forall w, P w -> w <> []) -> opt_ok P f -> opt_ok P g ->
  opt_val f = opt_val g -> f = g.
Proof.
  intros HP Hf Hg E. destruct f as [f|], g as [g|]; cbn in *; subst; try reflexivity.
  - destruct (HP _ Hf eq_refl).
  - destruct (HP _ Hg eq_refl).
Qed.
Lemma comp_ne w : component w -> w <> [].
Proof. intros (_ & c & r & -> & _). discriminate. Qed.

Lemma first3 (p p' a b : bytes) : List.length p = 3%nat -> List.length p' = 3%nat ->
  (forall j, (j < 3)%nat -> nth_error (p' ++ b) j = nth_error (p ++ a) j) -> p' = p.
Proof.
  intros L L' H. destruct p as [|x [|y [|z [|]]]]; try discriminate L. destruct p' as [|x' [|y' [|z' [|]]]]; try discriminate L'.
  pose proof (H 0%nat ltac:(lia)) as H0. pose proof (H 1%nat ltac:(lia)) as H1. pose proof (H 2%nat ltac:(lia)) as H2.
  cbn in H0, H1, H2. congruence.
Qed.
Lemma word3 p : urn_word p -> List.length p = 3%nat.
Proof. intros H. apply (f_equal (@List.length byte)) in H. unfold lowers in H. rewrite map_length in H. exact H. Qed.

Lemma five_text mode s d u v : three mode -> parsed mode s u -> parsed mode d v -> disturbed s d -> five u <> five v.
Proof.
  intros H3 Hu Hv (Hlen & H0 & Hne) E. unfold five in E. injection E as E1 E2 E3 E4 E5. apply Hne.
  destruct H3 as [->|[->| ->]].
  - destruct (parts2141 _ _ Hu) as (p & (-> & W & _) & _). destruct (parts2141 _ _ Hv) as (p' & (-> & W' & _) & _).
    rewrite (first3 p p' _ _ (word3 _ W) (word3 _ W') H0). rewrite E1, E2. reflexivity.
  - destruct (partsscim _ _ Hu) as (p & t & sc & (-> & W & _) & _ & _ & _ & _ & S & _).
    destruct (partsscim _ _ Hv) as (p' & t' & sc' & (-> & W' & _) & _ & _ & _ & _ & S' & _).
    rewrite (first3 p p' _ _ (word3 _ W) (word3 _ W') H0). rewrite <- S, <- S', E2. reflexivity.
  - destruct (parts8141 _ _ Hu) as (p & r & q & f & (-> & W & _ & _ & R1 & R2 & R3) & _ & _ & _ & _ & A1 & A2 & A3).
    destruct (parts8141 _ _ Hv) as (p' & r' & q' & f' & (-> & W' & _ & _ & R1' & R2' & R3') & _ & _ & _ & _ & A1' & A2' & A3').
    rewrite (first3 p p' _ _ (word3 _ W) (word3 _ W') H0).
    assert (Er : r = r').
    { apply (opt_same r r' r_component); auto; [intros w [Hc _]; exact (comp_ne w Hc)|congruence]. }
    assert (Eq : q = q').
    { apply (opt_same q q' q_component); auto; [intros w [Hc _]; exact (comp_ne w Hc)|congruence]. }
    subst r' q'. rewrite E1, E2 in *. 
    assert (Ef : f = f').
    { assert (Ev : opt_val f = opt_val f') by congruence.
      unfold tail8141 in Hlen. rewrite !app_length in Hlen.
      rewrite (word3 _ W), (word3 _ W') in Hlen.
      destruct f as [f|], f' as [f'|]; cbn in Ev; subst; try reflexivity; cbn in Hlen; lia. }
    subst f'. reflexivity.
Qed.

Theorem conc_disturbed m s m' u : reachable m -> three (m_parsingMode m) ->
  machine_Parse m s = Ret (m', Some u, None) -> u_norm u <> u_SS u ->
  exists sched c r, crun sched (cstart s [m; m]) = Ret c /\ returned c 1 r /\
    forall m2 u2 e2, r = (m2, Some u2, e2) -> five u2 <> five u.
Proof.
  intros H H3 Hp Hne. destruct (parse_steps_fin _ _ _ _ _ Hp) as (n & y & Hs & Hf).
  assert (Hy : snd y = u).
  { destruct y as [my uy]. unfold finish in Hf. destruct (_ || _); [discriminate Hf|]. injection Hf as _ Hf. exact Hf. }
  destruct (run_disturbs s _ _ _ _ Hs (MI_start m s H) eq_refl) as (k & t & K1 & K2); [rewrite Hy; exact Hne|].
  set (d := m_data (fst (snd t))) in *.
  destruct (parse_reach m d H) as (m2 & uo & eo & Hp2 & _).
  destruct (parse_steps_fin _ _ _ _ _ Hp2) as (n2 & y2 & Hs2 & Hf2).
  destruct (any_path _ _ _ _ Hs2) as [k2 P2]. apply mpath_mrun in P2.
  destruct k as [|k]; [injection K1 as <-; destruct K2 as (_ & _ & K2); destruct (K2 eq_refl)|].
  assert (Hi0 : nth_error (calls (cstart s [m; m])) 0 = Some (At LEnter, (parse_init m s, zeroURN))) by reflexivity.
  destruct (crun_one s 0 (cstart s [m; m]) _ _ _ (S k) t Hi0 eq_refl) as (c1 & C1 & C2 & C3 & C4); [|lia|].
  { replace (set_data s (parse_init m s)) with (parse_init m s) by reflexivity. exact K1. }
  destruct k2 as [|k2]; [discriminate P2|].
  assert (Hi1 : nth_error (calls c1) 1 = Some (At LEnter, (parse_init m s, zeroURN))) by (rewrite C4 by discriminate; reflexivity).
  destruct (crun_one d 1 c1 _ _ _ (S k2) (At LOut, y2) Hi1 C2) as (c2 & D1 & D2 & D3 & D4); [|lia|].
  { rewrite set_parse_init by (apply K2). exact P2. }
  exists (repeat 0%nat (S k) ++ repeat 1%nat (S k2)), c2, (m2, uo, eo). split; [rewrite crun_app, C1; exact D1|].
  split; [exists y2; auto|]. intros m3 u3 e3 [= -> -> ->] E.
  assert (He : e3 = None).
  { destruct (parse_reach_inv _ _ _ _ _ H Hp2) as (_ & _ & _ & O). apply outcome_eq in O. destruct e3; [contradiction|reflexivity]. }
  subst e3.
  apply (five_text (m_parsingMode m) s d u u3); auto; [exists m, m'; auto|exists m, m3; auto].
Qed.

(* the condition in terms of the text *)
Lemma low_upper c : upper c = true -> low c <> c.
Proof. destruct c; vm_compute; congruence. Qed.
Lemma low_notupper c : upper c = false -> low c = c.
Proof. unfold low. intros ->. reflexivity. Qed.
Lemma nth_error_ext_local {A} (a b : list A) : (forall i, nth_error a i = nth_error b i) -> a = b.
Proof.
  revert b; induction a as [|x a IH]; intros [|y b] H; try reflexivity; try (specialize (H 0%nat); discriminate H).
  pose proof (H 0%nat) as H0. injection H0 as ->. f_equal. apply IH. intros i. exact (H (S i)).
Qed.
Lemma no_upper_iff (cls : byte -> bool) w : cls "%"%byte = false -> escaped alnum cls w -> (no_upper_escape w <-> norm_pct w = w).
Proof.
  intros Hc H. pose proof (norm_at cls w Hc H) as N. split.
  - intros Hn. apply nth_error_ext_local. intros i. rewrite N. destruct (nth_error w i) as [c|] eqn:E; [|reflexivity].
    cbn. destruct (after_pctb w i) eqn:Ea; [|reflexivity]. apply after_pctb_iff in Ea. rewrite (low_notupper _ (Hn i c E Ea)). reflexivity.
  - intros E i c Hi Ha. specialize (N i). rewrite E, Hi in N. apply after_pctb_iff in Ha. rewrite Ha in N. cbn in N.
    injection N as N. destruct (upper c) eqn:Eu; [|reflexivity]. destruct (low_upper c Eu). auto.
Qed.

Lemma forall_not (cls : byte -> bool) w x : forallb cls w = true -> cls x = false -> ~ List.In x w.
Proof. intros H Hx Hi. rewrite forallb_forall in H. rewrite (H x Hi) in Hx. discriminate Hx. Qed.
Lemma word_not p x : urn_word p -> low x <> "u"%byte -> low x <> "r"%byte -> low x <> "n"%byte -> ~ List.In x p.
Proof.
  intros H H1 H2 H3 Hi. apply (in_map low) in Hi. unfold urn_word, lowers in H. rewrite H in Hi.
  cbn in Hi. destruct Hi as [Hi|[Hi|[Hi|[]]]]; congruence.
Qed.

(* where the NSS is *)
Lemma parsed_split mode s u : three mode -> parsed mode s u ->
  exists a z, s = a ++ u_SS u ++ z /\ ~ List.In "%"%byte a /\ ~ List.In "?"%byte a /\ ~ List.In "#"%byte a /\
    (z = [] \/ exists c z', z = c :: z' /\ (c = "?"%byte \/ c = "#"%byte)).
Proof.
  intros [->|[->| ->]] H.
  - destruct (parts2141 _ _ H) as (p & (E & W & (_ & _ & N & _) & _) & _).
    exists (p ++ colon ++ u_ID u ++ colon), []. rewrite app_nil_r.
    split; [rewrite E, <- !app_assoc; reflexivity|].
    assert (K : forall x, nid_char x = false -> x <> ":"%byte -> low x <> "u"%byte -> low x <> "r"%byte -> low x <> "n"%byte ->
              ~ List.In x (p ++ colon ++ u_ID u ++ colon)).
    { intros x K1 K0 K2 K3 K4. rewrite !in_app_iff. intros [K|[[K|[]]|[K|[K|[]]]]]; [exact (word_not p x W K2 K3 K4 K)|congruence|exact (forall_not _ _ _ N K1 K)|congruence]. }
    repeat split; try (apply K; try reflexivity; discriminate). left; reflexivity.
  - destruct (partsscim _ _ H) as (p & t & sc & (E & W & _) & _ & _ & _ & EI & ES & _).
    exists (p ++ colon ++ scim_nid ++ colon), []. rewrite app_nil_r.
    split; [rewrite ES, E, <- !app_assoc; reflexivity|].
    assert (K : forall x, existsb (Byte.eqb x) scim_nid = false -> x <> ":"%byte -> low x <> "u"%byte -> low x <> "r"%byte -> low x <> "n"%byte ->
              ~ List.In x (p ++ colon ++ scim_nid ++ colon)).
    { intros x K1 K0 K2 K3 K4. rewrite !in_app_iff. intros [K|[[K|[]]|[K|[K|[]]]]]; [exact (word_not p x W K2 K3 K4 K)|congruence| |congruence].
      assert (Q : existsb (Byte.eqb x) scim_nid = true) by (apply existsb_exists; exists x; split; [exact K|apply RefSpec.beq_refl]). congruence. }
    repeat split; try (apply K; try reflexivity; discriminate). left; reflexivity.
  - destruct (parts8141 _ _ H) as (p & r & q & f & (E & W & (_ & N & _) & _) & _).
    exists (p ++ colon ++ u_ID u ++ colon), (tail8141 r q f).
    split; [rewrite E, <- !app_assoc; reflexivity|].
    assert (K : forall x, nid_char x = false -> x <> ":"%byte -> low x <> "u"%byte -> low x <> "r"%byte -> low x <> "n"%byte ->
              ~ List.In x (p ++ colon ++ u_ID u ++ colon)).
    { intros x K1 K0 K2 K3 K4. rewrite !in_app_iff. intros [K|[[K|[]]|[K|[K|[]]]]]; [exact (word_not p x W K2 K3 K4 K)|congruence|exact (forall_not _ _ _ N K1 K)|congruence]. }
    repeat split; try (apply K; try reflexivity; discriminate).
    unfold tail8141, opt_part. destruct r as [r|]; [right; cbn; eauto|]. destruct q as [q|]; [right; cbn; eauto|].
    destruct f as [f|]; [right; cbn; eauto|left; reflexivity].
Qed.

Lemma esc_free (cls : byte -> bool) w x : escaped alnum cls w -> cls x = false -> alnum x = false -> x <> "%"%byte -> ~ List.In x w.
Proof.
  intros H Hx Ha Hp. induction H as [|c w Hc H IH|a b w H1 H2 H IH]; intros Hi; [exact Hi| |].
  - destruct Hi as [->|Hi]; [congruence|auto].
  - destruct Hi as [E|[E|[E|Hi]]]; [auto|congruence|congruence|auto].
Qed.

Lemma after_pct_app a w i : ~ List.In "%"%byte a -> after_pct (a ++ w) i -> exists j, i = (List.length a + j)%nat /\ after_pct w j.
Proof.
  intros Ha H.
  assert (K : forall j, nth_error (a ++ w) j = Some "%"%byte -> exists k, j = (List.length a + k)%nat /\ nth_error w k = Some "%"%byte).
  { intros j Hj. destruct (Nat.ltb_spec j (List.length a)) as [L|L].
    - rewrite nth_error_app1 in Hj by exact L. apply nth_error_In in Hj. contradiction.
    - rewrite nth_error_app2 in Hj by exact L. exists (j - List.length a)%nat. split; [lia|exact Hj]. }
  destruct H as [(j & -> & H)|(j & -> & H)]; destruct (K j H) as (k & -> & Hk).
  - exists (S k). split; [lia|]. left. eauto.
  - exists (S (S k)). split; [lia|]. right. eauto.
Qed.

Lemma parsed_plain mode s u : three mode -> parsed mode s u -> (plain_escapes s <-> no_upper_escape (u_SS u)).
Proof.
  intros H3 H. destruct (parsed_split _ _ _ H3 H) as (a & z & Es & A1 & A2 & A3 & Hz).
  destruct (parsed_SS _ _ _ H H3) as [He _].
  split.
  - intros Hp. pose proof (Hp (a ++ u_SS u) z) as K. rewrite <- app_assoc in K. specialize (K Es).
    assert (Q1 : ~ List.In "?"%byte (a ++ u_SS u)) by (rewrite in_app_iff; intros [Q|Q]; [auto|exact (esc_free _ _ "?"%byte He eq_refl eq_refl ltac:(discriminate) Q)]).
    assert (Q2 : ~ List.In "#"%byte (a ++ u_SS u)) by (rewrite in_app_iff; intros [Q|Q]; [auto|exact (esc_free _ _ "#"%byte He eq_refl eq_refl ltac:(discriminate) Q)]).
    specialize (K Q1 Q2). intros i c Hi Hc. apply (K (List.length a + i)%nat c).
    + rewrite nth_error_app2 by lia. replace (List.length a + i - List.length a)%nat with i by lia. exact Hi.
    + assert (N : forall j, nth_error (a ++ u_SS u) (List.length a + j) = nth_error (u_SS u) j)
        by (intros j; rewrite nth_error_app2 by lia; f_equal; lia).
      destruct Hc as [(j & -> & Hj)|(j & -> & Hj)]; [left; exists (List.length a + j)%nat|right; exists (List.length a + j)%nat];
        rewrite N; (split; [lia|exact Hj]).
  - intros Hn h t E Q1 Q2 i c Hi Hc.
    (* h is a prefix of a ++ SS *)
    assert (Lh : (List.length h <= List.length (a ++ u_SS u))%nat).
    { destruct (Nat.leb_spec (List.length h) (List.length (a ++ u_SS u))) as [L|L]; [exact L|exfalso].
      assert (N : nth_error s (List.length (a ++ u_SS u)) = nth_error h (List.length (a ++ u_SS u))) by (rewrite E, nth_error_app1 by lia; reflexivity).
      rewrite Es, app_assoc in N. rewrite nth_error_app2, Nat.sub_diag in N by lia.
      destruct Hz as [->|(c0 & z' & -> & Hz)].
      - cbn in N. symmetry in N. apply nth_error_None in N. lia.
      - cbn in N. symmetry in N. apply nth_error_In in N. destruct Hz as [->| ->]; contradiction. }
    assert (N : forall j d, nth_error h j = Some d -> nth_error (a ++ u_SS u) j = Some d).
    { intros j d Hj. assert (Lj : (j < List.length h)%nat) by (apply nth_error_Some; congruence).
      transitivity (nth_error s j); [rewrite Es, app_assoc; symmetry; apply nth_error_app1; lia|].
      rewrite E, nth_error_app1 by exact Lj. exact Hj. }
    assert (Hc' : after_pct (a ++ u_SS u) i).
    { destruct Hc as [(j & -> & Hj)|(j & -> & Hj)]; [left|right]; exists j; split; auto. }
    destruct (after_pct_app _ _ _ A1 Hc') as (j & -> & Hj). apply (Hn j c); [|exact Hj].
    apply N in Hi. rewrite nth_error_app2 in Hi by lia. replace (List.length a + j - List.length a)%nat with j in Hi by lia. exact Hi.
Qed.

Theorem conc_iff m s m' u : reachable m -> three (m_parsingMode m) ->
  machine_Parse m s = Ret (m', Some u, None) ->
  (no_upper_escape (u_SS u) <->
   forall sched c i r, crun sched (cstart s [m; m]) = Ret c -> returned c i r -> r = (m', Some u, None)).
Proof.
  intros H H3 Hp. assert (Hu : parsed (m_parsingMode m) s u) by (exists m, m'; auto). split.
  - intros Hn sched c i r Hc Hr. apply (parsed_plain _ _ _ H3 Hu) in Hn.
    destruct (conc_safe s [m; m] sched) as (c' & C1 & _ & _ & C4); [repeat constructor; exact H|exact Hn|].
    rewrite Hc in C1. injection C1 as <-.
    assert (Hm : nth_error [m; m] i = Some m).
    { destruct i as [|[|i]]; try reflexivity. exfalso. destruct Hr as (x & Hx & _).
      destruct (alone_run s [m; m]) with (sched := sched) (k := fun _ : nat => 0%nat) (c := cstart s [m; m]) as (c2 & D1 & _ & D3 & _).
      - intros m0 Hm0 k. assert (R : reachable m0) by (destruct Hm0 as [<-|[<-|[]]]; exact H).
        destruct (call_path s m0 R Hn) as (K & y & HK & _).
        destruct (mpath_at _ _ _ _ k HK) as (t & T1 & T2 & _). exists t. split; [exact T1|]. exact (proj1 (T2 I)).
      - apply alone_start.
      - rewrite Hc in D1. injection D1 as <-. cbn in D3.
        assert (nth_error (calls c) (S (S i)) = None) by (apply nth_error_None; lia). congruence. }
    specialize (C4 i m r Hm Hr). rewrite Hp in C4. injection C4 as <-. reflexivity.
  - intros Hs. destruct (parsed_SS _ _ _ Hu H3) as [He En].
    apply (no_upper_iff pchar_slash); [reflexivity|exact He|].
    destruct (list_eq_dec Byte.byte_eq_dec (norm_pct (u_SS u)) (u_SS u)) as [E|E]; [exact E|exfalso].
    destruct (conc_disturbed m s m' u H H3 Hp) as (sched & c & r & C1 & C2 & C3); [congruence|].
    pose proof (Hs sched c _ r C1 C2) as K. exact (C3 _ _ _ K eq_refl).
Qed.
