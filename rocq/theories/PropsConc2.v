(* Calls on one slice that do not overlap. *)
From Coq Require Import Lia.
From Verif Require Import GoBase MachineSyntax MachineTables Machine Urn Spec Ref Exec SimBase ParseThm Api PropsA Conc ConcBase PropsConc.
Local Open Scope Z_scope.
Local Open Scope nat_scope.

Lemma set_data_set d d' m : set_data d (set_data d' m) = set_data d m.
Proof. reflexivity. Qed.
Lemma set_data_here d m : m_data m = d -> set_data d m = m.
Proof. intros <-. apply set_data_id. Qed.

(* from t alone to the end *)
Definition goes (t : thread) (k : nat) (y : st) : Prop := mpath (fun _ => True) t k (At LOut, y).
Lemma goes_out x k y : goes (At LOut, x) k y -> y = x.
Proof.
  intros H. apply mpath_mrun in H. rewrite mrun_out in H. injection H as ->. reflexivity.
Qed.
Lemma goes_step t k y : goes t k y -> (exists x, t = (At LOut, x)) \/ exists t1 k1, k = S k1 /\ mstep t = Ret t1 /\ goes t1 k1 y.
Proof.
  intros H. inversion H; subst; [left; eauto|right]. exists t1, n. auto.
Qed.
Lemma mpath_any (P : thread -> Prop) t n t1 : mpath P t n t1 -> mpath (fun _ => True) t n t1.
Proof. induction 1; [apply mp_nil; exact I|eapply mp_cons; eauto]. Qed.
Lemma call_goes s m : reachable m -> exists K y, goes (first s m) K y /\ machine_Parse m s = Ret (finish y) /\ m_data (fst y) = s.
Proof.
  intros H. destruct (parse_reach m s H) as (m' & uo & eo & E & _).
  assert (Hd : m_data m' = s) by (clear - E H; destruct (parse_reach m s H) as (m2 & uo2 & eo2 & E2 & Hd2 & _); congruence).
  destruct (parse_steps_fin _ _ _ _ _ E) as (n & y & Hs & Hf). destruct (any_path _ _ _ _ Hs) as [K HK].
  exists K, y. split; [|split].
  - eapply mpath_any. exact HK.
  - rewrite Hf. exact E.
  - destruct y as [my uy]. unfold finish in Hf. destruct (_ || _); injection Hf as <- _ _; exact Hd.
Qed.

(* no step leads back to the start *)
Definition pcok (pc : tpc) : Prop := match pc with In _ (Some LEnter) => False | _ => True end.
Lemma step_forth l x l' x' : step l x = Ret (l', x') -> l' <> LEnter.
Proof.
  destruct x as [m u]. intros H E. subst l'. destruct l; cbn [step] in H;
    repeat match type of H with
    | context [if ?b then _ else _] => destruct b
    | context [bind ?r _] => destruct r as [?| |]; cbn [bind] in H
    | context [match ?o with _ => _ end] => destruct o
    end; try discriminate H.
Qed.
Lemma mstep_forth pc x pc' x' : mstep (pc, x) = Ret (pc', x') -> pcok pc -> pcok pc' /\ pc' <> At LEnter.
Proof.
  destruct x as [m u]. intros H Hp.
  assert (St : forall l, (do r <- step l (m, u); let '(l', y) := r in Ret (At l', y)) = Ret (pc', x') -> pcok pc' /\ pc' <> At LEnter).
  { intros l K. destruct (step l (m, u)) as [[l' y]| |] eqn:E; cbn [bind] in K; try discriminate K. injection K as <- <-.
    split; [exact I|]. intros [= ->]. exact (step_forth _ _ _ _ E eq_refl). }
  assert (Ins : forall is a, pcok (In is a) -> forall js, pc' = In js a -> pcok pc' /\ pc' <> At LEnter).
  { intros is a K js ->. split; [exact K|discriminate]. }
  destruct pc as [l|[|[st0|i0 d0|i0 v0|st0 lo hi acc] is] a]; cbn [mstep] in H.
  - destruct l; try (apply (St _ H)).
    + destruct (f_block n); [|discriminate H]. injection H as <- <-. split; [exact I|discriminate].
    + destruct (index to_state_actions (Z.of_N (m_cs m))) as [a| |] eqn:Ea; cbn [bind] in H; try discriminate H.
      destruct (to_state_block a); [|exact (St _ H)]. injection H as <- <-. split; [exact I|discriminate].
    + destruct (m_p m =? m_eof m)%Z; [|injection H as <- <-; split; [exact I|discriminate]].
      destruct (index eof_actions (Z.of_N (m_cs m))) as [a| |]; cbn [bind] in H; try discriminate H.
      destruct (eof_block a); injection H as <- <-; (split; [exact I|discriminate]).
  - destruct a as [l|]; [|discriminate H]. injection H as <- <-. split; [exact I|]. intros [= ->]. exact Hp.
  - assert (G : pc' = At LAgain \/ exists js, pc' = In js a).
    { destruct st0; cbn [bounds] in H;
      repeat match type of H with
      | context [if ?b then _ else _] => destruct b
      | context [bind ?r _] => destruct r as [?| |]; cbn [bind] in H
      | context [match ?o with _ => _ end] => destruct o
      end; try discriminate H; injection H as <- <-; eauto. }
    destruct G as [->|[js ->]]; [split; [exact I|discriminate]|apply (Ins _ _ Hp _ eq_refl)].
  - destruct (index (m_data m) (m_pb m + i0)); cbn [bind] in H; try discriminate H. injection H as <- <-. apply (Ins _ _ Hp _ eq_refl).
  - destruct (update (m_data m) (m_pb m + i0) v0); cbn [bind] in H; try discriminate H. injection H as <- <-. apply (Ins _ _ Hp _ eq_refl).
  - destruct (lo <? hi)%Z.
    + destruct (index (m_data m) lo); cbn [bind] in H; try discriminate H. injection H as <- <-. apply (Ins _ _ Hp _ eq_refl).
    + destruct (assign st0 acc (m, u)); cbn [bind] in H; try discriminate H. injection H as <- <-. apply (Ins _ _ Hp _ eq_refl).
Qed.

Section Serial.
Variables (s : bytes) (ms : list machine) (N : nat).
Definition enough : Prop := forall i m, nth_error ms i = Some m ->
  exists K y, goes (first s m) K y /\ machine_Parse m s = Ret (finish y) /\ m_data (fst y) = s /\ K <= N.

Definition place (c : conf) (n : nat) (m : machine) (t : thread) : Prop :=
  let '(pc, (m1, u)) := t in
  match pc with
  | At LEnter => m1 = parse_init m s /\ u = zeroURN /\ n = 0
  | At LOut => machine_Parse m s = Ret (finish (m1, u)) /\ m_data m1 = s
  | _ => pcok pc /\ exists k y, goes (pc, (set_data (buf c) m1, u)) k y /\ machine_Parse m s = Ret (finish y) /\ m_data (fst y) = s /\ n + k <= N
  end.
Definition fine (cnt : nat -> nat) (c : conf) : Prop :=
  List.length (calls c) = List.length ms /\
  (forall i m, nth_error ms i = Some m -> exists t, nth_error (calls c) i = Some t /\ place c (cnt i) m t) /\
  ((forall i, ~ under_way c i) -> buf c = s).

Definition tick (i : nat) (cnt : nat -> nat) (j : nat) : nat := if Nat.eqb j i then S (cnt j) else cnt j.
Lemma tick_same i cnt : tick i cnt i = S (cnt i).
Proof. unfold tick. rewrite Nat.eqb_refl. reflexivity. Qed.
Lemma tick_other i j cnt : i <> j -> tick i cnt j = cnt j.
Proof. intros H. unfold tick. destruct (Nat.eqb_spec j i); [congruence|reflexivity]. Qed.

Definition idle (t : thread) : Prop := fst t = At LEnter \/ fst t = At LOut.
Lemma idle_dec t : idle t \/ ~ idle t.
Proof. destruct t as [[[]|] x]; unfold idle; cbn; try (left; tauto); right; intros [E|E]; discriminate E. Qed.
Lemma idle_place c c' n m t : idle t -> place c n m t -> place c' n m t.
Proof. destruct t as [pc [m1 u]]. intros [E|E]; cbn in E; subst pc; cbn; auto. Qed.
Lemma busy_way c i t : nth_error (calls c) i = Some t -> ~ idle t -> under_way c i.
Proof. destruct t as [pc x]. intros H N1. exists pc, x. unfold idle in N1. cbn in N1. repeat split; auto. Qed.
Lemma way_busy c i t : nth_error (calls c) i = Some t -> under_way c i -> ~ idle t.
Proof. intros H (pc & x & E & N1 & N2) [K|K]; rewrite H in E; injection E as ->; cbn in K; congruence. Qed.

(* call i moves from t to t1 while no other call is under way *)
Lemma moves cnt c i m t t1 : fine cnt c -> nth_error ms i = Some m -> nth_error (calls c) i = Some t ->
  (forall j, j <> i -> ~ under_way c j) ->
  let c' := mkConf (m_data (fst (snd t1))) (set_nth i t1 (calls c)) in
  place c' (S (cnt i)) m t1 -> (idle t1 -> m_data (fst (snd t1)) = s) -> fine (tick i cnt) c'.
Proof.
  intros (HL & HC & HQ) Hm Ht Ho c' Hp Hd.
  assert (Hi : i < List.length (calls c)) by (apply nth_error_Some; congruence).
  split; [cbn; rewrite set_nth_len; exact HL|]. split.
  - intros j mj Ej. destruct (Nat.eq_dec i j) as [<-|Nij].
    + exists t1. split; [cbn; apply nth_set_same, Hi|]. rewrite tick_same. rewrite Hm in Ej. injection Ej as <-. exact Hp.
    + destruct (HC j mj Ej) as (tj & K1 & K2). exists tj. split; [cbn; rewrite nth_set_other by exact Nij; exact K1|].
      rewrite tick_other by exact Nij. eapply idle_place; [|exact K2].
      destruct (idle_dec tj) as [D|D]; [exact D|]. exfalso. apply (Ho j ltac:(congruence)). eapply busy_way; eassumption.
  - intros Hn. cbn. apply Hd. destruct (idle_dec t1) as [D|D]; [exact D|]. exfalso. apply (Hn i).
    eapply busy_way; [|exact D]. cbn. apply nth_set_same, Hi.
Qed.

Lemma fine_step cnt c i : enough -> fine cnt c -> (forall j, under_way c j -> i = j) ->
  exists c', cstep i c = Ret c' /\ fine (tick i cnt) c'.
Proof.
  intros HN HF Hone. destruct (nth_error (calls c) i) as [t|] eqn:Et.
  2:{ exists c. unfold cstep. rewrite Et. split; [reflexivity|]. destruct HF as (HL & HC & HQ). split; [exact HL|]. split; [|exact HQ].
      intros j m Ej. rewrite tick_other; [apply HC, Ej|]. intros <-. destruct (HC i m Ej) as (t & K & _). congruence. }
  destruct (nth_error ms i) as [m|] eqn:Em.
  2:{ exfalso. destruct HF as (HL & _). apply nth_error_None in Em.
      assert (i < List.length (calls c)) by (apply nth_error_Some; congruence). lia. }
  destruct (proj1 (proj2 HF) i m Em) as (t' & Et' & Hp). rewrite Et in Et'. injection Et' as <-.
  destruct t as [pc [m1 u]].
  assert (Ho : forall j, j <> i -> ~ under_way c j) by (intros j Nj W; apply Nj; symmetry; exact (Hone j W)).
  assert (Go : forall k y, goes (pc, (set_data (buf c) m1, u)) k y -> machine_Parse m s = Ret (finish y) -> m_data (fst y) = s ->
             cnt i + k <= N -> pc <> At LOut -> pcok pc ->
             exists c', cstep i c = Ret c' /\ fine (tick i cnt) c').
  { intros k y Hg Hf Hd Hk Npc Hok. destruct (goes_step _ _ _ Hg) as [(x & E)|(t1 & k1 & -> & Hs & Hg1)]; [injection E as E1 _; congruence|].
    pose proof (cstep_eq c i pc m1 u t1 Et Hs) as Ec. eexists. split; [exact Ec|].
    destruct t1 as [pc1 [m2 u2]]. destruct (mstep_forth _ _ _ _ Hs Hok) as [Hok1 Nst].
    eapply moves; [exact HF|exact Em|exact Et|exact Ho| |].
    - unfold place. cbn [fst snd buf].
      assert (Q : pcok pc1 /\ exists k0 y0, goes (pc1, (set_data (m_data m2) m2, u2)) k0 y0 /\ machine_Parse m s = Ret (finish y0) /\ m_data (fst y0) = s /\ S (cnt i) + k0 <= N).
      { split; [exact Hok1|]. exists k1, y. rewrite set_data_id. repeat split; try assumption. lia. }
      destruct pc1 as [[]|]; try exact Q; [congruence|].
      apply goes_out in Hg1. subst y. split; [exact Hf|exact Hd].
    - intros [E|E]; cbn in E; subst pc1; [congruence|]. apply goes_out in Hg1. subst y. exact Hd. }
  destruct pc as [[]|is a] eqn:Epc.
  - (* begin *)
    destruct Hp as (-> & -> & Hc). destruct (HN i m Em) as (K & y & Hg & Hf & Hd & HK).
    assert (Hq : buf c = s).
    { apply HF. intros j W. destruct (Nat.eq_dec j i) as [->|Nj]; [|exact (Ho j Nj W)].
      apply (way_busy _ _ _ Et W). left. reflexivity. }
    apply (Go K y); try assumption; try discriminate; [rewrite Hq, set_parse_init by reflexivity; exact Hg|lia|exact I].
  - destruct Hp as (Hok & k & y & H1 & H2 & H3 & H4). apply (Go k y); try assumption; discriminate.
  - destruct Hp as (Hok & k & y & H1 & H2 & H3 & H4). apply (Go k y); try assumption; discriminate.
  - destruct Hp as (Hok & k & y & H1 & H2 & H3 & H4). apply (Go k y); try assumption; discriminate.
  - destruct Hp as (Hok & k & y & H1 & H2 & H3 & H4). apply (Go k y); try assumption; discriminate.
  - destruct Hp as (Hok & k & y & H1 & H2 & H3 & H4). apply (Go k y); try assumption; discriminate.
  - (* returned *)
    destruct Hp as [H1 H2].
    assert (Hq : buf c = s).
    { apply HF. intros j W. destruct (Nat.eq_dec j i) as [->|Nj]; [|exact (Ho j Nj W)].
      apply (way_busy _ _ _ Et W). right. reflexivity. }
    assert (Ec : cstep i c = Ret (mkConf s (set_nth i (At LOut, (set_data s m1, u)) (calls c)))).
    { apply (cstep_eq c i _ _ _ (At LOut, (set_data s m1, u)) Et). rewrite Hq. reflexivity. }
    eexists. split; [exact Ec|]. apply (moves cnt c i m (At LOut, (m1, u)) (At LOut, (set_data s m1, u)) HF Em Et Ho).
    + cbn. rewrite (set_data_here s m1 H2). auto.
    + intros _. reflexivity.
  - destruct Hp as (Hok & k & y & H1 & H2 & H3 & H4). apply (Go k y); try assumption; discriminate.
Qed.
Lemma fine_ext cnt cnt' c : (forall i, cnt i = cnt' i) -> fine cnt c -> fine cnt' c.
Proof.
  intros E (HL & HC & HQ). split; [exact HL|]. split; [|exact HQ]. intros i m Em. rewrite <- E. exact (HC i m Em).
Qed.
Lemma fine_run schedule : enough -> forall cnt c, fine cnt c -> one_by_one schedule c ->
  exists c', crun schedule c = Ret c' /\ fine (fun i => cnt i + count_occ Nat.eq_dec schedule i) c'.
Proof.
  intros HN. induction schedule as [|i rest IH]; intros cnt c HF Hone.
  - exists c. split; [reflexivity|]. eapply fine_ext; [|exact HF]. intros j. cbn [count_occ]. lia.
  - destruct (fine_step cnt c i HN HF) as (c1 & E1 & F1).
    + intros j W. exact (Hone 0 c i j eq_refl eq_refl W).
    + cbn [crun]. rewrite E1. cbn [bind]. destruct (IH _ c1 F1) as (c2 & E2 & F2).
      { intros k c' j j' E. apply (Hone (S k) c' j j'). cbn. rewrite E1. exact E. }
      exists c2. split; [exact E2|]. eapply fine_ext; [|exact F2]. intros j. cbn beta. cbn [count_occ].
      destruct (Nat.eq_dec i j) as [<-|Nij]; [rewrite tick_same|rewrite tick_other by exact Nij]; lia.
Qed.
Lemma fine_start : fine (fun _ => 0) (cstart s ms).
Proof.
  split; [apply map_length|]. split; [|reflexivity].
  intros i m E. exists (first s m). split; [|cbn; auto].
  unfold cstart. cbn [calls]. apply (map_nth_error (fun m => (At LEnter, (parse_init m s, zeroURN)))) in E. exact E.
Qed.
End Serial.

Lemma enough_all s ms : Forall reachable ms -> exists N, enough s ms N.
Proof.
  induction 1 as [|m ms Hm _ [N IH]].
  - exists 0. intros [|i] m E; discriminate E.
  - destruct (call_goes s m Hm) as (K & y & H1 & H2 & H3). exists (K + N). intros [|i] m' E.
    + injection E as <-. exists K, y. repeat split; try assumption. lia.
    + destruct (IH i m' E) as (K' & y' & K1 & K2 & K3 & K4). exists K', y'. repeat split; try assumption. lia.
Qed.

Theorem conc_serial s ms schedule : Forall reachable ms -> one_by_one schedule (cstart s ms) ->
  exists c, crun schedule (cstart s ms) = Ret c /\ ((forall i, ~ under_way c i) -> buf c = s) /\
    (forall i m r, nth_error ms i = Some m -> returned c i r -> machine_Parse m s = Ret r).
Proof.
  intros Hm Hone. destruct (enough_all s ms Hm) as [N HN].
  destruct (fine_run s ms N schedule HN _ _ (fine_start s ms N) Hone) as (c & E & _ & F & Q).
  exists c. split; [exact E|]. split; [exact Q|]. intros i m r Em (x & Hx & <-). destruct (F i m Em) as (t & Ht & Hp).
  rewrite Hx in Ht. injection Ht as <-. destruct x as [m1 u]. apply Hp.
Qed.
Theorem conc_serial_finish s ms : Forall reachable ms -> exists K, forall schedule c,
  one_by_one schedule (cstart s ms) -> crun schedule (cstart s ms) = Ret c ->
  forall i, i < List.length ms -> K <= count_occ Nat.eq_dec schedule i -> exists r, returned c i r.
Proof.
  intros Hm. destruct (enough_all s ms Hm) as [N HN]. exists (S N). intros schedule c Hone Hc i Hi HK.
  destruct (fine_run s ms N schedule HN _ _ (fine_start s ms N) Hone) as (c' & E & _ & F & _).
  rewrite Hc in E. injection E as <-.
  destruct (nth_error ms i) as [m|] eqn:Em; [|apply nth_error_None in Em; lia]. destruct (F i m Em) as ([pc [m1 u]] & Ht & Hp).
  cbn [Nat.add] in Hp. destruct pc as [[]|]; cbn [place] in Hp; try (destruct Hp as (_ & k & y & _ & _ & _ & Hp); lia).
  - destruct Hp as (_ & _ & Hp). lia.
  - eexists. exists (m1, u). split; [exact Ht|reflexivity].
Qed.
