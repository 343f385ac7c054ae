(* Parse calls that share a machine. *)
From Coq Require Import Lia.
From Verif Require Import GoBase MachineSyntax MachineTables Machine Urn Spec Ref Exec SimBase ParseThm Api PropsA Conc PropsConc Shared.
Local Open Scope Z_scope.

Lemma srun_app a b c : srun (a ++ b) c = (do c' <- srun a c; srun b c').
Proof. revert c. induction a as [|i a IH]; intros c; [reflexivity|]. cbn. destruct (sstep i c); cbn; auto. Qed.

Lemma parse_init_same m m' s : same_mode m m' -> parse_init m' s = parse_init m s.
Proof. intros (H1 & H2 & H3). unfold parse_init. rewrite H1, H2, H3. reflexivity. Qed.
Lemma same_refl m : same_mode m m.
Proof. repeat split. Qed.

(* the end of the call on s, from here *)
Lemma parse_from m s : reachable m -> exists n y,
  steps LEnter (parse_init m s, zeroURN) n y /\ machine_Parse m s = Ret (finish y) /\ same_mode m (fst y).
Proof.
  intros H. destruct (parse_reach m s H) as (m' & uo & eo & Hp & _ & Hs & _).
  destruct (parse_steps_fin m s m' uo eo Hp) as (n & y & H1 & H2). exists n, y. split; [exact H1|].
  rewrite Hp, H2. split; [reflexivity|]. destruct y as [my uy]. unfold finish in H2.
  destruct (_ || _); injection H2 as <- _ _; exact Hs.
Qed.

Section Serial.
Variable m : machine.
Hypothesis Hm : reachable m.
(* no call needs more than N labels *)
Variable N : nat.

(* cnt i: how often call i was scheduled *)
Definition fine (inputs : list bytes) (cnt : nat -> nat) (c : sconf) : Prop :=
  List.length (users c) = List.length inputs /\
  (forall i s, nth_error inputs i = Some s ->
     match nth_error (users c) i with
     | Some (SNew s') => s' = s /\ cnt i = 0%nat
     | Some (SRun l u) => exists n y, steps l (the c, u) n y /\ machine_Parse m s = Ret (finish y) /\ same_mode m (fst y) /\ (cnt i + n <= N)%nat
     | Some (SDone r) => machine_Parse m s = Ret r
     | None => False
     end) /\
  ((forall i, ~ busy c i) -> same_mode m (the c)).

Definition tick (i : nat) (cnt : nat -> nat) (j : nat) : nat := if Nat.eqb j i then S (cnt j) else cnt j.
Lemma tick_same i cnt : tick i cnt i = S (cnt i).
Proof. unfold tick. rewrite Nat.eqb_refl. reflexivity. Qed.
Lemma tick_other i j cnt : i <> j -> tick i cnt j = cnt j.
Proof. intros H. unfold tick. destruct (Nat.eqb_spec j i); [congruence|reflexivity]. Qed.
Lemma users_in inputs cnt c i x : fine inputs cnt c -> nth_error (users c) i = Some x -> exists s, nth_error inputs i = Some s.
Proof.
  intros (HL & _) E. assert (i < List.length inputs)%nat by (rewrite <- HL; apply nth_error_Some; congruence).
  destruct (nth_error inputs i) as [s|] eqn:Es; [eauto|]. apply nth_error_None in Es. lia.
Qed.
Definition enough (inputs : list bytes) : Prop :=
  forall i s, nth_error inputs i = Some s -> exists n y,
    steps LEnter (parse_init m s, zeroURN) n y /\ machine_Parse m s = Ret (finish y) /\ same_mode m (fst y) /\ (S n <= N)%nat.
Lemma fine_step inputs cnt c i : enough inputs -> fine inputs cnt c ->
  (forall j k, busy c j -> busy c k -> j = k) ->
  (forall c', sstep i c = Ret c' -> forall j k, busy c' j -> busy c' k -> j = k) ->
  exists c', sstep i c = Ret c' /\ fine inputs (tick i cnt) c'.
Proof.
  intros HN HF Hone Hone'. unfold sstep in *. destruct (nth_error (users c) i) as [x|] eqn:Ex.
  2:{ exists c. split; [reflexivity|]. destruct HF as (HL & HC & HQ). split; [exact HL|]. split; [|exact HQ].
      intros j s Ej. rewrite tick_other; [apply HC, Ej|]. intros <-. apply nth_error_None in Ex.
      assert (i < List.length inputs)%nat by (apply nth_error_Some; congruence). lia. }
  destruct (users_in _ _ _ _ _ HF Ex) as (s & Es). destruct HF as (HL & HC & HQ).
  assert (Hi : (i < List.length (users c))%nat) by (apply nth_error_Some; congruence).
  destruct x as [s'|l u|r].
  3:{ exists c. split; [reflexivity|]. split; [exact HL|]. split; [|exact HQ].
      intros j sj Ej. destruct (Nat.eq_dec i j) as [<-|Nij]; [|rewrite tick_other by exact Nij; apply HC, Ej].
      specialize (HC i sj Ej). rewrite Ex in *. exact HC. }
  - (* begin *)
    specialize (Hone' _ eq_refl). cbn [users] in Hone'.
    assert (Hq : forall j, ~ busy c j).
    { intros j Hj. assert (j <> i) by (intros ->; destruct Hj as (l & u & Hj); congruence).
      assert (i = j); [|congruence]. apply Hone'.
      - exists LEnter, zeroURN. cbn [users]. apply nth_set_same, Hi.
      - destruct Hj as (l & u & Hj). exists l, u. cbn [users]. rewrite nth_set_other by congruence. exact Hj. }
    eexists. split; [reflexivity|]. split; [cbn [users]; rewrite set_nth_len; exact HL|]. cbn [users the]. split.
    + intros j sj Ej. destruct (Nat.eq_dec i j) as [<-|Nij].
      * rewrite nth_set_same by exact Hi. rewrite Es in Ej. injection Ej as <-.
        pose proof (HC i s Es) as K. rewrite Ex in K. destruct K as [-> K]. rewrite (parse_init_same m) by auto.
        destruct (HN i s Es) as (n & y & H1 & H2 & H3 & H4). exists n, y. rewrite tick_same, K. repeat split; try assumption; try apply H3.
      * rewrite nth_set_other by exact Nij. pose proof (HC j sj Ej) as K. rewrite tick_other by exact Nij.
        destruct (nth_error (users c) j) as [[|l u|]|] eqn:Ej'; auto. exfalso. apply (Hq j). exists l, u. exact Ej'.
    + intros Hnb. exfalso. apply (Hnb i). exists LEnter, zeroURN. apply nth_set_same, Hi.
  - pose proof (HC i s Es) as K. rewrite Ex in K. destruct K as (n & y & K1 & K2 & K3 & K4).
    assert (Hothers : forall j, j <> i -> ~ busy c j).
    { intros j Nj Hj. apply Nj. apply Hone; [exact Hj|]. exists l, u. exact Ex. }
    inversion K1 as [x0 E1 E2 E3|l0 x0 l' x' n' y' Nl Hst Hrest E1 E2 E3 E4]; subst.
    + (* return *)
      eexists. split; [reflexivity|]. split; [cbn [users]; rewrite set_nth_len; exact HL|]. cbn [users the]. split.
      * intros j sj Ej. destruct (Nat.eq_dec i j) as [<-|Nij].
        -- rewrite nth_set_same by exact Hi. rewrite Es in Ej. injection Ej as <-. exact K2.
        -- rewrite nth_set_other by exact Nij. pose proof (HC j sj Ej) as K. rewrite tick_other by exact Nij.
           destruct (nth_error (users c) j) as [[|l u'|]|] eqn:Ej'; auto.
      * intros _. exact K3.
    + destruct x' as [m1 u1].
      exists (mkShared m1 (set_nth i (SRun l' u1) (users c))). split; [destruct l; try (rewrite Hst; reflexivity); congruence|].
      split; [cbn [users]; rewrite set_nth_len; exact HL|]. cbn [users the]. split.
      * intros j sj Ej. destruct (Nat.eq_dec i j) as [<-|Nij].
        -- rewrite nth_set_same by exact Hi. rewrite Es in Ej. injection Ej as <-. exists n', y. rewrite tick_same.
           split; [exact Hrest|]. split; [exact K2|]. split; [exact K3|]. lia.
        -- rewrite nth_set_other by exact Nij. pose proof (HC j sj Ej) as K. rewrite tick_other by exact Nij.
           destruct (nth_error (users c) j) as [[|l1 u2|]|] eqn:Ej'; auto. exfalso.
           apply (Hothers j ltac:(congruence)). exists l1, u2. exact Ej'.
      * intros Hnb. exfalso. apply (Hnb i). exists l', u1. apply nth_set_same, Hi.
Qed.
Lemma fine_ext inputs cnt cnt' c : (forall i, cnt i = cnt' i) -> fine inputs cnt c -> fine inputs cnt' c.
Proof.
  intros E (HL & HC & HQ). split; [exact HL|]. split; [|exact HQ]. intros i s Es. rewrite <- E. exact (HC i s Es).
Qed.
Lemma fine_run inputs schedule : enough inputs -> forall cnt c, fine inputs cnt c -> one_at_a_time schedule c ->
  exists c', srun schedule c = Ret c' /\ fine inputs (fun i => (cnt i + count_occ Nat.eq_dec schedule i)%nat) c'.
Proof.
  intros HN. induction schedule as [|i rest IH]; intros cnt c HF Hone.
  - exists c. split; [reflexivity|]. eapply fine_ext; [|exact HF]. intros j. cbn [count_occ]. lia.
  - destruct (fine_step inputs cnt c i HN HF) as (c1 & E1 & F1).
    + apply (Hone 0%nat c). reflexivity.
    + intros c' E. apply (Hone 1%nat c'). cbn. rewrite E. reflexivity.
    + cbn [srun]. rewrite E1. cbn [bind]. destruct (IH _ c1 F1) as (c2 & E2 & F2).
      { intros k c' E. apply (Hone (S k) c'). cbn. rewrite E1. exact E. }
      exists c2. split; [exact E2|]. eapply fine_ext; [|exact F2]. intros j. cbn beta. cbn [count_occ].
      destruct (Nat.eq_dec i j) as [<-|Nij]; [rewrite tick_same|rewrite tick_other by exact Nij]; lia.
Qed.
Lemma fine_start inputs : fine inputs (fun _ => 0%nat) (sstart m inputs).
Proof.
  split; [apply map_length|]. split.
  - intros i s E. cbn [users sstart]. rewrite nth_error_map, E. split; reflexivity.
  - intros _. apply same_refl.
Qed.
End Serial.

Lemma enough_all m inputs : reachable m -> exists N, enough m N inputs.
Proof.
  intros H. induction inputs as [|s inputs [N IH]].
  - exists 0%nat. intros [|i] s E; discriminate E.
  - destruct (parse_from m s H) as (n & y & H1 & H2 & H3). exists (S n + N)%nat. intros [|i] s' E.
    + injection E as <-. exists n, y. repeat split; try assumption; try apply H3. lia.
    + destruct (IH i s' E) as (n' & y' & K1 & K2 & K3 & K4). exists n', y'. repeat split; try assumption; try apply K3. lia.
Qed.

Lemma serial_ok m inputs schedule : reachable m -> one_at_a_time schedule (sstart m inputs) ->
  exists c, srun schedule (sstart m inputs) = Ret c /\
    forall i s r, nth_error inputs i = Some s -> gave c i r -> machine_Parse m s = Ret r.
Proof.
  intros Hm Hone. destruct (enough_all m inputs Hm) as [N HN].
  destruct (fine_run m N inputs schedule HN _ _ (fine_start m N inputs) Hone) as (c & E & F).
  exists c. split; [exact E|]. intros i s r Es Hg. destruct F as (_ & F & _). specialize (F i s Es).
  unfold gave in Hg. rewrite Hg in F. exact F.
Qed.
Lemma serial_finish m inputs : reachable m -> exists K : nat, forall schedule c,
  one_at_a_time schedule (sstart m inputs) -> srun schedule (sstart m inputs) = Ret c ->
  forall i, (i < List.length inputs)%nat -> (K <= count_occ Nat.eq_dec schedule i)%nat -> exists r, gave c i r.
Proof.
  intros Hm. destruct (enough_all m inputs Hm) as [N HN]. exists (S N). intros schedule c Hone Hc i Hi HK.
  destruct (fine_run m N inputs schedule HN _ _ (fine_start m N inputs) Hone) as (c' & E & F).
  rewrite Hc in E. injection E as <-. destruct F as (_ & F & _).
  destruct (nth_error inputs i) as [s|] eqn:Es; [|apply nth_error_None in Es; lia]. specialize (F i s Es).
  destruct (nth_error (users c) i) as [[s'|l u|r]|] eqn:Eu; [lia| |exists r; exact Eu|contradiction].
  destruct F as (n & y & _ & _ & _ & F). lia.
Qed.

(* the calls of one user, one after the other *)
Lemma steps_alone l m u n y : steps l (m, u) n y -> forall us i, nth_error us i = Some (SRun l u) ->
  srun (repeat i n) (mkShared m us) = Ret (mkShared (fst y) (set_nth i (SRun LOut (snd y)) us)).
Proof.
  remember (m, u) as x eqn:Ex. intros H. revert m u Ex.
  induction H as [x|l x l' x' n y Nl Hst Hrest IH]; intros m u -> us i Hi.
  - cbn. f_equal. f_equal. clear - Hi. revert i Hi. induction us as [|a us IH]; intros [|i] Hi; cbn in *; try congruence.
    f_equal. apply IH, Hi.
  - destruct x' as [m1 u1]. cbn [repeat srun]. unfold sstep. cbn [users the]. rewrite Hi.
    replace (match l with LOut => Ret (mkShared m (set_nth i (SDone (finish (m, u))) us))
      | _ => do r <- step l (m, u); let '(l'0, (m', u')) := r in Ret (mkShared m' (set_nth i (SRun l'0 u') us)) end)
      with (Ret (mkShared m1 (set_nth i (SRun l' u1) us))) by (destruct l; try (rewrite Hst; reflexivity); congruence).
    assert (Hl : (i < List.length us)%nat) by (apply nth_error_Some; congruence).
    cbn [bind]. rewrite (IH m1 u1 eq_refl) by (apply nth_set_same, Hl). f_equal. f_equal.
    clear. revert i. induction us as [|a us IH]; intros [|i]; cbn; try reflexivity. f_equal. apply IH.
Qed.

Lemma start_small m : reachable m -> three (m_parsingMode m) ->
  N.ltb (m_startParsingAt m) first_final = true /\ N.eqb (m_startParsingAt m) 0 = false.
Proof.
  intros H T. destruct (reach_start m H) as (H1 & H2 & H3).
  destruct T as [T|[T|T]]; [rewrite (H1 T)|rewrite (H2 T)|rewrite (H3 T)]; split; reflexivity.
Qed.

(* all but the return of call 0, the start of call 1, the return of call 0 *)
Lemma lost m s s' : reachable m -> three (m_parsingMode m) ->
  exists schedule c m1, srun schedule (sstart m [s; s']) = Ret c /\ gave c 0 (m1, None, None).
Proof.
  intros H T. destruct (parse_from m s H) as (n & y & H1 & _ & H3).
  exists ([0] ++ repeat 0 n ++ [1; 0])%nat.
  cbn [app srun]. unfold sstep at 1. cbn [nth_error users sstart map bind the set_nth].
  rewrite srun_app, (steps_alone _ _ _ _ _ H1 [SRun LEnter zeroURN; SNew s'] 0%nat eq_refl). cbn [bind srun].
  unfold sstep at 1. cbn [set_nth nth_error users the bind]. unfold sstep at 1. cbn [set_nth nth_error users the bind].
  rewrite (parse_init_same m) by exact H3.
  destruct (start_small m H T) as (E & _). unfold finish. cbn [m_cs parse_init]. rewrite E. cbn [orb].
  eexists _, _. split; reflexivity.
Qed.

(* call 0 past its test for the end of the text, call 1 on the empty text begins *)
Lemma shared_panics m s : reachable m -> three (m_parsingMode m) -> s <> [] ->
  srun [0; 0; 1; 0]%nat (sstart m [s; []]) = Panic.
Proof.
  intros H T Hs. destruct (start_small m H T) as (E1 & E2).
  cbn [srun]. unfold sstep at 1. cbn [nth_error users sstart map bind the set_nth].
  unfold sstep at 1. cbn [nth_error users the set_nth step m_p m_pe m_cs parse_init].
  replace (0 =? zlen s) with false by (symmetry; apply Z.eqb_neq; unfold zlen; destruct s; [congruence|cbn; lia]).
  rewrite E2. cbn [bind]. unfold sstep at 1. cbn [nth_error users the set_nth bind].
  unfold sstep at 1. cbn [nth_error users the set_nth step m_p m_pe m_cs m_data parse_init m_startParsingAt].
  rewrite E2.
  replace (N.ltb 193 (m_startParsingAt m)) with false; [reflexivity|].
  symmetry. apply N.ltb_ge. apply N.ltb_lt in E1. unfold first_final in E1. lia.
Qed.
