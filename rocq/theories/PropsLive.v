(* Proofs for C57: what of Parse is executed. *)
From Coq Require Import Lia.
From Verif Require Import GoBase MachineSyntax MachineTables Machine Live LiveTable.
Local Open Scope Z_scope.

(* ---- what is executed: traces ------------------------------------------------------------------- *)
Definition met (m : machine) (input : bytes) (i : item) : Prop :=
  match i with
  | IState k => exists x, passes m input LResume x /\ m_cs (fst x) = k
  | IEnd k => exists x, passes m input LTestEof x /\ m_p (fst x) = m_eof (fst x) /\ m_cs (fst x) = k
  | ITr n => exists x, passes m input (LTr n) x
  | IBlock q => exists x, executes m input q x
  | ITake q p v => takes m input q p v
  end.

Definition in_block (q : part) (x : st) : list item :=
  match block_of q with
  | Some b => IBlock q :: map (fun d => ITake q (fst d) (snd d)) (decisions 0 b x)
  | None => []
  end.
Definition seen_at (l : label) (x : st) : list item :=
  match l with
  | LResume => [IState (m_cs (fst x))]
  | LTr n => [ITr n]
  | LF n => in_block (PF n) x
  | LAgain => match nth_error to_state_actions (N.to_nat (m_cs (fst x))) with Some a => in_block (PTo a) x | None => [] end
  | LTestEof =>
      if m_p (fst x) =? m_eof (fst x) then
        IEnd (m_cs (fst x)) ::
        match nth_error eof_actions (N.to_nat (m_cs (fst x))) with Some a => in_block (PEof a) x | None => [] end
      else []
  | _ => []
  end.
Fixpoint trace (fuel : nat) (l : label) (x : st) : list item :=
  match fuel with
  | O => []
  | S f => seen_at l x ++ match l with LOut => [] | _ => match step l x with Ret (l', x') => trace f l' x' | _ => [] end end
  end.
Definition trace_of (m : machine) (input : bytes) : list item :=
  trace (parse_fuel (List.length input)) LEnter (parse_init m input, zeroURN).

Lemma in_block_met m s q x : executes m s q x -> forall i, In i (in_block q x) -> met m s i.
Proof.
  intros H i. unfold in_block. destruct (block_of q) as [b|] eqn:E; [|intros []]. intros [<-|Hi].
  - exists x. exact H.
  - apply in_map_iff in Hi as ([p v] & <- & Hd). exists b, x. auto.
Qed.
Lemma seen_met m s l x : passes m s l x -> forall i, In i (seen_at l x) -> met m s i.
Proof.
  intros H i. destruct l; cbn [seen_at]; try (intros []; fail).
  - intros [<-|[]]. exists x. auto.
  - intros [<-|[]]. exists x. exact H.
  - apply in_block_met. exact H.
  - destruct (nth_error to_state_actions _) as [a|] eqn:E; [|intros []]. apply in_block_met. split; assumption.
  - destruct (m_p (fst x) =? m_eof (fst x)) eqn:Ep; [|intros []]. apply Z.eqb_eq in Ep. intros [<-|Hi].
    + exists x. auto.
    + destruct (nth_error eof_actions _) as [a|] eqn:E; [|destruct Hi]. revert Hi. apply in_block_met. repeat split; assumption.
Qed.
Lemma trace_met m s : forall f l x, passes m s l x -> forall i, In i (trace f l x) -> met m s i.
Proof.
  induction f as [|f IH]; intros l x H i Hi; [destruct Hi|]. cbn [trace] in Hi. apply in_app_or in Hi as [Hi|Hi].
  - eapply seen_met; eassumption.
  - assert (X : forall r, step l x = r -> In i (match r with Ret (l', x') => trace f l' x' | _ => [] end) -> met m s i).
    { intros [[l' x']| |] E Hj; try destruct Hj. apply (IH l' x'); [|exact Hj]. eapply passes_step; eassumption. }
    destruct l; try (exact (X _ eq_refl Hi)). destruct Hi.
Qed.
Lemma trace_of_met m s i : In i (trace_of m s) -> met m s i.
Proof. apply trace_met, passes_start. Qed.

Definition part_eqb (a b : part) : bool :=
  match a, b with PF n, PF k | PEof n, PEof k | PTo n, PTo k => N.eqb n k | _, _ => false end.
Fixpoint nats_eqb (a b : list nat) : bool :=
  match a, b with [], [] => true | x :: a, y :: b => Nat.eqb x y && nats_eqb a b | _, _ => false end.
Definition item_eqb (a b : item) : bool :=
  match a, b with
  | IState n, IState k | IEnd n, IEnd k | ITr n, ITr k => N.eqb n k
  | IBlock q, IBlock q' => part_eqb q q'
  | ITake q p v, ITake q' p' v' => part_eqb q q' && nats_eqb p p' && Bool.eqb v v'
  | _, _ => false
  end.
Lemma part_eqb_eq a b : part_eqb a b = true -> a = b.
Proof. destruct a, b; cbn; try discriminate; intros H; apply N.eqb_eq in H; subst; reflexivity. Qed.
Lemma nats_eqb_eq a : forall b, nats_eqb a b = true -> a = b.
Proof.
  induction a as [|x a IH]; intros [|y b]; cbn; try discriminate; [reflexivity|].
  intros H. apply andb_prop in H as [H1 H2]. apply Nat.eqb_eq in H1. rewrite (IH b H2), H1. reflexivity.
Qed.
Lemma item_eqb_eq a b : item_eqb a b = true -> a = b.
Proof.
  destruct a, b; cbn; try discriminate; intros H; try (apply N.eqb_eq in H; subst; reflexivity).
  - apply part_eqb_eq in H. subst. reflexivity.
  - apply andb_prop in H as [H H3]. apply andb_prop in H as [H1 H2].
    apply part_eqb_eq in H1. apply nats_eqb_eq in H2. apply eqb_prop in H3. subst. reflexivity.
Qed.
Definition memb (i : item) (l : list item) : bool := existsb (item_eqb i) l.
Lemma memb_in i l : memb i l = true -> In i l.
Proof. intros H. apply existsb_exists in H as (x & Hx & E). apply item_eqb_eq in E. subst. exact Hx. Qed.

Lemma texts_ok : forallb (fun w => let t := trace_of (NewMachine (fst (fst w))) (snd (fst w)) in forallb (fun i => memb i t) (snd w)) live_texts = true.
Proof. vm_cast_no_check (@eq_refl bool true). Qed.

Lemma text_met w i : In w live_texts -> In i (snd w) -> met (NewMachine (fst (fst w))) (snd (fst w)) i.
Proof.
  intros Hw Hi. pose proof texts_ok as H. rewrite forallb_forall in H. specialize (H w Hw). cbv zeta in H.
  rewrite forallb_forall in H. apply trace_of_met, memb_in, H, Hi.
Qed.
(* the items of the texts with a listed mode, and of the others *)
Definition items_where (f : list Z -> bool) : list item := flat_map (fun w => if f (fst (fst w)) then snd w else []) live_texts.
Definition one_listed (l : list Z) : bool := match l with [x] => (x =? 1) || (x =? 2) || (x =? 3) | _ => false end.
Lemma listed_met i : In i (items_where one_listed) -> exists mode s, In mode [PRFC2141Only; PRFC7643Only; PRFC8141Only] /\ met (NewMachine [mode]) s i.
Proof.
  intros H. apply in_flat_map in H as ([[l s] its] & Hw & H). cbn [fst snd] in H. destruct (one_listed l) eqn:E; [|destruct H].
  destruct l as [|x [|y l]]; try discriminate E. exists x, s. split; [|exact (text_met _ i Hw H)].
  cbn in E. apply orb_prop in E as [E|E]; [apply orb_prop in E as [E|E]|]; apply Z.eqb_eq in E; subst x; cbn; auto.
Qed.
Lemma any_met i : In i (items_where (fun _ => true)) -> exists modes s, met (NewMachine modes) s i.
Proof.
  intros H. apply in_flat_map in H as ([[l s] its] & Hw & H). exists l, s. exact (text_met _ i Hw H).
Qed.

Definition nums (n : nat) : list N := map N.of_nat (seq 0 n).
Definition dead_in (l : list (part * list nat * bool)) (q : part) (p : list nat) (v : bool) : bool :=
  existsb (fun d => part_eqb q (fst (fst d)) && nats_eqb p (snd (fst d)) && Bool.eqb v (snd d)) l.
Definition needed : list item :=
  flat_map (fun k => if existsb (N.eqb k) (0 :: never_met)%N then [] else [IState k; IEnd k]) (nums 194) ++
  map ITr (nums 250) ++
  flat_map (fun q => match block_of q with
     | None => []
     | Some b => IBlock q ::
         flat_map (fun p => flat_map (fun v => if dead_in (never ++ never_listed) q p v then [] else [ITake q p v]) [true; false]) (ifs 0 b)
     end) (map PF (nums 64) ++ map PEof (nums 64) ++ map PTo (nums 64)).
Lemma needed_ok : (let l := items_where one_listed in forallb (fun i => memb i l) needed) = true.
Proof. vm_cast_no_check (@eq_refl bool true). Qed.
Lemma other_ok : (let l := items_where (fun _ => true) in forallb (fun d => memb (ITake (fst (fst d)) (snd (fst d)) (snd d)) l) never_listed) = true.
Proof. vm_cast_no_check (@eq_refl bool true). Qed.
Lemma needed_met i : In i needed -> exists mode s, In mode [PRFC2141Only; PRFC7643Only; PRFC8141Only] /\ met (NewMachine [mode]) s i.
Proof. pose proof needed_ok as H. cbv zeta in H. rewrite forallb_forall in H. intros Hi. apply listed_met, memb_in, H, Hi. Qed.

(* the numbers that occur *)
Ltac bits p H := first [ reflexivity | exfalso; apply H; reflexivity | destruct p as [p|p|]; [bits p H|bits p H|first [reflexivity|exfalso; apply H; reflexivity]] ].
Lemma tr_small n : tr_block n <> None -> (n <? 250 = true)%N.
Proof. intros H. destruct n as [|p]; [reflexivity|]. bits p H. Qed.
Lemma f_small n : f_block n <> None -> (n <? 64 = true)%N.
Proof. intros H. destruct n as [|p]; [reflexivity|]. bits p H. Qed.
Lemma eof_small n : eof_block n <> None -> (n <? 64 = true)%N.
Proof. intros H. destruct n as [|p]; [reflexivity|]. bits p H. Qed.
Lemma to_small n : to_state_block n <> None -> (n <? 64 = true)%N.
Proof. intros H. destruct n as [|p]; [reflexivity|]. bits p H. Qed.
Lemma in_nums n k : (N.ltb n (N.of_nat k) = true) -> In n (nums k).
Proof.
  intros H. apply N.ltb_lt in H. unfold nums. apply in_map_iff. exists (N.to_nat n). split; [apply N2Nat.id|]. apply in_seq. lia.
Qed.

Lemma states_met k : (1 <= k <= 193)%N -> ~ In k never_met -> forall i, i = IState k \/ i = IEnd k ->
  exists mode s, In mode [PRFC2141Only; PRFC7643Only; PRFC8141Only] /\ met (NewMachine [mode]) s i.
Proof.
  intros Hk Hn i Hi. apply needed_met. unfold needed. apply in_or_app. left. apply in_flat_map. exists k. split.
  - apply in_nums. apply N.ltb_lt. cbn. lia.
  - destruct (existsb (N.eqb k) (0 :: never_met)%N) eqn:E; [|cbn; destruct Hi as [->| ->]; auto].
    exfalso. apply existsb_exists in E as (x & Hx & E). apply N.eqb_eq in E. subst x. destruct Hx as [Hx|Hx]; [lia|contradiction].
Qed.
Lemma labels_met n : tr_block n <> None ->
  exists mode s, In mode [PRFC2141Only; PRFC7643Only; PRFC8141Only] /\ met (NewMachine [mode]) s (ITr n).
Proof.
  intros H. apply needed_met. unfold needed. apply in_or_app. right. apply in_or_app. left. apply in_map, in_nums. exact (tr_small n H).
Qed.
Lemma part_small q b : block_of q = Some b -> In q (map PF (nums 64) ++ map PEof (nums 64) ++ map PTo (nums 64)).
Proof.
  intros H. assert (N0 : block_of q <> None) by (rewrite H; discriminate).
  destruct q as [n|n|n]; cbn [block_of] in N0.
  - apply in_or_app. left. apply in_map, in_nums. exact (f_small n N0).
  - apply in_or_app. right. apply in_or_app. left. apply in_map, in_nums. exact (eof_small n N0).
  - apply in_or_app. right. apply in_or_app. right. apply in_map, in_nums. exact (to_small n N0).
Qed.
Lemma blocks_met q b : block_of q = Some b ->
  exists mode s, In mode [PRFC2141Only; PRFC7643Only; PRFC8141Only] /\ met (NewMachine [mode]) s (IBlock q).
Proof.
  intros H. apply needed_met. unfold needed. apply in_or_app. right. apply in_or_app. right. apply in_flat_map.
  exists q. split; [eapply part_small, H|]. rewrite H. left. reflexivity.
Qed.
Lemma dead_in_in l q p v : dead_in l q p v = true <-> In (q, p, v) l.
Proof.
  unfold dead_in. rewrite existsb_exists. split.
  - intros ([[q' p'] v'] & H & E). cbn [fst snd] in E. apply andb_prop in E as [E E3]. apply andb_prop in E as [E1 E2].
    apply part_eqb_eq in E1. apply nats_eqb_eq in E2. apply eqb_prop in E3. subst. exact H.
  - intros H. exists (q, p, v). split; [exact H|]. cbn [fst snd]. apply andb_true_intro. split; [apply andb_true_intro; split|].
    + destruct q; cbn; apply N.eqb_refl.
    + clear. induction p as [|x p IH]; [reflexivity|]. cbn. rewrite Nat.eqb_refl. exact IH.
    + apply eqb_reflx.
Qed.
Lemma branches_met q b p v : block_of q = Some b -> In p (ifs 0 b) -> ~ In (q, p, v) never -> ~ In (q, p, v) never_listed ->
  exists mode s, In mode [PRFC2141Only; PRFC7643Only; PRFC8141Only] /\ met (NewMachine [mode]) s (ITake q p v).
Proof.
  intros H Hp H1 H2. apply needed_met. unfold needed. apply in_or_app. right. apply in_or_app. right. apply in_flat_map.
  exists q. split; [eapply part_small, H|]. rewrite H. right. apply in_flat_map. exists p. split; [exact Hp|].
  apply in_flat_map. exists v. split; [destruct v; cbn; auto|].
  destruct (dead_in (never ++ never_listed) q p v) eqn:E; [|left; reflexivity].
  exfalso. apply dead_in_in, in_app_or in E as [E|E]; contradiction.
Qed.
Lemma other_met q p v : In (q, p, v) never_listed -> exists modes s, met (NewMachine modes) s (ITake q p v).
Proof.
  intros H. apply any_met, memb_in. pose proof other_ok as G. cbv zeta in G. rewrite forallb_forall in G. exact (G _ H).
Qed.
