(* What the goto program writes to its input: an invariant of the steps of Machine.v, from
   finite facts about the tables that are checked by computation. *)
From Coq Require Import Lia.
From Verif Require Import GoBase MachineSyntax MachineTables Machine Spec Conc ConcBase.
Local Open Scope Z_scope.

(* ---- classes of states -------------------------------------------------------- *)
Definition btw (a b cs : N) : bool := N.leb a cs && N.leb cs b.
(* states before the end of the NSS *)
Definition inH (cs : N) : bool := btw 1 120 cs || btw 123 124 cs || btw 137 177 cs || N.eqb cs 181.
(* states inside the NSS (from its first character on) *)
Definition inQ (cs : N) : bool :=
  btw 39 40 cs || btw 66 82 cs || btw 123 124 cs || btw 172 177 cs || N.eqb cs 181.
(* states right after a percent sign, and one byte later *)
Definition inE1 (cs : N) : bool := existsb (N.eqb cs) [39; 71; 123]%N.
Definition inE2 (cs : N) : bool := existsb (N.eqb cs) [40; 72; 124]%N.
(* how many bytes have been read at least *)
Definition lowb (cs : N) : Z :=
  if existsb (N.eqb cs) [1; 44; 83]%N then 0
  else if existsb (N.eqb cs) [2; 45; 84]%N then 1
  else if existsb (N.eqb cs) [3; 46; 85]%N then 2
  else if existsb (N.eqb cs) [4; 47; 86]%N then 3
  else 4.
Definition marks (n : N) : bool := existsb (N.eqb n) [1; 4; 26; 31]%N.
Definition fo_is (k : N) (fo : option N) : bool := match fo with Some n => N.eqb n k | None => false end.
Definition fo_marks (fo : option N) : bool := match fo with Some n => marks n | None => false end.

Definition tr_quiet (n : N) : bool :=
  match tr_block n with Some (cs', fo) => negb (inH cs') && negb (fo_is 38 fo) | None => true end.

Definition edge_ok (cs b : N) : bool :=
  match resume_switch cs b with
  | TOut => true
  | TTr n =>
      match tr_block n with
      | None => true
      | Some (cs', fo) =>
          if inH cs then
            (negb (inH cs') ||
               (negb (N.eqb b 63) && negb (N.eqb b 35) && negb (fo_is 38 fo) &&
                (lowb cs' <=? lowb cs + 1) &&
                (negb (inE1 cs') || N.eqb b 37) &&
                (negb (inE2 cs') || inE1 cs) &&
                (if inQ cs then inQ cs' && negb (fo_marks fo)
                 else negb (inQ cs') || (fo_is 4 fo && (3 <=? lowb cs)))))
            && (negb (fo_is 9 fo) || (inQ cs && btw 65 90 b && (inE1 cs || inE2 cs)))
            && (negb (fo_is 38 fo) || (inQ cs && negb (inH cs')))
          else tr_quiet n
      end
  end.
Definition states := map N.of_nat (seq 0 194).
Definition octets := map N.of_nat (seq 0 256).

Lemma edges_checked : forallb (fun cs => forallb (edge_ok cs) octets) states = true.
Proof. vm_compute. reflexivity. Qed.
Lemma edge_fact cs (c : byte) : (cs <= 193)%N -> edge_ok cs (Byte.to_N c) = true.
Proof.
  intros H. pose proof edges_checked as K. rewrite forallb_forall in K. specialize (K cs). rewrite forallb_forall in K.
  apply K.
  - unfold states. replace cs with (N.of_nat (N.to_nat cs)) by apply N2Nat.id. apply in_map, in_seq. lia.
  - unfold octets. replace (Byte.to_N c) with (N.of_nat (N.to_nat (Byte.to_N c))) by apply N2Nat.id.
    apply in_map, in_seq. pose proof (Byte.to_N_bounded c). lia.
Qed.

Definition writes_at (a : N) : bool := existsb (N.eqb a) [34; 35; 37; 38]%N.
Lemma eof_checked : forallb (fun cs => match nth_error eof_actions (N.to_nat cs) with
  | Some a => negb (writes_at a) || inQ cs | None => true end) states = true.
Proof. vm_compute. reflexivity. Qed.
Lemma eof_fact cs a : index eof_actions (Z.of_N cs) = Ret a -> writes_at a = true -> inQ cs = true.
Proof.
  unfold index. destruct ((0 <=? Z.of_N cs) && (Z.of_N cs <? zlen eof_actions)) eqn:E; [|discriminate].
  apply andb_prop in E. destruct E as [_ E]. apply Z.ltb_lt in E. change (zlen eof_actions) with 194 in E.
  replace (Z.to_nat (Z.of_N cs)) with (N.to_nat cs) by lia.
  pose proof eof_checked as K. rewrite forallb_forall in K. specialize (K cs).
  destruct (nth_error eof_actions (N.to_nat cs)) as [a'|]; [|discriminate]. intros [= ->] Hw.
  assert (Hi : List.In cs states).
  { unfold states. replace cs with (N.of_nat (N.to_nat cs)) by apply N2Nat.id. apply in_map, in_seq. lia. }
  specialize (K Hi). rewrite Hw in K. exact K.
Qed.
Lemma inQ_H cs : inQ cs = true -> inH cs = true.
Proof.
  unfold inQ, inH, btw. rewrite !orb_true_iff, !andb_true_iff, !N.leb_le, !N.eqb_eq. lia.
Qed.
Lemma inH_bound cs : inH cs = true -> (1 <= cs <= 193)%N.
Proof. unfold inH, btw. rewrite !orb_true_iff, !andb_true_iff, !N.leb_le, !N.eqb_eq. lia. Qed.
Lemma lowb_pos cs : 0 <= lowb cs.
Proof. unfold lowb. repeat match goal with |- context [if ?b then _ else _] => destruct b end; lia. Qed.

(* ---- blocks --------------------------------------------------------------------- *)
Definition same_io (x x' : st) : Prop :=
  m_data (fst x') = m_data (fst x) /\ u_norm (snd x') = u_norm (snd x) /\ u_SS (snd x') = u_SS (snd x).

Ltac crunch H :=
  idtac;
  repeat (cbn [exec_block exec_stmt eval_cond bind fst snd negb] in H;
    match type of H with
    | context [text ?v] => destruct (text v)
    | context [u_scim ?v] => destruct (u_scim v)
    | context [slice ?d ?a ?b] => destruct (slice d a b)
    | context [index ?d ?a] => destruct (index d a)
    | context [if ?c then _ else _] => destruct c
    | context [match ?b with true => _ | false => _ end] => destruct b
    | context [match u_prefix ?v with _ => _ end] => destruct (u_prefix v)
    end);
  cbn [exec_block exec_stmt eval_cond bind fst snd negb] in H;
  first [discriminate H | injection H as <- <- <-; cbn; auto 20 | injection H as <- <-; cbn; auto 20].

Definition blk_eff (n : N) (x x' : st) : Prop :=
  same_io x x' /\ u_tolower (snd x') = u_tolower (snd x) /\
  (m_cs (fst x') = 193%N \/
   (m_cs (fst x') = m_cs (fst x) /\ m_p (fst x') = m_p (fst x) /\
    (m_pb (fst x') = m_pb (fst x) \/ (marks n = true /\ m_pb (fst x') = m_p (fst x))))).

Lemma f_eff n b m u m' u' c : f_block n = Some b -> n <> 9%N -> n <> 38%N ->
  exec_block b (m, u) = Ret ((m', u'), c) -> blk_eff n (m, u) (m', u') /\ forallb noFor b = true.
Proof.
  intros Hb H9 H38 H. unfold blk_eff, same_io.
  unfold f_block in Hb.
  repeat match type of Hb with context [match ?x with _ => _ end] => is_var x; destruct x end;
    try discriminate Hb; try congruence; injection Hb as <-; (split; [|reflexivity]); crunch H.
Qed.
Lemma f9_eff m u m' u' c : forall b, f_block 9 = Some b -> exec_block b (m, u) = Ret ((m', u'), c) ->
  c = Again /\ same_io (m, u) (m', u') /\ m' = m /\ u_tolower u' = u_tolower u ++ [m_p m - m_pb m] /\ forallb noFor b = true.
Proof. intros b [= <-] H. unfold same_io. crunch H. Qed.

Lemma to_state_eff a b m u m' u' c : to_state_block a = Some b ->
  exec_block b (m, u) = Ret ((m', u'), c) ->
  same_io (m, u) (m', u') /\ m_cs m' = 193%N /\ forallb noFor b = true.
Proof.
  intros Hb H. unfold same_io. unfold to_state_block in Hb.
  repeat match type of Hb with context [match ?x with _ => _ end] => is_var x; destruct x end;
    try discriminate Hb; injection Hb as <-; crunch H.
Qed.

Lemma eof_eff a b m u m' u' c : eof_block a = Some b -> writes_at a = false ->
  exec_block b (m, u) = Ret ((m', u'), c) ->
  same_io (m, u) (m', u') /\ (c = Again -> m_cs m' = 193%N) /\ forallb noFor b = true.
Proof.
  intros Hb Hw H. unfold same_io. unfold eof_block in Hb.
  repeat match type of Hb with context [match ?x with _ => _ end] => is_var x; destruct x end;
    try discriminate Hb; try discriminate Hw; injection Hb as <-; (split; [|split; [|reflexivity]]); crunch H;
    let K := fresh in intros K; discriminate K.
Qed.

(* the writing blocks *)
Definition nss_writes (pre post : list stmt) : list stmt :=
  pre ++ SSetSS :: SForTolower 32 :: SSetNorm :: SForTolower (-32) :: post.
Definition side (s : stmt) : bool :=
  match s with SScimName | SScimOther | SSetKind _ | SGotoAgain => true | _ => false end.
Lemma eof_write a b : eof_block a = Some b -> writes_at a = true ->
  exists pre post, b = nss_writes pre post /\ forallb side pre = true /\ forallb side post = true /\
    forallb (fun s => match s with SGotoAgain => false | _ => true end) (pre ++ post) = true.
Proof.
  intros Hb Hw. unfold writes_at in Hw. cbn in Hw. rewrite !orb_true_iff, !N.eqb_eq in Hw.
  destruct Hw as [->|[->|[->|[->|Hw]]]]; [| | | |discriminate Hw]; injection Hb as <-.
  - exists [], [SSetKind KRFC2141]. repeat split.
  - exists [SScimName], [SSetKind KRFC7643]. repeat split.
  - exists [SScimOther], [SSetKind KRFC7643]. repeat split.
  - exists [], [SSetKind KRFC8141]. repeat split.
Qed.
Lemma f38_write b : f_block 38 = Some b -> b = nss_writes [] [SGotoAgain].
Proof. intros [= <-]. reflexivity. Qed.

(* ---- after the end of the NSS nothing is written any more ------------------------- *)
Definition calm (l : label) (x x' : st) : Prop :=
  same_io x x' /\ match block_of l (fst x) with Some b => forallb noFor b = true | None => True end.

Definition late (l : label) (x : st) : Prop :=
  inH (m_cs (fst x)) = false /\
  match l with LTr n => tr_quiet n = true | LF n => n <> 38%N | _ => True end.

Lemma late_step l x l' x' : late l x -> l <> LOut -> step l x = Ret (l', x') -> late l' x' /\ calm l x x'.
Proof.
  intros [Hh Hl] Hn H. destruct x as [m u]. unfold calm. cbn [fst] in *. destruct l; try contradiction.
  - cbn [step] in H. assert (Hx : x' = (m, u) /\ (l' = LTestEof \/ l' = LOut \/ l' = LResume)).
    { destruct (m_p m =? m_pe m); [|destruct (N.eqb (m_cs m) 0)]; injection H as <- <-; auto. }
    destruct Hx as [-> Hx]. split; [split; [exact Hh|destruct Hx as [->|[->| ->]]; exact I]|].
    split; [repeat split|exact I].
  - cbn [step] in H. destruct (N.eqb (m_cs m) 0) eqn:E0.
    { injection H as <- <-. split; [split; [exact Hh|exact I]|]. split; [repeat split|exact I]. }
    destruct (N.ltb 193 (m_cs m)) eqn:E1.
    { injection H as <- <-. split; [split; [exact Hh|vm_compute; reflexivity]|]. split; [repeat split|exact I]. }
    destruct (index (m_data m) (m_p m)) as [c| |]; cbn [bind] in H; try discriminate H.
    apply N.ltb_ge in E1. pose proof (edge_fact (m_cs m) c E1) as K. unfold edge_ok in K. rewrite Hh in K.
    destruct (resume_switch (m_cs m) (Byte.to_N c)) as [n|]; injection H as <- <-.
    + split; [split; [exact Hh|]|split; [repeat split|exact I]].
      unfold tr_quiet in *. destruct (tr_block n) as [[cs' fo]|]; [exact K|reflexivity].
    + split; [split; [exact Hh|exact I]|split; [repeat split|exact I]].
  - cbn [step] in H. unfold tr_quiet in Hl. destruct (tr_block n) as [[cs' fo]|]; [|discriminate H].
    apply andb_prop in Hl. destruct Hl as [K1 K2]. apply negb_true_iff in K1, K2.
    destruct fo as [f|]; injection H as <- <-; (split; [split; [exact K1|]|split; [repeat split|exact I]]).
    + cbn in K2. apply N.eqb_neq in K2. exact K2.
    + exact I.
  - cbn [step] in H. cbn [block_of]. destruct (f_block n) as [b|] eqn:Eb; [|discriminate H].
    destruct (exec_block b (m, u)) as [[[m' u'] c]| |] eqn:Ee; cbn [bind] in H; try discriminate H.
    destruct c; [discriminate H|]. injection H as <- <-.
    destruct (N.eq_dec n 9) as [->|H9].
    + destruct (f9_eff _ _ _ _ _ b Eb Ee) as (_ & K1 & -> & K2 & K3). split; [split; [exact Hh|exact I]|]. auto.
    + destruct (f_eff _ _ _ _ _ _ _ Eb H9 Hl Ee) as [(K1 & K2 & K3) K4].
      split; [|auto]. split; [|exact I]. cbn [fst] in *. destruct K3 as [-> |[-> _]]; [reflexivity|exact Hh].
  - cbn [step] in H. cbn [block_of]. destruct (index to_state_actions (Z.of_N (m_cs m))) as [a| |]; cbn [bind] in H; try discriminate H.
    destruct (to_state_block a) as [b|] eqn:Eb.
    + destruct (exec_block b (m, u)) as [[[m' u'] c]| |] eqn:Ee; cbn [bind] in H; try discriminate H.
      destruct c; [discriminate H|]. injection H as <- <-.
      destruct (to_state_eff _ _ _ _ _ _ _ Eb Ee) as (K1 & K2 & K3). split; [|auto].
      split; [cbn [fst]; rewrite K2; reflexivity|exact I].
    + assert (Hx : exists m', x' = (m', u) /\ m_data m' = m_data m /\ m_cs m' = m_cs m /\ (l' = LTestEof \/ l' = LOut \/ l' = LResume)).
      { destruct (N.eqb (m_cs m) 0); [injection H as <- <-; eauto 10|].
        destruct (m_p (set_p (m_p m + 1) m) =? m_pe (set_p (m_p m + 1) m)); injection H as <- <-; eexists; split; try reflexivity; auto. }
      destruct Hx as (m' & -> & K1 & K2 & K3). split; [split; [cbn [fst]; rewrite K2; exact Hh|destruct K3 as [->|[->| ->]]; exact I]|].
      split; [repeat split; exact K1|exact I].
  - cbn [step] in H. cbn [block_of]. destruct (m_p m =? m_eof m).
    2:{ injection H as <- <-. split; [split; [exact Hh|exact I]|split; [repeat split|exact I]]. }
    destruct (index eof_actions (Z.of_N (m_cs m))) as [a| |] eqn:Ea; cbn [bind] in H; try discriminate H.
    destruct (eof_block a) as [b|] eqn:Eb.
    2:{ injection H as <- <-. split; [split; [exact Hh|exact I]|split; [repeat split|exact I]]. }
    destruct (exec_block b (m, u)) as [[[m' u'] c]| |] eqn:Ee; cbn [bind] in H; try discriminate H.
    assert (Hw : writes_at a = false).
    { destruct (writes_at a) eqn:Ew; [|reflexivity]. pose proof (inQ_H _ (eof_fact _ _ Ea Ew)). congruence. }
    destruct (eof_eff _ _ _ _ _ _ _ Eb Hw Ee) as (K1 & K2 & K3).
    destruct c; injection H as <- <-.
    + split; [|auto]. split; [|exact I]. cbn [fst].
      (* a block that ends without goto keeps the state *)
      clear -Eb Hw Ee Hh. unfold eof_block in Eb.
      repeat match type of Eb with context [match ?x with _ => _ end] => is_var x; destruct x end;
        try discriminate Eb; try discriminate Hw; injection Eb as <-; crunch Ee.
    + split; [|auto]. split; [|exact I]. cbn [fst]. rewrite (K2 eq_refl). reflexivity.
Qed.
