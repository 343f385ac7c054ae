(* The exact number of bytes moved by a call of Parse that accepts: runs byte by byte. *)
From Coq Require Import Lia.
From Verif Require Import GoBase MachineSyntax MachineTables Machine Spec Exec Cost Conc ConcBase ConcInv PropsCost.
Local Open Scope Z_scope.

Lemma run_inv f l x y : run f l x = Ret y -> l <> LOut ->
  exists f' l' x', step l x = Ret (l', x') /\ run f' l' x' = Ret y /\ run_cost f l x = step_cost l x + run_cost f' l' x'.
Proof.
  intros H Hl. destruct f as [|f]; [destruct l; try discriminate H; contradiction|].
  destruct l; try contradiction; cbn [run run_cost] in *;
  (destruct (step _ x) as [[l' x']| |] eqn:E; cbn [bind] in H; try discriminate H; exists f, l', x'; auto).
Qed.

(* ---- dead states stay dead ---------------------------------------------------------------- *)
Definition table_fine (cs b : N) : bool :=
  match resume_switch cs b with
  | TOut => N.eqb cs 0
  | TTr n => match tr_block n with None => false | Some (cs', fo) => N.leb cs' 193 && (negb (dead cs) || dead cs' && is_none fo) end
  end.
Lemma tables_fine : forallb (fun cs => forallb (table_fine cs) octets) states = true.
Proof. vm_compute. reflexivity. Qed.
Lemma in_states cs : (cs <= 193)%N -> List.In cs states.
Proof. intros H. unfold states. replace cs with (N.of_nat (N.to_nat cs)) by apply N2Nat.id. apply in_map, in_seq. lia. Qed.
Lemma in_octets (c : byte) : List.In (Byte.to_N c) octets.
Proof.
  unfold octets. replace (Byte.to_N c) with (N.of_nat (N.to_nat (Byte.to_N c))) by apply N2Nat.id.
  apply in_map, in_seq. pose proof (Byte.to_N_bounded c). lia.
Qed.
Lemma table_at cs (c : byte) : (cs <= 193)%N -> table_fine cs (Byte.to_N c) = true.
Proof.
  intros H. pose proof tables_fine as K. rewrite forallb_forall in K. specialize (K cs (in_states cs H)).
  rewrite forallb_forall in K. apply K, in_octets.
Qed.
Lemma dead_cs cs : dead cs = true -> cs = 0%N \/ cs = 193%N.
Proof. unfold dead. rewrite orb_true_iff, !N.eqb_eq. auto. Qed.
Definition doomed (l : label) (x : st) : Prop :=
  match l with
  | LTr n => exists cs', tr_block n = Some (cs', None) /\ dead cs' = true
  | LF _ => False
  | _ => dead (m_cs (fst x)) = true
  end.
Lemma doomed_step l x l' x' : doomed l x -> l <> LOut -> step l x = Ret (l', x') -> doomed l' x'.
Proof.
  intros Hd Hl H. destruct x as [m u]. destruct l; cbn [doomed fst] in Hd; cbn [step] in H; try contradiction.
  - destruct (_ =? _); [|destruct (N.eqb _ _)]; injection H as <- <-; exact Hd.
  - destruct (N.eqb (m_cs m) 0); [injection H as <- <-; exact Hd|].
    assert (Hle : (m_cs m <= 193)%N) by (destruct (dead_cs _ Hd) as [->| ->]; lia).
    replace (N.ltb 193 (m_cs m)) with false in H by (symmetry; apply N.ltb_ge; exact Hle).
    destruct (index (m_data m) (m_p m)) as [b| |]; cbn [bind] in H; try discriminate H.
    pose proof (table_at (m_cs m) b Hle) as K. unfold table_fine in K. rewrite Hd in K.
    destruct (resume_switch (m_cs m) (Byte.to_N b)) as [n|]; injection H as <- <-; [|exact Hd].
    cbn [doomed]. destruct (tr_block n) as [[cs' fo]|]; [|discriminate K]. cbn [negb orb] in K.
    rewrite !andb_true_iff in K. destruct K as (_ & K1 & K2). destruct fo; [discriminate K2|]. eauto.
  - destruct Hd as (cs' & E & Hd). rewrite E in H. injection H as <- <-. exact Hd.
  - destruct (dead_cs _ Hd) as [E|E]; rewrite E in H.
    + change (index to_state_actions (Z.of_N 0)) with (Ret 0%N) in H. cbn in H. injection H as <- <-. exact Hd.
    + change (index to_state_actions (Z.of_N 193)) with (Ret 0%N) in H. cbn [bind to_state_block N.eqb] in H.
      change (N.eqb 193 0) with false in H. cbn iota in H.
      destruct (_ =? _); injection H as <- <-; exact Hd.
  - destruct (m_p m =? m_eof m); [|injection H as <- <-; exact Hd].
    destruct (dead_cs _ Hd) as [E|E]; rewrite E in H.
    + change (index eof_actions (Z.of_N 0)) with (Ret 0%N) in H. cbn in H. injection H as <- <-. exact Hd.
    + change (index eof_actions (Z.of_N 193)) with (Ret 0%N) in H. cbn in H. injection H as <- <-. exact Hd.
Qed.
Lemma doomed_run f : forall l x y, doomed l x -> run f l x = Ret y -> rejecting (m_cs (fst y)) = true.
Proof.
  induction f as [|f IH]; intros l x y Hd H.
  - destruct l; try discriminate H. injection H as <-. cbn [doomed] in Hd. destruct (dead_cs _ Hd) as [->| ->]; reflexivity.
  - destruct (label_out l) as [->|Hl].
    + injection H as <-. cbn [doomed] in Hd. destruct (dead_cs _ Hd) as [->| ->]; reflexivity.
    + assert (E : exists l' x', step l x = Ret (l', x') /\ run f l' x' = Ret y).
      { destruct l; try contradiction; cbn [run] in H;
        (destruct (step _ x) as [[l' x']| |] eqn:E; cbn [bind] in H; try discriminate H; exists l', x'; auto). }
      destruct E as (l' & x' & E1 & E2). apply (IH l' x' y); [|exact E2]. eapply doomed_step; eassumption.
Qed.

(* ---- one byte of an accepting run ------------------------------------------------------------ *)
Definition fcost (fo : option N) (x : st) : Z :=
  match fo with Some g => match f_block g with Some l => block_cost l x | None => 0 end | None => 0 end.

Section Exact.
Variables (start : N) (mode : Z) (mset : bool).
Notation cfg := (cfg start mode mset).

(* from state cs, having consumed pre with rest to go, the run ends in y, accepts and costs c *)
Definition Acc (cs : N) (pre rest : bytes) (pb : Z) (u : URN) (y : st) (c : Z) : Prop :=
  exists f, run f (nextl rest) (cfg (pre ++ rest) cs (zlen pre) pb, u) = Ret y /\
    rejecting (m_cs (fst y)) = false /\ run_cost f (nextl rest) (cfg (pre ++ rest) cs (zlen pre) pb, u) = c.

Lemma acc_byte cs pre b rest pb u y c : (0 < cs <= 193)%N -> Acc cs pre (b :: rest) pb u y c ->
  exists cs' fo m' u', delta cs b = Some (cs', fo) /\ dead cs' = false /\ (cs' <= 193)%N /\
    exec_opt fo (cfg (pre ++ b :: rest) cs' (zlen pre) pb, u) = Ret ((m', u'), Again) /\ dead (m_cs m') = false /\
    forall pb', m' = cfg (pre ++ b :: rest) cs' (zlen pre) pb' ->
      exists c', c = fcost fo (cfg (pre ++ b :: rest) cs' (zlen pre) pb, u) + c' /\ Acc cs' (pre ++ [b]) rest pb' u' y c'.
Proof.
  intros Hcs (f & Hr & Hj & Hc). cbn [nextl] in *.
  destruct (run_inv _ _ _ _ Hr ltac:(discriminate)) as (f1 & l1 & x1 & S1 & R1 & C1).
  unfold Exec.cfg in S1 at 1. rewrite (step_resume start mode mset cs pre b rest pb None u Hcs) in S1.
  pose proof (table_at cs b ltac:(lia)) as K. unfold table_fine in K. unfold delta.
  destruct (resume_switch cs (Byte.to_N b)) as [t|]; [|apply N.eqb_eq in K; lia].
  injection S1 as <- <-. destruct (tr_block t) as [[cs' fo]|] eqn:Et; [|discriminate K].
  apply andb_prop in K. destruct K as [K _]. apply N.leb_le in K.
  destruct (run_inv _ _ _ _ R1 ltac:(discriminate)) as (f2 & l2 & x2 & S2 & R2 & C2).
  cbn [step] in S2. rewrite Et in S2.
  change (mkMachine (pre ++ b :: rest) cs (zlen pre) (zlen (pre ++ b :: rest)) (zlen (pre ++ b :: rest)) pb None start mode mset)
    with (cfg (pre ++ b :: rest) cs (zlen pre) pb) in *.
  change (set_cs cs' (cfg (pre ++ b :: rest) cs (zlen pre) pb)) with (cfg (pre ++ b :: rest) cs' (zlen pre) pb) in S2.
  cbn [step_cost] in C1, C2.
  set (x0 := (cfg (pre ++ b :: rest) cs' (zlen pre) pb, u)) in *.
  (* up to _again *)
  assert (E : exists m' u' f3, exec_opt fo x0 = Ret ((m', u'), Again) /\ run f3 LAgain (m', u') = Ret y /\
    c = fcost fo x0 + run_cost f3 LAgain (m', u')).
  { destruct fo as [g|]; injection S2 as <- <-.
    - destruct (run_inv _ _ _ _ R2 ltac:(discriminate)) as (f3 & l3 & x3 & S3 & R3 & C3).
      unfold x0 in S3. cbn [step] in S3. cbn [exec_opt fcost]. destruct (f_block g) as [l|] eqn:Eg; [|discriminate S3].
      fold x0 in S3. destruct (exec_block l x0) as [[[m' u'] k]| |] eqn:Ex; cbn [bind] in S3; try discriminate S3.
      destruct k; [discriminate S3|]. injection S3 as <- <-. exists m', u', f3. split; [reflexivity|]. split; [exact R3|].
      unfold x0 in C3. cbn [step_cost] in C3. rewrite Eg in C3. fold x0 in C3. lia.
    - eexists _, _, f2. split; [reflexivity|]. split; [exact R2|]. cbn [fcost]. fold x0. unfold x0 in *. lia. }
  destruct E as (m' & u' & f3 & Ex & R3 & C3).
  assert (Hm : dead (m_cs m') = false).
  { destruct (dead (m_cs m')) eqn:Ed; [|reflexivity]. pose proof (doomed_run f3 LAgain (m', u') y Ed R3). congruence. }
  assert (Hd : dead cs' = false).
  { destruct (dead cs') eqn:Ed; [|reflexivity]. exfalso.
    assert (Q : m_cs m' = 193%N \/ m_cs m' = cs').
    { destruct fo as [g|]; cbn [exec_opt] in Ex; [|injection Ex as <- <-; right; reflexivity].
      destruct (f_block g) as [l|] eqn:Eg; [|discriminate Ex].
      destruct (N.eq_dec g 9) as [->|H9].
      { destruct (f9_eff _ _ _ _ _ _ Eg Ex) as (_ & _ & -> & _). right; reflexivity. }
      destruct (N.eq_dec g 38) as [->|H38].
      { destruct (f38_eff _ _ _ _ _ _ Eg Ex) as (_ & -> & _). right; reflexivity. }
      destruct (f_eff g l _ _ m' u' Again Eg H9 H38 Ex) as ((_ & _ & Q) & _). cbn [fst] in Q.
      destruct Q as [Q|(Q & _)]; [left; exact Q|right; exact Q]. }
    destruct Q as [Q|Q]; rewrite Q in Hm; [discriminate Hm|congruence]. }
  exists cs', fo, m', u'. split; [reflexivity|]. split; [exact Hd|]. split; [exact K|]. split; [exact Ex|]. split; [exact Hm|].
  intros pb' ->. exists (run_cost f3 LAgain (cfg (pre ++ b :: rest) cs' (zlen pre) pb', u')). split; [exact C3|].
  destruct (N.eq_dec cs' 171) as [->|H171].
  { exfalso. destruct (run_inv _ _ _ _ R3 ltac:(discriminate)) as (f4 & l4 & x4 & S4 & R4 & _).
    cbn [step Exec.cfg m_cs] in S4. change (index to_state_actions (Z.of_N 171)) with (Ret 33%N) in S4.
    cbn [bind to_state_block exec_block exec_stmt] in S4. injection S4 as <- <-.
    match type of R4 with run _ _ ?x = _ => pose proof (doomed_run f4 LAgain x y eq_refl R4) end. congruence. }
  destruct (run_inv _ _ _ _ R3 ltac:(discriminate)) as (f4 & l4 & x4 & S4 & R4 & C4).
  destruct (index_tsa cs' K H171) as (a & Ha & Hb).
  cbn [step Exec.cfg m_cs] in S4. rewrite Ha in S4. cbn [bind] in S4. rewrite Hb in S4.
  cbn [step_cost Exec.cfg m_cs] in C4. rewrite Ha, Hb in C4.
  replace (N.eqb cs' 0) with false in S4.
  2:{ symmetry. apply N.eqb_neq. intros ->. discriminate Hd. }
  unfold set_p, Exec.cfg in S4; cbn [m_p m_data m_cs m_pe m_eof m_pb m_err m_startParsingAt m_parsingMode m_parsingModeSet] in S4.
  assert (Hx : l4 = nextl rest /\ x4 = (cfg ((pre ++ [b]) ++ rest) cs' (zlen (pre ++ [b])) pb', u')).
  { rewrite <- app_assoc. cbn [app]. replace (zlen (pre ++ [b])) with (zlen pre + 1) by zl. unfold Exec.cfg.
    destruct rest as [|c0 rest']; cbn [nextl].
    - replace (zlen pre + 1 =? zlen (pre ++ [b])) with true in S4 by (symmetry; apply Z.eqb_eq; zl). injection S4 as <- <-. auto.
    - replace (zlen pre + 1 =? zlen (pre ++ b :: c0 :: rest')) with false in S4 by (symmetry; apply Z.eqb_neq; zl). injection S4 as <- <-. auto. }
  destruct Hx as [-> ->]. exists f4. split; [exact R4|]. split; [exact Hj|].
  etransitivity; [|symmetry; exact C4]. lia.
Qed.

(* the end of an accepting run *)
Lemma acc_end cs pre pb u y c : Acc cs pre [] pb u y c ->
  rejecting cs = false /\
  exists a, index eof_actions (Z.of_N cs) = Ret a /\
    match eof_block a with
    | Some b => exec_block b (cfg pre cs (zlen pre) pb, u) = Ret (y, Fall) /\ c = block_cost b (cfg pre cs (zlen pre) pb, u)
    | None => y = (cfg pre cs (zlen pre) pb, u) /\ c = 0
    end.
Proof.
  intros (f & Hr & Hj & Hc). rewrite app_nil_r in *. cbn [nextl] in *.
  destruct (run_inv _ _ _ _ Hr ltac:(discriminate)) as (f1 & l1 & x1 & S1 & R1 & C1).
  rewrite Hc in C1. cbn [step Exec.cfg m_p m_eof m_cs] in S1. cbn [step_cost Exec.cfg m_p m_eof m_cs] in C1. rewrite Z.eqb_refl in S1, C1.
  destruct (index eof_actions (Z.of_N cs)) as [a| |]; cbn [bind] in S1; try discriminate S1.
  assert (Ho : forall f y', run f LOut y' = Ret y -> y' = y /\ run_cost f LOut y' = 0).
  { intros [|g] y' H; injection H as <-; auto. }
  destruct (eof_block a) as [b|] eqn:Eb.
  - change (mkMachine pre cs (zlen pre) (zlen pre) (zlen pre) pb None start mode mset) with (cfg pre cs (zlen pre) pb) in *.
    destruct (exec_block b (cfg pre cs (zlen pre) pb, u)) as [[[m' u'] k]| |] eqn:Ex; cbn [bind] in S1; try discriminate S1.
    destruct k; injection S1 as <- <-.
    + destruct (Ho _ _ R1) as [<- H0]. rewrite H0 in C1. cbn [fst] in Hj.
      assert (Q : m_cs m' = cs).
      { clear - Eb Ex. unfold eof_block in Eb.
        repeat match type of Eb with context [match ?x with _ => _ end] => is_var x; destruct x end; try discriminate Eb; injection Eb as <-;
        repeat (cbn [exec_block exec_stmt bind eval_cond] in Ex;
          match type of Ex with
          | context [text ?v] => destruct (text v)
          | context [match u_scim ?v with _ => _ end] => destruct (u_scim v)
          | context [slice ?d ?a ?b] => destruct (slice d a b)
          | context [for_tolower ?d ?a ?b ?c] => destruct (for_tolower d a b c)
          | context [if ?v then _ else _] => destruct v
          end); cbn [exec_block exec_stmt bind eval_cond] in Ex; try discriminate Ex; injection Ex as <- <-; reflexivity. }
      rewrite Q in Hj. split; [exact Hj|]. exists a. split; [reflexivity|]. rewrite Eb. split; [exact Ex|lia].
    + exfalso. pose proof (eof_again a b _ _ m' u' Eb Ex) as Hcs.
      assert (dead (m_cs m') = true) by (rewrite Hcs; reflexivity).
      pose proof (doomed_run f1 LAgain (m', u') y H R1). congruence.
  - injection S1 as <- <-. destruct (Ho _ _ R1) as [<- H0]. rewrite H0 in C1. cbn [fst Exec.cfg m_cs] in Hj.
    split; [exact Hj|]. exists a. split; [reflexivity|]. rewrite Eb. split; [reflexivity|lia].
Qed.
End Exact.
