(* Proofs for C60: ints of w bits and spare capacity make no difference to Parse. *)
From Coq Require Import Lia.
From Verif Require Import GoBase MachineSyntax MachineTables Machine MachineInt Urn Exec Api PropsLive PropsLive2.
Local Open Scope Z_scope.

Lemma wrap_id w z : 0 < w -> - 2 ^ (w - 1) <= z < 2 ^ (w - 1) -> wrap w z = z.
Proof.
  intros Hw H. unfold wrap. assert (E : 2 ^ w = 2 * 2 ^ (w - 1)).
  { replace w with (Z.succ (w - 1)) at 1 by lia. apply Z.pow_succ_r. lia. }
  rewrite Z.mod_small by lia. lia.
Qed.

(* ---- an abstract run of a block: was p decremented, which state was set, has nothing been read
   that could overflow ---- *)
Record ist := mkI { i_dec : Z; i_cs : option N; i_ok : bool }.
Definition kin (near : bool) (k : Z) : bool := (-1 <=? k) && (k <=? if near then 3 else 0).
Fixpoint kcond (near : bool) (c : cond) : bool :=
  match c with
  | CPosLtPe k | CDataAtEq k _ => kin near k
  | CNot c => kcond near c
  | CAnd c d | COr c d => kcond near c && kcond near d
  | _ => true
  end.
Definition both (b : bool) (a : ist) : ist := mkI (i_dec a) (i_cs a) (i_ok a && b).
Fixpoint ix (near : bool) (s : stmt) (a : ist) {struct s} : list (ist * ctl) :=
  match s with
  | SMark => [(both (i_dec a =? 0) a, Fall)]
  | SDecP => [(mkI (i_dec a + 1) (i_cs a) (i_ok a && (i_dec a =? 0)), Fall)]
  | SSetErr e k => [(both (kin near k) a, Fall)]
  | SSetCS n => [(mkI (i_dec a) (Some n) (i_ok a), Fall)]
  | SGotoAgain => [(a, Again)]
  | SIf c t e =>
      let a := both (kcond near c) a in
      flat_map (fun v : bool =>
        (fix go (l : list stmt) (a : ist) : list (ist * ctl) :=
           match l with
           | [] => [(a, Fall)]
           | s' :: l' => flat_map (fun r => match r with (a', Fall) => go l' a' | (a', Again) => [(a', Again)] end) (ix near s' a)
           end) (if v then t else e) a) [true; false]
  | _ => [(a, Fall)]
  end.
Fixpoint ixs (near : bool) (l : list stmt) (a : ist) : list (ist * ctl) :=
  match l with
  | [] => [(a, Fall)]
  | s' :: l' => flat_map (fun r => match r with (a', Fall) => ixs near l' a' | (a', Again) => [(a', Again)] end) (ix near s' a)
  end.
Lemma ix_if near c t e a : ix near (SIf c t e) a =
  flat_map (fun v : bool => ixs near (if v then t else e) (both (kcond near c) a)) [true; false].
Proof.
  cbn [ix]. apply flat_map_ext. intros v. generalize (both (kcond near c) a) as a'. generalize (if v then t else e) as l.
  induction l as [|s l IH]; intros a'; [reflexivity|]. cbn [ixs]. apply flat_map_ext. intros [a2 [|]]; auto.
Qed.

Lemma exec_if_w w sp c t e x : exec_stmt_w w sp (SIf c t e) x =
  do v <- eval_cond_w w c x; exec_block_w w sp (if v : bool then t else e) x.
Proof.
  destruct x as [m u]. cbn [exec_stmt_w]. destruct (eval_cond_w w c (m, u)) as [v| |]; [cbn [bind]|reflexivity|reflexivity].
  generalize (if v then t else e) (m, u). intros l. induction l as [|s l IH]; intros y; [reflexivity|]. cbn [exec_block_w].
  destruct (exec_stmt_w w sp s y) as [[y' [|]]| |]; cbn; auto.
Qed.

Lemma zlen_app {A} (a b : list A) : zlen (a ++ b) = zlen a + zlen b.
Proof. unfold zlen. rewrite app_length. lia. Qed.
Lemma zlen_ge {A} (a : list A) : 0 <= zlen a.
Proof. unfold zlen. lia. Qed.
Lemma slice_cap_ok data sp a b t : slice data a b = Ret t -> slice_cap data sp a b = Ret t.
Proof.
  unfold slice, slice_cap. destruct ((0 <=? a) && (a <=? b) && (b <=? zlen data)) eqn:E; [|discriminate].
  apply andb_prop in E as [E E3]. apply andb_prop in E as [E1 E2].
  apply Z.leb_le in E1, E2, E3. pose proof (zlen_ge sp) as Hsp.
  replace ((0 <=? a) && (a <=? b) && (b <=? zlen data + zlen sp)) with true
    by (symmetry; rewrite !andb_true_iff, !Z.leb_le; lia).
  intros H. rewrite <- H. f_equal. unfold zlen in E3.
  rewrite skipn_app, firstn_app.
  replace (Z.to_nat (b - a) - List.length (skipn (Z.to_nat a) data))%nat with 0%nat by (rewrite skipn_length; lia).
  cbn [firstn]. apply app_nil_r.
Qed.
Lemma index_in {A} (l : list A) i b : index l i = Ret b -> 0 <= i < zlen l.
Proof. unfold index. destruct ((0 <=? i) && (i <? zlen l)) eqn:E; [|discriminate]. apply andb_prop in E as [E1 E2]. lia. Qed.
Lemma set_nth_len {A} (v : A) : forall l n, List.length (set_nth n v l) = List.length l.
Proof. induction l as [|x l IH]; intros [|n]; cbn; auto. Qed.
Lemma update_len {A} (l : list A) i v l' : update l i v = Ret l' -> zlen l' = zlen l.
Proof.
  unfold update. destruct ((0 <=? i) && (i <? zlen l)); [|discriminate]. intros H. injection H as <-.
  unfold zlen. rewrite set_nth_len. reflexivity.
Qed.
Lemma for_w w d n : 0 < w -> n < 2 ^ (w - 1) -> forall is pb data data', zlen data = n ->
  for_tolower d is pb data = Ret data' -> for_tolower_w w d is pb data = Ret data' /\ zlen data' = n.
Proof.
  intros Hw Hn. induction is as [|i is IH]; intros pb data data' Hl H; cbn in H |- *; [injection H as <-; auto|].
  destruct (index data (pb + i)) as [b| |] eqn:E; try discriminate H. cbn [bind] in H.
  pose proof (index_in _ _ _ E) as R. rewrite wrap_id by lia. rewrite E. cbn [bind].
  destruct (update data (pb + i) (byte_add b d)) as [d2| |] eqn:E2; try discriminate H. cbn [bind] in H |- *.
  apply IH; [rewrite (update_len _ _ _ _ E2); exact Hl|exact H].
Qed.

Section Width.
Variables (w n : Z) (sp : bytes) (x0 : st) (near : bool).
Hypothesis Hw : 4 <= w.
Hypothesis Hn : n < 2 ^ (w - 1).
Hypothesis H0 : 0 <= m_p (fst x0) <= n.
Hypothesis Hnear : near = true -> m_p (fst x0) <= 4.

Lemma w8 : 8 <= 2 ^ (w - 1).
Proof. change 8 with (2 ^ 3). apply Z.pow_le_mono_r; lia. Qed.

Record rel (a : ist) (x : st) : Prop := {
  r_p : m_p (fst x) = m_p (fst x0) - i_dec a;
  r_cs : m_cs (fst x) = match i_cs a with Some k => k | None => m_cs (fst x0) end;
  r_pe : m_pe (fst x) = n;
  r_eof : m_eof (fst x) = n;
  r_len : zlen (m_data (fst x)) = n;
  r_pb : i_ok a = true -> 0 <= m_pb (fst x) <= n /\ 0 <= i_dec a <= 1 }.

Lemma k_range a x k : rel a x -> i_ok a = true -> kin near k = true -> - 2 ^ (w - 1) <= m_p (fst x) + k < 2 ^ (w - 1).
Proof.
  intros R O K. pose proof w8. rewrite (r_p _ _ R). destruct (r_pb _ _ R O) as [_ D]. unfold kin in K. apply andb_prop in K as [K1 K2]. apply Z.leb_le in K1, K2.
  destruct near; [specialize (Hnear eq_refl)|]; lia.
Qed.
Lemma cond_w c a x v : rel a x -> i_ok a = true -> kcond near c = true -> eval_cond c x = Ret v -> eval_cond_w w c x = Ret v.
Proof.
  intros R O. revert v. destruct x as [m u].
  induction c as [k| | | |k|k b| |c IH|c IHc d IHd|c IHc d IHd]; intros v K H; cbn in K, H |- *; auto.
  - rewrite wrap_id; [exact H|lia|]. exact (k_range a (m, u) k R O K).
  - rewrite wrap_id; [exact H|lia|]. exact (k_range a (m, u) k R O K).
  - destruct (eval_cond c (m, u)) as [b| |]; try discriminate H. rewrite (IH b K eq_refl). exact H.
  - apply andb_prop in K as [K1 K2]. destruct (eval_cond c (m, u)) as [b| |]; try discriminate H. rewrite (IHc b K1 eq_refl). cbn [bind] in H |- *.
    destruct b; auto.
  - apply andb_prop in K as [K1 K2]. destruct (eval_cond c (m, u)) as [b| |]; try discriminate H. rewrite (IHc b K1 eq_refl). cbn [bind] in H |- *.
    destruct b; auto.
Qed.

Definition same_at (s : stmt) : Prop := forall a x y c, rel a x -> exec_stmt s x = Ret (y, c) ->
  exists a', In (a', c) (ix near s a) /\ rel a' y /\ (i_ok a' = true -> i_ok a = true /\ exec_stmt_w w sp s x = Ret (y, c)).

Lemma block_same b (F : Forall same_at b) : forall a x y c, rel a x -> exec_block b x = Ret (y, c) ->
  exists a', In (a', c) (ixs near b a) /\ rel a' y /\ (i_ok a' = true -> i_ok a = true /\ exec_block_w w sp b x = Ret (y, c)).
Proof.
  induction F as [|s b Hs F IH]; intros a x y c R H.
  - cbn in H. injection H as <- <-. exists a. split; [left; reflexivity|]. split; [exact R|]. intros K. split; [exact K|reflexivity].
  - cbn [exec_block] in H. destruct (exec_stmt s x) as [[y' c']| |] eqn:E; try discriminate H. cbn [bind] in H.
    destruct (Hs a x y' c' R E) as (a1 & I1 & R1 & K1). destruct c'.
    + destruct (IH a1 y' y c R1 H) as (a2 & I2 & R2 & K2). exists a2. split; [|split; [exact R2|]].
      * cbn [ixs]. apply in_flat_map. eexists. split; [exact I1|exact I2].
      * intros K. destruct (K2 K) as [K3 E3]. destruct (K1 K3) as [K4 E4]. split; [exact K4|]. cbn [exec_block_w]. rewrite E4. exact E3.
    + injection H as <- <-. exists a1. split; [|split; [exact R1|]].
      * cbn [ixs]. apply in_flat_map. eexists. split; [exact I1|left; reflexivity].
      * intros K. destruct (K1 K) as [K4 E4]. split; [exact K4|]. cbn [exec_block_w]. rewrite E4. reflexivity.
Qed.
Lemma if_same c t e : Forall same_at t -> Forall same_at e -> same_at (SIf c t e).
Proof.
  intros Ft Fe a x y k R H. rewrite exec_if in H. destruct (eval_cond c x) as [v| |] eqn:E; try discriminate H. cbn [bind] in H.
  assert (F : Forall same_at (if v then t else e)) by (destruct v; assumption).
  assert (R' : rel (both (kcond near c) a) x).
  { destruct R as [? ? ? ? ? Q]. constructor; auto. cbn. intros G. apply andb_prop in G as [G _]. exact (Q G). }
  destruct (block_same _ F _ x y k R' H) as (a' & I & Ry & K). exists a'. split; [|split; [exact Ry|]].
  - rewrite ix_if. apply in_flat_map. exists v. split; [destruct v; cbn; auto|exact I].
  - intros G. destruct (K G) as [G1 G2]. cbn in G1. apply andb_prop in G1 as [G1 G3]. split; [exact G1|].
    rewrite exec_if_w, (cond_w c a x v R G1 G3 E). exact G2.
Qed.
Lemma text_same m t : text m = Ret t -> text_w sp m = Ret t.
Proof. apply slice_cap_ok. Qed.

Fixpoint stmt_same (s : stmt) : same_at s.
Proof.
  destruct s.
  12:{ apply if_same.
       - induction t as [|a t IH]; constructor; [apply stmt_same|exact IH].
       - induction e as [|a e IH]; constructor; [apply stmt_same|exact IH]. }
  all: intros a [m u] y c0 R H; pose proof R as [Rp Rc Re Rf Rl Rb]; cbn [fst] in Rp, Rc, Re, Rf, Rl, Rb; cbn [exec_stmt] in H.
  all: repeat match type of H with
       | bind ?r _ = _ => let E := fresh "E" in destruct r eqn:E; [cbn [bind] in H|discriminate H|discriminate H]
       | match ?o with Some _ => _ | None => _ end = _ => let E := fresh "E" in destruct o eqn:E; [|discriminate H]
       end; try discriminate H.
  all: try (injection H as <- <-; cbn [ix]; eexists; split; [left; reflexivity|]; cbn [exec_stmt_w];
    split; [constructor; cbn; auto|intros K; split; [exact K|]];
    repeat match goal with
    | E : text _ = Ret _ |- _ => rewrite (text_same _ _ E); clear E
    | E : slice _ _ _ = Ret _ |- _ => rewrite (slice_cap_ok _ sp _ _ _ E); clear E
    | E : u_scim _ = _ |- _ => rewrite E; clear E
    end; cbn [bind]; reflexivity).
  - (* mark *) injection H as <- <-. cbn [ix]. eexists. split; [left; reflexivity|]. split.
    + constructor; cbn; auto. intros K. apply andb_prop in K as [K' K]. apply Z.eqb_eq in K. specialize (Rb K'). lia.
    + cbn. intros K. apply andb_prop in K as [K _]. auto.
  - (* tolower *) injection H as <- <-. cbn [ix]. eexists. split; [left; reflexivity|]. split; [constructor; cbn; auto|].
    intros K. split; [exact K|]. cbn [exec_stmt_w]. rewrite wrap_id; [reflexivity|lia|]. specialize (Rb K). lia.
  - (* the loop *) injection H as <- <-. cbn [ix].
    destruct (for_w w d n ltac:(lia) Hn _ _ _ _ Rl E) as [F1 F2].
    eexists. split; [left; reflexivity|]. split; [constructor; cbn; auto|]. intros K. split; [exact K|]. cbn [exec_stmt_w]. rewrite F1. reflexivity.
  - (* err *) injection H as <- <-. cbn [ix]. eexists. split; [left; reflexivity|]. split.
    + constructor; cbn; auto. intros K. apply andb_prop in K as [K _]. auto.
    + cbn. intros K. apply andb_prop in K as [K1 K2]. split; [exact K1|]. rewrite wrap_id; [reflexivity|lia|]. exact (k_range a (m, u) k R K1 K2).
  - (* p-- *) injection H as <- <-. cbn [ix]. eexists. split; [left; reflexivity|]. split.
    + constructor; cbn; auto.
      * lia.
      * intros K. apply andb_prop in K as [K K']. apply Z.eqb_eq in K'. specialize (Rb K). lia.
    + cbn. intros K. apply andb_prop in K as [K1 K2]. split; [exact K1|]. pose proof w8. apply Z.eqb_eq in K2. rewrite wrap_id; [reflexivity|lia|]. lia.
Qed.
Lemma exec_same b y c : rel (mkI 0 None true) x0 -> exec_block b x0 = Ret (y, c) ->
  exists a, In (a, c) (ixs near b (mkI 0 None true)) /\ rel a y /\ (i_ok a = true -> exec_block_w w sp b x0 = Ret (y, c)).
Proof.
  intros R H. assert (F : Forall same_at b) by (apply Forall_forall; intros s _; apply stmt_same).
  destruct (block_same b F _ _ _ _ R H) as (a & I & Ry & K). exists a. split; [exact I|]. split; [exact Ry|]. intros G. apply (K G).
Qed.
End Width.

(* ---- the blocks ---------------------------------------------------------------------------------- *)
(* went on, or went to the fail state with p one less *)
Definition goes_on (a : ist) : bool :=
  i_ok a && match i_cs a with None => i_dec a =? 0 | Some k => N.eqb k 193 && (i_dec a =? 1) end.
Definition fails (a : ist) : bool :=
  i_ok a && match i_cs a with None => false | Some k => N.eqb k 193 && (i_dec a =? 1) end.
Definition start_i := mkI 0 None true.
Lemma f_blocks : forallb (fun n => match f_block n with
  | Some b => forallb (fun r => goes_on (fst r)) (ixs (N.eqb n 1) b start_i)
  | None => true end) (nums 64) = true.
Proof. vm_compute. reflexivity. Qed.
Lemma eof_blocks : forallb (fun n => match eof_block n with
  | Some b => forallb (fun r => match r with (a, Again) => fails a | (a, Fall) => i_ok a end) (ixs false b start_i)
  | None => true end) (nums 64) = true.
Proof. vm_compute. reflexivity. Qed.
Lemma f_blocks_at n b a c : f_block n = Some b -> In (a, c) (ixs (N.eqb n 1) b start_i) -> goes_on a = true.
Proof.
  intros E I. assert (S : In n (nums 64)) by (apply in_nums, f_small; congruence).
  pose proof (proj1 (forallb_forall _ _) f_blocks n S) as H. cbv beta in H. rewrite E in H.
  exact (proj1 (forallb_forall _ _) H _ I).
Qed.
Lemma eof_blocks_at n b a c : eof_block n = Some b -> In (a, c) (ixs false b start_i) ->
  match c with Again => fails a = true | Fall => i_ok a = true end.
Proof.
  intros E I. assert (S : In n (nums 64)) by (apply in_nums, eof_small; congruence).
  pose proof (proj1 (forallb_forall _ _) eof_blocks n S) as H. cbv beta in H. rewrite E in H.
  pose proof (proj1 (forallb_forall _ _) H _ I) as G. cbn in G. destruct c; exact G.
Qed.

(* ---- where the first five bytes are read: these states are met there only -------------------------- *)
Definition depth (k : N) : option Z :=
  match k with
  | 1%N | 44%N | 83%N => Some 0 | 2%N | 45%N | 84%N => Some 1 | 3%N | 46%N | 85%N => Some 2
  | 4%N | 47%N | 86%N => Some 3 | 5%N | 48%N | 87%N => Some 4 | _ => None
  end.
Definition deeper (o o' : option Z) : bool :=
  match o' with None => true | Some d' => match o with Some d => d' =? d + 1 | None => false end end.
Definition shallow (o : option Z) : bool := match o with Some d => d <=? 4 | None => false end.
Definition tr_ok (k : N) (b : byte) : bool :=
  match resume_switch k (Byte.to_N b) with
  | TOut => true
  | TTr n => match tr_block n with
             | Some (k', f) => deeper (depth k) (depth k') && match f with Some 1%N => shallow (depth k) | _ => true end
             | None => true end
  end.
Lemma trs_ok : forallb (fun k => forallb (tr_ok k) all_bytes) (nums 194) = true.
Proof. vm_compute. reflexivity. Qed.
Lemma tr_ok_at k b : (k <= 193)%N -> tr_ok k b = true.
Proof.
  intros H. assert (S : In k (nums 194)) by (apply in_nums; apply N.ltb_lt; lia).
  exact (proj1 (forallb_forall _ _) (proj1 (forallb_forall _ _) trs_ok k S) b (all_bytes_all b)).
Qed.

Lemma to_only j b : to_state_block j = Some b -> b = [SDecP; SSetErr Err8141InformalID 0; SSetCS 193; SGotoAgain].
Proof. unfold to_state_block. intros H. repeat (match type of H with match ?x with _ => _ end = _ => destruct x end; try discriminate H). congruence. Qed.

Definition at_depth (o : option Z) (p : Z) : Prop := match o with Some d => p = d | None => True end.
(* what holds of the state at each label *)
Definition inv (n : Z) (l : label) (x : st) : Prop :=
  let m := fst x in
  m_pe m = n /\ m_eof m = n /\ zlen (m_data m) = n /\ 0 <= m_pb m <= n /\
  match l with
  | LEnter => m_p m = 0 /\ at_depth (depth (m_cs m)) 0
  | LResume => 0 <= m_p m < n /\ at_depth (depth (m_cs m)) (m_p m)
  | LTr k => 0 <= m_p m < n /\
      match tr_block k with
      | Some (k', f) => at_depth (depth k') (m_p m + 1) /\ (f = Some 1%N -> m_p m <= 4)
      | None => True end
  | LF f => 0 <= m_p m < n /\ at_depth (depth (m_cs m)) (m_p m + 1) /\ (f = 1%N -> m_p m <= 4)
  | LAgain => -1 <= m_p m < n /\ at_depth (depth (m_cs m)) (m_p m + 1) /\ (m_cs m <> 193%N -> 0 <= m_p m)
  | LTestEof => m_p m = n
  | LOut => True
  end.

Lemma step_same w sp n l x l' x' : 4 <= w -> n < 2 ^ (w - 1) -> inv n l x -> step l x = Ret (l', x') ->
  step_w w sp l x = Ret (l', x') /\ inv n l' x'.
Proof.
  intros Hw Hn I H. destruct x as [m u]. destruct I as (Ie & If & Il & Ib & I). cbn [fst] in Ie, If, Il, Ib, I.
  assert (B8 : 8 <= 2 ^ (w - 1)) by (change 8 with (2 ^ 3); apply Z.pow_le_mono_r; lia).
  assert (N0 : 0 <= n) by (rewrite <- Il; apply zlen_ge).
  destruct l as [| |k|f| | |]; cbn [step] in H.
  - cbn [step_w]. split; [exact H|]. destruct I as [I1 I2]. destruct (m_p m =? m_pe m) eqn:E; [injection H as <- <-|].
    + apply Z.eqb_eq in E. unfold inv; cbn [fst]. repeat split; auto; lia.
    + apply Z.eqb_neq in E. destruct (N.eqb (m_cs m) 0); injection H as <- <-; unfold inv; cbn [fst]; [repeat split; auto; lia|].
      rewrite I1. repeat split; auto; lia.
  - cbn [step_w]. split; [exact H|]. destruct I as [I1 I2]. destruct (N.eqb (m_cs m) 0).
    { injection H as <- <-. unfold inv; cbn [fst]. repeat split; auto; lia. }
    destruct (N.ltb 193 (m_cs m)) eqn:L.
    { injection H as <- <-. unfold inv; cbn [fst]. repeat split; auto; try lia; try discriminate. }
    destruct (index (m_data m) (m_p m)) as [b| |]; try discriminate H. cbn [bind] in H.
    apply N.ltb_ge in L. pose proof (tr_ok_at (m_cs m) b L) as T. unfold tr_ok in T.
    destruct (resume_switch (m_cs m) (Byte.to_N b)) as [j|]; injection H as <- <-; unfold inv; cbn [fst]; [|repeat split; auto; lia].
    repeat (split; [auto; lia|]). destruct (tr_block j) as [[k' f]|]; [|exact Logic.I].
    apply andb_prop in T as [T1 T2]. split.
    + unfold deeper in T1. destruct (depth k') as [d'|]; [|exact Logic.I]. destruct (depth (m_cs m)) as [d|]; [|discriminate T1].
      cbn in I2 |- *. lia.
    + intros ->. unfold shallow in T2. destruct (depth (m_cs m)) as [d|]; [|discriminate T2]. cbn in I2. lia.
  - cbn [step_w]. split; [exact H|]. destruct I as [I1 I2].
    destruct (tr_block k) as [[k' [f|]]|]; [| |discriminate H]; injection H as <- <-; destruct I2 as [I2 I3];
      unfold inv; cbn [fst set_cs m_pe m_eof m_data m_pb m_p m_cs]; repeat split; auto; try lia.
    intros ->. auto.
  - destruct I as (I1 & I2 & I3). destruct (f_block f) as [b|] eqn:F; [|discriminate H].
    destruct (exec_block b (m, u)) as [[x1 c]| |] eqn:E; try discriminate H. cbn [bind] in H.
    destruct c; [discriminate H|]. injection H as <- <-.
    assert (R : rel n (m, u) start_i (m, u)).
    { constructor; cbn; auto; lia. }
    destruct (exec_same w n sp (m, u) (N.eqb f 1) Hw Hn ltac:(cbn; lia) ltac:(intros G; apply N.eqb_eq in G; cbn; auto) b x1 Again R E)
      as (a & Ia & Ra & Wa).
    pose proof (f_blocks_at f b a Again F Ia) as G. unfold goes_on in G. apply andb_prop in G as [G1 G2].
    split; [cbn [step_w]; rewrite F, (Wa G1); reflexivity|].
    destruct Ra as [Rp Rc Re Rf Rl Rb]. cbn [fst] in Rp, Rc. specialize (Rb G1). unfold inv.
    do 4 (split; [auto; lia|]). destruct (i_cs a) as [k|].
    + apply andb_prop in G2 as [G2 G3]. apply N.eqb_eq in G2. apply Z.eqb_eq in G3. rewrite G2 in Rc. rewrite Rc, Rp, G3.
      split; [cbn [fst]; lia|]. split; [exact Logic.I|]. intros Q. contradiction Q. reflexivity.
    + apply Z.eqb_eq in G2. rewrite Rc, Rp, G2, Z.sub_0_r. repeat split; auto; lia.
  - destruct I as (I1 & I2 & I3). destruct (index to_state_actions (Z.of_N (m_cs m))) as [j| |] eqn:J; try discriminate H. cbn [bind] in H.
    destruct (to_state_block j) as [b|] eqn:T.
    + assert (J33 : b = [SDecP; SSetErr Err8141InformalID 0; SSetCS 193; SGotoAgain]) by (apply to_only with j; exact T). subst b.
      cbn in H. injection H as <- <-.
      assert (P : m_cs m <> 193%N) by (intros Q; rewrite Q in J; vm_compute in J; injection J as <-; discriminate T).
      specialize (I3 P).
      split.
      * cbn [step_w]. rewrite J. cbn [bind]. rewrite T. cbn. unfold set_p, set_cs, set_err; cbn. rewrite !wrap_id by lia; try reflexivity.
      * unfold inv. cbn. repeat split; auto; try lia; intros Q; contradiction Q; reflexivity.
    + cbn [step_w]. rewrite J. cbn [bind]. rewrite T. rewrite wrap_id by lia. split; [exact H|].
      destruct (N.eqb (m_cs m) 0) eqn:C.
      { injection H as <- <-. unfold inv; cbn [fst]. repeat split; auto; lia. }
      cbn [set_p m_p m_pe] in H. destruct (m_p m + 1 =? m_pe m) eqn:Q; injection H as <- <-; unfold inv; cbn [fst set_p m_pe m_eof m_data m_pb m_p m_cs].
      * apply Z.eqb_eq in Q. repeat split; auto; lia.
      * apply Z.eqb_neq in Q. repeat split; auto; lia.
  - destruct (m_p m =? m_eof m) eqn:Q.
    2:{ cbn [step_w]. rewrite Q. injection H as <- <-. split; [reflexivity|]. unfold inv; cbn [fst]. repeat split; auto; lia. }
    destruct (index eof_actions (Z.of_N (m_cs m))) as [j| |] eqn:J; try discriminate H. cbn [bind] in H.
    destruct (eof_block j) as [b|] eqn:F.
    2:{ cbn [step_w]. rewrite Q, J. cbn [bind]. rewrite F. injection H as <- <-. split; [reflexivity|]. unfold inv; cbn [fst]. repeat split; auto; lia. }
    destruct (exec_block b (m, u)) as [[x1 c]| |] eqn:E; try discriminate H. cbn [bind] in H.
    assert (R : rel n (m, u) start_i (m, u)).
    { constructor; cbn; auto; lia. }
    destruct (exec_same w n sp (m, u) false Hw Hn ltac:(cbn; lia) ltac:(discriminate) b x1 c R E) as (a & Ia & Ra & Wa).
    pose proof (eof_blocks_at j b a c F Ia) as G.
    assert (G1 : i_ok a = true) by (destruct c; [exact G|unfold fails in G; apply andb_prop in G as [G _]; exact G]).
    destruct Ra as [Rp Rc Re Rf Rl Rb]. cbn [fst] in Rp, Rc. specialize (Rb G1).
    cbn [step_w]. rewrite Q, J. cbn [bind]. rewrite F, (Wa G1). cbn [bind]. split; [exact H|].
    destruct c; injection H as <- <-; unfold inv; do 4 (split; [auto; lia|]); auto.
    unfold fails in G. apply andb_prop in G as [_ G]. destruct (i_cs a) as [k|]; [|discriminate G].
    apply andb_prop in G as [G2 G3]. apply N.eqb_eq in G2. apply Z.eqb_eq in G3. rewrite G2 in Rc. rewrite Rc, Rp, G3.
    split; [cbn [fst]; lia|]. split; [exact Logic.I|]. intros Q'. contradiction Q'. reflexivity.
  - cbn [step_w]. injection H as <- <-. split; [reflexivity|]. unfold inv; cbn [fst]. repeat split; auto; lia.
Qed.

Lemma run_same w sp n : 4 <= w -> n < 2 ^ (w - 1) -> forall f l x y, inv n l x -> run f l x = Ret y -> run_w w sp f l x = Ret y.
Proof.
  intros Hw Hn. induction f as [|f IH]; intros l x y I H; cbn [run run_w] in H |- *; [exact H|].
  destruct l; try exact H;
  (destruct (step _ x) as [[l' x']| |] eqn:E in H; try discriminate H; cbn [bind] in H;
   destruct (step_same w sp n _ _ _ _ Hw Hn I E) as [E' I']; rewrite E'; cbn [bind]; apply IH; assumption).
Qed.
Lemma parse_int w sp m s : reachable m -> 4 <= w -> zlen s < 2 ^ (w - 1) -> machine_Parse_w w sp m s = machine_Parse m s.
Proof.
  intros R Hw Hn. destruct (parse_reach m s R) as (m' & uo & eo & E & _). rewrite E.
  unfold machine_Parse in E. unfold machine_Parse_w.
  destruct (run _ LEnter _) as [y| |] eqn:Er in E; try discriminate E.
  rewrite (run_same w sp (zlen s) Hw Hn _ _ _ y); [exact E| |exact Er].
  pose proof (zlen_ge s). unfold inv, parse_init. cbn [fst m_pe m_eof m_data m_pb m_p m_cs]. repeat split; auto; try lia.
  destruct (proj1 (reach_good m R)) as [G|[[G _]|[G|G]]]; rewrite G; cbn; auto.
Qed.
Lemma Parse_int w sp s options : 4 <= w -> zlen s < 2 ^ (w - 1) -> Parse_w w sp s options = Parse s options.
Proof. intros Hw Hn. unfold Parse_w, Parse. rewrite parse_int; auto using reach_new. Qed.

Lemma passes_inv w m s l x : reachable m -> 4 <= w -> zlen s < 2 ^ (w - 1) -> Live.passes m s l x -> inv (zlen s) l x.
Proof.
  intros R Hw Hn. induction 1 as [|l x l' x' _ IH E].
  - pose proof (zlen_ge s). unfold inv, parse_init. cbn [fst m_pe m_eof m_data m_pb m_p m_cs]. repeat split; auto; try lia.
    destruct (proj1 (reach_good m R)) as [G|[[G _]|[G|G]]]; rewrite G; cbn; auto.
  - exact (proj2 (step_same w [] (zlen s) l x l' x' Hw Hn IH E)).
Qed.
Lemma lookahead_at m s x : reachable m -> Live.passes m s (LF 1) x -> 0 <= m_p (fst x) <= 4.
Proof.
  intros R P. assert (H : zlen s < 2 ^ (4 + zlen s - 1)).
  { pose proof (zlen_ge s). apply Z.lt_le_trans with (2 ^ zlen s); [apply Z.pow_gt_lin_r; lia|apply Z.pow_le_mono_r; lia]. }
  pose proof (zlen_ge s). destruct (passes_inv (4 + zlen s) m s _ x R ltac:(lia) H P) as (_ & _ & _ & _ & I1 & _ & I2).
  specialize (I2 eq_refl). lia.
Qed.
(* the state after k steps, for examples *)
Fixpoint nsteps (k : nat) (l : label) (x : st) : option (label * st) :=
  match k with
  | O => Some (l, x)
  | S k => match step l x with Ret (l', x') => nsteps k l' x' | _ => None end
  end.
