(* Bounds on the bytes moved by one call of Parse. *)
From Coq Require Import Lia.
From Verif Require Import GoBase MachineSyntax MachineTables Machine Spec Exec Cost Conc ConcBase ConcInv.
Local Open Scope Z_scope.

(* ---- the two loops over output.tolower cancel out -------------------------------------- *)
Lemma byte_add_0 b : byte_add b 0 = b.
Proof. destruct b; reflexivity. Qed.
Lemma byte_add_add b x y : byte_add (byte_add b x) y = byte_add b (x + y).
Proof.
  unfold byte_add at 1 3.
  assert (K : Z.of_N (Byte.to_N (byte_add b x)) = (Z.of_N (Byte.to_N b) + x) mod 256).
  { unfold byte_add. set (n := (Z.of_N (Byte.to_N b) + x) mod 256).
    assert (Hn : 0 <= n < 256) by (apply Z.mod_pos_bound; lia).
    destruct (Byte.of_N (Z.to_N n)) as [r|] eqn:E.
    - apply Byte.to_of_N in E. rewrite E. lia.
    - apply Byte.of_N_None_iff in E. lia. }
  rewrite K. rewrite Zplus_mod_idemp_l. rewrite Z.add_assoc. reflexivity.
Qed.

Fixpoint hits (T : list Z) (pb : Z) (k : nat) : Z :=
  match T with
  | [] => 0
  | i :: T => (if pb + i =? Z.of_nat k then 1 else 0) + hits T pb k
  end.
Lemma nth_set_nth {A} n (v : A) s k : (n < List.length s)%nat ->
  nth_error (set_nth n v s) k = if Nat.eqb n k then Some v else nth_error s k.
Proof.
  revert s k. induction n as [|n IH]; intros [|x s] k H; cbn [List.length] in H; try lia.
  - destruct k; reflexivity.
  - destruct k; cbn [set_nth nth_error Nat.eqb]; [reflexivity|]. apply IH. lia.
Qed.
Lemma for_hits dd T pb d d' k : for_tolower dd T pb d = Ret d' ->
  nth_error d' k = option_map (fun b => byte_add b (dd * hits T pb k)) (nth_error d k).
Proof.
  revert d. induction T as [|i T IH]; intros d H; cbn [for_tolower hits] in *.
  - injection H as <-. rewrite Z.mul_0_r. destruct (nth_error d k); cbn; [rewrite byte_add_0|]; reflexivity.
  - destruct (index d (pb + i)) as [b| |] eqn:Eb; cbn [bind] in H; try discriminate H.
    unfold update in H. unfold index in Eb.
    destruct ((0 <=? pb + i) && (pb + i <? zlen d)) eqn:E; cbn [bind] in H; try discriminate H.
    apply andb_prop in E. destruct E as [E1 E2]. apply Z.leb_le in E1. apply Z.ltb_lt in E2.
    rewrite (IH _ H). rewrite nth_set_nth by (unfold zlen in E2; lia).
    destruct (Nat.eqb (Z.to_nat (pb + i)) k) eqn:Ek.
    + apply Nat.eqb_eq in Ek. subst k. destruct (nth_error d (Z.to_nat (pb + i))) as [b'|]; [|discriminate Eb].
      injection Eb as ->. cbn [option_map]. rewrite byte_add_add.
      replace (pb + i =? Z.of_nat (Z.to_nat (pb + i))) with true by (symmetry; apply Z.eqb_eq; lia).
      do 2 f_equal. lia.
    + apply Nat.eqb_neq in Ek. replace (pb + i =? Z.of_nat k) with false by (symmetry; apply Z.eqb_neq; lia).
      rewrite Z.add_0_l. reflexivity.
Qed.
Lemma nth_ext_error {A} (a b : list A) : (forall k, nth_error a k = nth_error b k) -> a = b.
Proof.
  revert b. induction a as [|x a IH]; intros [|y b] H; [reflexivity|specialize (H 0%nat); discriminate H|specialize (H 0%nat); discriminate H|].
  pose proof (H 0%nat) as H0. injection H0 as ->. f_equal. apply IH. intros k. exact (H (S k)).
Qed.
Lemma for_undo T pb d d1 d2 : for_tolower 32 T pb d = Ret d1 -> for_tolower (-32) T pb d1 = Ret d2 -> d2 = d.
Proof.
  intros H1 H2. apply nth_ext_error. intros k. rewrite (for_hits _ _ _ _ _ k H2), (for_hits _ _ _ _ _ k H1).
  destruct (nth_error d k) as [b|]; [|reflexivity]. cbn [option_map]. rewrite byte_add_add.
  replace (32 * hits T pb k + -32 * hits T pb k) with 0 by lia. rewrite byte_add_0. reflexivity.
Qed.
Lemma for_zlen dd T pb d d' : for_tolower dd T pb d = Ret d' -> zlen d' = zlen d.
Proof.
  intros H. unfold zlen. f_equal. revert d H; induction T as [|i T IH]; intros d H; cbn [for_tolower] in H; [injection H as <-; reflexivity|].
  destruct (index d (pb + i)); cbn [bind] in H; try discriminate H.
  destruct (update d (pb + i) (byte_add a dd)) as [d1| |] eqn:E; cbn [bind] in H; try discriminate H.
  rewrite (IH _ H). unfold update in E. destruct (_ && _); [|discriminate E]. injection E as <-.
  clear. generalize (Z.to_nat (pb + i)) as n. induction d as [|x d IH]; intros [|n]; cbn; [reflexivity..|]. f_equal. apply IH.
Qed.
Lemma slice_cost {A} (d : list A) a b t : slice d a b = Ret t -> b - a <= zlen d.
Proof.
  unfold slice. destruct ((0 <=? a) && (a <=? b) && (b <=? zlen d)) eqn:E; [|discriminate].
  rewrite !andb_true_iff, !Z.leb_le in E. lia.
Qed.

(* ---- copying statements ----------------------------------------------------------------- *)
(* how many statements of the list may copy or loop, on the worst path *)
Fixpoint copies (s : stmt) : Z :=
  match s with
  | SSetPrefix | SSetID | SSetSS | SSetNorm | SScimType | SSetR | SSetQ | SSetF
  | SScimName | SScimOther | SForTolower _ => 1
  | SIf _ t e =>
      let go := fix go l := match l with [] => 0 | s :: l => copies s + go l end in
      Z.max (go t) (go e)
  | _ => 0
  end.
Fixpoint bcopies (l : list stmt) : Z := match l with [] => 0 | s :: l => copies s + bcopies l end.

Lemma copies_if c t e : copies (SIf c t e) = Z.max (bcopies t) (bcopies e).
Proof. reflexivity. Qed.
Lemma exec_if c t e x : exec_stmt (SIf c t e) x = (do b <- eval_cond c x; exec_block (if b then t else e) x).
Proof. destruct x as [m u]. reflexivity. Qed.
Lemma cost_if c t e x : stmt_cost (SIf c t e) x =
  match eval_cond c x with Ret b => block_cost (if b then t else e) x | _ => 0 end.
Proof. destruct x as [m u]. reflexivity. Qed.

Fixpoint ssize (s : stmt) : nat :=
  match s with
  | SIf _ t e =>
      let go := fix go l := match l with [] => 0%nat | s :: l => (ssize s + go l)%nat end in S (go t + go e)
  | _ => 1%nat
  end.
Fixpoint lsize (l : list stmt) : nat := match l with [] => 0%nat | s :: l => (ssize s + lsize l)%nat end.
Lemma ssize_if c t e : ssize (SIf c t e) = S (lsize t + lsize e).
Proof. reflexivity. Qed.
Lemma ssize_pos s : (0 < ssize s)%nat.
Proof. destruct s; cbn; lia. Qed.

Lemma bcopies_pos l : 0 <= bcopies l.
Proof.
  assert (Q : forall n l, (lsize l <= n)%nat -> 0 <= bcopies l).
  { clear l. induction n as [|n IH]; intros [|s l] H; cbn [lsize bcopies] in *; try lia.
    - pose proof (ssize_pos s); lia.
    - pose proof (ssize_pos s). specialize (IH l ltac:(lia)) as I2.
      destruct s; try (cbn [copies]; lia). rewrite copies_if. rewrite ssize_if in H.
      pose proof (IH t ltac:(lia)). lia. }
  exact (Q (lsize l) l (le_n _)).
Qed.

Definition costs_le (k : Z) (x y : st) (c : Z) : Prop :=
  zlen (m_data (fst y)) = zlen (m_data (fst x)) /\ u_tolower (snd y) = u_tolower (snd x) /\
  m_pe (fst y) = m_pe (fst x) /\ m_eof (fst y) = m_eof (fst x) /\ 0 <= k /\ (zlen (u_tolower (snd x)) <= zlen (m_data (fst x)) -> c <= k * zlen (m_data (fst x))).

Lemma block_costs n : forall l, (lsize l <= n)%nat -> forallb noLow l = true ->
  forall x y c, exec_block l x = Ret (y, c) -> costs_le (bcopies l) x y (block_cost l x).
Proof.
  induction n as [|n IH]; intros l Hn Hl x y c H.
  - destruct l as [|s l]; [|cbn [lsize] in Hn; pose proof (ssize_pos s); lia].
    injection H as <- <-. unfold costs_le. cbn. repeat split; lia.
  - destruct l as [|s l]; [injection H as <- <-; unfold costs_le; cbn; repeat split; lia|].
    cbn [forallb] in Hl. apply andb_prop in Hl. destruct Hl as [Hs Hl].
    cbn [lsize] in Hn. pose proof (ssize_pos s) as Hp.
    cbn [exec_block block_cost bcopies] in *.
    destruct (exec_stmt s x) as [[y1 c1]| |] eqn:E; cbn [bind] in H; try discriminate H.
    assert (K : costs_le (copies s) x y1 (stmt_cost s x)).
    { destruct s;
      try (destruct x as [m u]; cbn [exec_stmt] in E;
           repeat match type of E with
           | context [text ?v] => let K := fresh "K" in destruct (text v) eqn:K; [unfold text in K; apply slice_cost in K| |]
           | context [u_scim ?v] => let K := fresh "K" in destruct (u_scim v) eqn:K
           | context [slice ?d ?a ?b] => let K := fresh "K" in destruct (slice d a b) eqn:K; [apply slice_cost in K| |]
           | context [for_tolower ?a ?b ?c ?d] => let K := fresh "K" in destruct (for_tolower a b c d) eqn:K; [apply for_zlen in K| |]
           end; cbn [bind] in E; try discriminate E; injection E as <- <-;
           unfold costs_le; cbn [stmt_cost copies fst snd m_data m_pe m_eof u_tolower set_pb set_data set_err set_p set_cs
             uset_prefix uset_ID uset_SS uset_norm uset_kind uset_scim uset_r uset_q uset_f uset_rStart uset_qStart];
           repeat match goal with K : u_scim _ = _ |- _ => rewrite K; clear K end;
           pose proof (@zlen_nonneg byte (m_data m)); pose proof (@zlen_nonneg Z (u_tolower u));
           repeat split; try assumption; lia).
      - discriminate Hs.
      - rewrite exec_if in E. rewrite cost_if, copies_if. rewrite ssize_if in Hn.
        cbn [noLow] in Hs. apply andb_prop in Hs. destruct Hs as [Ht He].
        destruct (eval_cond c0 x) as [b| |]; cbn [bind] in E; try discriminate E.
        assert (G : costs_le (bcopies (if b then t else e)) x y1 (block_cost (if b then t else e) x)).
        { eapply IH; [| |exact E]; destruct b; try assumption; lia. }
        destruct G as (G1 & G2 & G5 & G6 & G3 & G4). repeat split; [exact G1|exact G2|exact G5|exact G6|destruct b; lia|].
        intros HT. specialize (G4 HT). pose proof (zlen_nonneg (m_data (fst x))). destruct b; nia. }
    destruct K as (K1 & K2 & K5 & K6 & K3 & K4). destruct c1.
    + assert (G : costs_le (bcopies l) y1 y (block_cost l y1)) by (eapply IH; [lia|exact Hl|exact H]).
      destruct G as (G1 & G2 & G5 & G6 & G3 & G4). repeat split; [congruence|congruence|congruence|congruence|lia|].
      intros HT. rewrite K2, K1 in G4. specialize (K4 HT). specialize (G4 HT). nia.
    + injection H as <- <-.
      pose proof (bcopies_pos l) as Hl0.
      repeat split; [exact K1|exact K2|exact K5|exact K6|lia|]. intros HT. specialize (K4 HT).
      pose proof (zlen_nonneg (m_data (fst x))). nia.
Qed.

(* ---- a rank of the states: how many copying statements can still be executed ------------- *)
(* The table was computed by iterating the defining inequalities of edge_fine; only those
   inequalities matter, and they are checked below. *)
Definition rk_table : list Z :=
  [0; 6; 6; 6; 6; 5; 5; 5; 5; 5; 5; 5; 5; 5; 5; 5; 5; 5; 5; 5; 5; 5; 5;
   5; 5; 5; 5; 5; 5; 5; 5; 5; 5; 5; 5; 5; 5; 5; 4; 4; 4; 5; 5; 5; 9; 9;
   9; 9; 8; 8; 8; 8; 8; 8; 8; 8; 8; 8; 8; 8; 8; 8; 8; 8; 8; 7; 7; 7; 7;
   6; 5; 5; 5; 7; 7; 7; 7; 7; 7; 7; 7; 7; 7; 8; 8; 8; 8; 7; 6; 6; 6; 6;
   6; 6; 6; 6; 6; 6; 6; 6; 6; 6; 6; 6; 6; 6; 6; 6; 6; 6; 6; 6; 6; 6; 6;
   6; 6; 6; 6; 6; 5; 1; 1; 5; 5; 2; 2; 2; 2; 2; 2; 2; 2; 2; 2; 2; 2; 6;
   6; 6; 6; 6; 6; 6; 6; 6; 6; 6; 6; 6; 6; 6; 6; 6; 6; 6; 6; 6; 6; 6; 6;
   6; 6; 6; 6; 6; 6; 7; 7; 7; 6; 6; 4; 4; 6; 5; 5; 5; 1; 1; 1; 5; 2; 2;
   2; 2; 2; 2; 2; 2; 2; 2; 2; 0].
Definition rk (cs : N) : Z := nth (N.to_nat cs) rk_table 0.
Definition cfo (fo : option N) : Z :=
  match fo with Some f => match f_block f with Some b => bcopies b | None => 0 end | None => 0 end.
Definition is_none {A} (o : option A) : bool := match o with None => true | _ => false end.

(* z = true: the states of the RFC 2141 and SCIM grammars only, no allowance;
   z = false: all states, one more copy allowed at each question mark *)
Definition D (z : bool) : Z := if z then 0 else 1.
Definition dom (z : bool) (cs : N) : bool :=
  if z then N.leb cs 82 || btw 172 176 cs || N.eqb cs 193 else N.leb cs 193.
(* the states without a way to a final state *)
Definition dead (cs : N) : bool := N.eqb cs 0 || N.eqb cs 193.
Definition edge_fine (z : bool) (cs b : N) : bool :=
  negb (dom z cs) ||
  match resume_switch cs b with
  | TOut => true
  | TTr n =>
      match tr_block n with
      | None => true
      | Some (cs', fo) =>
          dom z cs' && (negb (dead cs) || dead cs' && is_none fo) &&
          (rk cs' + cfo fo <=? rk cs + (if dead cs then 0 else if N.eqb b 63 then D z else 0))
      end
  end.
Lemma edges_fine z : forallb (fun cs => forallb (edge_fine z cs) octets) states = true.
Proof. destruct z; vm_compute; reflexivity. Qed.
Lemma dom_le z cs : dom z cs = true -> (cs <= 193)%N.
Proof. unfold dom, btw. destruct z; rewrite ?orb_true_iff, ?andb_true_iff, ?N.leb_le, ?N.eqb_eq; lia. Qed.
Lemma edge_fine_at z cs (c : byte) : dom z cs = true -> edge_fine z cs (Byte.to_N c) = true.
Proof.
  intros Hd. pose proof (dom_le z cs Hd) as H.
  pose proof (edges_fine z) as K. rewrite forallb_forall in K. specialize (K cs). rewrite forallb_forall in K.
  apply K.
  - unfold states. replace cs with (N.of_nat (N.to_nat cs)) by apply N2Nat.id. apply in_map, in_seq. lia.
  - unfold octets. replace (Byte.to_N c) with (N.of_nat (N.to_nat (Byte.to_N c))) by apply N2Nat.id.
    apply in_map, in_seq. pose proof (Byte.to_N_bounded c). lia.
Qed.
Lemma eof_fine : forallb (fun cs => match nth_error eof_actions (N.to_nat cs) with
  | Some a => match eof_block a with Some b => bcopies b <=? rk cs | None => true end | None => true end) states = true.
Proof. vm_compute. reflexivity. Qed.
Lemma eof_fine_at cs a b : index eof_actions (Z.of_N cs) = Ret a -> eof_block a = Some b -> bcopies b <= rk cs.
Proof.
  unfold index. destruct ((0 <=? Z.of_N cs) && (Z.of_N cs <? zlen eof_actions)) eqn:E; [|discriminate].
  apply andb_prop in E. destruct E as [_ E]. apply Z.ltb_lt in E. change (zlen eof_actions) with 194 in E.
  replace (Z.to_nat (Z.of_N cs)) with (N.to_nat cs) by lia.
  pose proof eof_fine as K. rewrite forallb_forall in K. specialize (K cs).
  destruct (nth_error eof_actions (N.to_nat cs)) as [a'|]; [|discriminate]. intros [= ->] Hw.
  assert (Hi : List.In cs states).
  { unfold states. replace cs with (N.of_nat (N.to_nat cs)) by apply N2Nat.id. apply in_map, in_seq. lia. }
  specialize (K Hi). rewrite Hw in K. apply Z.leb_le. exact K.
Qed.
Lemma rk_pos cs : 0 <= rk cs.
Proof.
  unfold rk. destruct (Nat.lt_ge_cases (N.to_nat cs) 194) as [H|H].
  - assert (K : forallb (Z.leb 0) rk_table = true) by reflexivity. rewrite forallb_forall in K.
    apply Z.leb_le, K, nth_In. exact H.
  - rewrite nth_overflow by exact H. lia.
Qed.
Lemma cfo_pos fo : 0 <= cfo fo.
Proof. destruct fo as [f|]; cbn; [|lia]. destruct (f_block f); [apply bcopies_pos|lia]. Qed.

(* ---- blocks ------------------------------------------------------------------------------ *)
Lemma f_low n b : f_block n = Some b -> n <> 9%N -> forallb noLow b = true.
Proof.
  intros Hb H9. unfold f_block in Hb.
  repeat match type of Hb with context [match ?x with _ => _ end] => is_var x; destruct x end;
    try discriminate Hb; try congruence; injection Hb as <-; reflexivity.
Qed.
Lemma eof_low n b : eof_block n = Some b -> forallb noLow b = true.
Proof.
  intros Hb. unfold eof_block in Hb.
  repeat match type of Hb with context [match ?x with _ => _ end] => is_var x; destruct x end;
    try discriminate Hb; try congruence; injection Hb as <-; reflexivity.
Qed.
Lemma to_state_low n b : to_state_block n = Some b -> forallb noLow b = true /\ bcopies b = 0.
Proof.
  intros Hb. unfold to_state_block in Hb.
  repeat match type of Hb with context [match ?x with _ => _ end] => is_var x; destruct x end;
    try discriminate Hb; try congruence; injection Hb as <-; split; reflexivity.
Qed.
Lemma eof_again a b m u m' u' : eof_block a = Some b -> exec_block b (m, u) = Ret ((m', u'), Again) -> m_cs m' = 193%N.
Proof.
  intros Hb H. destruct (writes_at a) eqn:Ew.
  - exfalso. unfold writes_at in Ew. cbn in Ew. rewrite !orb_true_iff, !N.eqb_eq in Ew.
    destruct Ew as [->|[->|[->|[->|Ew]]]]; [| | | |discriminate Ew]; injection Hb as <-;
    repeat (cbn [exec_block exec_stmt bind] in H;
      match type of H with
      | context [text ?v] => destruct (text v)
      | context [match u_scim ?v with _ => _ end] => destruct (u_scim v)
      | context [slice ?d ?a ?b] => destruct (slice d a b)
      | context [for_tolower ?d ?a ?b ?c] => destruct (for_tolower d a b c)
      end); discriminate H.
  - destruct (eof_eff a b m u m' u' Again Hb Ew H) as (_ & K & _). exact (K eq_refl).
Qed.
Lemma f38_eff m u m' u' c b : f_block 38 = Some b -> exec_block b (m, u) = Ret ((m', u'), c) ->
  m_data m' = m_data m /\ m_cs m' = m_cs m /\ m_p m' = m_p m.
Proof.
  intros Hb H. rewrite (f38_write b Hb) in H. unfold nss_writes in H. cbn [app exec_block exec_stmt] in H.
  destruct (text m); cbn [bind] in H; try discriminate H.
  destruct (for_tolower 32 (u_tolower (uset_SS a u)) (m_pb m) (m_data m)) as [d1| |] eqn:E1; cbn [bind] in H; try discriminate H.
  destruct (text (set_data d1 m)); cbn [bind] in H; try discriminate H.
  cbn [m_pb m_data set_data] in H. cbn [u_tolower uset_norm uset_SS] in *.
  destruct (for_tolower (-32) (u_tolower u) (m_pb m) d1) as [d2| |] eqn:E2; cbn [bind] in H; try discriminate H.
  injection H as <- <- <-. cbn. rewrite (for_undo _ _ _ _ _ E1 E2). auto.
Qed.

(* ---- the potential ------------------------------------------------------------------------ *)
(* question marks in d *)
Definition qm (d : bytes) : Z := Z.of_nat (count_occ Byte.byte_eq_dec d "?"%byte).
Definition qafter (z : bool) (cs : N) (p : Z) (d : bytes) : Z :=
  if dead cs then 0 else D z * qm (skipn (Z.to_nat p) d).
Definition pot (z : bool) (l : label) (x : st) : Z :=
  let '(m, u) := x in
  match l with
  | LEnter | LResume | LTestEof => rk (m_cs m) + qafter z (m_cs m) (m_p m) (m_data m)
  | LTr n =>
      match tr_block n with
      | Some (cs', fo) => rk cs' + cfo fo + qafter z cs' (m_p m + 1) (m_data m)
      | None => 0
      end
  | LF f => rk (m_cs m) + cfo (Some f) + qafter z (m_cs m) (m_p m + 1) (m_data m)
  | LAgain => rk (m_cs m) + qafter z (m_cs m) (m_p m + 1) (m_data m)
  | LOut => 0
  end.
Definition cinv (z : bool) (l : label) (x : st) : Prop :=
  let '(m, u) := x in
  let n := zlen (m_data m) in
  let T := zlen (u_tolower u) in
  m_pe m = n /\ m_eof m = n /\ match l with LOut => True | _ => dom z (m_cs m) = true end /\ T <= n /\
  match l with
  | LEnter | LResume | LTestEof => dead (m_cs m) = true \/ (0 <= m_p m <= n /\ T <= m_p m)
  | LTr k =>
      match tr_block k with
      | Some (cs', fo) => dom z cs' = true /\ ((dead cs' = true /\ fo = None) \/ (0 <= m_p m < n /\ T <= m_p m))
      | None => True
      end
  | LF f => 0 <= m_p m < n /\ T <= m_p m
  | LAgain => dead (m_cs m) = true \/ (0 <= m_p m < n /\ T <= m_p m + 1)
  | LOut => True
  end.
Lemma qm_pos d : 0 <= qm d.
Proof. unfold qm. lia. Qed.
Lemma qafter_pos z cs p d : 0 <= qafter z cs p d.
Proof. unfold qafter. destruct (dead cs); [lia|]. pose proof (qm_pos (skipn (Z.to_nat p) d)). unfold D. destruct z; lia. Qed.
Lemma pot_pos z l x : 0 <= pot z l x.
Proof.
  destruct x as [m u]. destruct l; unfold pot; try (pose proof (rk_pos (m_cs m)); pose proof (qafter_pos z (m_cs m) (m_p m) (m_data m)); lia); try lia.
  - destruct (tr_block n) as [[cs' fo]|]; [|lia].
    pose proof (rk_pos cs'); pose proof (cfo_pos fo); pose proof (qafter_pos z cs' (m_p m + 1) (m_data m)); lia.
  - pose proof (rk_pos (m_cs m)); pose proof (cfo_pos (Some n)); pose proof (qafter_pos z (m_cs m) (m_p m + 1) (m_data m)); lia.
  - pose proof (rk_pos (m_cs m)); pose proof (qafter_pos z (m_cs m) (m_p m + 1) (m_data m)); lia.
Qed.
Lemma skip_index (d : bytes) p b : index d p = Ret b ->
  0 <= p < zlen d /\ skipn (Z.to_nat p) d = b :: skipn (Z.to_nat (p + 1)) d.
Proof.
  unfold index. destruct ((0 <=? p) && (p <? zlen d)) eqn:E; [|discriminate].
  apply andb_prop in E. destruct E as [E1 E2]. apply Z.leb_le in E1. apply Z.ltb_lt in E2.
  destruct (nth_error d (Z.to_nat p)) as [b'|] eqn:E; [|discriminate]. intros [= <-]. split; [lia|].
  replace (Z.to_nat (p + 1)) with (S (Z.to_nat p)) by lia.
  revert E. generalize (Z.to_nat p) as k. clear. revert d. intros d k. revert d.
  induction k as [|k IH]; intros [|x d] E; try discriminate E.
  - injection E as ->. reflexivity.
  - cbn [nth_error] in E. cbn [skipn]. rewrite (IH d E). destruct d; [destruct k; discriminate E|reflexivity].
Qed.
Lemma qm_cons b d : qm (b :: d) = (if N.eqb (Byte.to_N b) 63 then 1 else 0) + qm d.
Proof.
  unfold qm. cbn [count_occ]. destruct (Byte.byte_eq_dec b "?"%byte) as [->|H].
  - change (N.eqb (Byte.to_N "?") 63) with true. cbn iota. lia.
  - replace (N.eqb (Byte.to_N b) 63) with false; [cbn iota; lia|]. symmetry. apply N.eqb_neq. intros E. apply H.
    assert (Byte.of_N (Byte.to_N b) = Byte.of_N 63) as K by (rewrite E; reflexivity). rewrite Byte.of_to_N in K.
    injection K as ->. reflexivity.
Qed.
Lemma q193 z p d : qafter z 193 p d = 0.
Proof. reflexivity. Qed.
Lemma rk193 : rk 193 = 0.
Proof. reflexivity. Qed.

Definition pays (z : bool) (l : label) (x : st) (l' : label) (x' : st) : Prop :=
  zlen (m_data (fst x')) = zlen (m_data (fst x)) /\
  step_cost l x + pot z l' x' * zlen (m_data (fst x)) + zlen (u_tolower (snd x)) <=
  pot z l x * zlen (m_data (fst x)) + zlen (u_tolower (snd x')).

Lemma cost_step z l x l' x' : cinv z l x -> l <> LOut -> step l x = Ret (l', x') ->
  cinv z l' x' /\ pays z l x l' x'.
Proof.
  intros Hi Hl H. destruct x as [m u]. unfold pays. cbn [fst snd].
  destruct Hi as (Hpe & Heof & Hd & HT & Hi). set (n := zlen (m_data m)) in *.
  pose proof (zlen_nonneg (m_data m)) as Hn. fold n in Hn.
  destruct l; [| | | | | |contradiction]; cbn iota in Hd.
  - (* LEnter *)
    cbn [step] in H. destruct (m_p m =? m_pe m); [|destruct (N.eqb (m_cs m) 0)]; injection H as <- <-; cbn [fst snd].
    + split; [exact (conj Hpe (conj Heof (conj Hd (conj HT Hi))))|]. split; [reflexivity|]. cbn [step_cost pot]. lia.
    + split; [exact (conj Hpe (conj Heof (conj I (conj HT I))))|]. split; [reflexivity|].
      pose proof (pot_pos z LEnter (m, u)). cbn [step_cost]. change (pot z LOut (m, u)) with 0. nia.
    + split; [exact (conj Hpe (conj Heof (conj Hd (conj HT Hi))))|]. split; [reflexivity|]. cbn [step_cost pot]. lia.
  - (* LResume *)
    cbn [step] in H. destruct (N.eqb (m_cs m) 0).
    { injection H as <- <-. cbn [fst snd]. split; [exact (conj Hpe (conj Heof (conj I (conj HT I))))|]. split; [reflexivity|].
      pose proof (pot_pos z LResume (m, u)). cbn [step_cost]. change (pot z LOut (m, u)) with 0. nia. }
    pose proof (dom_le z _ Hd) as Hle. replace (N.ltb 193 (m_cs m)) with false in H by (symmetry; apply N.ltb_ge; exact Hle).
    destruct (index (m_data m) (m_p m)) as [b| |] eqn:Eb; cbn [bind] in H; try discriminate H.
    destruct (skip_index _ _ _ Eb) as [Hp Hsk]. fold n in Hp.
    pose proof (edge_fine_at z (m_cs m) b Hd) as He. unfold edge_fine in He. rewrite Hd in He. cbn [negb orb] in He.
    destruct (resume_switch (m_cs m) (Byte.to_N b)) as [k|] eqn:Er; injection H as <- <-; cbn [fst snd].
    2:{ split; [exact (conj Hpe (conj Heof (conj I (conj HT I))))|]. split; [reflexivity|].
        pose proof (pot_pos z LResume (m, u)). cbn [step_cost]. change (pot z LOut (m, u)) with 0. nia. }
    destruct (tr_block k) as [[cs' fo]|] eqn:Ek.
    + rewrite !andb_true_iff in He. destruct He as [[He1 He2] He3]. apply Z.leb_le in He3.
      split.
      * refine (conj Hpe (conj Heof (conj Hd (conj HT _)))). rewrite Ek. split; [exact He1|].
        destruct Hi as [Hi|[Hi1 Hi2]]; [left|right; fold n; lia].
        rewrite Hi in He2. cbn [negb orb] in He2. apply andb_prop in He2. destruct He2 as [He2 He4].
        split; [exact He2|]. destruct fo; [discriminate He4|reflexivity].
      * split; [reflexivity|]. cbn [step_cost]. unfold pot. rewrite Ek.
        enough (rk cs' + cfo fo + qafter z cs' (m_p m + 1) (m_data m) <= rk (m_cs m) + qafter z (m_cs m) (m_p m) (m_data m)) by nia.
        unfold qafter. rewrite Hsk, qm_cons. destruct (dead (m_cs m)) eqn:Ed.
        -- cbn [negb orb] in He2. apply andb_prop in He2. destruct He2 as [-> _]. lia.
        -- pose proof (qm_pos (skipn (Z.to_nat (m_p m + 1)) (m_data m))) as Hq.
           unfold D in *. destruct z, (N.eqb (Byte.to_N b) 63), (dead cs'); lia.
    + split.
      * refine (conj Hpe (conj Heof (conj Hd (conj HT _)))). rewrite Ek. exact I.
      * split; [reflexivity|]. pose proof (pot_pos z LResume (m, u)). cbn [step_cost].
        replace (pot z (LTr k) (m, u)) with 0 by (unfold pot; rewrite Ek; reflexivity). nia.
  - (* LTr *)
    cbn [step] in H. destruct (tr_block n0) as [[cs' fo]|] eqn:Ek; [|discriminate H].
    destruct Hi as [Hd' Hi].
    assert (G : forall l'', l'' = LAgain /\ fo = None \/ (exists f, l'' = LF f /\ fo = Some f) ->
      cinv z l'' (set_cs cs' m, u) /\ n = n /\
      step_cost (LTr n0) (m, u) + pot z l'' (set_cs cs' m, u) * n + zlen (u_tolower u) <=
      pot z (LTr n0) (m, u) * n + zlen (u_tolower u)).
    { intros l'' [[-> ->]|(f & -> & ->)].
      - split; [|split; [reflexivity|]].
        + refine (conj Hpe (conj Heof (conj Hd' (conj HT _)))). cbn [set_cs m_cs m_p m_data].
          destruct Hi as [[Hi _]|[Hi1 Hi2]]; [left; exact Hi|right]. fold n. lia.
        + cbn [step_cost]. unfold pot. rewrite Ek. cbn [set_cs m_cs m_p m_data cfo]. lia.
      - split; [|split; [reflexivity|]].
        + refine (conj Hpe (conj Heof (conj Hd' (conj HT _)))). cbn [set_cs m_cs m_p m_data].
          destruct Hi as [[_ Hi]|Hi]; [discriminate Hi|]. fold n. exact Hi.
        + cbn [step_cost]. unfold pot. rewrite Ek. cbn [set_cs m_cs m_p m_data]. lia. }
    destruct fo as [f|]; injection H as <- <-; apply G; eauto.
  - (* LF *)
    cbn [step] in H. destruct (f_block n0) as [b|] eqn:Ef; [|discriminate H].
    destruct (exec_block b (m, u)) as [[[m' u'] c]| |] eqn:Ex; cbn [bind] in H; try discriminate H.
    destruct c; [discriminate H|]. injection H as <- <-. cbn [fst snd].
    destruct (N.eq_dec n0 9) as [->|H9].
    + destruct (f9_eff m u m' u' Again b Ef Ex) as (_ & _ & -> & Ht & _).
      assert (Hb : b = [STolower; SGotoAgain]) by (injection Ef as <-; reflexivity).
      assert (Hz : zlen (u_tolower u') = zlen (u_tolower u) + 1) by (rewrite Ht, zlen_app; reflexivity).
      split.
      * unfold cinv. fold n. rewrite Hz. refine (conj Hpe (conj Heof (conj Hd (conj _ (or_intror (conj _ _)))))); lia.
      * split; [reflexivity|]. cbn [step_cost]. rewrite Ef, Hb. cbn [block_cost stmt_cost exec_stmt].
        unfold pot. change (cfo (Some 9%N)) with 0. lia.
    + destruct (block_costs (lsize b) b (le_n _) (f_low _ _ Ef H9) _ _ _ Ex) as (K1 & K2 & K5 & K6 & K3 & K4).
      cbn [fst snd] in *. fold n in K1, K4. specialize (K4 HT).
      assert (Heff : m_data m' = m_data m /\ (m_cs m' = 193%N \/ (m_cs m' = m_cs m /\ m_p m' = m_p m))).
      { destruct (N.eq_dec n0 38) as [->|H38].
        - destruct (f38_eff _ _ _ _ _ _ Ef Ex) as (Q1 & Q2 & Q3). auto.
        - destruct (f_eff n0 b m u m' u' Again Ef H9 H38 Ex) as ((Q1 & _ & Q2) & _).
          split; [exact (proj1 Q1)|]. cbn [fst] in Q2. destruct Q2 as [Q2|(Q2 & Q3 & _)]; auto. }
      destruct Heff as [Hda Hcs].
      assert (Hc : step_cost (LF n0) (m, u) <= cfo (Some n0) * n).
      { cbn [step_cost cfo]. rewrite Ef. exact K4. }
      split.
      * unfold cinv. rewrite K1, K2. refine (conj _ (conj _ (conj _ (conj HT _)))); [congruence|congruence| |].
        -- destruct Hcs as [->|[-> _]]; [destruct z; reflexivity|exact Hd].
        -- destruct Hcs as [->|[_ ->]]; [left; reflexivity|right; lia].
      * split; [exact K1|]. rewrite K2.
        enough (pot z LAgain (m', u') + cfo (Some n0) <= pot z (LF n0) (m, u)) by nia.
        unfold pot. rewrite Hda. destruct Hcs as [->|[-> ->]].
        -- rewrite q193, rk193. pose proof (rk_pos (m_cs m)). pose proof (qafter_pos z (m_cs m) (m_p m + 1) (m_data m)). lia.
        -- lia.
  - (* LAgain *)
    cbn [step] in H. destruct (index to_state_actions (Z.of_N (m_cs m))) as [a| |] eqn:Ea; cbn [bind] in H; try discriminate H.
    destruct (to_state_block a) as [b|] eqn:Eb.
    + destruct (exec_block b (m, u)) as [[[m' u'] c]| |] eqn:Ex; cbn [bind] in H; try discriminate H.
      destruct c; [discriminate H|]. injection H as <- <-. cbn [fst snd].
      destruct (to_state_low _ _ Eb) as [Hlow Hz].
      destruct (block_costs (lsize b) b (le_n _) Hlow _ _ _ Ex) as (K1 & K2 & K5 & K6 & K3 & K4).
      cbn [fst snd] in *. fold n in K1, K4. specialize (K4 HT). rewrite Hz in K4.
      destruct (to_state_eff a b m u m' u' Again Eb Ex) as (_ & Hcs & _).
      split.
      * unfold cinv. rewrite K1, K2, Hcs. refine (conj _ (conj _ (conj _ (conj HT _)))); [congruence|congruence|destruct z; reflexivity|].
        left. reflexivity.
      * split; [exact K1|]. rewrite K2. cbn [step_cost]. rewrite Ea, Eb.
        pose proof (pot_pos z LAgain (m, u)).
        replace (pot z LAgain (m', u')) with 0 by (unfold pot; rewrite Hcs; reflexivity). nia.
    + assert (Hc : step_cost LAgain (m, u) = 0) by (cbn [step_cost]; rewrite Ea, Eb; reflexivity).
      destruct (N.eqb (m_cs m) 0).
      { injection H as <- <-. cbn [fst snd]. split; [exact (conj Hpe (conj Heof (conj I (conj HT I))))|]. split; [reflexivity|].
        pose proof (pot_pos z LAgain (m, u)). rewrite Hc. change (pot z LOut (m, u)) with 0. nia. }
      destruct (m_p (set_p (m_p m + 1) m) =? m_pe (set_p (m_p m + 1) m)); injection H as <- <-; cbn [fst snd];
      (split; [|split; [reflexivity|rewrite Hc; unfold pot; cbn [set_p m_cs m_p m_data]; lia]]);
      (refine (conj Hpe (conj Heof (conj Hd (conj HT _)))); cbn [set_p m_cs m_p m_data]; fold n;
       destruct Hi as [Hi|[Hi1 Hi2]]; [left; exact Hi|right; lia]).
  - (* LTestEof *)
    cbn [step] in H. destruct (m_p m =? m_eof m) eqn:Ep.
    2:{ injection H as <- <-. cbn [fst snd]. split; [exact (conj Hpe (conj Heof (conj I (conj HT I))))|]. split; [reflexivity|].
        pose proof (pot_pos z LTestEof (m, u)). cbn [step_cost]. rewrite Ep. change (pot z LOut (m, u)) with 0. nia. }
    destruct (index eof_actions (Z.of_N (m_cs m))) as [a| |] eqn:Ea; cbn [bind] in H; try discriminate H.
    destruct (eof_block a) as [b|] eqn:Eb.
    2:{ injection H as <- <-. cbn [fst snd]. split; [exact (conj Hpe (conj Heof (conj I (conj HT I))))|]. split; [reflexivity|].
        pose proof (pot_pos z LTestEof (m, u)). cbn [step_cost]. rewrite Ep, Ea, Eb. change (pot z LOut (m, u)) with 0. nia. }
    destruct (exec_block b (m, u)) as [[[m' u'] c]| |] eqn:Ex; cbn [bind] in H; try discriminate H.
    destruct (block_costs (lsize b) b (le_n _) (eof_low _ _ Eb) _ _ _ Ex) as (K1 & K2 & K5 & K6 & K3 & K4).
    cbn [fst snd] in *. fold n in K1, K4. specialize (K4 HT).
    pose proof (eof_fine_at _ _ _ Ea Eb) as Hr.
    assert (Hc : step_cost LTestEof (m, u) = block_cost b (m, u)) by (cbn [step_cost]; rewrite Ep, Ea, Eb; reflexivity).
    assert (Hpot : block_cost b (m, u) <= pot z LTestEof (m, u) * n).
    { unfold pot. pose proof (qafter_pos z (m_cs m) (m_p m) (m_data m)). nia. }
    destruct c; injection H as <- <-; cbn [fst snd]; rewrite K2.
    + split; [|split; [exact K1|]].
      * unfold cinv. rewrite K1, K2. refine (conj _ (conj _ (conj I (conj HT I)))); congruence.
      * rewrite Hc. change (pot z LOut (m', u')) with 0. lia.
    + pose proof (eof_again a b m u m' u' Eb Ex) as Hcs. split; [|split; [exact K1|]].
      * unfold cinv. rewrite K1, K2, Hcs. refine (conj _ (conj _ (conj _ (conj HT _)))); [congruence|congruence|destruct z; reflexivity|].
        left. reflexivity.
      * rewrite Hc. replace (pot z LAgain (m', u')) with 0 by (unfold pot; rewrite Hcs; reflexivity). lia.
Qed.

Lemma label_out l : {l = LOut} + {l <> LOut}.
Proof. destruct l; (left; reflexivity) || (right; discriminate). Qed.
Lemma cost_run z f : forall l x y, cinv z l x -> run f l x = Ret y ->
  run_cost f l x + zlen (u_tolower (snd x)) <= (pot z l x + 1) * zlen (m_data (fst x)).
Proof.
  induction f as [|f IH]; intros l x y Hi H.
  - destruct l; try discriminate H. cbn [run_cost]. destruct x as [m u]. destruct Hi as (_ & _ & _ & HT & _).
    unfold pot. cbn [fst snd]. lia.
  - destruct (label_out l) as [->|Hl].
    + cbn [run_cost]. destruct x as [m u]. destruct Hi as (_ & _ & _ & HT & _). unfold pot. cbn [fst snd]. lia.
    + assert (E : exists l' x', step l x = Ret (l', x') /\ run f l' x' = Ret y /\
        run_cost (S f) l x = step_cost l x + run_cost f l' x').
      { destruct l; try contradiction; cbn [run run_cost] in *;
        (destruct (step _ x) as [[l' x']| |] eqn:E; cbn [bind] in H; try discriminate H; exists l', x'; auto). }
      destruct E as (l' & x' & E1 & E2 & E3). destruct (cost_step z l x l' x' Hi Hl E1) as [Hi' [P1 P2]].
      specialize (IH l' x' y Hi' E2). rewrite P1 in IH. rewrite E3. lia.
Qed.

Lemma parse_cost_bound z m s : dom z (m_startParsingAt m) = true ->
  (exists y, run (parse_fuel (List.length s)) LEnter (parse_init m s, zeroURN) = Ret y) ->
  Parse_cost m s <= (rk (m_startParsingAt m) + D z * qm s + 1) * zlen s.
Proof.
  intros Hd (y & H). unfold Parse_cost. pose proof (zlen_nonneg s) as Hn.
  assert (Hi : cinv z LEnter (parse_init m s, zeroURN)).
  { unfold cinv, parse_init, zeroURN. cbn [m_pe m_eof m_data m_cs m_p u_tolower]. rewrite zlen_nil.
    repeat split; try assumption; lia. }
  pose proof (cost_run z _ _ _ _ Hi H) as K. revert K.
  generalize (run_cost (parse_fuel (Datatypes.length s)) LEnter (parse_init m s, zeroURN)) as c. intros c K.
  unfold pot, parse_init in K. cbn [fst snd m_cs m_p m_data u_tolower zeroURN] in K. rewrite zlen_nil in K.
  assert (Q : qafter z (m_startParsingAt m) 0 s <= D z * qm s).
  { unfold qafter. cbn [Z.to_nat skipn]. destruct (dead _); [|lia]. pose proof (qm_pos s). unfold D. destruct z; lia. }
  change (skipn (Z.to_nat 0) s) with s in *. nia.
Qed.

(* ---- the family of inputs with quadratic cost --------------------------------------------- *)
Lemma slice_app {A} (a R : list A) i j w : slice a i j = Ret w -> slice (a ++ R) i j = Ret w.
Proof.
  unfold slice. destruct ((0 <=? i) && (i <=? j) && (j <=? zlen a)) eqn:E; [|discriminate]. intros [= <-].
  rewrite !andb_true_iff, !Z.leb_le in E. destruct E as [[E1 E2] E3].
  replace ((0 <=? i) && (i <=? j) && (j <=? zlen (a ++ R))) with true.
  2:{ symmetry. rewrite !andb_true_iff, !Z.leb_le, zlen_app. pose proof (zlen_nonneg R). lia. }
  f_equal. rewrite skipn_app, firstn_app.
  replace (Z.to_nat (j - i) - Datatypes.length (skipn (Z.to_nat i) a))%nat with 0%nat
    by (rewrite skipn_length; unfold zlen in E3; lia).
  cbn [firstn]. apply app_nil_r.
Qed.

Section Family.
Variables (start : N) (mode : Z) (mset : bool).
Notation cfg := (cfg start mode mset).

Lemma cost_byte cs pre b rest pb u cs' fo pb' u' f k :
  (0 < cs <= 193)%N -> (0 < cs' <= 193)%N -> cs' <> 171%N ->
  delta cs b = Some (cs', fo) ->
  exec_opt fo (cfg (pre ++ b :: rest) cs' (zlen pre) pb, u)
    = Ret ((cfg (pre ++ b :: rest) cs' (zlen pre) pb', u'), Again) ->
  k = match fo with None => 3%nat | Some _ => 4%nat end ->
  run_cost (k + f) LResume (cfg (pre ++ b :: rest) cs (zlen pre) pb, u) =
  match fo with Some g => match f_block g with Some l => block_cost l (cfg (pre ++ b :: rest) cs' (zlen pre) pb, u) | None => 0 end | None => 0 end +
  run_cost f (nextl rest) (cfg ((pre ++ [b]) ++ rest) cs' (zlen (pre ++ [b])) pb', u').
Proof.
  intros Hcs Hcs' H171 Hd Hx ->.
  pose proof (step_resume start mode mset cs pre b rest pb None u Hcs) as Hs.
  unfold delta in Hd. destruct (resume_switch cs (Byte.to_N b)) as [t|]; [|discriminate Hd].
  assert (HA : forall f u pb, run_cost (S f) LAgain (cfg (pre ++ b :: rest) cs' (zlen pre) pb, u) =
    run_cost f (nextl rest) (cfg ((pre ++ [b]) ++ rest) cs' (zlen (pre ++ [b])) pb, u)).
  { intros f0 u0 pb0. destruct (index_tsa cs') as [a [Ha Hb]]; [lia|assumption|].
    unfold Exec.cfg. cbn [run_cost]. cbn [step step_cost m_cs]. rewrite Ha. cbn [bind]. rewrite Hb.
    replace (N.eqb cs' 0) with false by (symmetry; apply N.eqb_neq; lia).
    unfold set_p; cbn [m_p m_data m_cs m_pe m_eof m_pb m_err m_startParsingAt m_parsingMode m_parsingModeSet].
    rewrite <- app_assoc. cbn [app]. replace (zlen (pre ++ [b])) with (zlen pre + 1) by zl.
    destruct rest as [|c rest']; cbn [nextl].
    - replace (zlen pre + 1 =? zlen (pre ++ [b])) with true by (symmetry; apply Z.eqb_eq; zl). reflexivity.
    - replace (zlen pre + 1 =? zlen (pre ++ b :: c :: rest')) with false by (symmetry; apply Z.eqb_neq; zl). reflexivity. }
  assert (Hr : forall k, run_cost (S k) LResume (cfg (pre ++ b :: rest) cs (zlen pre) pb, u) =
    run_cost k (LTr t) (cfg (pre ++ b :: rest) cs (zlen pre) pb, u)).
  { intros k. unfold Exec.cfg. cbn [run_cost]. rewrite Hs. reflexivity. }
  assert (Ht : forall k, run_cost (S k) (LTr t) (cfg (pre ++ b :: rest) cs (zlen pre) pb, u) =
    run_cost k (match fo with None => LAgain | Some g => LF g end) (cfg (pre ++ b :: rest) cs' (zlen pre) pb, u)).
  { intros k. unfold Exec.cfg. cbn [run_cost step step_cost]. rewrite Hd. destruct fo; reflexivity. }
  destruct fo as [g|]; cbn [exec_opt] in Hx.
  - cbn [Nat.add]. rewrite Hr, Ht. destruct (f_block g) as [l|] eqn:Eg; [|discriminate Hx].
    assert (Hf : forall k, run_cost (S k) (LF g) (cfg (pre ++ b :: rest) cs' (zlen pre) pb, u) =
      block_cost l (cfg (pre ++ b :: rest) cs' (zlen pre) pb, u) +
      run_cost k LAgain (cfg (pre ++ b :: rest) cs' (zlen pre) pb', u')).
    { intros k. unfold Exec.cfg. cbn [run_cost]. cbn [step step_cost]. rewrite Eg.
      unfold Exec.cfg in Hx. rewrite Hx. reflexivity. }
    rewrite Hf, HA. reflexivity.
  - cbn [Nat.add]. rewrite Hr, Ht. injection Hx as Hp Hu. subst u'.
    assert (pb' = pb) by congruence. subst pb'. rewrite HA. reflexivity.
Qed.

Fixpoint rep (n : nat) : bytes := match n with O => [] | S n => B "?a" ++ rep n end.
Lemma rep_S n : rep (S n) = "?"%byte :: "a"%byte :: rep n.
Proof. reflexivity. Qed.
Lemma zlen_rep n : zlen (rep n) = 2 * Z.of_nat n.
Proof. induction n as [|n IH]; [reflexivity|]. rewrite rep_S. zl. Qed.

(* inside an r-component that started at pb *)
Lemma cost_rep n : forall pre pb u f, 0 <= pb <= zlen pre -> (7 * n + 1 <= f)%nat ->
  run_cost f (nextl (rep n)) (cfg (pre ++ rep n) 182 (zlen pre) pb, u) =
  (Z.of_nat n + 1) * (zlen pre - pb) + Z.of_nat n * (Z.of_nat n + 1).
Proof.
  induction n as [|n IH]; intros pre pb u f Hpb Hf.
  - cbn [rep nextl]. rewrite app_nil_r. destruct f as [|f]; [lia|].
    unfold Exec.cfg. cbn [run_cost]. cbn [step step_cost m_p m_eof m_cs]. rewrite Z.eqb_refl.
    change (index eof_actions (Z.of_N 182)) with (Ret 42%N). cbn [bind].
    change (eof_block 42) with (Some [SSetR; SSetKind 3]). cbn [bind].
    cbn [exec_block exec_stmt block_cost stmt_cost]. unfold text. cbn [m_data m_pb m_p].
    destruct (slice pre pb (zlen pre)) as [w| |] eqn:Es.
    + cbn [bind]. destruct f; cbn [run_cost]; lia.
    + unfold slice in Es. replace ((0 <=? pb) && (pb <=? zlen pre) && (zlen pre <=? zlen pre)) with true in Es; [discriminate Es|].
      symmetry. rewrite !andb_true_iff, !Z.leb_le. lia.
    + unfold slice in Es. destruct (_ && _) in Es; discriminate Es.
  - rewrite rep_S. cbn [nextl].
    assert (Es : exists w, slice (pre ++ "?"%byte :: "a"%byte :: rep n) pb (zlen pre) = Ret w).
    { unfold slice. replace ((0 <=? pb) && (pb <=? zlen pre) && (zlen pre <=? _)) with true; [eauto|].
      symmetry. rewrite !andb_true_iff, !Z.leb_le. zl. }
    destruct Es as [w Es].
    replace f with (4 + (3 + (f - 7)))%nat by lia.
    rewrite (cost_byte 182 pre "?"%byte ("a"%byte :: rep n) pb u 184 (Some 42%N) pb (uset_r w u) (3 + (f - 7)) 4);
      [|lia|lia|discriminate|reflexivity| |reflexivity].
    2:{ cbn [exec_opt]. change (f_block 42) with (Some [SSetR; SGotoAgain]). cbn [exec_block exec_stmt].
        unfold text. cbn [m_data m_pb m_p Exec.cfg]. rewrite Es. reflexivity. }
    change (f_block 42) with (Some [SSetR; SGotoAgain]). cbn [nextl].
    assert (Hc : forall d, block_cost [SSetR; SGotoAgain] (cfg d 184 (zlen pre) pb, u) = zlen pre - pb).
    { intros d. cbn [block_cost stmt_cost Exec.cfg m_p m_pb]. destruct (exec_stmt SSetR _) as [[y [|]]| |]; cbn [exec_stmt]; try lia.
      destruct y. lia. }
    rewrite Hc.
    rewrite (cost_byte 184 (pre ++ ["?"%byte]) "a"%byte (rep n) pb (uset_r w u) 182 None pb (uset_r w u) (f - 7) 3);
      [|lia|lia|discriminate|reflexivity|reflexivity|reflexivity].
    rewrite IH by (try lia; zl). zl.
Qed.

Ltac cut_text w :=
  match goal with |- context [slice (m_data ?c) (m_pb ?c) (m_p ?c)] =>
    change (slice (m_data c) (m_pb c) (m_p c)) with (text c);
    replace (text c) with (Ret w) by (symmetry; apply slice_app; reflexivity)
  end.
Ltac X :=
  solve [reflexivity
  | unfold Exec.cfg; match goal with H : mode = _ |- _ => rewrite H end; reflexivity
  | cbn [exec_opt]; cbn [f_block exec_block exec_stmt block_cost stmt_cost]; unfold text;
    first [cut_text (B "urn") | cut_text (B "ab")]; reflexivity ].
Lemma cost_byte_v cs pre b rest pb u cs' fo pb' u' f k c v :
  (0 < cs <= 193)%N -> (0 < cs' <= 193)%N -> cs' <> 171%N ->
  delta cs b = Some (cs', fo) ->
  exec_opt fo (cfg (pre ++ b :: rest) cs' (zlen pre) pb, u)
    = Ret ((cfg (pre ++ b :: rest) cs' (zlen pre) pb', u'), Again) ->
  k = match fo with None => 3%nat | Some _ => 4%nat end ->
  match fo with Some g => match f_block g with Some l => block_cost l (cfg (pre ++ b :: rest) cs' (zlen pre) pb, u) | None => 0 end | None => 0 end = c ->
  run_cost f (nextl rest) (cfg ((pre ++ [b]) ++ rest) cs' (zlen (pre ++ [b])) pb', u') = v ->
  run_cost (k + f) LResume (cfg (pre ++ b :: rest) cs (zlen pre) pb, u) = c + v.
Proof. intros H1 H2 H3 H4 H5 H6 <- <-. eapply cost_byte; eassumption. Qed.

Definition family (n : nat) : bytes := B "urn:ab:c?+a" ++ rep n.
Lemma cost_family n f : mode = PRFC8141Only -> (7 * n + 41 <= f)%nat ->
  run_cost f LResume (cfg (family n) 83 0 0, zeroURN) = Z.of_nat n * Z.of_nat n + 2 * Z.of_nat n + 8.
Proof.
  intros Hm Hf. unfold family.
  set (u0 := zeroURN). set (u1 := uset_prefix (B "urn") u0). set (u2 := uset_ID (B "ab") u1).
  set (u3 := uset_norm (B "c") (uset_SS (B "c") u2)). set (u4 := uset_rStart true u3).
  set (v := Z.of_nat n * Z.of_nat n + 2 * Z.of_nat n + 1).
  replace f with (4 + (3 + (3 + (4 + (4 + (3 + (4 + (4 + (4 + (3 + (4 + (f - 40))))))))))))%nat by lia.
  replace (Z.of_nat n * Z.of_nat n + 2 * Z.of_nat n + 8) with (0 + (0 + (0 + (3 + (0 + (0 + (2 + (0 + (2 + (0 + (0 + v))))))))))) by (unfold v; lia).
  refine (cost_byte_v 83 (B "") "u"%byte (B "rn:ab:c?+a" ++ rep n) 0 u0 84 (Some 1%N) 0 u0 (3 + (3 + (4 + (4 + (3 + (4 + (4 + (4 + (3 + (4 + (f - 40))))))))))) 4 _ _ ltac:(lia) ltac:(lia) ltac:(discriminate) eq_refl _ eq_refl _ _).
  { X. }
  { X. }
  refine (cost_byte_v 84 (B "u") "r"%byte (B "n:ab:c?+a" ++ rep n) 0 u0 85 (None) 0 u0 (3 + (4 + (4 + (3 + (4 + (4 + (4 + (3 + (4 + (f - 40)))))))))) 3 _ _ ltac:(lia) ltac:(lia) ltac:(discriminate) eq_refl _ eq_refl _ _).
  { X. }
  { X. }
  refine (cost_byte_v 85 (B "ur") "n"%byte (B ":ab:c?+a" ++ rep n) 0 u0 86 (None) 0 u0 (4 + (4 + (3 + (4 + (4 + (4 + (3 + (4 + (f - 40))))))))) 3 _ _ ltac:(lia) ltac:(lia) ltac:(discriminate) eq_refl _ eq_refl _ _).
  { X. }
  { X. }
  refine (cost_byte_v 86 (B "urn") ":"%byte (B "ab:c?+a" ++ rep n) 0 u0 87 (Some 2%N) 0 u1 (4 + (3 + (4 + (4 + (4 + (3 + (4 + (f - 40)))))))) 4 _ _ ltac:(lia) ltac:(lia) ltac:(discriminate) eq_refl _ eq_refl _ _).
  { X. }
  { X. }
  refine (cost_byte_v 87 (B "urn:") "a"%byte (B "b:c?+a" ++ rep n) 0 u1 88 (Some 4%N) 4 u1 (3 + (4 + (4 + (4 + (3 + (4 + (f - 40))))))) 4 _ _ ltac:(lia) ltac:(lia) ltac:(discriminate) eq_refl _ eq_refl _ _).
  { X. }
  { X. }
  refine (cost_byte_v 88 (B "urn:a") "b"%byte (B ":c?+a" ++ rep n) 4 u1 166 (None) 4 u1 (4 + (4 + (4 + (3 + (4 + (f - 40)))))) 3 _ _ ltac:(lia) ltac:(lia) ltac:(discriminate) eq_refl _ eq_refl _ _).
  { X. }
  { X. }
  refine (cost_byte_v 166 (B "urn:ab") ":"%byte (B "c?+a" ++ rep n) 4 u1 120 (Some 6%N) 4 u2 (4 + (4 + (3 + (4 + (f - 40))))) 4 _ _ ltac:(lia) ltac:(lia) ltac:(discriminate) eq_refl _ eq_refl _ _).
  { X. }
  { X. }
  refine (cost_byte_v 120 (B "urn:ab:") "c"%byte (B "?+a" ++ rep n) 4 u2 177 (Some 4%N) 7 u2 (4 + (3 + (4 + (f - 40)))) 4 _ _ ltac:(lia) ltac:(lia) ltac:(discriminate) eq_refl _ eq_refl _ _).
  { X. }
  { X. }
  refine (cost_byte_v 177 (B "urn:ab:c") "?"%byte (B "+a" ++ rep n) 7 u2 125 (Some 38%N) 7 u3 (3 + (4 + (f - 40))) 4 _ _ ltac:(lia) ltac:(lia) ltac:(discriminate) eq_refl _ eq_refl _ _).
  { unfold Exec.cfg. cbn [exec_opt]. cbn [f_block exec_block exec_stmt]. unfold text at 1. cut_text (B "c"). cbn [bind].
    cbn [u_tolower uset_SS u2 uset_ID u1 uset_prefix u0 zeroURN for_tolower bind]. unfold text.
    cbn [set_data]. cut_text (B "c"). reflexivity. }
  { unfold Exec.cfg. cbn [f_block block_cost exec_stmt stmt_cost]. unfold text at 1. cut_text (B "c"). cbn [bind].
    cbn [u_tolower uset_SS u2 uset_ID u1 uset_prefix u0 zeroURN for_tolower bind]. unfold text.
    cbn [set_data]. cut_text (B "c"). reflexivity. }
  refine (cost_byte_v 125 (B "urn:ab:c?") "+"%byte (B "a" ++ rep n) 7 u3 126 (None) 7 u3 (4 + (f - 40)) 3 _ _ ltac:(lia) ltac:(lia) ltac:(discriminate) eq_refl _ eq_refl _ _).
  { X. }
  { X. }
  refine (cost_byte_v 126 (B "urn:ab:c?+") "a"%byte (B "" ++ rep n) 7 u3 182 (Some 26%N) 10 u4 (f - 40) 4 _ _ ltac:(lia) ltac:(lia) ltac:(discriminate) eq_refl _ eq_refl _ _).
  { X. }
  { X. }
  change (run_cost (f - 40) (nextl (rep n)) (cfg (B "urn:ab:c?+a" ++ rep n) 182 (zlen (B "urn:ab:c?+a")) 10, u4) = v).
  rewrite cost_rep; [|cbn; lia|lia]. unfold v. change (zlen (B "urn:ab:c?+a")) with 11. lia.
Qed.
End Family.

Lemma zlen_family n : zlen (family n) = 2 * Z.of_nat n + 11.
Proof. unfold family. rewrite zlen_app, zlen_rep. change (zlen (B "urn:ab:c?+a")) with 11. lia. Qed.
Lemma Parse_cost_family m n : m_startParsingAt m = 83%N -> m_parsingMode m = PRFC8141Only ->
  Parse_cost m (family n) = Z.of_nat n * Z.of_nat n + 2 * Z.of_nat n + 8.
Proof.
  intros Hs Hm. unfold Parse_cost, parse_fuel.
  assert (Hl : Datatypes.length (family n) = (2 * n + 11)%nat) by (pose proof (zlen_family n) as H; unfold zlen in H; lia).
  rewrite Hl. replace (4 * (2 * n + 11) + 16)%nat with (S (8 * n + 59)) by lia.
  pose proof (cost_family (m_startParsingAt m) (m_parsingMode m) (m_parsingModeSet m) n (8 * n + 59) Hm ltac:(lia)) as K.
  rewrite <- K. unfold parse_init, Exec.cfg. rewrite Hs. cbn [run_cost step step_cost m_p m_pe m_cs].
  replace (0 =? zlen (family n)) with false by (symmetry; apply Z.eqb_neq; rewrite zlen_family; lia).
  reflexivity.
Qed.

