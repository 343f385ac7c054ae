(* The fine-grained steps of Conc.v, run alone, do what Machine.v does. *)
From Coq Require Import Lia.
From Verif Require Import GoBase MachineSyntax MachineTables Machine Conc.
Local Open Scope Z_scope.

(* k steps of one call alone *)
Fixpoint mrun (k : nat) (t : thread) : res thread :=
  match k with O => Ret t | S k' => do t' <- mstep t; mrun k' t' end.

(* a run through states that all satisfy P *)
Inductive mpath (P : thread -> Prop) : thread -> nat -> thread -> Prop :=
| mp_nil t : P t -> mpath P t 0 t
| mp_cons t t1 n t' : P t -> mstep t = Ret t1 -> mpath P t1 n t' -> mpath P t (S n) t'.

Lemma mpath_app (P : thread -> Prop) t n t1 k t2 : mpath P t n t1 -> mpath P t1 k t2 -> mpath P t (n + k) t2.
Proof. induction 1; intros K; [exact K|]. cbn. eapply mp_cons; eauto. Qed.
Lemma mpath_one (P : thread -> Prop) t t1 : P t -> P t1 -> mstep t = Ret t1 -> mpath P t 1 t1.
Proof. intros H1 H2 H. eapply mp_cons; eauto. apply mp_nil. exact H2. Qed.
Lemma mpath_snoc (P : thread -> Prop) t n t1 t2 : mpath P t n t1 -> mstep t1 = Ret t2 -> P t2 -> mpath P t (S n) t2.
Proof.
  intros H1 H2 H3. replace (S n) with (n + 1)%nat by lia. eapply mpath_app; [exact H1|].
  apply mpath_one; auto. clear -H1. induction H1; auto.
Qed.
Lemma mpath_last (P : thread -> Prop) t n t1 : mpath P t n t1 -> P t1.
Proof. induction 1; auto. Qed.
Lemma mpath_mrun P t n t1 : mpath P t n t1 -> mrun n t = Ret t1.
Proof. induction 1; [reflexivity|]. cbn [mrun]. rewrite H0. exact IHmpath. Qed.

Lemma mrun_add a b t : mrun (a + b) t = do t' <- mrun a t; mrun b t'.
Proof. revert t; induction a as [|a IH]; intros t; [reflexivity|]. cbn. destruct (mstep t); cbn; auto. Qed.
Lemma mrun_out k x : mrun k (At LOut, x) = Ret (At LOut, x).
Proof. induction k as [|k IH]; [reflexivity|]. destruct x as [m u]. cbn. exact IH. Qed.

(* every state of the run satisfies P, also after the end *)
Lemma mpath_at P t n x k : mpath P t n (At LOut, x) ->
  exists t', mrun k t = Ret t' /\ P t' /\ ((n <= k)%nat -> t' = (At LOut, x)).
Proof.
  intros H. remember (At LOut, x) as e eqn:E. revert k. induction H as [t Ht|t t1 n t' Ht H1 H IH]; intros k.
  - subst t. exists (At LOut, x). rewrite mrun_out. auto.
  - specialize (IH E). destruct k as [|k].
    + exists t. split; [reflexivity|]. split; [exact Ht|]. lia.
    + destruct (IH k) as (y & K1 & K2 & K3). exists y. cbn [mrun]. rewrite H1. split; [exact K1|].
      split; [exact K2|]. intros L. apply K3. lia.
Qed.

(* ---- copying ---------------------------------------------------------------- *)
Lemma exec_copy s x r : bounds s x = Some r ->
  exec_stmt s x = do lh <- r; do t <- slice (m_data (fst x)) (fst lh) (snd lh); do y <- assign s t x; Ret (y, Fall).
Proof.
  destruct x as [m u]. destruct s; cbn [bounds]; intros H; try discriminate H; injection H as <-;
    cbn [exec_stmt bind fst snd]; unfold text; cbn [fst].
  all: try (destruct (slice (m_data m) (m_pb m) (m_p m)); reflexivity).
  - destruct (slice (m_data m) (m_pb m) (m_p m)); cbn; [|reflexivity|reflexivity].
    destruct (u_scim u); reflexivity.
  - destruct (u_scim u) as [sc|] eqn:E; cbn; [|reflexivity]. destruct (slice (m_data m) (s_pos sc) (m_p m)); cbn; rewrite ?E; reflexivity.
  - destruct (u_scim u) as [sc|] eqn:E; cbn; [|reflexivity]. destruct (slice (m_data m) (s_pos sc) (m_p m)); cbn; rewrite ?E; reflexivity.
Qed.

Lemma slice_step {A} (d : list A) lo hi t : slice d lo hi = Ret t -> lo < hi ->
  exists b t', t = b :: t' /\ index d lo = Ret b /\ slice d (lo + 1) hi = Ret t'.
Proof.
  unfold slice, index. intros H L.
  destruct ((0 <=? lo) && (lo <=? hi) && (hi <=? zlen d)) eqn:E; [|discriminate H]. injection H as <-.
  apply andb_prop in E. destruct E as [E E3]. apply andb_prop in E. destruct E as [E1 E2].
  apply Z.leb_le in E1, E2, E3. unfold zlen in *.
  destruct (nth_error d (Z.to_nat lo)) as [b|] eqn:En; [|apply nth_error_None in En; lia].
  exists b, (firstn (Z.to_nat (hi - (lo + 1))) (skipn (Z.to_nat (lo + 1)) d)).
  replace ((0 <=? lo) && (lo <? Z.of_nat (List.length d))) with true
    by (symmetry; apply andb_true_intro; split; [apply Z.leb_le|apply Z.ltb_lt]; lia).
  replace ((0 <=? lo + 1) && (lo + 1 <=? hi) && (hi <=? Z.of_nat (List.length d))) with true
    by (symmetry; repeat (apply andb_true_intro; split); apply Z.leb_le; lia).
  split; [|split; reflexivity].
  replace (Z.to_nat (hi - lo)) with (S (Z.to_nat (hi - (lo + 1)))) by lia.
  replace (Z.to_nat (lo + 1)) with (S (Z.to_nat lo)) by lia.
  assert (Q : skipn (Z.to_nat lo) d = b :: skipn (S (Z.to_nat lo)) d).
  { clear -En. revert d En. induction (Z.to_nat lo) as [|n IH]; intros [|c d] En; try discriminate En.
    - injection En as <-. reflexivity.
    - cbn in *. apply IH. exact En. }
  rewrite Q. reflexivity.
Qed.
Lemma slice_done {A} (d : list A) lo hi t : slice d lo hi = Ret t -> ~ lo < hi -> t = [].
Proof.
  unfold slice. destruct ((0 <=? lo) && (lo <=? hi) && (hi <=? zlen d)); [|discriminate]. intros [= <-] L.
  replace (Z.to_nat (hi - lo)) with 0%nat by lia. reflexivity.
Qed.

(* ---- quiet blocks ------------------------------------------------------------ *)
(* the next step does not touch the slice in order to write *)
Definition nostore (pc : tpc) : Prop :=
  match pc with In (ILoad _ _ :: _) _ | In (IStore _ _ :: _) _ => False | _ => True end.

Fixpoint noFor (s : stmt) : bool :=
  match s with SForTolower _ => false | SIf _ t e => forallb noFor t && forallb noFor e | _ => true end.
Fixpoint noLow (s : stmt) : bool :=
  match s with STolower => false | SIf _ t e => forallb noLow t && forallb noLow e | _ => true end.
Definition quiet (T : list Z) (l : list stmt) : Prop :=
  forallb noFor l = true \/ (T = [] /\ forallb noLow l = true).

Fixpoint ssize (s : stmt) : nat :=
  match s with
  | SIf _ t e => S ((fix go l := match l with [] => 0 | a :: r => ssize a + go r end) t
                  + (fix go l := match l with [] => 0 | a :: r => ssize a + go r end) e)
  | _ => 1
  end%nat.
Fixpoint bsize (l : list stmt) : nat := match l with [] => 0 | a :: r => ssize a + bsize r end%nat.
Lemma ssize_if c t e : ssize (SIf c t e) = S (bsize t + bsize e).
Proof. reflexivity. Qed.
Lemma ssize_pos s : (1 <= ssize s)%nat.
Proof. destruct s; cbn; lia. Qed.
Lemma bsize_app a b : bsize (a ++ b) = (bsize a + bsize b)%nat.
Proof. induction a as [|x a IH]; cbn; [reflexivity|]. rewrite IH. lia. Qed.

Lemma exec_if c t e x : exec_stmt (SIf c t e) x = do b <- eval_cond c x; exec_block (if b then t else e) x.
Proof.
  destruct x as [m u]. cbn [exec_stmt]. destruct (eval_cond c (m, u)) as [b| |]; cbn [bind]; [|reflexivity|reflexivity].
  generalize (m, u). generalize (if b then t else e). induction l as [|s l IH]; intros y; [reflexivity|].
  cbn [exec_block]. destruct (exec_stmt s y) as [[y' [|]]| |]; cbn; auto.
Qed.
Lemma exec_app l1 l2 x : exec_block (l1 ++ l2) x =
  do r <- exec_block l1 x; match r with (y, Fall) => exec_block l2 y | (y, Again) => Ret (y, Again) end.
Proof.
  revert x; induction l1 as [|s l IH]; intros x; [reflexivity|]. cbn [app exec_block].
  destruct (exec_stmt s x) as [[y [|]]| |]; cbn [bind]; auto.
Qed.

Definition stop_at (c : ctl) (rest : list item) (a : option label) (y : st) : thread :=
  match c with Fall => (In rest a, y) | Again => (At LAgain, y) end.

(* a statement that is neither a goto, an if nor a loop changes neither the bytes nor, if
   it is not STolower, the list of positions *)
Lemma exec_plain s x y c :
  (match s with SGotoAgain | SIf _ _ _ | SForTolower _ => False | _ => True end) ->
  exec_stmt s x = Ret (y, c) ->
  c = Fall /\ m_data (fst y) = m_data (fst x) /\ (noLow s = true -> u_tolower (snd y) = u_tolower (snd x)).
Proof.
  destruct x as [m u]. intros Hs H. destruct s; try contradiction; cbn [exec_stmt] in H; unfold text in H;
    try (injection H as <- <-; cbn; split; [reflexivity|split; [reflexivity|try discriminate; reflexivity]]).
  all: repeat match type of H with
    | context [u_scim ?v] => destruct (u_scim v)
    | context [slice ?d ?a ?b] => destruct (slice d a b)
    end; cbn [bind] in H; try discriminate H; injection H as <- <-; cbn; auto.
Qed.

Section Sim.
(* q: is the block quiet; d: the bytes *)
Variable q : Prop.
Variable d : bytes.
Definition okay (t : thread) : Prop := q -> m_data (fst (snd t)) = d /\ nostore (fst t).

Lemma copy_path s rest a x y t acc lo hi :
  slice (m_data (fst x)) lo hi = Ret t -> assign s (acc ++ t) x = Ret y ->
  m_data (fst y) = m_data (fst x) ->
  (q -> m_data (fst x) = d) -> okay (In rest a, y) ->
  exists n, mpath okay (In (ICopy s lo hi acc :: rest) a, x) (S n) (In rest a, y).
Proof.
  intros Hs Ha Hd Hq Ho. remember (Z.to_nat (hi - lo)) as n eqn:En.
  revert lo acc t Hs Ha En. induction n as [|n IH]; intros lo acc t Hs Ha En.
  - assert (L : ~ lo < hi) by lia. rewrite (slice_done _ _ _ _ Hs L), app_nil_r in Ha.
    exists 0%nat. apply mpath_one; [intros Q; split; [cbn; auto|exact I]|exact Ho|].
    destruct x as [m u]. cbn [mstep]. replace (lo <? hi) with false by (symmetry; apply Z.ltb_ge; lia).
    rewrite Ha. reflexivity.
  - assert (L : lo < hi) by lia. destruct (slice_step _ _ _ _ Hs L) as (b & t' & -> & Hi & Hs').
    destruct (IH (lo + 1) (acc ++ [b]) t' Hs') as [k K]; [rewrite <- app_assoc; exact Ha|lia|].
    exists (S k). eapply mp_cons; [intros Q; split; [cbn; auto|exact I]| |exact K].
    destruct x as [m u]. cbn [mstep]. replace (lo <? hi) with true by (symmetry; apply Z.ltb_lt; lia).
    cbn [fst] in Hi. rewrite Hi. reflexivity.
Qed.

(* the loop over tolower *)
Lemma loop_path dd T rest a m u data' :
  for_tolower dd T (m_pb m) (m_data m) = Ret data' -> (q -> T = []) ->
  (q -> m_data m = d) -> okay (In rest a, (set_data data' m, u)) ->
  exists n, mpath okay (In (map (fun i => ILoad i dd) T ++ rest) a, (m, u)) n (In rest a, (set_data data' m, u)).
Proof.
  intros H HT Hq Ho. revert m H HT Hq Ho. induction T as [|i T IH]; intros m H HT Hq Ho.
  - cbn in H. injection H as <-. exists 0%nat. cbn [map app].
    replace (set_data (m_data m) m) with m in * by (destruct m; reflexivity). apply mp_nil. exact Ho.
  - cbn [for_tolower] in H. destruct (index (m_data m) (m_pb m + i)) as [b| |] eqn:Eb; try discriminate H.
    cbn [bind] in H. destruct (update (m_data m) (m_pb m + i) (byte_add b dd)) as [d1| |] eqn:Eu; try discriminate H.
    cbn [bind] in H.
    assert (NQ : ~ q) by (intros Q; discriminate (HT Q)).
    destruct (IH (set_data d1 m)) as [n K].
    + exact H.
    + intros Q; contradiction.
    + intros Q; contradiction.
    + intros Q; contradiction.
    + exists (S (S n)). eapply mp_cons; [intros Q; contradiction| |].
      * cbn [map app mstep]. rewrite Eb. reflexivity.
      * eapply mp_cons; [intros Q; contradiction| |exact K].
        cbn [mstep]. rewrite Eu. reflexivity.
Qed.

Lemma block_path n l x y c rest a : (bsize l <= n)%nat ->
  exec_block l x = Ret (y, c) ->
  (q -> m_data (fst x) = d /\ quiet (u_tolower (snd x)) l) ->
  okay (stop_at c rest a y) ->
  (c = Fall -> q -> nostore (In rest a)) ->
  exists k, mpath okay (In (map IStmt l ++ rest) a, x) k (stop_at c rest a y).
Proof.
  revert l x y c rest. induction n as [|n IH]; intros l x y c rest Hn H Hq Ho Hr.
  - destruct l as [|s l]; [|cbn in Hn; pose proof (ssize_pos s); lia].
    injection H as <- <-. exists 0%nat. apply mp_nil. exact Ho.
  - destruct l as [|s l].
    { injection H as <- <-. exists 0%nat. apply mp_nil. exact Ho. }
    cbn [bsize] in Hn. pose proof (ssize_pos s) as Hsz.
    cbn [exec_block] in H.
    assert (Q0 : okay (In (map IStmt (s :: l) ++ rest) a, x)).
    { intros Q. split; [cbn; apply Hq; exact Q|exact I]. }
    destruct (match s with SGotoAgain | SIf _ _ _ | SForTolower _ => true | _ => false end) eqn:Es.
    + destruct s; try discriminate Es; clear Es.
      * (* for *)
        destruct x as [m u]. cbn [exec_stmt] in H.
        destruct (for_tolower d0 (u_tolower u) (m_pb m) (m_data m)) as [d1| |] eqn:Ef; cbn [bind] in H; try discriminate H.
        assert (HT : q -> u_tolower u = []).
        { intros Q. destruct (Hq Q) as [_ [K|[K _]]]; [discriminate K|exact K]. }
        assert (Hd1 : q -> d1 = d).
        { intros Q. rewrite (HT Q) in Ef. injection Ef as <-. apply Hq. exact Q. }
        assert (Qs : q -> quiet (u_tolower u) l).
        { intros Q. destruct (Hq Q) as [_ [K|[K1 K2]]]; [discriminate K|right; auto]. }
        destruct (IH l (set_data d1 m, u) y c rest) as [k K]; [lia|exact H| |exact Ho|exact Hr|].
        { intros Q. split; [cbn; auto|apply Qs; exact Q]. }
        destruct (loop_path d0 (u_tolower u) (map IStmt l ++ rest) a m u d1 Ef HT) as [k1 K1].
        { intros Q. apply Hq. exact Q. }
        { destruct k as [|k]; [|inversion K; auto]. inversion K; subst. auto. }
        exists (S (k1 + k)). eapply mp_cons; [exact Q0| |eapply mpath_app; [exact K1|exact K]].
        reflexivity.
      * (* goto *)
        destruct x as [m u]. injection H as <- <-. exists 1%nat. apply mpath_one; [exact Q0|exact Ho|reflexivity].
      * (* if *)
        rewrite exec_if in H. destruct x as [m u].
        destruct (eval_cond c0 (m, u)) as [b| |] eqn:Eb; cbn [bind] in H; try discriminate H.
        assert (H' : exec_block ((if b then t else e) ++ l) (m, u) = Ret (y, c)) by (rewrite exec_app; exact H).
        destruct (IH ((if b then t else e) ++ l) (m, u) y c rest) as [k K].
        { rewrite bsize_app. rewrite ssize_if in Hn. destruct b; lia. }
        { exact H'. }
        { intros Q. destruct (Hq Q) as [K0 K]. split; [exact K0|]. unfold quiet in *. rewrite !forallb_app.
          cbn [forallb noFor noLow] in K. rewrite !andb_true_iff in *. destruct b; tauto. }
        { exact Ho. }
        { exact Hr. }
        exists (S k). eapply mp_cons; [exact Q0| |exact K].
        cbn [mstep map app]. rewrite Eb. cbn [bind]. rewrite map_app, <- app_assoc. reflexivity.
    + assert (Hs : match s with SGotoAgain | SIf _ _ _ | SForTolower _ => False | _ => True end)
        by (destruct s; try discriminate Es; exact I).
      destruct (exec_stmt s x) as [[x1 c1]| |] eqn:E1; cbn [bind] in H; try discriminate H.
      destruct (exec_plain _ _ _ _ Hs E1) as (-> & Hd1 & HT1).
      assert (Qs : q -> quiet (u_tolower (snd x1)) l).
      { intros Q. destruct (Hq Q) as [_ K]. unfold quiet in *. cbn [forallb] in K. rewrite !andb_true_iff in K.
        destruct K as [[_ K]|[K0 [K1 K2]]]; [left; exact K|right]. rewrite (HT1 K1). auto. }
      destruct (IH l x1 y c rest) as [k K]; [lia|exact H| |exact Ho|exact Hr|].
      { intros Q. split; [rewrite Hd1; apply Hq; exact Q|apply Qs; exact Q]. }
      assert (Q1 : okay (In (map IStmt l ++ rest) a, x1)) by (destruct K; auto).
      destruct (bounds s x) as [r|] eqn:Eb.
      * pose proof (exec_copy s x r Eb) as Ec. rewrite E1 in Ec.
        destruct r as [[lo hi]| |]; cbn [bind fst snd] in Ec; try discriminate Ec.
        destruct (slice (m_data (fst x)) lo hi) as [t| |] eqn:Esl; cbn [bind] in Ec; try discriminate Ec.
        destruct (assign s t x) as [y1| |] eqn:Ea; cbn [bind] in Ec; try discriminate Ec. injection Ec as <-.
        destruct (copy_path s (map IStmt l ++ rest) a x x1 t [] lo hi Esl Ea Hd1) as [k1 K1].
        { intros Q. apply Hq. exact Q. }
        { exact Q1. }
        exists (S (S k1 + k)). eapply mp_cons; [exact Q0| |eapply mpath_app; [exact K1|exact K]].
        destruct x as [m u]. cbn [fst] in *.
        assert (Em : mstep (In (map IStmt (s :: l) ++ rest) a, (m, u)) =
                  match bounds s (m, u) with
                  | Some r => do lh <- r; let '(lo, hi) := lh in
                      if (0 <=? lo) && (lo <=? hi) && (hi <=? zlen (m_data m))
                      then Ret (In (ICopy s lo hi [] :: map IStmt l ++ rest) a, (m, u)) else Panic
                  | None => do r <- exec_stmt s (m, u); let '(y, _) := r in Ret (In (map IStmt l ++ rest) a, y)
                  end) by (destruct s; try contradiction; reflexivity).
        etransitivity; [exact Em|]. rewrite Eb. cbn [bind]. unfold slice in Esl.
        destruct ((0 <=? lo) && (lo <=? hi) && (hi <=? zlen (m_data m))); [reflexivity|discriminate Esl].
      * exists (S k). eapply mp_cons; [exact Q0| |exact K].
        destruct x as [m u].
        assert (Em : mstep (In (map IStmt (s :: l) ++ rest) a, (m, u)) =
                  match bounds s (m, u) with
                  | Some r => do lh <- r; let '(lo, hi) := lh in
                      if (0 <=? lo) && (lo <=? hi) && (hi <=? zlen (m_data m))
                      then Ret (In (ICopy s lo hi [] :: map IStmt l ++ rest) a, (m, u)) else Panic
                  | None => do r <- exec_stmt s (m, u); let '(y, _) := r in Ret (In (map IStmt l ++ rest) a, y)
                  end) by (destruct s; try contradiction; reflexivity).
        etransitivity; [exact Em|]. rewrite Eb, E1. reflexivity.
Qed.

(* the block a label runs, if any *)
Definition block_of (l : label) (m : machine) : option (list stmt) :=
  match l with
  | LF n => f_block n
  | LAgain => match index to_state_actions (Z.of_N (m_cs m)) with Ret a => to_state_block a | _ => None end
  | LTestEof => if m_p m =? m_eof m then
                  match index eof_actions (Z.of_N (m_cs m)) with Ret a => eof_block a | _ => None end
                else None
  | _ => None
  end.

Lemma step_path l x l' x' : step l x = Ret (l', x') -> l <> LOut ->
  (q -> m_data (fst x) = d /\ match block_of l (fst x) with Some b => quiet (u_tolower (snd x)) b | None => True end) ->
  (q -> m_data (fst x') = d) ->
  exists n, mpath okay (At l, x) (S n) (At l', x').
Proof.
  intros H Hl Hq Hq'. destruct x as [m u].
  assert (Q0 : okay (At l, (m, u))) by (intros Q; split; [apply Hq; exact Q|exact I]).
  assert (Q1 : forall lab, okay (At lab, x')) by (intros lab Q; split; [apply Hq'; exact Q|exact I]).
  assert (One : mstep (At l, (m, u)) = (do r <- step l (m, u); let '(l', x') := r in Ret (At l', x')) ->
                exists n, mpath okay (At l, (m, u)) (S n) (At l', x')).
  { intros E. exists 0%nat. apply mpath_one; auto. rewrite E, H. reflexivity. }
  assert (Blk : forall b c a, block_of l m = Some b -> exec_block b (m, u) = Ret (x', c) ->
            mstep (At l, (m, u)) = Ret (In (map IStmt b) a, (m, u)) ->
            match c with Again => l' = LAgain | Fall => a = Some l' end ->
            exists n, mpath okay (At l, (m, u)) (S n) (At l', x')).
  { intros b c a Hb He Hm Hc.
    destruct (block_path (bsize b) b (m, u) x' c [] a (le_n _) He) as [k K].
    - intros Q. specialize (Hq Q). cbn [fst snd] in *. rewrite Hb in Hq. exact Hq.
    - destruct c; intros Q; split; try exact I; apply Hq'; exact Q.
    - intros _ _. exact I.
    - rewrite app_nil_r in K. destruct c; cbn [stop_at] in K.
      + subst a. exists (S k). eapply mp_cons; [exact Q0|exact Hm|].
        eapply mpath_snoc; [exact K|destruct x'; reflexivity|apply Q1].
      + subst l'. exists k. eapply mp_cons; [exact Q0|exact Hm|exact K]. }
  destruct l; try (apply One; reflexivity).
  - (* f block *)
    cbn [step] in H. destruct (f_block n) as [b|] eqn:Eb; [|discriminate H].
    destruct (exec_block b (m, u)) as [[y [|]]| |] eqn:Ee; cbn [bind] in H; try discriminate H.
    injection H as <- <-. eapply (Blk b Again None); auto. cbn [mstep]. rewrite Eb. reflexivity.
  - (* _again *)
    cbn [step] in H. cbn [block_of] in Blk.
    destruct (index to_state_actions (Z.of_N (m_cs m))) as [a| |] eqn:Ea; cbn [bind] in H; try discriminate H.
    destruct (to_state_block a) as [b|] eqn:Eb.
    + destruct (exec_block b (m, u)) as [[y [|]]| |] eqn:Ee; cbn [bind] in H; try discriminate H.
      injection H as <- <-. eapply (Blk b Again None); auto. cbn [mstep]. rewrite Ea. cbn [bind]. rewrite Eb. reflexivity.
    + apply One. cbn [mstep]. rewrite Ea. cbn [bind]. rewrite Eb. reflexivity.
  - (* _testEof *)
    cbn [step] in H.
    destruct (m_p m =? m_eof m) eqn:Ep.
    + destruct (index eof_actions (Z.of_N (m_cs m))) as [a| |] eqn:Ea; cbn [bind] in H; try discriminate H.
      destruct (eof_block a) as [b|] eqn:Eb.
      * destruct (exec_block b (m, u)) as [[y c]| |] eqn:Ee; cbn [bind] in H; try discriminate H.
        assert (Hm : mstep (At LTestEof, (m, u)) = Ret (In (map IStmt b) (Some LOut), (m, u)))
          by (cbn [mstep]; rewrite Ep, Ea; cbn [bind]; rewrite Eb; reflexivity).
        assert (Hb : block_of LTestEof m = Some b) by (cbn [block_of]; rewrite Ep, Ea; exact Eb).
        destruct c; injection H as <- <-.
        -- exact (Blk b Fall _ Hb Ee Hm eq_refl).
        -- exact (Blk b Again _ Hb Ee Hm eq_refl).
      * injection H as <- <-. exists 0%nat. apply mpath_one; auto.
        cbn [mstep]. rewrite Ep, Ea. cbn [bind]. rewrite Eb. reflexivity.
    + injection H as <- <-. exists 0%nat. apply mpath_one; auto. cbn [mstep]. rewrite Ep. reflexivity.
Qed.
End Sim.
