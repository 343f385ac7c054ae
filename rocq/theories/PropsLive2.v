(* Proofs for C57: what of Parse is not executed. *)
From Coq Require Import Lia.
From Verif Require Import GoBase MachineSyntax MachineTables Machine Live LiveTable Api PropsLive.
Local Open Scope Z_scope.

(* ---- what is not executed: abstract states -------------------------------------------------------- *)
(* mode (0 for one that is not listed), state, rStart, qStart, whether p = pe; p <= pe is kept, so
   that p is not pe after p-- *)
Record abs := mkAbs { a_mode : Z; a_cs : N; a_r : bool; a_q : bool; a_end : bool }.
Definition mclass (x : Z) : Z := if (x =? 1) || (x =? 2) || (x =? 3) then x else 0.
Definition abs_of (x : st) : abs :=
  mkAbs (mclass (m_parsingMode (fst x))) (m_cs (fst x)) (u_rStart (snd x)) (u_qStart (snd x)) (m_p (fst x) =? m_pe (fst x)).
Definition with_cs (n : N) (a : abs) := mkAbs (a_mode a) n (a_r a) (a_q a) (a_end a).
Definition with_end (b : bool) (a : abs) := mkAbs (a_mode a) (a_cs a) (a_r a) (a_q a) b.

Fixpoint acond (c : cond) (a : abs) : option bool :=
  match c with
  | CModeEq k => if (k =? 1) || (k =? 2) || (k =? 3) then Some (a_mode a =? k) else None
  | CPEqPe => Some (a_end a)
  | CRStart => Some (a_r a)
  | CQStart => Some (a_q a)
  | CNot c => option_map negb (acond c a)
  | CAnd c d => match acond c a with Some true => acond d a | r => r end
  | COr c d => match acond c a with Some false => acond d a | r => r end
  | _ => None
  end.
Lemma mclass_eq x k : (k =? 1) || (k =? 2) || (k =? 3) = true -> (mclass x =? k) = (x =? k).
Proof.
  intros H. assert (K : k = 1 \/ k = 2 \/ k = 3) by (rewrite !orb_true_iff, !Z.eqb_eq in H; tauto).
  unfold mclass. destruct ((x =? 1) || (x =? 2) || (x =? 3)) eqn:E; [reflexivity|].
  rewrite !orb_false_iff, !Z.eqb_neq in E. destruct E as [[E1 E2] E3].
  transitivity false; [|symmetry]; apply Z.eqb_neq; lia.
Qed.
Lemma acond_ok c : forall x v w, eval_cond c x = Ret v -> acond c (abs_of x) = Some w -> v = w.
Proof.
  induction c as [k| | | |k|k n| |c IH|c IHc d IHd|c IHc d IHd]; intros [m u] v w H A; cbn in H, A; try discriminate A.
  - destruct ((k =? 1) || (k =? 2) || (k =? 3)) eqn:E; [|discriminate A]. rewrite mclass_eq in A by exact E. congruence.
  - congruence.
  - congruence.
  - congruence.
  - destruct (eval_cond c (m, u)) as [b| |] eqn:E; try discriminate H. cbn in H.
    destruct (acond c (abs_of (m, u))) as [b'|] eqn:E'; [|discriminate A]. cbn in A. rewrite (IH _ _ _ E E') in H. congruence.
  - destruct (eval_cond c (m, u)) as [b| |] eqn:E; try discriminate H. cbn in H.
    destruct (acond c (abs_of (m, u))) as [b'|] eqn:E'; [|discriminate A]. rewrite (IHc _ _ _ E E') in H.
    destruct b'; [eapply IHd; eassumption|congruence].
  - destruct (eval_cond c (m, u)) as [b| |] eqn:E; try discriminate H. cbn in H.
    destruct (acond c (abs_of (m, u))) as [b'|] eqn:E'; [|discriminate A]. rewrite (IHc _ _ _ E E') in H.
    destruct b'; [congruence|eapply IHd; eassumption].
Qed.
Definition branches (c : cond) (a : abs) : list bool := match acond c a with Some v => [v] | None => [true; false] end.
Lemma branches_ok c x v : eval_cond c x = Ret v -> In v (branches c (abs_of x)).
Proof.
  intros H. unfold branches. destruct (acond c (abs_of x)) as [w|] eqn:E.
  - left. symmetry. eapply acond_ok; eassumption.
  - destruct v; cbn; auto.
Qed.

(* a block; the outcomes, with the if statements decided on the way *)
Fixpoint aexec (s : stmt) (a : abs) {struct s} : list (abs * ctl) :=
  match s with
  | SDecP => [(with_end false a, Fall)]
  | SSetCS n => [(with_cs n a, Fall)]
  | SGotoAgain => [(a, Again)]
  | SSetRStart => [(mkAbs (a_mode a) (a_cs a) true (a_q a) (a_end a), Fall)]
  | SSetQStart => [(mkAbs (a_mode a) (a_cs a) (a_r a) true (a_end a), Fall)]
  | SIf c t e =>
      flat_map (fun v : bool =>
        (fix go (l : list stmt) (a : abs) : list (abs * ctl) :=
           match l with
           | [] => [(a, Fall)]
           | s' :: l' => flat_map (fun r => match r with (a', Fall) => go l' a' | (a', Again) => [(a', Again)] end) (aexec s' a)
           end) (if v then t else e) a) (branches c a)
  | _ => [(a, Fall)]
  end.
Fixpoint aexecs (l : list stmt) (a : abs) : list (abs * ctl) :=
  match l with
  | [] => [(a, Fall)]
  | s' :: l' => flat_map (fun r => match r with (a', Fall) => aexecs l' a' | (a', Again) => [(a', Again)] end) (aexec s' a)
  end.
Fixpoint adecided (s : stmt) (a : abs) {struct s} : list (list nat * bool) :=
  match s with
  | SIf c t e =>
      flat_map (fun v : bool => ([], v) ::
        (fix go (i : nat) (l : list stmt) (a : abs) : list (list nat * bool) :=
           match l with
           | [] => []
           | s' :: l' =>
               map (fun d => ((if v then 1 else 0)%nat :: i :: fst d, snd d)) (adecided s' a) ++
               flat_map (fun r => match r with (a', Fall) => go (S i) l' a' | _ => [] end) (aexec s' a)
           end) 0%nat (if v then t else e) a) (branches c a)
  | _ => []
  end.
Fixpoint adecisions (i : nat) (b : list stmt) (a : abs) : list (list nat * bool) :=
  match b with
  | [] => []
  | s :: b' =>
      map (fun d => (i :: fst d, snd d)) (adecided s a) ++
      flat_map (fun r => match r with (a', Fall) => adecisions (S i) b' a' | _ => [] end) (aexec s a)
  end.

Lemma exec_if c t e x : exec_stmt (SIf c t e) x = do v <- eval_cond c x; exec_block (if v : bool then t else e) x.
Proof.
  destruct x as [m u]. cbn [exec_stmt]. destruct (eval_cond c (m, u)) as [v| |]; [cbn [bind]|reflexivity|reflexivity].
  generalize (if v then t else e) (m, u). intros l. induction l as [|s l IH]; intros y; [reflexivity|]. cbn [exec_block].
  destruct (exec_stmt s y) as [[y' [|]]| |]; cbn; auto.
Qed.

Definition inside (x : st) : Prop := m_p (fst x) <= m_pe (fst x) /\ m_eof (fst x) = m_pe (fst x).
Definition sound_at (s : stmt) : Prop := forall x, inside x ->
  (forall y c, exec_stmt s x = Ret (y, c) -> inside y /\ In (abs_of y, c) (aexec s (abs_of x))) /\
  incl (decided s x) (adecided s (abs_of x)).

Lemma block_sound b (F : Forall sound_at b) : forall x, inside x -> forall y c, exec_block b x = Ret (y, c) ->
  inside y /\ In (abs_of y, c) (aexecs b (abs_of x)).
Proof.
  induction F as [|s b Hs F IH]; intros x Hx y c H.
  - cbn in H. injection H as <- <-. split; [exact Hx|left; reflexivity].
  - cbn [exec_block] in H. destruct (exec_stmt s x) as [[y' c']| |] eqn:E; try discriminate H. cbn [bind] in H.
    destruct (proj1 (Hs x Hx) _ _ E) as [Hy Hin]. destruct c'.
    + destruct (IH y' Hy _ _ H) as [G1 G2]. split; [exact G1|]. cbn [aexecs]. apply in_flat_map. eexists. split; [exact Hin|exact G2].
    + injection H as <- <-. split; [exact Hy|]. cbn [aexecs]. apply in_flat_map. eexists. split; [exact Hin|left; reflexivity].
Qed.
Lemma decisions_sound b (F : Forall sound_at b) : forall i x, inside x -> incl (decisions i b x) (adecisions i b (abs_of x)).
Proof.
  induction F as [|s b Hs F IH]; intros i x Hx d Hd; [destruct Hd|].
  cbn [decisions] in Hd. cbn [adecisions]. apply in_app_or in Hd as [Hd|Hd]; apply in_or_app.
  - left. apply in_map_iff in Hd as (e & <- & He). apply in_map_iff. exists e. split; [reflexivity|]. apply (proj2 (Hs x Hx)), He.
  - right. destruct (exec_stmt s x) as [[y' c']| |] eqn:E; try destruct Hd. destruct c'; [|destruct Hd].
    destruct (proj1 (Hs x Hx) _ _ E) as [Hy Hin]. apply in_flat_map. eexists. split; [exact Hin|]. apply IH; assumption.
Qed.

(* the nested lists of an if, as lists of their own *)
Definition dec_in (v : bool) : nat -> list stmt -> st -> list (list nat * bool) :=
  fix go i l y := match l with
    | [] => []
    | s' :: l' => map (fun d => ((if v then 1 else 0)%nat :: i :: fst d, snd d)) (decided s' y) ++
                  match exec_stmt s' y with Ret (y', Fall) => go (S i) l' y' | _ => [] end
    end.
Definition adec_in (v : bool) : nat -> list stmt -> abs -> list (list nat * bool) :=
  fix go i l y := match l with
    | [] => []
    | s' :: l' => map (fun d => ((if v then 1 else 0)%nat :: i :: fst d, snd d)) (adecided s' y) ++
                  flat_map (fun r => match r with (a', Fall) => go (S i) l' a' | _ => [] end) (aexec s' y)
    end.
Lemma dec_in_eq v : forall l i y, dec_in v i l y = map (fun d => ((if v then 1 else 0)%nat :: fst d, snd d)) (decisions i l y).
Proof.
  induction l as [|s l IH]; intros i y; [reflexivity|]. cbn [dec_in decisions]. rewrite map_app, map_map. cbn [fst snd]. f_equal.
  destruct (exec_stmt s y) as [[y' [|]]| |]; [apply IH|reflexivity|reflexivity|reflexivity].
Qed.
Lemma adec_in_eq v : forall l i y, adec_in v i l y = map (fun d => ((if v then 1 else 0)%nat :: fst d, snd d)) (adecisions i l y).
Proof.
  induction l as [|s l IH]; intros i y; [reflexivity|]. cbn [adec_in adecisions]. rewrite map_app, map_map. cbn [fst snd]. f_equal.
  generalize (aexec s y). intros rs. induction rs as [|[a' c'] rs IHr]; [reflexivity|]. cbn [flat_map]. rewrite map_app, <- IHr.
  destruct c'; [rewrite <- IH|]; reflexivity.
Qed.
Lemma aexec_if c t e a : aexec (SIf c t e) a = flat_map (fun v : bool => aexecs (if v then t else e) a) (branches c a).
Proof. reflexivity. Qed.

Lemma if_sound c t e : Forall sound_at t -> Forall sound_at e -> sound_at (SIf c t e).
Proof.
  intros Ft Fe x Hx. split.
  - intros y k H. rewrite exec_if in H. destruct (eval_cond c x) as [v| |] eqn:E; try discriminate H. cbn [bind] in H.
    assert (F : Forall sound_at (if v then t else e)) by (destruct v; assumption).
    destruct (block_sound _ F x Hx _ _ H) as [G1 G2]. split; [exact G1|]. rewrite aexec_if. apply in_flat_map.
    exists v. split; [apply branches_ok, E|exact G2].
  - intros d Hd. cbn [decided] in Hd. destruct (eval_cond c x) as [v| |] eqn:E; [|destruct Hd|destruct Hd].
    cbn [adecided]. apply in_flat_map. exists v. split; [apply branches_ok, E|].
    destruct Hd as [<-|Hd]; [left; reflexivity|right].
    assert (F : Forall sound_at (if v then t else e)) by (destruct v; assumption).
    change (In d (adec_in v 0 (if v then t else e) (abs_of x))). change (In d (dec_in v 0 (if v then t else e) x)) in Hd.
    rewrite dec_in_eq in Hd. rewrite adec_in_eq. apply in_map_iff in Hd as (d' & <- & Hd).
    apply in_map_iff. exists d'. split; [reflexivity|]. apply decisions_sound; assumption.
Qed.
Fixpoint stmt_sound (s : stmt) : sound_at s.
Proof.
  destruct s; try (intros [m u] [Hp He]; cbn [fst] in Hp, He; split; [|intros d0 []]; intros y k0 H; cbn in H).
  12:{ apply if_sound.
       - induction t as [|a t IH]; constructor; [apply stmt_sound|exact IH].
       - induction e as [|a e IH]; constructor; [apply stmt_sound|exact IH]. }
  all: repeat match type of H with
       | bind ?r _ = _ => destruct r; [cbn [bind] in H|discriminate H|discriminate H]
       | match ?o with Some _ => _ | None => _ end = _ => destruct o; [|discriminate H]
       end; try discriminate H.
  all: injection H as <- <-; split; [split; cbn; lia|]; try (left; reflexivity).
  left. unfold abs_of, with_end. cbn. f_equal. f_equal. symmetry. apply Z.eqb_neq. lia.
Qed.
Lemma all_sound b : Forall sound_at b.
Proof. apply Forall_forall. intros s _. apply stmt_sound. Qed.

(* ---- the configurations ---------------------------------------------------------------------------- *)
Definition cfg_of (a : abs) : Z * bool * bool := (a_mode a, a_r a, a_q a).
Definition cfg_eqb (x y : Z * bool * bool) : bool :=
  (fst (fst x) =? fst (fst y)) && Bool.eqb (snd (fst x)) (snd (fst y)) && Bool.eqb (snd x) (snd y).
Lemma cfg_eqb_eq x y : cfg_eqb x y = true -> x = y.
Proof.
  destruct x as [[a b] c], y as [[a' b'] c']. unfold cfg_eqb. cbn [fst snd]. intros H.
  apply andb_prop in H as [H H3]. apply andb_prop in H as [H1 H2]. apply Z.eqb_eq in H1. apply eqb_prop in H2, H3. congruence.
Qed.
Definition in_cfg (a : abs) : bool := existsb (cfg_eqb (cfg_of a)) (nth (N.to_nat (a_cs a)) live_cfg []).

Definition clean (q : part) (a : abs) (ds : list (list nat * bool)) : bool :=
  forallb (fun d => negb (dead_in never q (fst d) (snd d)) &&
                    ((a_mode a =? 0) || negb (dead_in never_listed q (fst d) (snd d)))) ds.
Fixpoint again_ok (fuel : nat) (a : abs) : bool :=
  match fuel with
  | O => false
  | S f =>
      match nth_error to_state_actions (N.to_nat (a_cs a)) with
      | None => false
      | Some k =>
          match to_state_block k with
          | Some b => clean (PTo k) a (adecisions 0 b a) &&
                      forallb (fun r => match r with (a', Again) => again_ok f a' | _ => true end) (aexecs b a)
          | None => N.eqb (a_cs a) 0 || negb (a_end a) && in_cfg a
          end
      end
  end.
Definition f_ok (n : N) (a : abs) : bool :=
  match f_block n with
  | Some b => clean (PF n) a (adecisions 0 b a) &&
              forallb (fun r => match r with (a', Again) => again_ok 3 a' | _ => true end) (aexecs b a)
  | None => false
  end.
Definition tr_ok (n : N) (a : abs) : bool :=
  match tr_block n with
  | Some (k, None) => again_ok 3 (with_cs k a)
  | Some (k, Some f) => f_ok f (with_cs k a)
  | None => false
  end.
Definition eof_ok (a : abs) : bool :=
  match nth_error eof_actions (N.to_nat (a_cs a)) with
  | None => false
  | Some k =>
      match eof_block k with
      | Some b => clean (PEof k) a (adecisions 0 b a) &&
                  forallb (fun r => match r with (a', Again) => again_ok 3 a' | _ => true end) (aexecs b a)
      | None => true
      end
  end.
Definition state_ok (k : N) : bool :=
  forallb (fun c => let '(m, r, q) := c in
    forallb (fun n => tr_ok n (mkAbs m k r q false)) (nth (N.to_nat k) live_outs []) &&
    eof_ok (mkAbs m k r q true)) (nth (N.to_nat k) live_cfg []).
Lemma states_ok : forallb state_ok (nums 194) = true.
Proof. vm_compute. reflexivity. Qed.
Definition outs_ok (k : N) : bool :=
  let o := nth (N.to_nat k) live_outs [] in
  forallb (fun b => match resume_switch k b with TTr n => existsb (N.eqb n) o | TOut => N.eqb k 0 end) (nums 256).
Lemma outs_checked : forallb outs_ok (nums 194) = true.
Proof. vm_compute. reflexivity. Qed.
Lemma cfg_alive : forallb (fun k => match nth (N.to_nat k) live_cfg [] with [] => true | _ => negb (existsb (N.eqb k) (0 :: never_met)%N) end) (nums 194) = true
  /\ List.length live_cfg = 194%nat.
Proof. vm_compute. split; reflexivity. Qed.

Lemma cfg_lt a : in_cfg a = true -> (a_cs a < 194)%N.
Proof.
  intros H. apply existsb_exists in H as (c & Hc & _). destruct cfg_alive as [_ L].
  destruct (Nat.lt_ge_cases (N.to_nat (a_cs a)) 194) as [G|G]; [lia|].
  rewrite nth_overflow in Hc by (rewrite L; exact G). destruct Hc.
Qed.
Lemma cfg_in_nums a : in_cfg a = true -> In (a_cs a) (nums 194).
Proof. intros H. apply in_nums. apply N.ltb_lt. exact (cfg_lt a H). Qed.
Lemma cfg_alive_at a : in_cfg a = true -> a_cs a <> 0%N /\ ~ In (a_cs a) never_met.
Proof.
  intros H. destruct cfg_alive as [C _]. rewrite forallb_forall in C. specialize (C _ (cfg_in_nums a H)).
  unfold in_cfg in H. destruct (nth (N.to_nat (a_cs a)) live_cfg []) as [|c l]; [discriminate H|].
  apply negb_true_iff in C. cbn [existsb] in C. apply orb_false_iff in C as [C0 C1]. split.
  - apply N.eqb_neq in C0. exact C0.
  - intros G. apply Bool.not_true_iff_false in C1. apply C1. apply existsb_exists. exists (a_cs a). split; [exact G|apply N.eqb_refl].
Qed.
Lemma cfg_ok_at a : in_cfg a = true ->
  (forall n, In n (nth (N.to_nat (a_cs a)) live_outs []) -> tr_ok n (with_end false a) = true) /\ eof_ok (with_end true a) = true.
Proof.
  intros H. pose proof states_ok as C. rewrite forallb_forall in C. specialize (C _ (cfg_in_nums a H)).
  apply existsb_exists in H as (c & Hc & Ec). apply cfg_eqb_eq in Ec. unfold state_ok in C. rewrite forallb_forall in C. specialize (C _ Hc).
  subst c. unfold cfg_of in C. apply andb_prop in C as [C1 C2]. split; [|exact C2].
  rewrite forallb_forall in C1. exact C1.
Qed.
Lemma outs_at k b n : (k < 194)%N -> resume_switch k (Byte.to_N b) = TTr n -> In n (nth (N.to_nat k) live_outs []).
Proof.
  intros Hk H. pose proof outs_checked as C. rewrite forallb_forall in C.
  assert (Hn : In k (nums 194)) by (apply in_nums, N.ltb_lt; exact Hk). specialize (C _ Hn). unfold outs_ok in C. cbv zeta in C.
  rewrite forallb_forall in C.
  assert (Hb : In (Byte.to_N b) (nums 256)).
  { apply in_nums. apply N.ltb_lt. pose proof (Byte.to_N_bounded b). cbn. lia. }
  specialize (C _ Hb). rewrite H in C. apply existsb_exists in C as (x & Hx & E). apply N.eqb_eq in E. subst x. exact Hx.
Qed.

(* ---- the invariant ----------------------------------------------------------------------------------- *)
Definition inv (l : label) (x : st) : Prop :=
  inside x /\
  match l with
  | LEnter => m_cs (fst x) = 0%N \/ in_cfg (abs_of x) = true
  | LResume => in_cfg (abs_of x) = true /\ a_end (abs_of x) = false
  | LTr n => tr_ok n (abs_of x) = true
  | LF n => f_ok n (abs_of x) = true
  | LAgain => exists k, again_ok k (abs_of x) = true
  | LTestEof => m_p (fst x) = m_pe (fst x) /\ (m_cs (fst x) = 0%N \/ in_cfg (abs_of x) = true)
  | LOut => True
  end.

Lemma index_nth {A} (l : list A) k a : index l (Z.of_N k) = Ret a -> nth_error l (N.to_nat k) = Some a.
Proof.
  unfold index. destruct ((0 <=? Z.of_N k) && (Z.of_N k <? zlen l)); [|discriminate].
  replace (Z.to_nat (Z.of_N k)) with (N.to_nat k) by lia.
  destruct (nth_error l (N.to_nat k)); [intros [= ->]; reflexivity|discriminate].
Qed.
Lemma in_cfg_end b a : in_cfg (with_end b a) = in_cfg a.
Proof. reflexivity. Qed.
Lemma with_end_abs b x : a_end (abs_of x) = b -> with_end b (abs_of x) = abs_of x.
Proof. intros <-. destruct (abs_of x). reflexivity. Qed.

Lemma inv_step l x l' x' : inv l x -> step l x = Ret (l', x') -> inv l' x'.
Proof.
  intros [Hi H] S. destruct l; destruct x as [m u]; cbn [step] in S; cbn [fst] in H.
  - (* LEnter *)
    destruct (m_p m =? m_pe m) eqn:Ep.
    + injection S as <- <-. split; [exact Hi|]. cbn [fst]. apply Z.eqb_eq in Ep. split; [exact Ep|exact H].
    + destruct (N.eqb (m_cs m) 0) eqn:Ec; injection S as <- <-; (split; [exact Hi|]); [exact I|].
      apply Z.eqb_neq in Ep. apply N.eqb_neq in Ec. destruct H as [H|H]; [contradiction|].
      split; [exact H|]. cbn. apply Z.eqb_neq. exact Ep.
  - (* LResume *)
    destruct H as [H He]. pose proof (cfg_lt _ H) as L. pose proof (cfg_alive_at _ H) as [A _]. cbn [a_cs abs_of fst] in L, A.
    apply N.eqb_neq in A. rewrite A in S. replace (N.ltb 193 (m_cs m)) with false in S by (symmetry; apply N.ltb_ge; lia).
    destruct (index (m_data m) (m_p m)) as [b| |]; try discriminate S. cbn [bind] in S.
    destruct (resume_switch (m_cs m) (Byte.to_N b)) as [n|] eqn:E; injection S as <- <-; (split; [exact Hi|]); [|exact I].
    rewrite <- (with_end_abs false (m, u) He). apply (proj1 (cfg_ok_at _ H)). exact (outs_at _ _ _ L E).
  - (* LTr *)
    unfold inv in *. unfold tr_ok in H. destruct (tr_block n) as [[k [f|]]|]; [| |discriminate S]; injection S as <- <-; split; try exact Hi.
    + exact H.
    + exists 3%nat. exact H.
  - (* LF *)
    unfold f_ok in H. destruct (f_block n) as [b|] eqn:E; [|discriminate S]. apply andb_prop in H as [_ H].
    destruct (exec_block b (m, u)) as [[y c]| |] eqn:Ex; try discriminate S. cbn [bind] in S.
    destruct c; [discriminate S|]. injection S as <- <-. destruct (block_sound b (all_sound b) _ Hi _ _ Ex) as [G1 G2].
    split; [exact G1|]. exists 3%nat. rewrite forallb_forall in H. exact (H _ G2).
  - (* LAgain *)
    destruct H as [f H]. destruct f as [|f]; [discriminate H|]. cbn [again_ok] in H.
    destruct (index to_state_actions (Z.of_N (m_cs m))) as [a| |] eqn:Ea; try discriminate S. cbn [bind] in S.
    apply index_nth in Ea. cbn [a_cs abs_of fst] in H. rewrite Ea in H. destruct (to_state_block a) as [b|] eqn:E.
    + apply andb_prop in H as [_ H]. destruct (exec_block b (m, u)) as [[y c]| |] eqn:Ex; try discriminate S. cbn [bind] in S.
      destruct c; [discriminate S|]. injection S as <- <-. destruct (block_sound b (all_sound b) _ Hi _ _ Ex) as [G1 G2].
      split; [exact G1|]. exists f. rewrite forallb_forall in H. exact (H _ G2).
    + destruct (N.eqb (m_cs m) 0) eqn:Ec; [injection S as <- <-; split; [exact Hi|exact I]|].
      cbn [orb] in H. apply andb_prop in H as [H1 H2]. apply negb_true_iff in H1. cbn in H1. apply Z.eqb_neq in H1.
      destruct Hi as [Hi1 Hi2]. cbn [fst] in Hi1, Hi2. cbn in S.
      destruct (m_p m + 1 =? m_pe m) eqn:Ep; injection S as <- <-; (split; [split; cbn; lia|]).
      * apply Z.eqb_eq in Ep. split; [exact Ep|right; exact H2].
      * split; [exact H2|exact Ep].
  - (* LTestEof *)
    destruct H as [Hp H]. destruct Hi as [Hi1 Hi2] eqn:EHi. clear EHi. cbn [fst] in Hi1, Hi2.
    replace (m_p m =? m_eof m) with true in S by (symmetry; apply Z.eqb_eq; lia).
    destruct (index eof_actions (Z.of_N (m_cs m))) as [a| |] eqn:Ea; try discriminate S. cbn [bind] in S. apply index_nth in Ea.
    destruct (eof_block a) as [b|] eqn:E; [|injection S as <- <-; split; [split; assumption|exact I]].
    destruct (exec_block b (m, u)) as [[y c]| |] eqn:Ex; try discriminate S. cbn [bind] in S.
    assert (Hin : inside (m, u)) by (split; assumption).
    destruct (block_sound b (all_sound b) _ Hin _ _ Ex) as [G1 G2].
    destruct c; injection S as <- <-; (split; [exact G1|]); [exact I|]. exists 3%nat.
    destruct H as [H|H].
    + exfalso. rewrite H in Ea. vm_compute in Ea. injection Ea as <-. vm_compute in E. discriminate E.
    + destruct (cfg_ok_at _ H) as [_ K]. rewrite (with_end_abs true (m, u)) in K by (cbn; apply Z.eqb_eq; exact Hp).
      unfold eof_ok in K. cbn [a_cs abs_of fst] in K. rewrite Ea, E in K. apply andb_prop in K as [_ K].
      rewrite forallb_forall in K. exact (K _ G2).
  - injection S as <- <-. split; [exact Hi|exact I].
Qed.

Definition starts_in (x : Z) (k : N) : bool := in_cfg (mkAbs x k false false true).
Lemma starts_ok : starts_in 0 1 && starts_in 0 44 && starts_in 0 83 && starts_in 1 1 && starts_in 2 44 && starts_in 3 83 = true.
Proof. vm_compute. reflexivity. Qed.
Lemma inv_start m s : reachable m -> inv LEnter (parse_init m s, zeroURN).
Proof.
  intros R. split; [split; cbn; [unfold zlen; lia|reflexivity]|]. cbn [fst].
  destruct (reach_good m R) as [G _]. destruct (reach_start m R) as (S1 & S2 & S3).
  pose proof starts_ok as K. repeat rewrite andb_true_iff in K. destruct K as [[[[[K1 K2] K3] K4] K5] K6].
  change (m_cs (parse_init m s)) with (m_startParsingAt m).
  change (in_cfg (abs_of (parse_init m s, zeroURN)))
    with (existsb (cfg_eqb (mclass (m_parsingMode m), false, false)) (nth (N.to_nat (m_startParsingAt m)) live_cfg [])).
  unfold mclass.
  destruct (m_parsingMode m =? 1) eqn:E1.
  { apply Z.eqb_eq in E1. right. rewrite (S1 E1), E1. exact K4. }
  destruct (m_parsingMode m =? 2) eqn:E2.
  { apply Z.eqb_eq in E2. right. rewrite (S2 E2), E2. exact K5. }
  destruct (m_parsingMode m =? 3) eqn:E3.
  { apply Z.eqb_eq in E3. right. rewrite (S3 E3), E3. exact K6. }
  cbn [orb]. destruct G as [G|[[G _]|[G|G]]]; [left; exact G|right; rewrite G; assumption ..].
Qed.
Lemma passes_inv m s : reachable m -> forall l x, passes m s l x -> inv l x.
Proof. intros R l x P. induction P as [|l x l' x' P IH S]; [apply inv_start, R|exact (inv_step _ _ _ _ IH S)]. Qed.

(* no statement assigns the mode *)
Definition keeps_mode (s : stmt) : Prop := forall x y c, exec_stmt s x = Ret (y, c) -> m_parsingMode (fst y) = m_parsingMode (fst x).
Lemma block_mode b (F : Forall keeps_mode b) : forall x y c, exec_block b x = Ret (y, c) -> m_parsingMode (fst y) = m_parsingMode (fst x).
Proof.
  induction F as [|s b Hs F IH]; intros x y c H; cbn [exec_block] in H; [injection H as <- _; reflexivity|].
  destruct (exec_stmt s x) as [[y' c']| |] eqn:E; try discriminate H. cbn [bind] in H. rewrite <- (Hs _ _ _ E).
  destruct c'; [eapply IH, H|injection H as <- _; reflexivity].
Qed.
Fixpoint stmt_mode (s : stmt) : keeps_mode s.
Proof.
  destruct s; intros x y c0 H.
  12:{ rewrite exec_if in H. destruct (eval_cond c x) as [v| |]; try discriminate H. cbn [bind] in H.
       refine (block_mode (if v then t else e) _ x y c0 H). clear H.
       destruct v; [induction t as [|a l IH]|induction e as [|a l IH]]; constructor; first [apply stmt_mode|exact IH]. }
  all: destruct x as [m u]; cbn in H; repeat match type of H with
       | bind ?r _ = _ => destruct r; [cbn [bind] in H|discriminate H|discriminate H]
       | match ?o with Some _ => _ | None => _ end = _ => destruct o; [|discriminate H]
       end; try discriminate H.
  all: injection H as <- _; reflexivity.
Qed.
Lemma blocks_mode b x y c : exec_block b x = Ret (y, c) -> m_parsingMode (fst y) = m_parsingMode (fst x).
Proof. apply block_mode, Forall_forall. intros s _. apply stmt_mode. Qed.
Lemma step_mode l x l' x' : step l x = Ret (l', x') -> m_parsingMode (fst x') = m_parsingMode (fst x).
Proof.
  intros S. destruct l; destruct x as [m u]; cbn [step] in S;
  repeat match type of S with
  | bind ?r _ = _ => let E := fresh "E" in destruct r eqn:E; [cbn [bind] in S|discriminate S|discriminate S]
  | context [if ?c then _ else _] => destruct c
  | match ?o with _ => _ end = _ => destruct o
  end; try discriminate S; injection S as _ <-; try reflexivity; eapply blocks_mode; eassumption.
Qed.
Lemma passes_mode m s l x : passes m s l x -> m_parsingMode (fst x) = m_parsingMode m.
Proof. induction 1 as [|l x l' x' P IH S]; [reflexivity|]. rewrite <- IH. exact (step_mode _ _ _ _ S). Qed.

Lemma states_never m s x : reachable m ->
  (passes m s LResume x -> m_cs (fst x) <> 0%N /\ ~ In (m_cs (fst x)) never_met) /\
  (passes m s LTestEof x -> ~ In (m_cs (fst x)) never_met).
Proof.
  intros R. split; intros P; pose proof (passes_inv m s R _ _ P) as [_ H].
  - exact (cfg_alive_at _ (proj1 H)).
  - destruct H as [_ [H|H]]; [rewrite H; intros [G|[G|[]]]; discriminate G|exact (proj2 (cfg_alive_at _ H))].
Qed.

Lemma executes_clean m s q b x : reachable m -> block_of q = Some b -> executes m s q x ->
  forall d, In d (decisions 0 b x) ->
  dead_in never q (fst d) (snd d) = false /\ (mclass (m_parsingMode (fst x)) <> 0 -> dead_in never_listed q (fst d) (snd d) = false).
Proof.
  intros R B Ex d Hd.
  assert (K : inside x /\ clean q (abs_of x) (adecisions 0 b (abs_of x)) = true).
  { destruct q as [n|n|n]; cbn [block_of executes] in B, Ex.
    - destruct (passes_inv m s R _ _ Ex) as [Hi H]. cbn beta iota in H. unfold f_ok in H. rewrite B in H. apply andb_prop in H as [H _]. auto.
    - destruct Ex as (P & Pe & Ea). destruct (passes_inv m s R _ _ P) as [Hi [Hp H]]. split; [exact Hi|]. destruct H as [H|H].
      + exfalso. rewrite H in Ea. vm_compute in Ea. injection Ea as <-. vm_compute in B. discriminate B.
      + destruct (cfg_ok_at _ H) as [_ K]. rewrite (with_end_abs true x) in K by (cbn; apply Z.eqb_eq; exact Hp).
        unfold eof_ok in K. cbn [a_cs abs_of] in K. rewrite Ea, B in K. apply andb_prop in K as [K _]. exact K.
    - destruct Ex as (P & Ea). destruct (passes_inv m s R _ _ P) as [Hi [f H]]. split; [exact Hi|]. destruct f as [|f]; [discriminate H|].
      cbn [again_ok a_cs abs_of] in H. rewrite Ea, B in H. apply andb_prop in H as [H _]. exact H. }
  destruct K as [Hi K]. unfold clean in K. rewrite forallb_forall in K.
  specialize (K d (decisions_sound b (all_sound b) 0%nat x Hi d Hd)). apply andb_prop in K as [K1 K2].
  apply negb_true_iff in K1. split; [exact K1|]. intros M. apply orb_prop in K2 as [K2|K2].
  - apply Z.eqb_eq in K2. contradiction.
  - apply negb_true_iff. exact K2.
Qed.
Lemma branches_never m s q p v : reachable m -> In (q, p, v) never -> ~ takes m s q p v.
Proof.
  intros R H (b & x & B & Ex & Hd). destruct (executes_clean m s q b x R B Ex _ Hd) as [K _]. cbn [fst snd] in K.
  apply dead_in_in in H. congruence.
Qed.
Lemma branches_never_listed m s q p v : reachable m -> In (m_parsingMode m) [PRFC2141Only; PRFC7643Only; PRFC8141Only] ->
  In (q, p, v) never_listed -> ~ takes m s q p v.
Proof.
  intros R Hm H (b & x & B & Ex & Hd). destruct (executes_clean m s q b x R B Ex _ Hd) as [_ K]. cbn [fst snd] in K.
  assert (M : m_parsingMode (fst x) = m_parsingMode m).
  { destruct q; cbn [executes] in Ex; [|destruct Ex as (Ex & _ & _)|destruct Ex as (Ex & _)]; eapply passes_mode, Ex. }
  rewrite M in K. apply dead_in_in in H. rewrite H in K. discriminate K. destruct Hm as [<-|[<-|[<-|[]]]]; discriminate.
Qed.

(* a call that returns has passed the end of the program *)
Lemma run_passes m s : forall f l x y, passes m s l x -> run f l x = Ret y -> passes m s LOut y.
Proof.
  induction f as [|f IH]; intros l x y P H; destruct l; cbn [run] in H; try discriminate H; try (injection H as <-; exact P);
  match type of H with bind ?r _ = _ => destruct r as [[l' x']| |] eqn:E end; try discriminate H; cbn [bind] in H;
  (eapply IH; [eapply passes_step; [exact P|exact E]|exact H]).
Qed.
Lemma parse_passes m s m' uo eo : machine_Parse m s = Ret (m', uo, eo) -> exists u, passes m s LOut (m', u).
Proof.
  unfold machine_Parse. intros H. destruct (run _ _ _) as [[m2 u]| |] eqn:E; try discriminate H. cbn [bind] in H.
  exists u. replace m' with m2 by (destruct (_ || _); congruence). eapply run_passes; [apply passes_start|exact E].
Qed.

Definition listed (m : machine) : Prop := In (m_parsingMode m) [PRFC2141Only; PRFC7643Only; PRFC8141Only].
Lemma new_listed mode : In mode [PRFC2141Only; PRFC7643Only; PRFC8141Only] -> reachable (NewMachine [mode]) /\ listed (NewMachine [mode]).
Proof. intros H. split; [apply reach_new|]. destruct H as [<-|[<-|[<-|[]]]]; vm_compute; auto. Qed.
Lemma state_iff k :
  (exists m s x, reachable m /\ listed m /\ passes m s LResume x /\ m_cs (fst x) = k) <-> (1 <= k <= 193)%N /\ k <> 134%N /\ k <> 171%N.
Proof.
  split.
  - intros (m & s & x & R & _ & P & <-). destruct (passes_inv m s R _ _ P) as [_ [H _]]. pose proof (cfg_lt _ H) as L.
    destruct (cfg_alive_at _ H) as [H0 Hn]. cbn [a_cs abs_of] in *. repeat split; try lia; intros E; apply Hn; rewrite E; cbn; auto.
  - intros (Hk & H1 & H2). assert (Hn : ~ In k never_met) by (intros [G|[G|[]]]; congruence).
    destruct (states_met k Hk Hn _ (or_introl eq_refl)) as (mode & s & Hm & x & P & E). destruct (new_listed mode Hm).
    exists (NewMachine [mode]), s, x. auto.
Qed.
Lemma end_iff k : k <> 0%N ->
  (exists m s x, reachable m /\ listed m /\ passes m s LTestEof x /\ m_cs (fst x) = k) <-> (1 <= k <= 193)%N /\ k <> 134%N /\ k <> 171%N.
Proof.
  intros K0. split.
  - intros (m & s & x & R & _ & P & <-). destruct (passes_inv m s R _ _ P) as [_ [_ [H|H]]]; [contradiction|]. pose proof (cfg_lt _ H) as L.
    destruct (cfg_alive_at _ H) as [H0 Hn]. cbn [a_cs abs_of] in *. repeat split; try lia; intros E; apply Hn; rewrite E; cbn; auto.
  - intros (Hk & H1 & H2). assert (Hn : ~ In k never_met) by (intros [G|[G|[]]]; congruence).
    destruct (states_met k Hk Hn _ (or_intror eq_refl)) as (mode & s & Hm & x & P & _ & E). destruct (new_listed mode Hm).
    exists (NewMachine [mode]), s, x. auto.
Qed.
Lemma label_all n : tr_block n <> None -> exists m s x, reachable m /\ listed m /\ passes m s (LTr n) x.
Proof.
  intros H. destruct (labels_met n H) as (mode & s & Hm & x & P). destruct (new_listed mode Hm).
  exists (NewMachine [mode]), s, x. auto.
Qed.
Lemma block_all q b : block_of q = Some b -> exists m s x, reachable m /\ listed m /\ executes m s q x.
Proof.
  intros H. destruct (blocks_met q b H) as (mode & s & Hm & x & P). destruct (new_listed mode Hm).
  exists (NewMachine [mode]), s, x. auto.
Qed.
Lemma branch_iff q b p v : block_of q = Some b -> In p (ifs 0 b) ->
  ((exists m s, reachable m /\ listed m /\ takes m s q p v) <-> ~ In (q, p, v) never /\ ~ In (q, p, v) never_listed).
Proof.
  intros B Hp. split.
  - intros (m & s & R & L & T). split; intros H; revert T; [apply branches_never|apply branches_never_listed]; assumption.
  - intros [H1 H2]. destruct (branches_met q b p v B Hp H1 H2) as (mode & s & Hm & T). destruct (new_listed mode Hm).
    exists (NewMachine [mode]), s. auto.
Qed.
Lemma branch_any_iff q b p v : block_of q = Some b -> In p (ifs 0 b) ->
  ((exists m s, reachable m /\ takes m s q p v) <-> ~ In (q, p, v) never).
Proof.
  intros B Hp. split.
  - intros (m & s & R & T) H. revert T. apply branches_never; assumption.
  - intros H1. destruct (dead_in never_listed q p v) eqn:D.
    + apply dead_in_in in D. destruct (other_met _ _ _ D) as (modes & s & T). exists (NewMachine modes), s. split; [apply reach_new|exact T].
    + assert (H2 : ~ In (q, p, v) never_listed) by (intros H; apply dead_in_in in H; congruence).
      destruct (proj2 (branch_iff q b p v B Hp) (conj H1 H2)) as (m & s & R & _ & T). eauto.
Qed.

(* an if statement that is evaluated is at a place of the block *)
Definition placed (s : stmt) : Prop := forall x d, In d (decided s x) -> In (fst d) (ifs_in s).
Lemma decisions_placed b (F : Forall placed b) : forall i x d, In d (decisions i b x) -> In (fst d) (ifs i b).
Proof.
  induction F as [|s b Hs F IH]; intros i x d H; [destruct H|]. cbn [decisions] in H. cbn [ifs]. apply in_or_app.
  apply in_app_or in H as [H|H].
  - left. apply in_map_iff in H as (d' & <- & H). apply (in_map (cons i)). exact (Hs x d' H).
  - right. destruct (exec_stmt s x) as [[y [|]]| |]; try destruct H. eapply IH, H.
Qed.
Definition ifs_under : nat -> nat -> list stmt -> list (list nat) :=
  fix go (i : nat) (k : nat) (l : list stmt) : list (list nat) :=
    match l with [] => [] | s' :: l' => map (fun p => k :: i :: p) (ifs_in s') ++ go (S i) k l' end.
Lemma ifs_under_eq k : forall l i, ifs_under i k l = map (cons k) (ifs i l).
Proof. induction l as [|s l IH]; intros i; [reflexivity|]. cbn [ifs_under ifs]. rewrite map_app, map_map. f_equal. apply IH. Qed.
Lemma if_placed c t e : Forall placed t -> Forall placed e -> placed (SIf c t e).
Proof.
  intros Ft Fe x d H. cbn [decided] in H. destruct (eval_cond c x) as [v| |]; [|destruct H|destruct H].
  destruct H as [<-|H]; [left; reflexivity|].
  change (In d (dec_in v 0 (if v then t else e) x)) in H. rewrite dec_in_eq in H. apply in_map_iff in H as (d' & <- & H).
  change (In ((if v then 1%nat else 0%nat) :: fst d') ([] :: (ifs_under 0 1 t ++ ifs_under 0 0 e))). right.
  rewrite !ifs_under_eq. apply in_or_app. destruct v; [left|right]; apply (in_map (cons _)); (eapply decisions_placed; [|exact H]; assumption).
Qed.
Fixpoint stmt_placed (s : stmt) : placed s.
Proof.
  destruct s; try (intros x d0 []).
  apply if_placed; [induction t as [|a l IH]|induction e as [|a l IH]]; constructor; first [apply stmt_placed|exact IH].
Qed.
Lemma takes_if m s q p v : takes m s q p v -> exists b, block_of q = Some b /\ In p (ifs 0 b).
Proof.
  intros (b & x & B & _ & H). exists b. split; [exact B|].
  refine (decisions_placed b _ 0%nat x (p, v) H). apply Forall_forall. intros s' _. apply stmt_placed.
Qed.
