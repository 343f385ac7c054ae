(* Proofs for C58: NewMachine with any options. *)
From Coq Require Import Lia.
From Verif Require Import GoBase MachineSyntax MachineTables Machine Urn Spec ParseThm Api PropsA PropsB OptFn.
Local Open Scope Z_scope.

(* the modes given, and the error of the last Parse, in a list of calls *)
Definition modes_in (t : list event) : list Z := flat_map (fun e => match e with EvMode x => [x] | _ => [] end) t.
Definition last_err (t : list event) : option perr :=
  fold_left (fun o e => match e with EvParse _ _ eo => eo | _ => o end) t None.
Definition after (xs : list Z) : machine := fold_left (fun m o => machine_WithParsingMode o m) xs zero_machine.

Definition inv (a : list event) (m : machine) : Prop :=
  reachable m /\ same_mode (after (modes_in a)) m /\ m_err m = last_err a.
Lemma inv_nil : inv [] zero_machine.
Proof. split; [constructor|]. split; [repeat split|reflexivity]. Qed.
Lemma modes_app a b : modes_in (a ++ b) = modes_in a ++ modes_in b.
Proof. apply flat_map_app. Qed.
Lemma same_trans a b c : same_mode a b -> same_mode b c -> same_mode a c.
Proof. intros (A1 & A2 & A3) (B1 & B2 & B3). repeat split; congruence. Qed.
Lemma inv_parse a m s m' uo eo : inv a m -> machine_Parse m s = Ret (m', uo, eo) -> inv (a ++ [EvParse s uo eo]) m'.
Proof.
  intros (R & S & E) P. destruct (parse_reach_inv _ _ _ _ _ R P) as (_ & K1 & K2 & _). split; [eapply reach_parse; eassumption|].
  rewrite modes_app, app_nil_r. split; [eapply same_trans; eassumption|]. unfold last_err. rewrite fold_left_app. exact K2.
Qed.
Lemma inv_mode a m x : inv a m -> inv (a ++ [EvMode x]) (machine_WithParsingMode x m).
Proof.
  intros (R & S & E). split; [constructor; exact R|]. rewrite modes_app. unfold after. rewrite fold_left_app. cbn [modes_in flat_map app fold_left].
  split.
  - destruct S as (S1 & S2 & S3). unfold same_mode, machine_WithParsingMode. cbn. fold (after (modes_in a)). rewrite S1. auto.
  - unfold last_err. rewrite fold_left_app. exact E.
Qed.
Lemma inv_error a m : inv a m -> inv (a ++ [EvError (machine_Error m)]) m.
Proof.
  intros (R & S & E). split; [exact R|]. rewrite modes_app, app_nil_r. split; [exact S|]. unfold last_err. rewrite fold_left_app. exact E.
Qed.

(* what a call inside of an option is answered after the calls a *)
Definition answered (a : list event) (e : event) : Prop :=
  match e with
  | EvParse s uo eo =>
      match modes_in a with
      | [] => uo = None /\ eo = None
      | xs => exists m', machine_Parse (NewMachine xs) s = Ret (m', uo, eo)
      end
  | EvMode _ => True
  | EvError eo => eo = last_err a
  end.
Definition all_answered (a t : list event) : Prop := forall t1 e t2, t = t1 ++ e :: t2 -> answered (a ++ t1) e.
Lemma all_nil a : all_answered a [].
Proof. intros t1 e t2 H. destruct t1; discriminate H. Qed.
Lemma all_cons a e t : answered a e -> all_answered (a ++ [e]) t -> all_answered a (e :: t).
Proof.
  intros H1 H2 t1 e' t2 H. destruct t1 as [|e1 t1]; injection H as -> H.
  - rewrite app_nil_r. exact H1.
  - rewrite (app_assoc a [e1] t1 : a ++ e1 :: t1 = _). eapply H2, H.
Qed.
Lemma all_app a t t' : all_answered a t -> all_answered (a ++ t) t' -> all_answered a (t ++ t').
Proof.
  revert a. induction t as [|e t IH]; intros a H1 H2; [rewrite app_nil_r in H2; exact H2|]. cbn [app]. apply all_cons.
  - specialize (H1 [] e t eq_refl). rewrite app_nil_r in H1. exact H1.
  - apply IH; [|rewrite <- app_assoc; exact H2]. intros t1 e' t2 E. rewrite <- app_assoc. apply (H1 (e :: t1) e' t2). rewrite E. reflexivity.
Qed.

Lemma after_set x l : m_parsingModeSet (after (x :: l)) = true.
Proof.
  unfold after. cbn [fold_left].
  assert (H : forall l m, m_parsingModeSet m = true -> m_parsingModeSet (fold_left (fun m o => machine_WithParsingMode o m) l m) = true).
  { clear. induction l as [|y l IH]; intros m H; [exact H|]. apply IH. reflexivity. }
  apply H. reflexivity.
Qed.
Lemma after_new xs : xs <> [] -> NewMachine xs = after xs.
Proof. destruct xs as [|x l]; [contradiction|]. intros _. unfold NewMachine. fold (after (x :: l)). cbv zeta. rewrite after_set. reflexivity. Qed.
Lemma inv_answer a m s m' uo eo : inv a m -> machine_Parse m s = Ret (m', uo, eo) -> answered a (EvParse s uo eo).
Proof.
  intros (R & S & E) P. cbn [answered]. rewrite (parse_init_eq _ _ s S) in P. destruct (modes_in a) as [|x l].
  - destruct (zero_nil s) as [m2 Z]. change (after []) with zero_machine in P. rewrite Z in P. injection P as _ <- <-. auto.
  - exists m'. rewrite after_new by discriminate. exact P.
Qed.

Lemma client_runs c : forall a m t r, inv a m -> run_client c m = (t, r) ->
  all_answered a t /\ match r with Ret m' => inv (a ++ t) m' | Panic => True | OutOfFuel => False end.
Proof.
  induction c as [| |s k IH|x c IH|k IH]; intros a m t r I H; cbn [run_client] in H.
  - injection H as <- <-. split; [apply all_nil|rewrite app_nil_r; exact I].
  - injection H as <- <-. split; [apply all_nil|exact Logic.I].
  - destruct (parse_reach m s (proj1 I)) as (m' & uo & eo & P & _). rewrite P in H.
    destruct (run_client (k uo eo) m') as [t' r'] eqn:E. injection H as <- <-.
    destruct (IH uo eo _ _ _ _ (inv_parse _ _ _ _ _ _ I P) E) as [H1 H2]. split.
    + apply all_cons; [eapply inv_answer; eassumption|exact H1].
    + destruct r'; [rewrite <- app_assoc in H2|exact H2|exact H2]. exact H2.
  - destruct (run_client c (machine_WithParsingMode x m)) as [t' r'] eqn:E. injection H as <- <-.
    destruct (IH _ _ _ _ (inv_mode _ _ x I) E) as [H1 H2]. split.
    + apply all_cons; [exact Logic.I|exact H1].
    + destruct r'; [rewrite <- app_assoc in H2|exact H2|exact H2]. exact H2.
  - destruct (run_client (k (machine_Error m)) m) as [t' r'] eqn:E. injection H as <- <-.
    destruct (IH _ _ _ _ _ (inv_error _ _ I) E) as [H1 H2]. split.
    + apply all_cons; [exact (proj2 (proj2 I))|exact H1].
    + destruct r'; [rewrite <- app_assoc in H2|exact H2|exact H2]. exact H2.
Qed.
Lemma options_run l : forall a m t r, inv a m -> run_options l m = (t, r) ->
  all_answered a t /\ match r with Ret m' => inv (a ++ t) m' | Panic => True | OutOfFuel => False end.
Proof.
  induction l as [|[c|] l IH]; intros a m t r I H; cbn [run_options] in H.
  - injection H as <- <-. split; [apply all_nil|rewrite app_nil_r; exact I].
  - destruct (run_client c m) as [t1 r1] eqn:E. destruct (client_runs c _ _ _ _ I E) as [H1 H2]. destruct r1 as [m1| |].
    + destruct (run_options l m1) as [t2 r2] eqn:E2. injection H as <- <-. destruct (IH _ _ _ _ H2 E2) as [H3 H4]. split.
      * apply all_app; assumption.
      * destruct r2; [rewrite <- app_assoc in H4|exact H4|exact H4]. exact H4.
    + injection H as <- <-. auto.
    + destruct H2.
  - injection H as <- <-. split; [apply all_nil|exact Logic.I].
Qed.

Lemma new_behaves l t m : NewMachine_with l = (t, Ret m) ->
  reachable m /\ same_mode (NewMachine (modes_in t)) m /\ machine_Error m = last_err t.
Proof.
  unfold NewMachine_with. destruct (run_options l zero_machine) as [t' r] eqn:E. intros H. injection H as -> H.
  destruct (options_run l [] _ _ _ inv_nil E) as [_ K]. destruct r as [m1| |]; try discriminate H. cbn [bind] in H. injection H as <-.
  cbn [app] in K. destruct K as (R & S & L). pose proof S as (S1 & S2 & S3). destruct (modes_in t) as [|x xs] eqn:M.
  - replace (m_parsingModeSet m1) with false by (rewrite S3; reflexivity). split; [constructor; exact R|]. split; [repeat split|exact L].
  - rewrite S3, after_set, after_new by discriminate. auto.
Qed.
Lemma new_calls l t r : NewMachine_with l = (t, r) -> forall t1 e t2, t = t1 ++ e :: t2 -> answered t1 e.
Proof.
  unfold NewMachine_with. destruct (run_options l zero_machine) as [t' r'] eqn:E. intros H. injection H as -> _.
  exact (proj1 (options_run l [] _ _ _ inv_nil E)).
Qed.

(* an option that calls panic for some answers *)
Inductive may_panic : client -> Prop :=
| mp_here : may_panic KPanic
| mp_parse s k uo eo : may_panic (k uo eo) -> may_panic (KParse s k)
| mp_mode x k : may_panic k -> may_panic (KMode x k)
| mp_error k eo : may_panic (k eo) -> may_panic (KError k).
Lemma client_panics c : forall m t r, reachable m -> run_client c m = (t, r) ->
  (r = Panic /\ may_panic c) \/ (exists m', r = Ret m' /\ reachable m').
Proof.
  induction c as [| |s k IH|x c IH|k IH]; intros m t r R H; cbn [run_client] in H.
  - injection H as _ <-. eauto.
  - injection H as _ <-. left. split; [reflexivity|constructor].
  - destruct (parse_reach m s R) as (m' & uo & eo & P & _). rewrite P in H.
    destruct (run_client (k uo eo) m') as [t' r'] eqn:E. injection H as _ <-.
    destruct (IH uo eo _ _ _ (reach_parse _ _ _ _ _ R P) E) as [[-> H]|H]; [left; split; [reflexivity|econstructor; exact H]|right; exact H].
  - destruct (run_client c (machine_WithParsingMode x m)) as [t' r'] eqn:E. injection H as _ <-.
    destruct (IH _ _ _ (reach_mode _ x R) E) as [[-> H]|H]; [left; split; [reflexivity|constructor; exact H]|right; exact H].
  - destruct (run_client (k (machine_Error m)) m) as [t' r'] eqn:E. injection H as _ <-.
    destruct (IH _ _ _ _ R E) as [[-> H]|H]; [left; split; [reflexivity|econstructor; exact H]|right; exact H].
Qed.
Lemma options_panic l : forall m t r, reachable m -> run_options l m = (t, r) ->
  (r = Panic /\ (In None l \/ exists c, In (Some c) l /\ may_panic c)) \/ (exists m', r = Ret m' /\ ~ In None l).
Proof.
  induction l as [|[c|] l IH]; intros m t r R H; cbn [run_options] in H.
  - injection H as _ <-. right. eauto.
  - destruct (run_client c m) as [t1 r1] eqn:E. destruct (client_panics c _ _ _ R E) as [[-> K]|(m1 & -> & R1)].
    + injection H as _ <-. left. split; [reflexivity|]. right. exists c. split; [left; reflexivity|exact K].
    + destruct (run_options l m1) as [t2 r2] eqn:E2. injection H as _ <-.
      destruct (IH _ _ _ R1 E2) as [[-> [K|(c' & K1 & K2)]]|(m2 & -> & K)].
      * left. split; [reflexivity|left; right; exact K].
      * left. split; [reflexivity|right; exists c'; split; [right; exact K1|exact K2]].
      * right. exists m2. split; [reflexivity|]. intros [G|G]; [discriminate G|contradiction].
  - injection H as _ <-. left. split; [reflexivity|]. left. left. reflexivity.
Qed.
Lemma new_panics l : exists t r, NewMachine_with l = (t, r) /\
  ((r = Panic /\ (In None l \/ exists c, In (Some c) l /\ may_panic c)) \/ (exists m, r = Ret m /\ ~ In None l)).
Proof.
  unfold NewMachine_with. destruct (run_options l zero_machine) as [t r] eqn:E. eexists _, _. split; [reflexivity|].
  destruct (options_panic l _ _ _ reach_zero E) as [[-> K]|(m & -> & K)]; [left; auto|right; eexists; split; [reflexivity|exact K]].
Qed.
Lemma run_modes xs : forall m, run_options (map WithParsingMode xs) m = (map EvMode xs, Ret (fold_left (fun m o => machine_WithParsingMode o m) xs m)).
Proof. induction xs as [|x xs IH]; intros m; [reflexivity|]. cbn [map run_options WithParsingMode run_client]. rewrite IH. reflexivity. Qed.
Lemma new_modes xs : NewMachine_with (map WithParsingMode xs) = (map EvMode xs, Ret (NewMachine xs)).
Proof. unfold NewMachine_with. rewrite run_modes. reflexivity. Qed.
Lemma parse_with u l t m : NewMachine_with l = (t, Ret m) -> Parse_with u l = Parse u (modes_in t).
Proof.
  intros H. pose proof (new_behaves l t m H) as (_ & S & _). unfold Parse_with, Parse. rewrite H. cbn [snd bind].
  rewrite (parse_init_eq _ _ u S). reflexivity.
Qed.

Lemma last_err_cases t :
  (forall t1 s uo eo t2, t = t1 ++ EvParse s uo eo :: t2 -> (forall s' uo' eo', ~ In (EvParse s' uo' eo') t2) -> last_err t = eo) /\
  ((forall s uo eo, ~ In (EvParse s uo eo) t) -> last_err t = None).
Proof.
  assert (K : forall t o, (forall s uo eo, ~ In (EvParse s uo eo) t) ->
    fold_left (fun o e => match e with EvParse _ _ eo => eo | _ => o end) t o = o).
  { clear t. induction t as [|e t IH]; intros o H; [reflexivity|]. cbn [fold_left].
    destruct e as [s uo eo|x|eo]; [exfalso; eapply H; left; reflexivity| |]; (apply IH; intros s' uo' eo' G; eapply H; right; exact G). }
  split; [|apply K]. intros t1 s uo eo t2 -> H. unfold last_err. rewrite fold_left_app. cbn [fold_left]. apply K, H.
Qed.
Lemma new_error_last l t m : NewMachine_with l = (t, Ret m) ->
  (forall t1 s uo eo t2, t = t1 ++ EvParse s uo eo :: t2 -> (forall s' uo' eo', ~ In (EvParse s' uo' eo') t2) -> machine_Error m = eo) /\
  ((forall s uo eo, ~ In (EvParse s uo eo) t) -> machine_Error m = None).
Proof. intros H. destruct (new_behaves l t m H) as (_ & _ & ->). apply last_err_cases. Qed.
Lemma new_inside l t r : NewMachine_with l = (t, r) -> forall t1 e t2, t = t1 ++ e :: t2 ->
  let modes := modes_in t1 in
  match e with
  | EvParse s uo eo => (modes = [] -> uo = None /\ eo = None) /\
                       (modes <> [] -> exists m', machine_Parse (NewMachine modes) s = Ret (m', uo, eo))
  | EvMode _ => True
  | EvError eo =>
      (forall t1' s uo eo' t2', t1 = t1' ++ EvParse s uo eo' :: t2' -> (forall s' uo' eo', ~ In (EvParse s' uo' eo') t2') -> eo = eo') /\
      ((forall s uo eo, ~ In (EvParse s uo eo) t1) -> eo = None)
  end.
Proof.
  intros H t1 e t2 E. pose proof (new_calls l t r H t1 e t2 E) as A. cbv zeta. destruct e as [s uo eo|x|eo]; cbn [answered] in A.
  - destruct (modes_in t1); split; try contradiction; try discriminate; auto.
  - exact Logic.I.
  - subst eo. apply last_err_cases.
Qed.
