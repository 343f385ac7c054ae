(* C49: answers and effects of the calls in terms of values; C54: histories of a machine. *)
From Coq Require Import Lia.
From Verif Require Import GoBase MachineSyntax MachineTables Machine Urn Json Heap ParseThm Api PropsA Spec SpecHeap PropsHeap.
Local Open Scope Z_scope.
Local Open Scope list_scope.

Lemma at_view h a c : nth_error (h_urns h) a = Some c -> urn_at h a = Some (view h c).
Proof. intros E. unfold urn_at. rewrite E. reflexivity. Qed.

Ltac theu := eexists _, _; split; [reflexivity|]; split; [apply at_view; eassumption|]; try reflexivity.
Theorem answers uni newer o h h' x : exec uni newer o h = Ret (h', x) -> answer uni newer h o x.
Proof.
  intros H. destruct o; cbn [answer]; try exact I; cbn [exec] in H;
    try (onret H; injection H as _ <-; first [theu|eauto; fail]).
  - destruct q as [q|]; [|injection H as _ <-; auto]. right. onret H. onret H. injection H as _ <-. theu. theu.
  - eexists. split; [reflexivity|]. unfold URN_SCIM. cbn [view u_kind u_scim uset_scim].
    change (u_kind (view h x0)) with (u_kind (c_urn x0)). destruct (negb _); reflexivity.
  - onret H. onret H. injection H as _ <-. eexists. split; [exact E|]. theu.
  - onret H. onret H. injection H as _ <-. eexists. split; [exact E|]. theu.
Qed.

Lemma none_new {A} (l : list A) : nth_error l (List.length l) = None.
Proof. apply nth_error_None. lia. Qed.

Theorem effects uni newer o h h' x : exec uni newer o h = Ret (h', x) -> effect h o h' x.
Proof.
  intros H. destruct o; cbn [effect]; try exact I; cbn [exec] in H.
  - injection H as <- <-. eexists. split; [reflexivity|]. split; [apply none_new|apply nth_app_new].
  - onret H. injection H as <- <-. eexists _, _. split; [reflexivity|]. split; [exact E|]. apply update_same. eapply nth_held; eauto.
  - destruct (new_urn _ _) as [h1 p] eqn:En. injection H as <- <-. cbn in En. injection En as <- <-.
    eexists. split; [reflexivity|]. split; [apply none_new|]. split.
    + unfold urn_at. cbn [h_urns]. rewrite nth_app_new. reflexivity.
    + cbn [h_urns]. intros c t. rewrite nth_app_new. intros K. injection K as <-. discriminate.
  - onret H. injection H as <- <-. eexists _, _. split; [reflexivity|]. split; [apply at_view; exact E|].
    unfold urn_at, put_urn. cbn [h_urns]. rewrite update_same by (eapply nth_held; eauto). reflexivity.
  - onret H. injection H as <- <-. eexists _, _. split; [reflexivity|]. split; [apply at_view; exact E|].
    unfold urn_at, put_urn. cbn [h_urns]. rewrite update_same by (eapply nth_held; eauto). reflexivity.
  - onret H. onret H. injection H as <- <-. eexists _, _. split; [reflexivity|]. split; [reflexivity|]. rewrite (at_view _ _ _ E0).
    split; [|discriminate]. unfold urn_at, put_urn. cbn [h_urns]. rewrite update_same by (eapply nth_held; eauto). reflexivity.
  - injection H as <- <-. eexists. split; [reflexivity|]. split; [apply none_new|apply nth_app_new].
  - onret H. injection H as <- <-. eexists _, _. split; [reflexivity|]. split; [exact E|]. apply update_same. eapply nth_held; eauto.
  - onret H. onret H. injection H as <- <-. eexists _, _. split; [reflexivity|]. split; [reflexivity|]. rewrite E0.
    split; [|discriminate]. apply update_same. eapply nth_held; eauto.
  - injection H as <- <-. eexists. split; [reflexivity|]. split; [apply none_new|apply nth_app_new].
  - onret H. injection H as <- <-. eexists. split; [reflexivity|]. apply update_same. eapply nth_held; eauto.
Qed.

Theorem Parses_answer uni newer s l h : exists u ok h' p, Parse s l = Ret (s, u, ok) /\ exec uni newer (Parses s l) h = Ret (h', AURN p ok) /\
  match u with None => p = None /\ h' = h | Some u => exists q, p = Some q /\ fresh_urn h h' q u end.
Proof.
  assert (K : exists u ok, Parse s l = Ret (s, u, ok)).
  { unfold Parse. destruct (parse_reach (NewMachine l) s (reach_new l)) as (m' & uo & eo & Hp & Hd & _). rewrite Hp. cbn [bind]. rewrite Hd.
    destruct eo; eauto. }
  destruct K as (u & ok & K). cbn [exec]. rewrite K. cbn [bind]. destruct (new_urn h u) as [h1 p] eqn:En.
  exists u, ok, h1, p. split; [reflexivity|]. split; [reflexivity|]. destruct u as [u|].
  - destruct p as [p|]; [|unfold new_urn in En; destruct (new_cell h u); discriminate En]. exists p. split; [reflexivity|].
    destruct (new_urn_fresh _ _ _ _ _ En eq_refl) as (u' & Eu & F). injection Eu as <-. exact F.
  - cbn in En. injection En as <- <-. auto.
Qed.

(* ---- histories ---------------------------------------------------------------------------------------------- *)
Lemma runs_app uni newer may h1 h2 h3 : runs uni newer may h1 h2 -> runs uni newer may h2 h3 -> runs uni newer may h1 h3.
Proof. induction 1; intros K; [exact K|]. econstructor; eauto. Qed.
Lemma history_runs uni newer h h' l : history uni newer h h' l -> runs uni newer any h h'.
Proof.
  induction 1 as [|h1 l o h2 x _ IH V E]; [apply runs_none|]. eapply runs_app; [exact IH|].
  eapply runs_more; [exact V|exact I|exact E|apply runs_none].
Qed.
Lemma ptr_eqb_eq p q : ptr_eqb p q = true <-> p = q.
Proof.
  destruct p as [a|], q as [b|]; cbn; try (split; congruence). rewrite Nat.eqb_eq. split; [congruence|intros K; injection K; auto].
Qed.
Lemma ptr_eqb_neq p q : p <> q -> ptr_eqb p q = false.
Proof. intros H. destruct (ptr_eqb p q) eqn:E; [apply ptr_eqb_eq in E; contradiction|reflexivity]. Qed.
Lemma ptr_eqb_refl p : ptr_eqb p p = true.
Proof. apply ptr_eqb_eq. reflexivity. Qed.

Lemma set_fold l m : m_parsingModeSet m = true -> m_parsingModeSet (fold_left (fun m o => machine_WithParsingMode o m) l m) = true.
Proof. revert m. induction l as [|x l IH]; intros m H; cbn [fold_left]; [exact H|]. apply IH. reflexivity. Qed.
Lemma new_snoc l x : l <> [] -> same_mode (machine_WithParsingMode x (NewMachine l)) (NewMachine (l ++ [x])).
Proof.
  intros N. unfold NewMachine. rewrite fold_left_app. cbn [fold_left]. cbn [m_parsingModeSet machine_WithParsingMode].
  destruct l as [|y l]; [contradiction|]. cbn [fold_left]. rewrite set_fold by reflexivity. repeat split; reflexivity.
Qed.
Lemma same_refl m : same_mode m m.
Proof. repeat split. Qed.
Lemma same_trans a b c : same_mode a b -> same_mode b c -> same_mode a c.
Proof. intros (H1 & H2 & H3) (K1 & K2 & K3). repeat split; congruence. Qed.
Lemma same_set x a b : same_mode a b -> same_mode (machine_WithParsingMode x a) (machine_WithParsingMode x b).
Proof. intros (H1 & H2 & H3). unfold same_mode, machine_WithParsingMode. cbn. rewrite H1. auto. Qed.

(* the machines after one call *)
Definition says (l : list (op * out)) (a : nat) (m : machine) : Prop :=
  m_err m = last_error (Some a) l /\ modes (Some a) l <> [] /\ same_mode (NewMachine (modes (Some a) l)) m.

Lemma machines_kept uni newer o h h' x : exec uni newer o h = Ret (h', x) -> writes_machine o = None ->
  (forall l, o <> NewMachines l) -> List.length (h_machines h') = List.length (h_machines h).
Proof.
  intros H Wr N. destruct o; cbn [writes_machine] in Wr; try discriminate Wr; cbn [exec] in H;
    try (subst; discriminate H); try (exfalso; eapply N; reflexivity);
    try (onret H; injection H as <- _; reflexivity).
  - destruct (Parse s options) as [[[? u] ok]| |]; cbn [bind] in H; try discriminate H. destruct (new_urn h u) as [h1 p] eqn:En.
    injection H as <- _. apply new_urn_grown in En. destruct En as (_ & _ & _ & -> & _). reflexivity.
  - destruct q; [|injection H as <- _; reflexivity]. onret H. onret H. injection H as <- _. reflexivity.
  - destruct (json_Unmarshal b) as [w|]; [|injection H as <- _; reflexivity].
    destruct (Parse w []) as [[[? u] ok]| |]; cbn [bind] in H; try discriminate H. destruct (negb ok); [injection H as <- _; reflexivity|].
    destruct u as [u|]; [|discriminate H]. onret H. unfold new_cell in H. destruct (u_scim u); injection H as <- _; reflexivity.
  - destruct (json_Unmarshal b) as [w|]; [|injection H as <- _; reflexivity].
    destruct (Parse w _) as [[[? u] ok]| |]; cbn [bind] in H; try discriminate H. destruct (negb ok); [injection H as <- _; reflexivity|].
    destruct u as [u|]; [|discriminate H]. destruct (negb _); [injection H as <- _; reflexivity|].
    destruct (URN_SCIM u); [|discriminate H]. onret H. injection H as <- _. reflexivity.
  - onret H. onret H. injection H as <- _. reflexivity.
  - onret H. onret H. injection H as <- _. reflexivity.
  - destruct (json_Unmarshal b) as [w|]; [|injection H as <- _; reflexivity].
    destruct (Parse w _) as [[[? u] ok]| |]; cbn [bind] in H; try discriminate H. destruct (negb ok); [injection H as <- _; reflexivity|].
    onret H. destruct (new_urn h u) as [h1 p] eqn:En. injection H as <- _. apply new_urn_grown in En. destruct En as (_ & _ & _ & En & _).
    cbn [put_8141 h_machines]. rewrite En. reflexivity.
  - destruct (new_urn h _) as [h1 p] eqn:En. injection H as <- _. apply new_urn_grown in En. destruct En as (_ & _ & _ & -> & _). reflexivity.
  - onret H. onret H. injection H as <- _. reflexivity.
  - injection H as <- _. reflexivity.
  - onret H. onret H. injection H as <- _. reflexivity.
  - injection H as <- _. reflexivity.
Qed.

Lemma says_step uni newer o h h' x l : wf h -> valid o h -> exec uni newer o h = Ret (h', x) ->
  (forall a m, nth_error (h_machines h) a = Some m -> says l a m) ->
  forall a m, nth_error (h_machines h') a = Some m -> says ((o, x) :: l) a m.
Proof.
  intros W V H IH a m Hm.
  assert (K : writes_machine o = None -> (forall l, o <> NewMachines l) -> nth_error (h_machines h) a = Some m).
  { intros Wr N. assert (L := machines_kept _ _ _ _ _ _ H Wr N). destruct (nth_error (h_machines h) a) as [k|] eqn:E.
    - destruct (step_keeps _ _ _ _ _ _ H) as (_ & _ & _ & [_ Hk]). rewrite (Hk _ _ E) in Hm by congruence. exact Hm.
    - apply nth_error_None in E. apply nth_held in Hm. lia. }
  destruct o; try (specialize (K eq_refl ltac:(discriminate)); specialize (IH _ _ K); unfold says in *; cbn [last_error modes]; exact IH).
  - (* NewMachines *) cbn [exec] in H. injection H as <- <-. cbn [h_machines] in Hm. destruct (Nat.eq_dec a (List.length (h_machines h))) as [->|D].
    + rewrite nth_app_new in Hm. injection Hm as <-. unfold says. cbn [last_error modes]. rewrite ptr_eqb_refl. split; [apply new_error|].
      destruct options as [|y options]; [split; [discriminate|repeat split]|]. split; [discriminate|apply same_refl].
    + assert (L := nth_held _ _ _ Hm). rewrite app_length in L. cbn in L. rewrite nth_app_old in Hm by lia. specialize (IH _ _ Hm).
      unfold says in *. cbn [last_error modes]. rewrite ptr_eqb_neq by congruence. exact IH.
  - (* MParses *) cbn [exec] in H. onret H. destruct (machine_Parse x0 s) as [[[m' uo] eo]| |] eqn:Hp; cbn [bind] in H; try discriminate H.
    destruct (new_urn (put_machine h a0 m') uo) as [h1 p] eqn:En. injection H as <- <-. apply new_urn_grown in En. destruct En as (_ & _ & _ & En & _).
    rewrite En in Hm. cbn [put_machine h_machines] in Hm. unfold says in *. cbn [last_error modes]. destruct (Nat.eq_dec a a0) as [->|D].
    + rewrite update_same in Hm by (eapply nth_held; eauto). injection Hm as <-. rewrite ptr_eqb_refl. specialize (IH _ _ E).
      destruct W as (_ & _ & Wm). assert (R := nth_Forall _ _ _ _ Wm E). destruct (parse_reach_inv _ _ _ _ _ R Hp) as (_ & Sm & Er & _).
      split; [exact Er|]. split; [exact (proj1 (proj2 IH))|]. eapply same_trans; [exact (proj2 (proj2 IH))|exact Sm].
    + rewrite update_other in Hm by exact D. rewrite ptr_eqb_neq by congruence. exact (IH _ _ Hm).
  - (* MModes *) cbn [exec] in H. onret H. injection H as <- <-. cbn [put_machine h_machines] in Hm. unfold says in *. cbn [last_error modes].
    destruct (Nat.eq_dec a a0) as [->|D].
    + rewrite update_same in Hm by (eapply nth_held; eauto). injection Hm as <-. rewrite ptr_eqb_refl. specialize (IH _ _ E).
      destruct IH as (Er & N & S). split; [exact Er|]. split; [destruct (modes (Some a0) l); discriminate|].
      assert (T := new_snoc _ x0 N). assert (T2 := same_set x0 _ _ S). destruct T as (T1 & T3 & T4). destruct T2 as (U1 & U2 & U3). repeat split; congruence.
    + rewrite update_other in Hm by exact D. rewrite ptr_eqb_neq by congruence. exact (IH _ _ Hm).
Qed.

Theorem says_all uni newer h l : history uni newer empty_heap h l -> forall a m, nth_error (h_machines h) a = Some m -> says l a m.
Proof.
  induction 1 as [|h1 l o h2 x Hh IH V E].
  - intros a m K. destruct a; discriminate K.
  - eapply says_step; eauto. eapply runs_wf; [eapply history_runs; exact Hh|apply wf_empty].
Qed.

Theorem machine_error uni newer h l a : history uni newer empty_heap h l -> (a < List.length (h_machines h))%nat ->
  exec uni newer (MErrors (Some a)) h = Ret (h, AnError (last_error (Some a) l)).
Proof.
  intros H L. cbn [exec on]. destruct (nth_error (h_machines h) a) as [m|] eqn:E; [|apply nth_error_None in E; lia].
  destruct (says_all _ _ _ _ H _ _ E) as (K & _). unfold machine_Error. rewrite K. reflexivity.
Qed.
Theorem machine_history uni newer h l a s : history uni newer empty_heap h l -> (a < List.length (h_machines h))%nat ->
  exists m' uo eo h' p, machine_Parse (NewMachine (modes (Some a) l)) s = Ret (m', uo, eo) /\
    exec uni newer (MParses (Some a) s) h = Ret (h', AURNerr p eo) /\
    match uo with None => p = None /\ h_urns h' = h_urns h /\ h_scims h' = h_scims h | Some u => exists q, p = Some q /\ fresh_urn h h' q u end.
Proof.
  intros H L. cbn [exec on]. destruct (nth_error (h_machines h) a) as [m|] eqn:E; [|apply nth_error_None in E; lia].
  destruct (says_all _ _ _ _ H _ _ E) as (_ & _ & S).
  destruct (parse_reach (NewMachine (modes (Some a) l)) s (reach_new _)) as (m' & uo & eo & Hp & _).
  assert (Hq : machine_Parse m s = Ret (m', uo, eo)) by (rewrite <- Hp; apply parse_init_eq; exact S).
  rewrite Hq. cbn [bind]. destruct (new_urn (put_machine h a m') uo) as [h1 p] eqn:En. exists m', uo, eo, h1, p.
  split; [exact Hp|]. split; [reflexivity|]. destruct uo as [u|].
  - destruct p as [p|]; [|unfold new_urn in En; destruct (new_cell _ u); discriminate En]. exists p. split; [reflexivity|].
    destruct (new_urn_fresh _ _ _ _ _ En eq_refl) as (u' & Eu & F). injection Eu as <-. eapply fresh_same; [| |exact F]; reflexivity.
  - cbn in En. injection En as <- <-. auto.
Qed.

Lemma program_from uni newer ops : forall h0 h1 l h xs, history uni newer h0 h1 l -> program uni newer ops h1 = Ret (h, xs) ->
  (forall pre o post h2 ys, ops = pre ++ o :: post -> program uni newer pre h1 = Ret (h2, ys) -> valid o h2) ->
  history uni newer h0 h (rev (combine ops xs) ++ l).
Proof.
  induction ops as [|o ops IH]; intros h0 h1 l h xs Hh P V; cbn [program] in P.
  - injection P as <- <-. exact Hh.
  - destruct (exec uni newer o h1) as [[h2 x]| |] eqn:E; cbn [bind] in P; try discriminate P.
    destruct (program uni newer ops h2) as [[h3 ys]| |] eqn:E2; cbn [bind] in P; try discriminate P. injection P as <- <-.
    cbn [combine rev]. rewrite <- app_assoc. apply (IH h0 h2 ([(o, x)] ++ l)); [|exact E2|].
    + eapply history_more; [exact Hh| |exact E]. apply (V [] o ops h1 []); reflexivity.
    + intros pre o2 post h4 zs -> P2. apply (V (o :: pre) o2 post h4 (x :: zs)); [reflexivity|].
      cbn [program]. rewrite E. cbn [bind]. rewrite P2. reflexivity.
Qed.
Theorem program_history uni newer ops h xs : program uni newer ops empty_heap = Ret (h, xs) ->
  (forall pre o post h1 ys, ops = pre ++ o :: post -> program uni newer pre empty_heap = Ret (h1, ys) -> valid o h1) ->
  history uni newer empty_heap h (rev (combine ops xs)).
Proof. intros P V. rewrite <- app_nil_r. eapply program_from; [apply history_none|exact P|exact V]. Qed.
