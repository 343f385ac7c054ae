(* Proofs behind Properties10.v: programs over the heap (C48-C51). *)
From Coq Require Import Lia.
From Verif Require Import GoBase MachineSyntax MachineTables Machine Urn Json Spec Ref Exec SimBase
  ParseThm RefSpec RefSpec8 RefSpec8b Api PropsA PropsB PropsJson Heap SpecHeap.
Local Open Scope Z_scope.
Local Open Scope list_scope.

(* ---- lists ------------------------------------------------------------------------ *)
Lemma update_length {A} n (x : A) l : List.length (update n x l) = List.length l.
Proof. revert n; induction l as [|y l IH]; intros [|n]; cbn; auto. Qed.
Lemma update_other {A} n (x : A) l k : k <> n -> nth_error (update n x l) k = nth_error l k.
Proof.
  revert n k; induction l as [|y l IH]; intros [|n] [|k] H; cbn; auto; try lia; try contradiction H; auto.
Qed.
Lemma update_same {A} n (x : A) l : (n < List.length l)%nat -> nth_error (update n x l) n = Some x.
Proof. revert n; induction l as [|y l IH]; intros [|n] H; cbn in *; try lia; auto. apply IH; lia. Qed.
Lemma update_Forall {A} (P : A -> Prop) n x l : Forall P l -> P x -> Forall P (update n x l).
Proof. intros H Hx. revert n; induction H as [|y l Hy Hl IH]; intros [|n]; cbn; auto. Qed.
Lemma nth_held {A} (l : list A) a x : nth_error l a = Some x -> (a < List.length l)%nat.
Proof. intros H. apply nth_error_Some. rewrite H. discriminate. Qed.
Lemma held_app {A} (l l' : list A) p : held l p -> held (l ++ l') p.
Proof. destruct p; cbn; auto. rewrite app_length. lia. Qed.
Lemma held_len {A B} (l : list A) (l' : list B) p : (List.length l <= List.length l')%nat -> held l p -> held l' p.
Proof. destruct p; cbn; auto. lia. Qed.
Lemma nth_app_old {A} (l l' : list A) k : (k < List.length l)%nat -> nth_error (l ++ l') k = nth_error l k.
Proof. apply nth_error_app1. Qed.
Lemma nth_app_new {A} (l : list A) x : nth_error (l ++ [x]) (List.length l) = Some x.
Proof. rewrite nth_error_app2, Nat.sub_diag; auto. Qed.
Lemma deref_app {A} (l l' : list A) p : held l p -> deref (l ++ l') p = deref l p.
Proof. destruct p; cbn; auto. apply nth_app_old. Qed.

(* ---- on ----------------------------------------------------------------------------- *)
Lemma on_ret {A B} (l : list A) p (k : nat -> A -> res B) r : on l p k = Ret r ->
  exists a x, p = Some a /\ nth_error l a = Some x /\ k a x = Ret r.
Proof.
  destruct p as [a|]; cbn; [|discriminate]. destruct (nth_error l a) as [x|] eqn:E; [|discriminate]. eauto.
Qed.

(* ---- what Parse returns ---------------------------------------------------------------- *)
Lemma ref_kind start mode s v : ref_parse start mode s = OUrn v -> (p_kind v = KRFC7643 <-> p_scim v <> None).
Proof.
  unfold ref_parse. destruct (N.eqb start 1); [|destruct (N.eqb start 44); [|destruct (N.eqb start 83); [|discriminate]]].
  - unfold ref2141. intros H.
    repeat match type of H with context [match ?x with _ => _ end] => destruct x; try discriminate H end.
    injection H as <-. cbn. split; [discriminate|intros K; contradiction K; reflexivity].
  - intros H. pose proof (ref_scim_sound mode s) as K. rewrite H in K. destruct K as (p & t & n & o & _ & ->).
    cbn. split; [discriminate|reflexivity].
  - intros H. pose proof (ref8141_sound mode s) as K. rewrite H in K. destruct K as (p & n & x & r & q & f & _ & _ & ->).
    cbn. split; [discriminate|intros K; contradiction K; reflexivity].
Qed.

Lemma pub_scim u : p_scim (pub_of u) <> None <-> u_scim u <> None.
Proof. unfold pub_of. cbn. destruct (u_scim u); split; congruence. Qed.

Lemma parse_kind m s m' u eo : reachable m -> machine_Parse m s = Ret (m', Some u, eo) ->
  eo = None /\ (u_kind u = KRFC7643 <-> u_scim u <> None).
Proof.
  intros H Hp. destruct (parse_reach_inv _ _ _ _ _ H Hp) as (_ & _ & _ & Ho). apply outcome_eq in Ho.
  destruct eo; [contradiction|]. split; auto. rewrite <- pub_scim. change (u_kind u) with (p_kind (pub_of u)).
  eapply ref_kind; eauto.
Qed.

Lemma Parse_parsed s l x u ok : Parse s l = Ret (x, Some u, ok) -> exists mode, parsed mode s u.
Proof.
  unfold Parse. pose proof (reach_new l) as H. destruct (machine_Parse (NewMachine l) s) as [[[m' uo] eo]| |] eqn:Hp; cbn [bind]; try discriminate.
  intros K. exists (m_parsingMode (NewMachine l)), (NewMachine l), m'. split; auto. split; auto.
  destruct eo; [discriminate K|]. injection K as _ -> _. exact Hp.
Qed.
Lemma parsed_kind mode s u : parsed mode s u -> (u_kind u = KRFC7643 <-> u_scim u <> None).
Proof. intros (m & m' & H & _ & Hp). eapply parse_kind; eauto. Qed.

(* ---- fresh objects ----------------------------------------------------------------------- *)
Definition grown (h h' : heap) : Prop :=
  (exists l, h_urns h' = h_urns h ++ l) /\ (exists l, h_scims h' = h_scims h ++ l) /\
  (exists l, h_8141s h' = h_8141s h ++ l) /\ (exists l, h_machines h' = h_machines h ++ l).

Lemma uset_scim_eta u : uset_scim (u_scim u) (uset_scim None u) = u.
Proof. destruct u; reflexivity. Qed.

Definition wfc (h : heap) (c : cell) : Prop :=
  u_scim (c_urn c) = None /\ held (h_scims h) (c_scim c) /\ (u_kind (c_urn c) = KRFC7643 <-> c_scim c <> None).
Definition wf (h : heap) : Prop :=
  Forall (wfc h) (h_urns h) /\ Forall (held (h_urns h)) (h_8141s h) /\ Forall reachable (h_machines h).

Lemma new_cell_spec h u h' c : new_cell h u = (h', c) ->
  h_urns h' = h_urns h /\ h_8141s h' = h_8141s h /\ h_machines h' = h_machines h /\
  (exists l, h_scims h' = h_scims h ++ l) /\ view h' c = u /\ u_kind (c_urn c) = u_kind u /\
  u_scim (c_urn c) = None /\ held (h_scims h') (c_scim c) /\ (c_scim c <> None <-> u_scim u <> None) /\
  (forall t, c_scim c = Some t -> (List.length (h_scims h) <= t)%nat).
Proof.
  unfold new_cell. destruct (u_scim u) as [s|] eqn:E; intros H; injection H as <- <-; cbn [h_urns h_scims h_8141s h_machines c_urn c_scim].
  - repeat split; eauto; try discriminate.
    + unfold view. cbn [h_scims c_scim c_urn deref]. rewrite nth_app_new, <- E. apply uset_scim_eta.
    + cbn. rewrite app_length. cbn. lia.
    + intros t H. injection H as <-. lia.
  - repeat split; eauto; try discriminate; try congruence.
    + exists []. rewrite app_nil_r. reflexivity.
    + unfold view. cbn [deref c_scim c_urn]. rewrite <- E. apply uset_scim_eta.
Qed.

Lemma wfc_grow h h' c : (List.length (h_scims h) <= List.length (h_scims h'))%nat -> wfc h c -> wfc h' c.
Proof. intros H (H1 & H2 & H3). split; auto. split; auto. eapply held_len; eauto. Qed.
Lemma wfcs_grow h h' l : (List.length (h_scims h) <= List.length (h_scims h'))%nat -> Forall (wfc h) l -> Forall (wfc h') l.
Proof. intros H. apply Forall_impl. intros c. apply wfc_grow; auto. Qed.
Lemma helds_grow {A B} (l : list A) (l' : list B) ps : (List.length l <= List.length l')%nat -> Forall (held l) ps -> Forall (held l') ps.
Proof. intros H. apply Forall_impl. intros c. apply held_len; auto. Qed.

Definition kind_ok (u : URN) : Prop := u_kind u = KRFC7643 <-> u_scim u <> None.

Lemma new_cell_wf h u h' c : new_cell h u = (h', c) -> kind_ok u -> wf h -> wf h' /\ wfc h' c.
Proof.
  intros H Hu (W1 & W2 & W3). destruct (new_cell_spec _ _ _ _ H) as (E1 & E2 & E3 & [l El] & Ev & Ek & Es & Hh & Hs & _).
  split.
  - unfold wf. rewrite E1, E2, E3. repeat split; auto. eapply wfcs_grow; [|exact W1]. rewrite El, app_length. lia.
  - split; auto. split; auto. rewrite Ek, Hs. exact Hu.
Qed.

Lemma new_urn_wf h uo h' p : new_urn h uo = (h', p) -> (forall u, uo = Some u -> kind_ok u) -> wf h -> wf h' /\ held (h_urns h') p.
Proof.
  unfold new_urn. destruct uo as [u|]; intros H Hu W.
  - destruct (new_cell h u) as [h1 c] eqn:E. destruct (new_cell_wf _ _ _ _ E (Hu u eq_refl) W) as [(W1 & W2 & W3) Wc].
    injection H as <- <-. cbn [held h_urns]. split; [|rewrite app_length; cbn; lia].
    split; [|split]; cbn [h_urns h_8141s h_machines].
    + apply Forall_app. split; [exact W1|]. repeat constructor; apply Wc.
    + eapply helds_grow; [|exact W2]. rewrite app_length. lia.
    + exact W3.
  - injection H as <- <-. split; auto. exact I.
Qed.

Lemma new_urn_grown h uo h' p : new_urn h uo = (h', p) ->
  (exists l, h_urns h' = h_urns h ++ l) /\ (exists l, h_scims h' = h_scims h ++ l) /\
  h_8141s h' = h_8141s h /\ h_machines h' = h_machines h /\
  match uo with
  | None => p = None /\ h' = h
  | Some u => p = Some (List.length (h_urns h)) /\ exists c, h_urns h' = h_urns h ++ [c] /\ view h' c = u /\
                (forall t, c_scim c = Some t -> (List.length (h_scims h) <= t)%nat)
  end.
Proof.
  unfold new_urn. destruct uo as [u|]; intros H.
  - destruct (new_cell h u) as [h1 c] eqn:E. destruct (new_cell_spec _ _ _ _ E) as (E1 & E2 & E3 & El & Ev & _ & _ & _ & _ & Hf).
    injection H as <- <-. cbn [h_urns h_scims h_8141s h_machines]. rewrite E1. repeat split; eauto.
  - injection H as <- <-. repeat split; auto; exists []; rewrite app_nil_r; reflexivity.
Qed.

(* ---- the invariant ------------------------------------------------------------------------ *)
Lemma kind_ok_parsed s l x u ok : Parse s l = Ret (x, Some u, ok) -> kind_ok u.
Proof. intros H. destruct (Parse_parsed _ _ _ _ _ H) as [mode K]. eapply parsed_kind; eauto. Qed.

Lemma wf_empty : wf empty_heap.
Proof. repeat split; constructor. Qed.

Lemma put_urn_wf h a c : wf h -> wfc h c -> wf (put_urn h a c).
Proof.
  intros (W1 & W2 & W3) Wc. split; [|split]; cbn [h_urns h_8141s h_machines put_urn]; auto.
  - apply update_Forall; auto.
  - eapply helds_grow; [|exact W2]. rewrite update_length. lia.
Qed.
Lemma put_scim_wf h a s : wf h -> wf (put_scim h a s).
Proof.
  intros (W1 & W2 & W3). split; [|split]; cbn [h_urns h_8141s h_machines put_scim]; auto.
  eapply wfcs_grow; [|exact W1]. cbn [h_scims put_scim]. rewrite update_length. lia.
Qed.
Lemma put_8141_wf h a p : wf h -> held (h_urns h) p -> wf (put_8141 h a p).
Proof.
  intros (W1 & W2 & W3) Hp. split; [|split]; cbn [h_urns h_8141s h_machines put_8141]; auto.
  apply update_Forall; auto.
Qed.
Lemma put_machine_wf h a m : wf h -> reachable m -> wf (put_machine h a m).
Proof.
  intros (W1 & W2 & W3) Hp. split; [|split]; cbn [h_urns h_8141s h_machines put_machine]; auto.
  apply update_Forall; auto.
Qed.

Ltac onret H := match type of H with on _ _ _ = _ => 
  let a := fresh "a" in let x := fresh "x" in let E := fresh "E" in
  let Ep := fresh "Ep" in
  apply on_ret in H; destruct H as (a & x & Ep & E & H);
  match type of Ep with Some _ = Some _ => injection Ep as -> | ?p = _ => subst p end end.

Lemma nth_Forall {A} (P : A -> Prop) l a x : Forall P l -> nth_error l a = Some x -> P x.
Proof. intros H E. apply nth_error_In in E. rewrite Forall_forall in H. auto. Qed.

(* the JSON calls: what they do, in terms of the text *)
Lemma exec_Unmarshals uni newer p b h :
  match json_Unmarshal b with
  | None => exec uni newer (Unmarshals p b) h = Ret (h, AJerr (Some JJson))
  | Some w => (exists u, parsed PRFC2141Only w u /\ exec uni newer (Unmarshals p b) h =
                 on (h_urns h) p (fun a _ => let (h, c) := new_cell h u in Ret (put_urn h a c, AJerr None))) \/
              ((forall u, ~ parsed PRFC2141Only w u) /\
                 exec uni newer (Unmarshals p b) h = Ret (h, AJerr (Some (JInvalid "invalid URN: %s" w))))
  end.
Proof.
  cbn [exec]. destruct (json_Unmarshal b) as [w|]; [|reflexivity].
  destruct (Parse_err PRFC2141Only w (or_introl eq_refl) [] eq_refl) as [(u' & H & ->)|[H ->]]; cbn [bind negb]; [left; eauto|right; auto].
Qed.
Lemma exec_SUnmarshals uni newer p b h :
  match json_Unmarshal b with
  | None => exec uni newer (SUnmarshals p b) h = Ret (h, AJerr (Some JJson))
  | Some w => (exists u s, parsed PRFC7643Only w u /\ URN_SCIM u = Some s /\ exec uni newer (SUnmarshals p b) h =
                 on (h_scims h) p (fun a _ => Ret (put_scim h a s, AJerr None))) \/
              ((forall u, ~ parsed PRFC7643Only w u) /\
                 exec uni newer (SUnmarshals p b) h = Ret (h, AJerr (Some (JInvalid "invalid SCIM URN: %s" w))))
  end.
Proof.
  cbn [exec]. destruct (json_Unmarshal b) as [w|]; [|reflexivity].
  destruct (Parse_err PRFC7643Only w (or_intror eq_refl) [PRFC7643Only] eq_refl) as [(u' & H & ->)|[H ->]]; cbn [bind negb]; [left|right; auto].
  destruct (scim_string_parsed w u' H) as (sc & q & r & Hsc & _). exists u', sc. split; [exact H|]. split; [exact Hsc|].
  unfold RFC. unfold URN_SCIM in *. destruct (u_kind u' =? KRFC7643); cbn [negb] in *; [|discriminate Hsc]. rewrite Hsc. reflexivity.
Qed.
Lemma exec_EUnmarshals uni newer p b h :
  match json_Unmarshal b with
  | None => exec uni newer (EUnmarshals p b) h = Ret (h, AJerr (Some JJson))
  | Some w => (exists uo, match uo with Some u => parsed PRFC8141Only w u | None => silent8141 w end /\
                 exec uni newer (EUnmarshals p b) h =
                 on (h_8141s h) p (fun a _ => let (h, q) := new_urn h uo in Ret (put_8141 h a q, AJerr None))) \/
              ((forall u, ~ parsed PRFC8141Only w u) /\ ~ silent8141 w /\
                 exec uni newer (EUnmarshals p b) h = Ret (h, AJerr (Some (JInvalid "invalid URN per RFC 8141: %s" w))))
  end.
Proof.
  pose proof (URN8141_unmarshal None b) as K. unfold URN8141_UnmarshalJSON in K. cbn [exec].
  destruct (json_Unmarshal b) as [w|]; [|reflexivity].
  destruct (Parse w [PRFC8141Only]) as [[[x uo] ok]| |]; cbn [bind] in *.
  - destruct ok; cbn [negb] in *.
    + left. destruct K as [(u & H & E)|[[H E]|(H1 & H2 & E)]]; try discriminate E; injection E as ->; eauto.
      * exists (Some u). auto.
      * exists None. auto.
    + right. destruct K as [(u & H & E)|[[H E]|(H1 & H2 & E)]]; try discriminate E. auto.
  - exfalso. destruct K as [(u & H & E)|[[H E]|(H1 & H2 & E)]]; discriminate E.
  - exfalso. destruct K as [(u & H & E)|[[H E]|(H1 & H2 & E)]]; discriminate E.
Qed.

Lemma step_wf uni newer o h h' x : wf h -> valid o h -> exec uni newer o h = Ret (h', x) -> wf h'.
Proof.
  intros W V H. destruct o; try (cbn [exec] in H; onret H; injection H as <- _; exact W).
  - (* Parses *) cbn [exec] in H. destruct (Parse s options) as [[[y uo] ok]| |] eqn:E; cbn [bind] in H; try discriminate H.
    destruct (new_urn h uo) as [h1 p] eqn:En. injection H as <- _. eapply new_urn_wf; eauto.
    intros u ->. eapply kind_ok_parsed; eauto.
  - cbn in H. injection H as <- _. destruct W as (W1 & W2 & W3). repeat split; auto. cbn [h_machines].
    apply Forall_app. split; auto. repeat constructor. apply reach_new.
  - cbn [exec] in H. onret H. assert (R : reachable x0) by (destruct W as (_ & _ & W); eapply nth_Forall; eauto).
    destruct (machine_Parse x0 s) as [[[m' uo] eo]| |] eqn:Hp; cbn [bind] in H; try discriminate H.
    destruct (new_urn (put_machine h a m') uo) as [h1 p] eqn:En. injection H as <- _.
    eapply new_urn_wf; [exact En| |].
    + intros u ->. eapply parse_kind; eauto.
    + apply put_machine_wf; auto. eapply reach_parse; eauto.
  - cbn [exec] in H. onret H. injection H as <- _. apply put_machine_wf; auto. apply reach_mode.
    destruct W as (_ & _ & W); eapply nth_Forall; eauto.
  - (* Normalizes *) cbn [exec] in H. onret H. destruct (new_urn h _) as [h1 q] eqn:En. injection H as <- _.
    eapply new_urn_wf; eauto. intros u E2. injection E2 as <-. unfold kind_ok. cbn. split; [discriminate|intros K; contradiction K; reflexivity].
  - (* Equals *) cbn [exec] in H. destruct q; [|injection H as <- _; exact W]. onret H. onret H. injection H as <- _. exact W.
  - (* Unmarshals *) pose proof (exec_Unmarshals uni newer p b h) as K. destruct (json_Unmarshal b) as [w|].
    + destruct K as [(u & Hu & K)|[_ K]]; rewrite H in K.
      * symmetry in K. onret K. destruct (new_cell h u) as [h1 c] eqn:En. injection K as <- _.
        destruct (new_cell_wf _ _ _ _ En (parsed_kind _ _ _ Hu) W). apply put_urn_wf; auto.
      * injection K as <- _. exact W.
    + rewrite H in K. injection K as <- _. exact W.
  - pose proof (exec_SUnmarshals uni newer t b h) as K. destruct (json_Unmarshal b) as [w|].
    + destruct K as [(u & s & Hu & _ & K)|[_ K]]; rewrite H in K.
      * symmetry in K. onret K. injection K as <- _. apply put_scim_wf; auto.
      * injection K as <- _. exact W.
    + rewrite H in K. injection K as <- _. exact W.
  - cbn [exec] in H. onret H. onret H. injection H as <- _. exact W.
  - cbn [exec] in H. onret H. onret H. injection H as <- _. exact W.
  - pose proof (exec_EUnmarshals uni newer e b h) as K. destruct (json_Unmarshal b) as [w|].
    + destruct K as [(uo & Hu & K)|(_ & _ & K)]; rewrite H in K.
      * symmetry in K. onret K. destruct (new_urn h uo) as [h1 q] eqn:En. injection K as <- _.
        destruct (new_urn_wf _ _ _ _ En) as [W1 Hq]; auto.
        { intros u ->. eapply parsed_kind; eauto. }
        apply put_8141_wf; auto.
      * injection K as <- _. exact W.
    + rewrite H in K. injection K as <- _. exact W.
  - cbn [exec] in H. destruct (new_urn h _) as [h1 q] eqn:En. injection H as <- _.
    eapply new_urn_wf; eauto. intros u E2. injection E2 as <-. unfold kind_ok. cbn. split; [discriminate|intros K; contradiction K; reflexivity].
  - cbn [exec] in H. onret H. injection H as <- _. apply put_urn_wf; auto.
    destruct W as (W & _ & _). exact (nth_Forall _ _ _ _ W E).
  - cbn [exec] in H. onret H. injection H as <- _. apply put_urn_wf; auto.
    destruct W as (W & _ & _). exact (nth_Forall _ _ _ _ W E).
  - cbn [exec] in H. onret H. onret H. injection H as <- _. apply put_urn_wf; auto.
    destruct W as (W & _ & _). exact (nth_Forall _ _ _ _ W E0).
  - cbn [exec] in H. injection H as <- _. destruct W as (W1 & W2 & W3). repeat split; auto. cbn [h_urns].
    eapply wfcs_grow; [|exact W1]. cbn [h_scims]. rewrite app_length. lia.
  - cbn [exec] in H. onret H. injection H as <- _. apply put_scim_wf; auto.
  - cbn [exec] in H. onret H. onret H. injection H as <- _. apply put_scim_wf; auto.
  - cbn [exec] in H. injection H as <- _. destruct W as (W1 & W2 & W3). repeat split; auto. cbn [h_8141s].
    apply Forall_app. split; auto.
  - cbn [exec] in H. onret H. injection H as <- _. apply put_8141_wf; auto. apply V.
Qed.

Lemma runs_wf uni newer may h h' : runs uni newer may h h' -> wf h -> wf h'.
Proof. induction 1; auto. intros W. apply IHruns. eapply step_wf; eauto. Qed.

(* ---- C48: which calls panic -------------------------------------------------------------------- *)
Lemma on_held {A B} (l : list A) p (k : nat -> A -> res B) : held l p ->
  (p = None /\ on l p k = Panic) \/ (exists a x, p = Some a /\ nth_error l a = Some x /\ on l p k = k a x).
Proof.
  destruct p as [a|]; [|left; auto]. cbn. intros H. right.
  destruct (nth_error l a) as [x|] eqn:E; [exists a, x; auto|]. apply nth_error_None in E. lia.
Qed.

Ltac onheld V := 
  match goal with |- context [on ?l ?p ?k] =>
    let K := fresh "K" in let a := fresh "a" in let y := fresh "y" in let E := fresh "E" in
    let Ep := fresh "Ep" in
    destruct (on_held l p k V) as [[Ep K]|(a & y & Ep & E & K)]; rewrite K; clear K;
    match type of Ep with
    | Some _ = None => discriminate Ep
    | Some _ = Some _ => injection Ep as <-
    | ?p = _ => subst p
    end
  end.

Lemma step_panics uni newer o h : wf h -> valid o h ->
  (nil_call o h /\ exec uni newer o h = Panic) \/
  (~ nil_call o h /\ exists h' x, exec uni newer o h = Ret (h', x)).
Proof.
  intros W V. destruct o; cbn [valid nil_call] in *;
    try (cbn [exec]; onheld V; [left; auto|right; split; [discriminate|eauto]]; fail).
  - right. split; auto. cbn [exec]. destruct (Parse_total s options) as (uo & ok & ->). cbn [bind].
    destruct (new_urn h uo). eauto.
  - right. cbn [exec]. eauto.
  - cbn [exec]. onheld V; [left; auto|right; split; [discriminate|]].
    assert (R : reachable y) by (destruct W as (_ & _ & W); eapply nth_Forall; eauto).
    destruct (parse_reach y s R) as (m' & uo & eo & -> & _). cbn [bind]. destruct (new_urn _ uo). eauto.
  - cbn [exec]. onheld V; [left; auto|right; split; [discriminate|]]. destruct (new_urn h _). eauto.
  - destruct V as [V1 V2]. cbn [exec]. destruct q as [b|].
    + onheld V1; [left; split; auto; split; auto; discriminate|right; split; [intros [K _]; discriminate K|]].
      onheld V2. eauto.
    + right. split; [|eauto]. intros [_ K]. apply K; reflexivity.
  - pose proof (exec_Unmarshals uni newer p b h) as K. unfold json_of, fine. destruct (json_Unmarshal b) as [w|].
    + destruct K as [(u & Hu & K)|[Hu K]]; rewrite K.
      * onheld V.
        -- left. split; auto. split; auto. eauto.
        -- right. split; [intros [Hn _]; discriminate Hn|]. destruct (new_cell h u). eauto.
      * right. split; [|eauto]. intros (_ & w' & E & u & Hw). injection E as <-. exact (Hu u Hw).
    + right. rewrite K. split; [|eauto]. intros (_ & w & E & _). discriminate E.
  - pose proof (exec_SUnmarshals uni newer t b h) as K. unfold json_of, fine. destruct (json_Unmarshal b) as [w|].
    + destruct K as [(u & s & Hu & _ & K)|[Hu K]]; rewrite K.
      * onheld V.
        -- left. split; auto. split; auto. eauto.
        -- right. split; [intros [Hn _]; discriminate Hn|]. eauto.
      * right. split; [|eauto]. intros (_ & w' & E & u & Hw). injection E as <-. exact (Hu u Hw).
    + right. rewrite K. split; [|eauto]. intros (_ & w & E & _). discriminate E.
  - cbn [exec]. onheld V; [left; auto|].
    assert (Hy : held (h_urns h) y) by (destruct W as (_ & W & _); eapply nth_Forall; eauto).
    cbn [deref]. rewrite E. onheld Hy; [left; auto|right]. split; [intros [K|K]; discriminate K|eauto].
  - cbn [exec]. onheld V; [left; auto|].
    assert (Hy : held (h_urns h) y) by (destruct W as (_ & W & _); eapply nth_Forall; eauto).
    cbn [deref]. rewrite E. onheld Hy; [left; auto|right]. split; [intros [K|K]; discriminate K|eauto].
  - pose proof (exec_EUnmarshals uni newer e b h) as K. unfold json_of, fine. destruct (json_Unmarshal b) as [w|].
    + destruct K as [(uo & Hu & K)|(Hu & Hs & K)]; rewrite K.
      * onheld V.
        -- left. split; auto. split; auto. exists w. split; auto. destruct uo; eauto.
        -- right. split; [intros [Hn _]; discriminate Hn|]. destruct (new_urn h uo). eauto.
      * right. split; [|eauto]. intros (_ & w' & E & [[u Hw]|Hw]); injection E as <-; [exact (Hu u Hw)|auto].
    + right. rewrite K. split; [|eauto]. intros (_ & w & E & _). discriminate E.
  - right. split; auto. cbn [exec]. destruct (new_urn h _). eauto.
  - destruct V as [V1 V2]. cbn [exec]. onheld V1; [left; auto|]. onheld V2; [left; auto|right].
    split; [intros [K|K]; discriminate K|eauto].
  - right. split; auto. cbn [exec]. eauto.
  - destruct V as [V1 V2]. cbn [exec]. onheld V1; [left; auto|]. onheld V2; [left; auto|right].
    split; [intros [K|K]; discriminate K|eauto].
  - right. split; auto. cbn [exec]. eauto.
  - destruct V as [V1 V2]. cbn [exec]. onheld V1; [left; auto|]. right. split; [discriminate|eauto].
Qed.

(* IsSCIM and SCIM agree on every URN of every program *)
Lemma scim_agree uni newer p h : wf h -> held (h_urns h) (Some p) ->
  (exec uni newer (IsSCIMs (Some p)) h = Ret (h, ABool true) /\
     exists t, exec uni newer (SCIMs (Some p)) h = Ret (h, ASCIM (Some t)) /\ held (h_scims h) (Some t)) \/
  (exec uni newer (IsSCIMs (Some p)) h = Ret (h, ABool false) /\ exec uni newer (SCIMs (Some p)) h = Ret (h, ASCIM None)).
Proof.
  intros W V. cbn [exec]. onheld V. cbn [on]. rewrite E.
  destruct W as (W & _ & _). destruct (nth_Forall _ _ _ _ W E) as (_ & Hh & Hk).
  unfold IsSCIM, view. cbn [u_kind uset_scim]. destruct (Z.eqb_spec (u_kind (c_urn y)) KRFC7643) as [Ek|Ek]; cbn [negb].
  - left. split; auto. apply Hk in Ek. destruct (c_scim y) as [t|]; [|contradiction Ek; reflexivity]. eauto.
  - right. auto.
Qed.

(* no nil in a URN8141 *)
Definition full (h : heap) : Prop := Forall (fun p => p <> None) (h_8141s h).
Lemma step_full uni newer o h h' x : full h -> valid o h -> no_nil o h -> exec uni newer o h = Ret (h', x) -> full h'.
Proof.
  intros W V N H. destruct o; try (cbn [exec] in H; onret H; injection H as <- _; exact W).
  - cbn [exec] in H. destruct (Parse s options) as [[[y uo] ok]| |] eqn:E; cbn [bind] in H; try discriminate H.
    destruct (new_urn h uo) as [h1 p] eqn:En. injection H as <- _. apply new_urn_grown in En. unfold full.
    destruct En as (_ & _ & -> & _). exact W.
  - cbn in H. injection H as <- _. exact W.
  - cbn [exec] in H. onret H. destruct (machine_Parse x0 s) as [[[m' uo] eo]| |] eqn:Hp; cbn [bind] in H; try discriminate H.
    destruct (new_urn (put_machine h a m') uo) as [h1 p] eqn:En. injection H as <- _. apply new_urn_grown in En. unfold full.
    destruct En as (_ & _ & -> & _). exact W.
  - cbn [exec] in H. destruct q; [|injection H as <- _; exact W]. onret H. onret H. injection H as <- _. exact W.
  - pose proof (exec_Unmarshals uni newer p b h) as K. destruct (json_Unmarshal b) as [w|].
    + destruct K as [(u & Hu & K)|[_ K]]; rewrite H in K.
      * symmetry in K. onret K. destruct (new_cell h u) as [h1 c] eqn:En. injection K as <- _.
        apply new_cell_spec in En. unfold full. cbn. destruct En as (_ & -> & _). exact W.
      * injection K as <- _. exact W.
    + rewrite H in K. injection K as <- _. exact W.
  - pose proof (exec_SUnmarshals uni newer t b h) as K. destruct (json_Unmarshal b) as [w|].
    + destruct K as [(u & s & Hu & _ & K)|[_ K]]; rewrite H in K.
      * symmetry in K. onret K. injection K as <- _. exact W.
      * injection K as <- _. exact W.
    + rewrite H in K. injection K as <- _. exact W.
  - cbn [exec] in H. onret H. onret H. injection H as <- _. exact W.
  - cbn [exec] in H. onret H. onret H. injection H as <- _. exact W.
  - pose proof (exec_EUnmarshals uni newer e b h) as K. cbn [no_nil] in N. unfold json_of in N. destruct (json_Unmarshal b) as [w|].
    + destruct K as [(uo & Hu & K)|(_ & _ & K)]; rewrite H in K.
      * symmetry in K. onret K. destruct (new_urn h uo) as [h1 q] eqn:En. injection K as <- _.
        apply new_urn_grown in En. destruct En as (_ & _ & En & _ & Hq). unfold full. cbn [put_8141 h_8141s]. rewrite En.
        apply update_Forall; [exact W|]. destruct uo; [destruct Hq as [-> _]; discriminate|]. exfalso. eauto.
      * injection K as <- _. exact W.
    + rewrite H in K. injection K as <- _. exact W.
  - cbn [exec] in H. destruct (new_urn h _) as [h1 q] eqn:En. injection H as <- _. apply new_urn_grown in En. unfold full.
    destruct En as (_ & _ & -> & _). exact W.
  - cbn [exec] in H. onret H. onret H. injection H as <- _. exact W.
  - cbn [exec] in H. injection H as <- _. exact W.
  - cbn [exec] in H. onret H. onret H. injection H as <- _. exact W.
  - cbn [exec] in H. injection H as <- _. apply Forall_app. split; [exact W|repeat constructor; exact N].
  - cbn [exec] in H. onret H. injection H as <- _. apply update_Forall; auto.
Qed.
Lemma runs_full uni newer h h' : runs uni newer no_nil h h' -> full h -> full h'.
Proof. induction 1; auto. intros W. apply IHruns. eapply step_full; eauto. Qed.

Lemma eight_safe uni newer h e o : runs uni newer no_nil empty_heap h -> e <> None -> held (h_8141s h) e ->
  o = EStrings e \/ o = EMarshals e -> exists s, exec uni newer o h = Ret (h, AText s).
Proof.
  intros R He V Ho. pose proof (runs_wf _ _ _ _ _ R wf_empty) as (_ & W & _).
  pose proof (runs_full _ _ _ _ R (Forall_nil _)) as F.
  destruct Ho as [-> | ->]; cbn [exec]; onheld V; try (contradiction He; reflexivity);
    pose proof (nth_Forall _ _ _ _ W E) as Hy; pose proof (nth_Forall _ _ _ _ F E) as Hn; cbv beta in Hn;
    onheld Hy; try (contradiction Hn; reflexivity); eauto.
Qed.

(* ---- C49: what a call changes ----------------------------------------------------------------------- *)
Definition kept {A} (l l' : list A) (w : ptr) : Prop :=
  (List.length l <= List.length l')%nat /\ forall k x, nth_error l k = Some x -> w <> Some k -> nth_error l' k = Some x.
Lemma kept_refl {A} (l : list A) w : kept l l w.
Proof. split; auto. Qed.
Lemma kept_app {A} (l l' : list A) w : kept l (l ++ l') w.
Proof. split; [rewrite app_length; lia|]. intros k x E _. rewrite nth_app_old; auto. eapply nth_held; eauto. Qed.
Lemma kept_update {A} (l : list A) a x : kept l (update a x l) (Some a).
Proof. split; [rewrite update_length; lia|]. intros k y E H. rewrite update_other; [exact E|congruence]. Qed.
Lemma kept_up {A} (l l' : list A) a x : kept l l' (Some a) -> kept l (update a x l') (Some a).
Proof. intros [H1 H2]. split; [rewrite update_length; lia|]. intros k y E H. rewrite update_other; [auto|congruence]. Qed.

Definition keeps (o : op) (h h' : heap) : Prop :=
  kept (h_urns h) (h_urns h') (writes_urn o) /\ kept (h_scims h) (h_scims h') (writes_scim o) /\
  kept (h_8141s h) (h_8141s h') (writes_8141 o) /\ kept (h_machines h) (h_machines h') (writes_machine o).
Lemma keeps_refl o h : keeps o h h.
Proof. repeat split; auto. Qed.

Lemma keeps_new o h uo h' p : new_urn h uo = (h', p) -> keeps o h h'.
Proof.
  intros H. apply new_urn_grown in H. destruct H as ([l H1] & [l2 H2] & H3 & H4 & _). unfold keeps.
  rewrite H1, H2, H3, H4. auto using kept_app, kept_refl.
Qed.

Lemma step_keeps uni newer o h h' x : exec uni newer o h = Ret (h', x) -> keeps o h h'.
Proof.
  intros H. destruct o; try (cbn [exec] in H; onret H; injection H as <- _; apply keeps_refl).
  - cbn [exec] in H. destruct (Parse s options) as [[[y uo] ok]| |] eqn:E; cbn [bind] in H; try discriminate H.
    destruct (new_urn h uo) as [h1 p] eqn:En. injection H as <- _. eapply keeps_new; eauto.
  - cbn in H. injection H as <- _. unfold keeps; cbn; auto using kept_app, kept_refl, kept_update.
  - cbn [exec] in H. onret H. destruct (machine_Parse x0 s) as [[[m' uo] eo]| |] eqn:Hp; cbn [bind] in H; try discriminate H.
    destruct (new_urn (put_machine h a m') uo) as [h1 p] eqn:En. injection H as <- _. apply new_urn_grown in En.
    destruct En as ([l H1] & [l2 H2] & H3 & H4 & _). unfold keeps. rewrite H1, H2, H3, H4. cbn.
    auto using kept_app, kept_refl, kept_update.
  - cbn [exec] in H. onret H. injection H as <- _. unfold keeps; cbn; auto using kept_app, kept_refl, kept_update.
  - cbn [exec] in H. onret H. destruct (new_urn h _) as [h1 q] eqn:En. injection H as <- _. eapply keeps_new; eauto.
  - cbn [exec] in H. destruct q; [|injection H as <- _; apply keeps_refl]. onret H. onret H. injection H as <- _. apply keeps_refl.
  - pose proof (exec_Unmarshals uni newer p b h) as K. destruct (json_Unmarshal b) as [w|].
    + destruct K as [(u & Hu & K)|[_ K]]; rewrite H in K.
      * symmetry in K. onret K. destruct (new_cell h u) as [h1 c] eqn:En. injection K as <- _.
        apply new_cell_spec in En. destruct En as (H1 & H2 & H3 & [l H4] & _). unfold keeps. cbn. rewrite H1, H2, H3, H4.
        auto using kept_app, kept_refl, kept_update.
      * injection K as <- _. apply keeps_refl.
    + rewrite H in K. injection K as <- _. apply keeps_refl.
  - pose proof (exec_SUnmarshals uni newer t b h) as K. destruct (json_Unmarshal b) as [w|].
    + destruct K as [(u & s & Hu & _ & K)|[_ K]]; rewrite H in K.
      * symmetry in K. onret K. injection K as <- _. unfold keeps; cbn; auto using kept_app, kept_refl, kept_update.
      * injection K as <- _. apply keeps_refl.
    + rewrite H in K. injection K as <- _. apply keeps_refl.
  - cbn [exec] in H. onret H. onret H. injection H as <- _. apply keeps_refl.
  - cbn [exec] in H. onret H. onret H. injection H as <- _. apply keeps_refl.
  - pose proof (exec_EUnmarshals uni newer e b h) as K. destruct (json_Unmarshal b) as [w|].
    + destruct K as [(uo & Hu & K)|(_ & _ & K)]; rewrite H in K.
      * symmetry in K. onret K. destruct (new_urn h uo) as [h1 q] eqn:En. injection K as <- _.
        apply new_urn_grown in En. destruct En as ([l H1] & [l2 H2] & H3 & H4 & _). unfold keeps. cbn. rewrite H1, H2, H3, H4.
        auto using kept_app, kept_refl, kept_update.
      * injection K as <- _. apply keeps_refl.
    + rewrite H in K. injection K as <- _. apply keeps_refl.
  - cbn [exec] in H. destruct (new_urn h _) as [h1 q] eqn:En. injection H as <- _. eapply keeps_new; eauto.
  - cbn [exec] in H. onret H. injection H as <- _. unfold keeps; cbn; auto using kept_app, kept_refl, kept_update.
  - cbn [exec] in H. onret H. injection H as <- _. unfold keeps; cbn; auto using kept_app, kept_refl, kept_update.
  - cbn [exec] in H. onret H. onret H. injection H as <- _. unfold keeps; cbn; auto using kept_app, kept_refl, kept_update.
  - cbn [exec] in H. injection H as <- _. unfold keeps; cbn; auto using kept_app, kept_refl, kept_update.
  - cbn [exec] in H. onret H. injection H as <- _. unfold keeps; cbn; auto using kept_app, kept_refl, kept_update.
  - cbn [exec] in H. onret H. onret H. injection H as <- _. unfold keeps; cbn; auto using kept_app, kept_refl, kept_update.
  - cbn [exec] in H. injection H as <- _. unfold keeps; cbn; auto using kept_app, kept_refl, kept_update.
  - cbn [exec] in H. onret H. injection H as <- _. unfold keeps; cbn; auto using kept_app, kept_refl, kept_update.
Qed.

Lemma looks_keep uni newer o h h' x : looks o -> exec uni newer o h = Ret (h', x) -> h' = h.
Proof.
  intros L H. destruct o; try contradiction L; cbn [exec] in H;
    try (onret H; injection H as <- _; reflexivity).
  - destruct q; [|injection H as <- _; reflexivity]. onret H. onret H. injection H as <- _. reflexivity.
  - onret H. onret H. injection H as <- _. reflexivity.
  - onret H. onret H. injection H as <- _. reflexivity.
Qed.

Lemma error_keeps uni newer o h h' e : exec uni newer o h = Ret (h', AJerr (Some e)) -> h' = h.
Proof.
  intros H. destruct o; cbn [exec] in H;
    try (onret H; discriminate H);
    try (onret H; onret H; discriminate H);
    try discriminate H.
  - destruct (Parse s options) as [[[y uo] ok]| |]; cbn [bind] in H; try discriminate H. destruct (new_urn h uo). discriminate H.
  - onret H. destruct (machine_Parse x s) as [[[m' uo] eo]| |]; cbn [bind] in H; try discriminate H. destruct (new_urn _ uo). discriminate H.
  - destruct q; [|discriminate H]. onret H. onret H. discriminate H.
  - change (exec uni newer (Unmarshals p b) h = Ret (h', AJerr (Some e))) in H.
    pose proof (exec_Unmarshals uni newer p b h) as K. destruct (json_Unmarshal b) as [w|].
    + destruct K as [(u & Hu & K)|[_ K]]; rewrite H in K; [|injection K as <- _; reflexivity].
      symmetry in K. onret K. destruct (new_cell h u). discriminate K.
    + rewrite H in K. injection K as <- _. reflexivity.
  - change (exec uni newer (SUnmarshals t b) h = Ret (h', AJerr (Some e))) in H.
    pose proof (exec_SUnmarshals uni newer t b h) as K. destruct (json_Unmarshal b) as [w|].
    + destruct K as [(u & s & Hu & _ & K)|[_ K]]; rewrite H in K; [|injection K as <- _; reflexivity].
      symmetry in K. onret K. discriminate K.
    + rewrite H in K. injection K as <- _. reflexivity.
  - change (exec uni newer (EUnmarshals e0 b) h = Ret (h', AJerr (Some e))) in H.
    pose proof (exec_EUnmarshals uni newer e0 b h) as K. destruct (json_Unmarshal b) as [w|].
    + destruct K as [(u & Hu & K)|(_ & _ & K)]; rewrite H in K; [|injection K as <- _; reflexivity].
      symmetry in K. onret K. destruct (new_urn h u). discriminate K.
    + rewrite H in K. injection K as <- _. reflexivity.
Qed.

Lemma view_same h h' c : deref (h_scims h') (c_scim c) = deref (h_scims h) (c_scim c) -> view h' c = view h c.
Proof. unfold view. intros ->. reflexivity. Qed.
Lemma kept_deref {A} (l l' : list A) w p : kept l l' w -> held l p -> (forall t, p = Some t -> w <> Some t) -> deref l' p = deref l p.
Proof.
  intros [_ K] H N. destruct p as [t|]; cbn in *; auto. destruct (nth_error l t) as [x|] eqn:E.
  - apply K; auto.
  - apply nth_error_None in E. lia.
Qed.

Lemma view_keeps uni newer o h h' x p c : wf h -> exec uni newer o h = Ret (h', x) ->
  nth_error (h_urns h) p = Some c -> writes_urn o <> Some p -> (forall t, c_scim c = Some t -> writes_scim o <> Some t) ->
  urn_at h' p = urn_at h p.
Proof.
  intros (W & _ & _) H E N1 N2. destruct (step_keeps _ _ _ _ _ _ H) as ([_ K1] & K2 & _).
  unfold urn_at. rewrite (K1 _ _ E N1), E. cbn. f_equal. apply view_same. eapply kept_deref; eauto.
  destruct (nth_Forall _ _ _ _ W E) as (_ & Hh & _). exact Hh.
Qed.


Lemma new_urn_fresh h uo h' q p : new_urn h uo = (h', q) -> q = Some p -> exists u, uo = Some u /\ fresh_urn h h' p u.
Proof.
  intros H ->. apply new_urn_grown in H. destruct H as (_ & _ & _ & _ & H). destruct uo as [u|].
  - destruct H as [Hp (c & Hc & Hv & Hf)]. injection Hp as ->. exists u. split; auto. split; [|split].
    + apply nth_error_None. lia.
    + unfold urn_at. rewrite Hc, nth_app_new. cbn. f_equal. exact Hv.
    + intros d t E Et. rewrite Hc, nth_app_new in E. injection E as <-. apply nth_error_None. auto.
  - destruct H; discriminate.
Qed.

Lemma fresh_same h h1 h' p u : h_urns h = h_urns h1 -> h_scims h = h_scims h1 -> fresh_urn h h' p u -> fresh_urn h1 h' p u.
Proof. intros H1 H2. unfold fresh_urn. rewrite H1, H2. auto. Qed.

Lemma Parses_fresh uni newer s l h h' p ok : exec uni newer (Parses s l) h = Ret (h', AURN (Some p) ok) ->
  exists u, Parse s l = Ret (s, Some u, ok) /\ fresh_urn h h' p u.
Proof.
  cbn [exec]. destruct (Parse_total s l) as (uo & ok' & ->). cbn [bind]. destruct (new_urn h uo) as [h1 q] eqn:En.
  intros H. injection H as <- -> <-. destruct (new_urn_fresh _ _ _ _ _ En eq_refl) as (u & -> & F). eauto.
Qed.
Lemma MParses_fresh uni newer s m h h' p eo : exec uni newer (MParses m s) h = Ret (h', AURNerr (Some p) eo) ->
  exists a x m' u, m = Some a /\ nth_error (h_machines h) a = Some x /\ machine_Parse x s = Ret (m', Some u, eo) /\
    nth_error (h_machines h') a = Some m' /\ fresh_urn h h' p u.
Proof.
  cbn [exec]. intros H. onret H. destruct (machine_Parse x s) as [[[m' uo] eo']| |] eqn:Hp; cbn [bind] in H; try discriminate H.
  destruct (new_urn (put_machine h a m') uo) as [h1 q] eqn:En. injection H as <- -> <-.
  destruct (new_urn_fresh _ _ _ _ _ En eq_refl) as (u & -> & F). exists a, x, m', u. repeat split; auto.
  - apply new_urn_grown in En. destruct En as (_ & _ & _ & -> & _). apply update_same. eapply nth_held; eauto.
  - destruct F as (F & _). exact F.
  - destruct F as (_ & F & _). exact F.
  - destruct F as (_ & _ & F). exact F.
Qed.
Lemma Normalizes_fresh uni newer q h h' p ok : exec uni newer (Normalizes q) h = Ret (h', AURN (Some p) ok) ->
  exists a u, q = Some a /\ urn_at h a = Some u /\ fresh_urn h h' p (Normalize uni u).
Proof.
  cbn [exec]. intros H. onret H. destruct (new_urn h (Some (Normalize uni (view h x)))) as [h1 q] eqn:En. injection H as <- -> _.
  destruct (new_urn_fresh _ _ _ _ _ En eq_refl) as (u & Eu & F). injection Eu as <-. exists a, (view h x).
  split; auto. split; auto. unfold urn_at. rewrite E. reflexivity.
Qed.

(* ---- C50: who shares a SCIM --------------------------------------------------------------------------- *)
Definition apart (l : list cell) : Prop := forall p q c d t,
  nth_error l p = Some c -> nth_error l q = Some d -> c_scim c = Some t -> c_scim d = Some t -> p = q.

Lemma apart_update l a c : apart l ->
  (forall t p d, c_scim c = Some t -> nth_error l p = Some d -> c_scim d = Some t -> p = a) -> apart (update a c l).
Proof.
  intros A H p q c1 d1 t E1 E2 T1 T2. destruct (Nat.lt_ge_cases a (List.length l)) as [L|L].
  - destruct (Nat.eq_dec p a) as [->|Np], (Nat.eq_dec q a) as [->|Nq]; auto.
    + rewrite update_same in E1 by auto. injection E1 as <-. rewrite update_other in E2 by auto. symmetry. eauto.
    + rewrite update_same in E2 by auto. injection E2 as <-. rewrite update_other in E1 by auto. eauto.
    + rewrite update_other in E1, E2 by auto. eauto.
  - assert (U : update a c l = l).
    { clear -L. revert a L. induction l as [|y l IH]; intros [|a] L; cbn in *; auto; [lia|]. rewrite IH; auto. lia. }
    rewrite U in *. eauto.
Qed.
Lemma apart_app l c : apart l -> (forall t d, c_scim c = Some t -> List.In d l -> c_scim d <> Some t) -> apart (l ++ [c]).
Proof.
  intros A H. assert (X : forall p d, nth_error (l ++ [c]) p = Some d -> (p < List.length l)%nat /\ nth_error l p = Some d \/ p = List.length l /\ d = c).
  { intros p d E. destruct (Nat.lt_ge_cases p (List.length l)) as [L|L]; [left; rewrite nth_error_app1 in E; auto|right].
    rewrite nth_error_app2 in E by auto. destruct (p - List.length l)%nat eqn:Ep; cbn in E; [|destruct n; discriminate E].
    injection E as <-. split; auto. lia. }
  intros p q c1 d1 t E1 E2 T1 T2. destruct (X _ _ E1) as [[_ F1]|[-> ->]], (X _ _ E2) as [[_ F2]|[-> ->]]; auto.
  - eauto.
  - exfalso. exact (H t c1 T2 (nth_error_In _ _ F1) T1).
  - exfalso. exact (H t d1 T1 (nth_error_In _ _ F2) T2).
Qed.

Lemma fresh_apart h (c : cell) : wf h -> (forall t, c_scim c = Some t -> (List.length (h_scims h) <= t)%nat) ->
  forall t d, c_scim c = Some t -> List.In d (h_urns h) -> c_scim d <> Some t.
Proof.
  intros (W & _ & _) F t d T I D. rewrite Forall_forall in W. destruct (W d I) as (_ & Hh & _). rewrite D in Hh. cbn in Hh.
  specialize (F t T). lia.
Qed.

Lemma new_urn_apart h uo h' p : wf h -> new_urn h uo = (h', p) -> apart (h_urns h) -> apart (h_urns h').
Proof.
  intros W H A. apply new_urn_grown in H. destruct H as (_ & _ & _ & _ & H). destruct uo as [u|].
  - destruct H as [_ (c & -> & _ & F)]. apply apart_app; auto. apply fresh_apart; auto.
  - destruct H as [_ ->]. exact A.
Qed.

Lemma step_apart uni newer o h h' x : wf h -> apart (h_urns h) -> valid o h -> no_copy o h ->
  exec uni newer o h = Ret (h', x) -> apart (h_urns h').
Proof.
  intros W A V N H. destruct o; try contradiction N; try (cbn [exec] in H; onret H; injection H as <- _; exact A).
  - cbn [exec] in H. destruct (Parse s options) as [[[y uo] ok]| |] eqn:E; cbn [bind] in H; try discriminate H.
    destruct (new_urn h uo) as [h1 p] eqn:En. injection H as <- _. eapply new_urn_apart; eauto.
  - cbn in H. injection H as <- _. exact A.
  - cbn [exec] in H. onret H. destruct (machine_Parse x0 s) as [[[m' uo] eo]| |] eqn:Hp; cbn [bind] in H; try discriminate H.
    destruct (new_urn (put_machine h a m') uo) as [h1 p] eqn:En. injection H as <- _.
    eapply new_urn_apart; [|exact En|exact A]. apply put_machine_wf; auto. eapply reach_parse; eauto.
    destruct W as (_ & _ & W); eapply nth_Forall; eauto.
  - cbn [exec] in H. onret H. destruct (new_urn h _) as [h1 q] eqn:En. injection H as <- _. eapply new_urn_apart; eauto.
  - cbn [exec] in H. destruct q; [|injection H as <- _; exact A]. onret H. onret H. injection H as <- _. exact A.
  - pose proof (exec_Unmarshals uni newer p b h) as K. destruct (json_Unmarshal b) as [w|].
    + destruct K as [(u & Hu & K)|[_ K]]; rewrite H in K.
      * symmetry in K. onret K. destruct (new_cell h u) as [h1 c] eqn:En. injection K as <- _.
        apply new_cell_spec in En. destruct En as (H1 & H2 & H3 & [l H4] & _ & _ & _ & _ & _ & F). cbn. rewrite H1.
        apply apart_update; auto. intros t q d T Eq D. exfalso.
        exact (fresh_apart h c W F t d T (nth_error_In _ _ Eq) D).
      * injection K as <- _. exact A.
    + rewrite H in K. injection K as <- _. exact A.
  - pose proof (exec_SUnmarshals uni newer t b h) as K. destruct (json_Unmarshal b) as [w|].
    + destruct K as [(u & s & Hu & _ & K)|[_ K]]; rewrite H in K.
      * symmetry in K. onret K. injection K as <- _. exact A.
      * injection K as <- _. exact A.
    + rewrite H in K. injection K as <- _. exact A.
  - cbn [exec] in H. onret H. onret H. injection H as <- _. exact A.
  - cbn [exec] in H. onret H. onret H. injection H as <- _. exact A.
  - pose proof (exec_EUnmarshals uni newer e b h) as K. destruct (json_Unmarshal b) as [w|].
    + destruct K as [(uo & Hu & K)|(_ & _ & K)]; rewrite H in K.
      * symmetry in K. onret K. destruct (new_urn h uo) as [h1 q] eqn:En. injection K as <- _. cbn. eapply new_urn_apart; eauto.
      * injection K as <- _. exact A.
    + rewrite H in K. injection K as <- _. exact A.
  - cbn [exec] in H. destruct (new_urn h _) as [h1 q] eqn:En. injection H as <- _. eapply new_urn_apart; eauto.
  - cbn [exec] in H. onret H. injection H as <- _. cbn. apply apart_update; auto. cbn. intros t q d T Eq D. eauto.
  - cbn [exec] in H. onret H. injection H as <- _. cbn. apply apart_update; auto. cbn. intros t q d T Eq D. eauto.
  - cbn [exec] in H. injection H as <- _. exact A.
  - cbn [exec] in H. onret H. onret H. injection H as <- _. exact A.
  - cbn [exec] in H. injection H as <- _. exact A.
Qed.

Lemma runs_apart uni newer h h' : runs uni newer no_copy h h' -> wf h -> apart (h_urns h) -> apart (h_urns h').
Proof.
  induction 1; auto. intros W A. apply IHruns; [eapply step_wf; eauto|eapply step_apart; eauto].
Qed.

Lemma SCIMs_ret uni newer p h h' t : exec uni newer (SCIMs p) h = Ret (h', ASCIM (Some t)) ->
  exists a c, p = Some a /\ nth_error (h_urns h) a = Some c /\ c_scim c = Some t.
Proof.
  cbn [exec]. intros H. onret H. destruct (negb _); [discriminate H|]. injection H as _ H. eauto.
Qed.

(* ---- C51: where values come from ------------------------------------------------------------------------ *)
Definition all_made uni (h : heap) : Prop := forall c, List.In c (h_urns h) -> made uni (view h c).

Lemma made_new uni h uo h' p : wf h -> all_made uni h -> (forall u, uo = Some u -> made uni u) ->
  new_urn h uo = (h', p) -> all_made uni h'.
Proof.
  intros (W & _ & _) A Hu H. apply new_urn_grown in H. destruct H as (_ & [l2 H2] & _ & _ & H).
  assert (V : forall c, List.In c (h_urns h) -> view h' c = view h c).
  { intros c I. apply view_same. rewrite H2. apply deref_app. rewrite Forall_forall in W. apply (W c I). }
  destruct uo as [u|].
  - destruct H as [_ (c & Hc & Hv & _)]. intros d I. rewrite Hc in I. apply in_app_iff in I.
    destruct I as [I|[<-|[]]]; [rewrite V; auto|]. rewrite Hv. auto.
  - destruct H as [_ ->]. exact A.
Qed.

Lemma update_In {A} a (x : A) l y : List.In y (update a x l) -> y = x \/ List.In y l.
Proof. revert a; induction l as [|z l IH]; intros [|a]; cbn; auto. - intros [->|H]; auto. - intros [->|H]; auto. destruct (IH _ H); auto. Qed.

Lemma made_put_scim uni h a s : all_made uni h -> (forall c, List.In c (h_urns h) -> c_scim c <> Some a) -> all_made uni (put_scim h a s).
Proof.
  intros A N c I. cbn in I. rewrite (view_same h); auto. cbn. destruct (c_scim c) as [t|] eqn:T; cbn; auto.
  apply update_other. intros ->. exact (N c I T).
Qed.

Lemma step_made uni newer o h h' x : wf h -> all_made uni h -> valid o h -> plain o h ->
  exec uni newer o h = Ret (h', x) -> all_made uni h'.
Proof.
  intros W A V N H. destruct o; try contradiction N; try (cbn [exec] in H; onret H; injection H as <- _; exact A).
  - cbn [exec] in H. destruct (Parse s options) as [[[y uo] ok]| |] eqn:E; cbn [bind] in H; try discriminate H.
    destruct (new_urn h uo) as [h1 p] eqn:En. injection H as <- _. eapply made_new; eauto.
    intros u ->. destruct (Parse_parsed _ _ _ _ _ E) as [mode P]. econstructor; eauto.
  - cbn in H. injection H as <- _. exact A.
  - cbn [exec] in H. onret H. assert (R : reachable x0) by (destruct W as (_ & _ & W); eapply nth_Forall; eauto).
    destruct (machine_Parse x0 s) as [[[m' uo] eo]| |] eqn:Hp; cbn [bind] in H; try discriminate H.
    destruct (new_urn (put_machine h a m') uo) as [h1 p] eqn:En. injection H as <- _.
    eapply made_new; [| | |exact En].
    + apply put_machine_wf; auto. eapply reach_parse; eauto.
    + exact A.
    + intros u ->. apply (made_parsed uni (m_parsingMode x0) s). exists x0, m'. split; auto. split; auto.
      destruct (parse_kind _ _ _ _ _ R Hp) as [-> _]. exact Hp.
  - cbn [exec] in H. onret H. destruct (new_urn h _) as [h1 q] eqn:En. injection H as <- _. eapply made_new; eauto.
    intros u Eu. injection Eu as <-. constructor. apply A. eapply nth_error_In; eauto.
  - cbn [exec] in H. destruct q; [|injection H as <- _; exact A]. onret H. onret H. injection H as <- _. exact A.
  - pose proof (exec_Unmarshals uni newer p b h) as K. destruct (json_Unmarshal b) as [w|].
    + destruct K as [(u & Hu & K)|[_ K]]; rewrite H in K.
      * symmetry in K. onret K. destruct (new_cell h u) as [h1 c] eqn:En. injection K as <- _.
        apply new_cell_spec in En. destruct En as (H1 & H2 & H3 & [l H4] & Hv & _).
        intros d I. cbn in I. rewrite H1 in I. change (view (put_urn h1 a c) d) with (view h1 d).
        apply update_In in I. destruct I as [->|I]; [rewrite Hv; econstructor; eauto|].
        rewrite (view_same h); [auto|]. rewrite H4. apply deref_app. destruct W as (W & _). rewrite Forall_forall in W. apply (W d I).
      * injection K as <- _. exact A.
    + rewrite H in K. injection K as <- _. exact A.
  - pose proof (exec_SUnmarshals uni newer t b h) as K. destruct (json_Unmarshal b) as [w|].
    + destruct K as [(u & s & Hu & _ & K)|[_ K]]; rewrite H in K.
      * symmetry in K. onret K. injection K as <- _. apply made_put_scim; [exact A|]. intros c I. exact (N a c eq_refl I).
      * injection K as <- _. exact A.
    + rewrite H in K. injection K as <- _. exact A.
  - cbn [exec] in H. onret H. onret H. injection H as <- _. exact A.
  - cbn [exec] in H. onret H. onret H. injection H as <- _. exact A.
  - pose proof (exec_EUnmarshals uni newer e b h) as K. destruct (json_Unmarshal b) as [w|].
    + destruct K as [(uo & Hu & K)|(_ & _ & K)]; rewrite H in K.
      * symmetry in K. onret K. destruct (new_urn h uo) as [h1 q] eqn:En. injection K as <- _.
        intros d I. change (view (put_8141 h1 a q) d) with (view h1 d). cbn in I. eapply made_new; eauto.
        intros u ->. econstructor; eauto.
      * injection K as <- _. exact A.
    + rewrite H in K. injection K as <- _. exact A.
  - cbn [exec] in H. destruct (new_urn h _) as [h1 q] eqn:En. injection H as <- _. eapply made_new; eauto.
    intros u Eu. injection Eu as <-. constructor.
  - cbn [exec] in H. onret H. onret H. injection H as <- _. intros d I. cbn in I.
    change (view (put_urn h a x1) d) with (view h d). apply update_In in I. destruct I as [->|I]; auto.
    apply A. eapply nth_error_In; eauto.
  - cbn [exec] in H. injection H as <- _. intros d I. cbn in I. rewrite (view_same h); auto. cbn. apply deref_app.
    destruct W as (W & _). rewrite Forall_forall in W. apply (W d I).
  - cbn [exec] in H. onret H. injection H as <- _. apply made_put_scim; [exact A|]. intros c I. exact (N a c eq_refl I).
  - cbn [exec] in H. onret H. onret H. injection H as <- _. apply made_put_scim; [exact A|]. intros c I. exact (N a c eq_refl I).
  - cbn [exec] in H. injection H as <- _. exact A.
Qed.

Lemma runs_made uni newer h h' : runs uni newer plain h h' -> wf h -> all_made uni h -> all_made uni h'.
Proof.
  induction 1; auto. intros W A. apply IHruns; [eapply step_wf; eauto|eapply step_made; eauto].
Qed.

(* a SCIM URN and its SCIM tell the same text, but for the letter case of "urn" *)
Lemma odd_scim mode s u : parsed mode s u -> IsSCIM u = true -> exists u', parsed PRFC7643Only s u' /\ pub_of u' = pub_of u.
Proof.
  intros (m & m' & R & Hm & Hp) K. unfold IsSCIM in K. apply Z.eqb_eq in K. change (p_kind (pub_of u) = KRFC7643) in K.
  destruct (parse_reach_inv _ _ _ _ _ R Hp) as (_ & _ & _ & Ho). apply outcome_eq in Ho.
  unfold ref_parse in Ho. destruct (N.eqb _ 1); [|destruct (N.eqb _ 44); [|destruct (N.eqb _ 83); [|discriminate Ho]]].
  - unfold ref2141 in Ho.
    repeat match type of Ho with context [match ?x with _ => _ end] => destruct x; try discriminate Ho end.
    assert (X : p_kind (pub_of u) = KRFC2141) by (apply (f_equal (fun o => match o with OUrn v => p_kind v | _ => 0 end)) in Ho; symmetry; exact Ho).
    rewrite X in K. discriminate K.
  - pose proof (ref_scim_sound (m_parsingMode m) s) as S. rewrite Ho in S. destruct S as (p & t & n & o & S1 & S2).
    destruct (parsedscim_ok s p t n o S1) as (u' & P1 & P2). exists u'. split; auto. congruence.
  - pose proof (ref8141_sound (m_parsingMode m) s) as S. rewrite Ho in S. destruct S as (p & n & x & r & q & f & _ & _ & S).
    rewrite S in K. discriminate K.
Qed.

Lemma pub_string u u' : pub_of u = pub_of u' -> URN_String u = URN_String u'.
Proof.
  unfold pub_of. intros H. injection H as H1 H2 H3 H4 H5 H6 H7 H8 H9. unfold URN_String. rewrite H1, H2, H3, H7, H8, H9. reflexivity.
Qed.

Lemma made_scim uni u : made uni u -> IsSCIM u = true ->
  exists sc prefix rest, URN_SCIM u = Some sc /\ URN_String u = prefix ++ rest /\ urn_word prefix /\ SCIM_String sc = lowers prefix ++ rest.
Proof.
  intros M K. destruct M as [id ss|mode s u P|u M]; try discriminate K.
  destruct (odd_scim mode s u P K) as (u' & P' & E). destruct (scim_string_parsed s u' P') as (sc' & p & r & H1 & H2 & H3 & H4).
  assert (X : exists sc, URN_SCIM u = Some sc /\ s_Type sc = s_Type sc' /\ s_Name sc = s_Name sc' /\ s_Other sc = s_Other sc').
  { unfold URN_SCIM, pub_of in *. injection E as _ _ _ _ E5 E6 _ _ _. rewrite <- E5. destruct (negb _); [discriminate H1|].
    rewrite H1 in E6. destruct (u_scim u) as [sc|]; [|discriminate E6]. injection E6 as A1 A2 A3. exists sc. auto. }
  destruct X as (sc & X1 & X2 & X3 & X4). exists sc, p, r. repeat split; auto.
  - rewrite <- (pub_string _ _ E), <- H2. exact (Stringscim s u' P').
  - rewrite <- H4. unfold SCIM_String. rewrite X2, X3, X4. reflexivity.
Qed.

(* ---- the statements of Properties10.v ------------------------------------------------------------------- *)
Lemma unmarshal_returns uni newer h p b : runs uni newer any empty_heap h ->
  ((p < List.length (h_urns h))%nat -> exists h' e, exec uni newer (Unmarshals (Some p) b) h = Ret (h', AJerr e)) /\
  ((p < List.length (h_scims h))%nat -> exists h' e, exec uni newer (SUnmarshals (Some p) b) h = Ret (h', AJerr e)) /\
  ((p < List.length (h_8141s h))%nat -> exists h' e, exec uni newer (EUnmarshals (Some p) b) h = Ret (h', AJerr e)).
Proof.
  intros R. split; [|split]; intros V.
  - pose proof (exec_Unmarshals uni newer (Some p) b h) as K. destruct (json_Unmarshal b) as [w|]; [|eauto].
    destruct K as [(u & _ & K)|[_ K]]; [|eauto]. rewrite K. change (held (h_urns h) (Some p)) in V. onheld V. destruct (new_cell h u). eauto.
  - pose proof (exec_SUnmarshals uni newer (Some p) b h) as K. destruct (json_Unmarshal b) as [w|]; [|eauto].
    destruct K as [(u & s & _ & _ & K)|[_ K]]; [|eauto]. rewrite K. change (held (h_scims h) (Some p)) in V. onheld V. eauto.
  - pose proof (exec_EUnmarshals uni newer (Some p) b h) as K. destruct (json_Unmarshal b) as [w|]; [|eauto].
    destruct K as [(u & _ & K)|(_ & _ & K)]; [|eauto]. rewrite K. change (held (h_8141s h) (Some p)) in V. onheld V. destruct (new_urn h u). eauto.
Qed.

Lemma scims_apart uni newer h p q h1 h2 t : runs uni newer no_copy empty_heap h ->
  exec uni newer (SCIMs p) h = Ret (h1, ASCIM (Some t)) -> exec uni newer (SCIMs q) h = Ret (h2, ASCIM (Some t)) -> p = q.
Proof.
  intros R H1 H2. apply SCIMs_ret in H1, H2. destruct H1 as (a & c & -> & E1 & T1), H2 as (b & d & -> & E2 & T2).
  f_equal. eapply (runs_apart _ _ _ _ R wf_empty); eauto. intros x y ? ? ? E. destruct x; discriminate E.
Qed.

Lemma scims_isolated uni newer h p q h1 t o h2 x u : runs uni newer no_copy empty_heap h ->
  exec uni newer (SCIMs (Some p)) h = Ret (h1, ASCIM (Some t)) -> writes_scim o = Some t ->
  exec uni newer o h = Ret (h2, x) -> q <> p -> urn_at h q = Some u -> urn_at h2 q = Some u.
Proof.
  intros R H1 Ho He N Hu. apply SCIMs_ret in H1. destruct H1 as (a & c & Ea & E1 & T1). injection Ea as <-.
  pose proof Hu as Hu'. unfold urn_at in Hu'. destruct (nth_error (h_urns h) q) as [d|] eqn:Eq; [|discriminate Hu'].
  rewrite <- Hu. eapply view_keeps; eauto.
  - exact (runs_wf _ _ _ _ _ R wf_empty).
  - destruct o; cbn in *; discriminate.
  - intros t' T' W. assert (t' = t) by congruence. subst t'. apply N.
    eapply (runs_apart _ _ _ _ R wf_empty); eauto. intros ? ? ? ? ? E. destruct p0; discriminate E.
Qed.

Lemma origin uni newer h p u : runs uni newer plain empty_heap h -> urn_at h p = Some u -> made uni u.
Proof.
  intros R H. unfold urn_at in H. destruct (nth_error (h_urns h) p) as [c|] eqn:E; [|discriminate H]. injection H as <-.
  eapply (runs_made _ _ _ _ R wf_empty); [intros d []|]. eapply nth_error_In; eauto.
Qed.

Lemma scim_text uni newer h p t h1 s h2 : runs uni newer plain empty_heap h ->
  exec uni newer (SCIMs p) h = Ret (h1, ASCIM (Some t)) -> exec uni newer (Strings p) h = Ret (h2, AText s) ->
  exists prefix rest, s = prefix ++ rest /\ urn_word prefix /\
    exec uni newer (SStrings (Some t)) h = Ret (h, AText (lowers prefix ++ rest)).
Proof.
  intros R H1 H2. cbn [exec] in H1, H2. onret H1. onret H2. assert (x0 = x) by congruence. subst x0.
  injection H2 as _ <-. destruct (negb _) eqn:Ek; [discriminate H1|]. injection H1 as _ T. apply negb_false_iff in Ek.
  destruct (made_scim uni (view h x)) as (sc & pre & rest & S1 & S2 & S3 & S4).
  - eapply origin; [exact R|]. unfold urn_at. rewrite E. reflexivity.
  - exact Ek.
  - exists pre, rest. split; auto. split; auto. unfold URN_SCIM, view in S1. cbn [u_kind uset_scim u_scim] in S1. rewrite Ek in S1.
    cbn [negb] in S1. rewrite T in S1. cbn [deref] in S1. cbn [exec on]. rewrite S1, S4. reflexivity.
Qed.

(* the heap calls compute what the value models of Json.v compute *)
Lemma unmarshal_value uni newer h b p : runs uni newer any empty_heap h ->
  (forall u u' e, urn_at h p = Some u -> URN_UnmarshalJSON u b = Ret (u', e) ->
     exists h', exec uni newer (Unmarshals (Some p) b) h = Ret (h', AJerr e) /\ urn_at h' p = Some u') /\
  (forall s s' e, nth_error (h_scims h) p = Some s -> SCIM_UnmarshalJSON s b = Ret (s', e) ->
     exists h', exec uni newer (SUnmarshals (Some p) b) h = Ret (h', AJerr e) /\ nth_error (h_scims h') p = Some s') /\
  (forall q v v' e, nth_error (h_8141s h) p = Some q -> v = match q with None => None | Some a => urn_at h a end ->
     URN8141_UnmarshalJSON v b = Ret (v', e) ->
     exists h' q', exec uni newer (EUnmarshals (Some p) b) h = Ret (h', AJerr e) /\ nth_error (h_8141s h') p = Some q' /\
       v' = match q' with None => None | Some a => urn_at h' a end).
Proof.
  intros R. pose proof (runs_wf _ _ _ _ _ R wf_empty) as W. split; [|split].
  - intros u u' e Hu H. unfold urn_at in Hu. destruct (nth_error (h_urns h) p) as [c|] eqn:E; [|discriminate Hu]. injection Hu as <-.
    unfold URN_UnmarshalJSON in H. cbn [exec]. destruct (json_Unmarshal b) as [w|].
    + destruct (Parse w []) as [[[x uo] ok]| |]; cbn [bind] in *; try discriminate H. destruct ok; cbn [negb] in *.
      * destruct uo as [v|]; [|discriminate H]. injection H as <- <-. cbn [on]. rewrite E.
        destruct (new_cell h v) as [h1 d] eqn:En. eexists. split; [reflexivity|]. apply new_cell_spec in En.
        destruct En as (H1 & _ & _ & _ & Hv & _). unfold urn_at, put_urn. cbn [h_urns]. rewrite H1, update_same by (eapply nth_held; eauto).
        cbn. f_equal. exact Hv.
      * injection H as <- <-. eexists. split; [reflexivity|]. unfold urn_at. rewrite E. reflexivity.
    + injection H as <- <-. eexists. split; [reflexivity|]. unfold urn_at. rewrite E. reflexivity.
  - intros s s' e E H. unfold SCIM_UnmarshalJSON in H. cbn [exec]. destruct (json_Unmarshal b) as [w|].
    + destruct (Parse w [PRFC7643Only]) as [[[x uo] ok]| |]; cbn [bind] in *; try discriminate H. destruct ok; cbn [negb] in *.
      * destruct uo as [v|]; [|discriminate H]. destruct (negb _); [injection H as <- <-; eauto|].
        destruct (URN_SCIM v) as [sc|]; [|discriminate H]. injection H as <- <-. cbn [on]. rewrite E. eexists. split; [reflexivity|].
        apply update_same. eapply nth_held; eauto.
      * injection H as <- <-. eauto.
    + injection H as <- <-. eauto.
  - intros q v v' e E Ev H. unfold URN8141_UnmarshalJSON in H. cbn [exec]. destruct (json_Unmarshal b) as [w|].
    + destruct (Parse w [PRFC8141Only]) as [[[x uo] ok]| |]; cbn [bind] in *; try discriminate H. destruct ok; cbn [negb] in *.
      * injection H as <- <-. cbn [on]. rewrite E. destruct (new_urn h uo) as [h1 q1] eqn:En. eexists _, q1. split; [reflexivity|].
        pose proof (new_urn_grown _ _ _ _ En) as (_ & _ & H3 & _ & Hq). split.
        -- cbn. rewrite H3. apply update_same. eapply nth_held; eauto.
        -- destruct uo as [u|].
           ++ destruct Hq as [-> (c & Hc & Hv & _)]. unfold urn_at. cbn [put_8141 h_urns]. rewrite Hc, nth_app_new. cbn. f_equal. symmetry. exact Hv.
           ++ destruct Hq as [-> _]. reflexivity.
      * injection H as <- <-. eauto.
    + injection H as <- <-. eauto.
Qed.
