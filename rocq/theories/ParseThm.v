(* Parse as a whole: for every machine the API can produce and every input, the result
   is the one of the reference walk of its entry point. *)
From Coq Require Import Lia.
From Verif Require Import GoBase MachineSyntax MachineTables Machine Urn Spec Ref Exec SimBase
  Sim2141 SimScim Sim8141.
Local Open Scope Z_scope.

(* entry points and modes that NewMachine / WithParsingMode can combine *)
Definition good (m : machine) : Prop :=
  m_startParsingAt m = 0%N \/
  (m_startParsingAt m = 1%N /\ m_parsingMode m <> PRFC8141Only) \/
  m_startParsingAt m = 44%N \/
  m_startParsingAt m = 83%N.

Definition ref_parse (start : N) (mode : Z) (s : bytes) : pout :=
  if N.eqb start 1 then ref2141 mode s
  else if N.eqb start 44 then ref_scim mode s
  else if N.eqb start 83 then ref8141 mode s
  else ONil.

Definition same_mode (m m' : machine) : Prop :=
  m_startParsingAt m' = m_startParsingAt m /\ m_parsingMode m' = m_parsingMode m /\
  m_parsingModeSet m' = m_parsingModeSet m.

Definition outcome (uo : option URN) (eo : option perr) (o : pout) : Prop :=
  match o with
  | OUrn v => exists u, uo = Some u /\ eo = None /\ pub_of u = v
  | OErr e => uo = None /\ eo = Some e
  | ONil => uo = None /\ eo = None
  end.

Lemma run_enter m s y :
  (m_startParsingAt m = 1 \/ m_startParsingAt m = 44 \/ m_startParsingAt m = 83)%N ->
  run (4 * List.length s + 15) (nextl s)
      (cfg (m_startParsingAt m) (m_parsingMode m) (m_parsingModeSet m) s (m_startParsingAt m) 0 0, zeroURN) = Ret y ->
  run (parse_fuel (List.length s)) LEnter (parse_init m s, zeroURN) = Ret y.
Proof.
  intros Hs Hr. unfold parse_fuel. replace (4 * List.length s + 16)%nat with (S (4 * List.length s + 15)) by lia.
  eapply run_step; [discriminate| |exact Hr].
  unfold parse_init, cfg. cbn [step m_p m_pe m_cs].
  destruct s as [|c s]; cbn [nextl].
  - reflexivity.
  - replace (0 =? zlen (c :: s)) with false by (symmetry; apply Z.eqb_neq; zl).
    replace (N.eqb (m_startParsingAt m) 0) with false
      by (symmetry; apply N.eqb_neq; destruct Hs as [->|[->| ->]]; discriminate).
    reflexivity.
Qed.

Lemma parse_fin m s y o :
  run (parse_fuel (List.length s)) LEnter (parse_init m s, zeroURN) = Ret y ->
  fin (m_startParsingAt m) (m_parsingMode m) (m_parsingModeSet m) s y o ->
  exists m' uo eo, machine_Parse m s = Ret (m', uo, eo) /\ m_data m' = s /\ same_mode m m' /\
    m_err m' = eo /\ outcome uo eo o.
Proof.
  intros Hr Hf. destruct y as [m' u]. destruct Hf as [H1 [H2 [H3 [H4 H5]]]].
  exists m'. unfold machine_Parse. rewrite Hr. cbn [bind]. fold (rejecting (m_cs m')).
  destruct o as [v|e|]; destruct H5 as [H5 H6]; rewrite H5.
  - destruct H6 as [H6 H7]. exists (Some u), None. repeat split; auto. exists u. auto.
  - exists None, (Some e). rewrite H6. repeat split; auto.
  - exists None, None. rewrite H6. repeat split; auto.
Qed.

Theorem parse_ref m s : good m ->
  exists m' uo eo, machine_Parse m s = Ret (m', uo, eo) /\ m_data m' = s /\ same_mode m m' /\
    m_err m' = eo /\ outcome uo eo (ref_parse (m_startParsingAt m) (m_parsingMode m) s).
Proof.
  intros [H0|H].
  - rewrite H0. cbn [ref_parse N.eqb].
    eapply parse_fin with (y := (parse_init m s, zeroURN)).
    + unfold parse_fuel. replace (4 * List.length s + 16)%nat with (S (S (4 * List.length s + 14))) by lia.
      unfold parse_init. rewrite H0.
      destruct s as [|c s].
      * eapply (run_step _ _ _ LTestEof); [discriminate|reflexivity|].
        eapply (run_step _ _ _ LOut); [discriminate|reflexivity|]. reflexivity.
      * eapply (run_step _ _ _ LOut); [discriminate| |].
        -- cbn [step m_p m_pe m_cs].
           replace (0 =? zlen (c :: s)) with false by (symmetry; apply Z.eqb_neq; zl). reflexivity.
        -- destruct (4 * List.length (c :: s) + 14)%nat; reflexivity.
    + unfold fin, parse_init. rewrite H0. cbn. auto 10.
  - assert (A : exists o, o = ref_parse (m_startParsingAt m) (m_parsingMode m) s /\
        At (m_startParsingAt m) (m_parsingMode m) (m_parsingModeSet m) (m_startParsingAt m) [] s 0 zeroURN o).
    { eexists. split; [reflexivity|]. destruct H as [[-> Hm]|[->| ->]]; cbn [ref_parse N.eqb Pos.eqb].
      - apply sim2141; exact Hm.
      - apply sim_scim.
      - apply sim8141. }
    destruct A as [o [-> [y [Hr Hf]]]]. cbn [app] in Hr, Hf.
    eapply parse_fin; [|exact Hf]. apply run_enter; [|exact Hr].
    tauto.
Qed.

(* ---- machines the API can produce --------------------------------------------- *)
Lemma good_mode x m : good m -> good (machine_WithParsingMode x m).
Proof.
  unfold good, machine_WithParsingMode. cbn [m_startParsingAt m_parsingMode].
  destruct (x =? PRFC2141Only) eqn:E1; [|destruct (x =? PRFC8141Only) eqn:E2; [|destruct (x =? PRFC7643Only) eqn:E3]].
  - intros _. right; left. split; [reflexivity|]. apply Z.eqb_eq in E1. subst x. discriminate.
  - intros _. right; right; right. reflexivity.
  - intros _. right; right; left. reflexivity.
  - apply Z.eqb_neq in E2. tauto.
Qed.

Lemma good_new options : good (NewMachine options).
Proof.
  unfold NewMachine.
  assert (H : forall l m, good m -> good (fold_left (fun m o => machine_WithParsingMode o m) l m)).
  { induction l as [|x l IH]; intros m Hm; cbn [fold_left]; [exact Hm|]. apply IH, good_mode, Hm. }
  assert (H0 : good (fold_left (fun m o => machine_WithParsingMode o m) options zero_machine)).
  { apply H. left. reflexivity. }
  destruct (m_parsingModeSet _); [exact H0|]. apply good_mode, H0.
Qed.

Lemma good_same m m' : same_mode m m' -> good m -> good m'.
Proof. intros [H1 [H2 _]]. unfold good. rewrite H1, H2. auto. Qed.

(* the machines of the three modes *)
Definition mach (mode : Z) : machine := NewMachine [mode].
