(* Machines a program can hold, what it means that an input is parsed, and the complete
   description of Parse in the three modes. *)
From Coq Require Import Lia.
From Verif Require Import GoBase MachineSyntax MachineTables Machine Urn Spec Ref Exec SimBase
  ParseThm RefSpec RefSpec8 RefSpec8b.
Local Open Scope Z_scope.

(* Every machine a program can hold through the exported API: any sequence of
   WithParsingMode and Parse calls on the fresh machine of machine.go:111-113.  A program
   holds the fresh machine itself inside an Option function (options.go:3), which may be
   hand-written and call any method; the machine NewMachine finally returns is reached by
   such calls too (lemma reach_new for the Options made by WithParsingMode). *)
Inductive reachable : machine -> Prop :=
| reach_zero : reachable zero_machine
| reach_mode m x : reachable m -> reachable (machine_WithParsingMode x m)
| reach_parse m s m' uo eo :
    reachable m -> machine_Parse m s = Ret (m', uo, eo) -> reachable m'.

(* u is what Parse returns, without an error, for input s on some machine in the mode *)
Definition parsed (mode : Z) (s : bytes) (u : URN) : Prop :=
  exists m m', reachable m /\ m_parsingMode m = mode /\ machine_Parse m s = Ret (m', Some u, None).

(* urn.URN{ID: id, SS: ss}: a value built from the exported fields *)
Definition handbuilt (id ss : bytes) : URN := mkURN [] id ss [] KNONE None [] [] [] false false [].

(* the three documented modes *)
Definition three (mode : Z) := mode = PRFC2141Only \/ mode = PRFC7643Only \/ mode = PRFC8141Only.

(* nid and nss are the NID and the NSS of the text s, under the grammar of the mode *)
Definition name_of (mode : Z) (s nid nss : bytes) : Prop :=
  (mode = PRFC2141Only /\ exists p, urn2141 alnum s p nid nss) \/
  (mode = PRFC7643Only /\ exists p t n o, urnscim s p t n o /\ nid = B "ietf" /\ nss = B "params:scim:" ++ scim_ss t n o) \/
  (mode = PRFC8141Only /\ exists p r q f, urn8141 s p nid nss r q f).

(* from label l and state x the program reaches its end in exactly n steps *)
Inductive steps : label -> st -> nat -> st -> Prop :=
| steps_out x : steps LOut x 0 x
| steps_one l x l' x' n y : l <> LOut -> step l x = Ret (l', x') -> steps l' x' n y -> steps l x (S n) y.

Definition coh (m : machine) : Prop :=
  (m_parsingMode m = PRFC2141Only -> m_startParsingAt m = 1%N) /\
  (m_parsingMode m = PRFC7643Only -> m_startParsingAt m = 44%N) /\
  (m_parsingMode m = PRFC8141Only -> m_startParsingAt m = 83%N).

Lemma coh_mode x m : coh (machine_WithParsingMode x m).
Proof.
  unfold coh, machine_WithParsingMode. cbn [m_startParsingAt m_parsingMode].
  repeat split; intros ->; reflexivity.
Qed.
Lemma coh_new options : coh (NewMachine options).
Proof.
  unfold NewMachine.
  assert (H : forall l m, coh m -> coh (fold_left (fun m o => machine_WithParsingMode o m) l m)).
  { induction l as [|x l IH]; intros m Hm; cbn [fold_left]; [exact Hm|]. apply IH, coh_mode. }
  destruct (m_parsingModeSet _); [|apply coh_mode].
  apply H. repeat split; discriminate.
Qed.

Lemma reach_new options : reachable (NewMachine options).
Proof.
  unfold NewMachine.
  assert (H : forall l m, reachable m -> reachable (fold_left (fun m o => machine_WithParsingMode o m) l m)).
  { induction l as [|x l IH]; intros m Hm; cbn [fold_left]; [exact Hm|]. apply IH, reach_mode, Hm. }
  destruct (m_parsingModeSet _); [|apply reach_mode]; apply H, reach_zero.
Qed.

Lemma reach_good m : reachable m -> good m /\ coh m.
Proof.
  induction 1 as [|m x Hm [IH1 IH2]|m s m' uo eo Hm [IH1 IH2] Hp].
  - split; [left; reflexivity|repeat split; discriminate].
  - split; [apply good_mode; exact IH1|apply coh_mode].
  - destruct (parse_ref m s IH1) as (m2 & uo2 & eo2 & Hp2 & _ & Hs & _). rewrite Hp in Hp2. injection Hp2 as <- _ _.
    split; [eapply good_same; eauto|]. destruct Hs as (H1 & H2 & _). unfold coh. rewrite H1, H2. exact IH2.
Qed.

Theorem parse_reach m s : reachable m ->
  exists m' uo eo, machine_Parse m s = Ret (m', uo, eo) /\ m_data m' = s /\ same_mode m m' /\
    m_err m' = eo /\ outcome uo eo (ref_parse (m_startParsingAt m) (m_parsingMode m) s).
Proof. intros H. apply parse_ref, reach_good, H. Qed.

Lemma parse_reach_inv m s m' uo eo : reachable m -> machine_Parse m s = Ret (m', uo, eo) ->
  m_data m' = s /\ same_mode m m' /\ m_err m' = eo /\
  outcome uo eo (ref_parse (m_startParsingAt m) (m_parsingMode m) s).
Proof.
  intros H Hp. destruct (parse_reach m s H) as (m2 & uo2 & eo2 & Hp2 & K). rewrite Hp in Hp2.
  injection Hp2 as <- <- <-. exact K.
Qed.

Lemma reach_start m : reachable m ->
  (m_parsingMode m = PRFC2141Only -> m_startParsingAt m = 1%N) /\
  (m_parsingMode m = PRFC7643Only -> m_startParsingAt m = 44%N) /\
  (m_parsingMode m = PRFC8141Only -> m_startParsingAt m = 83%N).
Proof. intros H. exact (proj2 (reach_good m H)). Qed.

Lemma outcome_eq uo eo o : outcome uo eo o -> match uo, eo with
  | Some u, None => o = OUrn (pub_of u)
  | None, Some e => o = OErr e
  | None, None => o = ONil
  | Some _, Some _ => False
  end.
Proof. destruct o; cbn; [intros (u & -> & -> & <-)|intros [-> ->]|intros [-> ->]]; reflexivity. Qed.

(* ---- the three modes ---------------------------------------------------------------- *)
Lemma parse2141_ref m s m' uo eo : reachable m -> m_parsingMode m = PRFC2141Only ->
  machine_Parse m s = Ret (m', uo, eo) -> outcome uo eo (ref2141 PRFC2141Only s).
Proof.
  intros H Hm Hp. destruct (parse_reach_inv m s m' uo eo H Hp) as (_ & _ & _ & Ho).
  destruct (reach_start m H) as (H1 & _ & _). rewrite (H1 Hm), Hm in Ho. exact Ho.
Qed.
Lemma parsescim_ref m s m' uo eo : reachable m -> m_parsingMode m = PRFC7643Only ->
  machine_Parse m s = Ret (m', uo, eo) -> outcome uo eo (ref_scim PRFC7643Only s).
Proof.
  intros H Hm Hp. destruct (parse_reach_inv m s m' uo eo H Hp) as (_ & _ & _ & Ho).
  destruct (reach_start m H) as (_ & H1 & _). rewrite (H1 Hm), Hm in Ho. exact Ho.
Qed.
Lemma parse8141_ref m s m' uo eo : reachable m -> m_parsingMode m = PRFC8141Only ->
  machine_Parse m s = Ret (m', uo, eo) -> outcome uo eo (ref8141 PRFC8141Only s).
Proof.
  intros H Hm Hp. destruct (parse_reach_inv m s m' uo eo H Hp) as (_ & _ & _ & Ho).
  destruct (reach_start m H) as (_ & _ & H1). rewrite (H1 Hm), Hm in Ho. exact Ho.
Qed.

Lemma parsed2141_inv s u : parsed PRFC2141Only s u -> exists prefix nid nss,
  urn2141 alnum s prefix nid nss /\ ~ u_lookahead s /\ pub_of u = res2141 prefix nid nss.
Proof.
  intros (m & m' & H & Hm & Hp). apply parse2141_ref in Hp; auto. apply outcome_eq in Hp.
  pose proof (ref2141_sound PRFC2141Only ltac:(discriminate) s) as K. rewrite Hp in K. exact K.
Qed.
Lemma parsedscim_inv s u : parsed PRFC7643Only s u -> exists prefix t name other,
  urnscim s prefix t name other /\ pub_of u = resscim prefix t name other.
Proof.
  intros (m & m' & H & Hm & Hp). apply parsescim_ref in Hp; auto. apply outcome_eq in Hp.
  pose proof (ref_scim_sound PRFC7643Only s) as K. rewrite Hp in K. exact K.
Qed.
Lemma parsed8141_inv s u : parsed PRFC8141Only s u -> exists prefix nid nss r q f,
  urn8141 s prefix nid nss r q f /\ pub_of u = res8141 prefix nid nss r q f.
Proof.
  intros (m & m' & H & Hm & Hp). apply parse8141_ref in Hp; auto. apply outcome_eq in Hp.
  pose proof (ref8141_sound PRFC8141Only s) as K. rewrite Hp in K.
  destruct K as (p & n & x & r & q & f & H1 & _ & H2). eauto 10.
Qed.

Lemma outcome_urn uo eo v : outcome uo eo (OUrn v) -> exists u, uo = Some u /\ eo = None /\ pub_of u = v.
Proof. auto. Qed.

(* every machine of the mode accepts *)
Lemma parse2141_ok m s prefix nid nss : reachable m -> m_parsingMode m = PRFC2141Only ->
  urn2141 alnum s prefix nid nss -> ~ u_lookahead s ->
  exists m' u, machine_Parse m s = Ret (m', Some u, None) /\ pub_of u = res2141 prefix nid nss.
Proof.
  intros H Hm Hu Hl. destruct (parse_reach m s H) as (m' & uo & eo & Hp & _).
  pose proof (parse2141_ref m s m' uo eo H Hm Hp) as Ho.
  rewrite (ref2141_complete PRFC2141Only ltac:(discriminate) _ _ _ _ Hu Hl) in Ho. destruct Ho as (u & -> & -> & K). eauto.
Qed.
Lemma parsescim_ok m s prefix t name other : reachable m -> m_parsingMode m = PRFC7643Only ->
  urnscim s prefix t name other ->
  exists m' u, machine_Parse m s = Ret (m', Some u, None) /\ pub_of u = resscim prefix t name other.
Proof.
  intros H Hm Hu. destruct (parse_reach m s H) as (m' & uo & eo & Hp & _).
  pose proof (parsescim_ref m s m' uo eo H Hm Hp) as Ho.
  rewrite (ref_scim_complete _ _ _ _ _ _ Hu) in Ho. destruct Ho as (u & -> & -> & K). eauto.
Qed.
Lemma parse8141_ok m s prefix nid nss r q f : reachable m -> m_parsingMode m = PRFC8141Only ->
  urn8141 s prefix nid nss r q f ->
  exists m' u, machine_Parse m s = Ret (m', Some u, None) /\ pub_of u = res8141 prefix nid nss r q f.
Proof.
  intros H Hm Hu. destruct (parse_reach m s H) as (m' & uo & eo & Hp & _).
  pose proof (parse8141_ref m s m' uo eo H Hm Hp) as Ho.
  rewrite (ref8141_complete _ _ _ _ _ _ _ _ Hu (or_introl eq_refl)) in Ho. destruct Ho as (u & -> & -> & K). eauto.
Qed.

(* the machine of a mode exists *)
Lemma reach_mach x : reachable (NewMachine [x]) /\ m_parsingMode (NewMachine [x]) = x.
Proof. split; [apply reach_new|reflexivity]. Qed.
Lemma parsed2141_ok s prefix nid nss : urn2141 alnum s prefix nid nss -> ~ u_lookahead s ->
  exists u, parsed PRFC2141Only s u /\ pub_of u = res2141 prefix nid nss.
Proof.
  intros Hu Hl. destruct (reach_mach PRFC2141Only) as [H1 H2].
  destruct (parse2141_ok _ s prefix nid nss H1 H2 Hu Hl) as (m' & u & Hp & K). exists u. split; [|exact K].
  exists (NewMachine [PRFC2141Only]), m'. auto.
Qed.
Lemma parsedscim_ok s prefix t name other : urnscim s prefix t name other ->
  exists u, parsed PRFC7643Only s u /\ pub_of u = resscim prefix t name other.
Proof.
  intros Hu. destruct (reach_mach PRFC7643Only) as [H1 H2].
  destruct (parsescim_ok _ s prefix t name other H1 H2 Hu) as (m' & u & Hp & K). exists u. split; [|exact K].
  exists (NewMachine [PRFC7643Only]), m'. auto.
Qed.
Lemma parsed8141_ok s prefix nid nss r q f : urn8141 s prefix nid nss r q f ->
  exists u, parsed PRFC8141Only s u /\ pub_of u = res8141 prefix nid nss r q f.
Proof.
  intros Hu. destruct (reach_mach PRFC8141Only) as [H1 H2].
  destruct (parse8141_ok _ s prefix nid nss r q f H1 H2 Hu) as (m' & u & Hp & K). exists u. split; [|exact K].
  exists (NewMachine [PRFC8141Only]), m'. auto.
Qed.

(* ---- uniqueness of the decompositions --------------------------------------------------- *)
Lemma app_len_inj {A} (a b c d : list A) : a ++ b = c ++ d -> List.length a = List.length c -> a = c /\ b = d.
Proof.
  revert c. induction a as [|x a IH]; intros [|y c] H Hl; try discriminate Hl; [auto|].
  injection H as -> H. injection Hl as Hl. destruct (IH c H Hl) as [-> ->]. auto.
Qed.
Lemma urn_word_app a b c d : urn_word a -> urn_word c -> a ++ b = c ++ d -> a = c /\ b = d.
Proof.
  intros Ha Hc H. apply app_len_inj; [exact H|]. apply urn_word_len in Ha, Hc. unfold zlen in *. lia.
Qed.

Lemma urn2141_unique s p n x p' n' x' :
  urn2141 alnum s p n x -> urn2141 alnum s p' n' x' -> p = p' /\ n = n' /\ x = x'.
Proof.
  intros (-> & Hp & (_ & _ & Hn & _) & _) (H & Hp' & (_ & _ & Hn' & _) & _).
  destruct (urn_word_app _ _ _ _ Hp Hp' H) as [<- H']. injection H' as H'. split; [reflexivity|].
  clear H. revert n' H' Hn'. induction n as [|c n IH]; intros [|c' n'] H' Hn'; cbn [app] in H'.
  - injection H' as <-. auto.
  - injection H' as <- _. discriminate Hn'.
  - injection H' as -> _. discriminate Hn.
  - injection H' as -> H'. cbn [forallb] in *. apply andb_prop in Hn, Hn'.
    destruct (IH (proj2 Hn) n' H' (proj2 Hn')) as [-> ->]. auto.
Qed.

Lemma urn8141_unique s p n x r q f p' n' x' r' q' f' :
  urn8141 s p n x r q f -> urn8141 s p' n' x' r' q' f' ->
  p = p' /\ n = n' /\ x = x' /\ r = r' /\ q = q' /\ f = f'.
Proof.
  intros H H'.
  pose proof (ref8141_complete PRFC8141Only _ _ _ _ _ _ _ H (or_introl eq_refl)) as K.
  rewrite (ref8141_complete PRFC8141Only _ _ _ _ _ _ _ H' (or_introl eq_refl)) in K.
  injection K as _ <- <- _ Hr Hq Hf.
  destruct H as (Hs & Hp & _ & _ & H1 & H2 & H3). destruct H' as (Hs' & Hp' & _ & _ & H1' & H2' & H3').
  rewrite Hs in Hs'. destruct (urn_word_app _ _ _ _ Hp Hp' Hs') as [<- Ht].
  apply app_inv_head in Ht. apply app_inv_head in Ht. apply app_inv_head in Ht. apply app_inv_head in Ht.
  assert (r = r').
  { destruct r as [r|], r' as [r'|]; cbn in *; subst; try reflexivity;
     [destruct H1 as [[_ (? & ? & HH & _)] _]; discriminate HH|destruct H1' as [[_ (? & ? & HH & _)] _]; discriminate HH]. }
  assert (q = q').
  { destruct q as [q|], q' as [q'|]; cbn in *; subst; try reflexivity;
     [destruct H2 as [[_ (? & ? & HH & _)] _]; discriminate HH|destruct H2' as [[_ (? & ? & HH & _)] _]; discriminate HH]. }
  subst r' q'. unfold tail8141 in Ht. apply app_inv_head in Ht. apply app_inv_head in Ht.
  repeat split. destruct f as [f|], f' as [f'|]; cbn in *; subst; try reflexivity; discriminate Ht.
Qed.

Lemma urnscim_unique s p t n o p' t' n' o' :
  urnscim s p t n o -> urnscim s p' t' n' o' -> p = p' /\ t = t' /\ n = n' /\ o = o'.
Proof.
  intros H H'.
  pose proof (ref_scim_complete PRFC7643Only _ _ _ _ _ H) as K.
  rewrite (ref_scim_complete PRFC7643Only _ _ _ _ _ H') in K. unfold resscim in K. injection K as <- Hss _ Ht <- <-.
  repeat split. unfold scim_ss in Hss. apply app_inv_tail in Hss. auto.
Qed.

(* ---- running examples ------------------------------------------------------------------ *)
(* the URN a fresh machine of the mode returns for s *)
Definition demo (mode : Z) (s : bytes) : URN :=
  match machine_Parse (NewMachine [mode]) s with Ret (_, Some u, None) => u | _ => zeroURN end.
Lemma demo_parsed mode s :
  match machine_Parse (NewMachine [mode]) s with Ret (_, Some _, None) => true | _ => false end = true ->
  parsed mode s (demo mode s).
Proof.
  unfold demo. destruct (machine_Parse (NewMachine [mode]) s) as [[[m' [u|]] [e|]]| |] eqn:E; try discriminate.
  intros _. exists (NewMachine [mode]), m'. split; [apply reach_new|]. split; [reflexivity|exact E].
Qed.
