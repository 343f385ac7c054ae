(* machine.go.rl as text, and what is proved of its transcription. *)
From Verif Require Import GoAst.
From Verif Require Import GoBase RlSrc RlParse RlText.
From Verif Require MachineSyntax MachineTables Machine RagelSem RagelRl SrcRender GoParse GoProg GoPackage Tools.
From Verif Require Import GoSem SrcSim Api PropsSrc PropsRagel2.
Import MachineSyntax MachineTables Machine RagelRl SrcRender.
Local Open Scope string_scope.
Local Open Scope list_scope.

(* ---- reading ---------------------------------------------------------------------------------- *)
(* the definitions of the text in their order, as they are in RagelRl.v *)
Definition rl_defs : list (string * rgx) :=
  [("main", main); ("fail", fail); ("rfc8141_only", rfc8141_only); ("nid_rfc8141_not_urn", nid_rfc8141_not_urn);
   ("informal_id", informal_id); ("nid_rfc8141", nid_rfc8141); ("nss_rfc8141", nss_rfc8141); ("f_component", f_component);
   ("fragment", fragment); ("rq_components", rq_components); ("q_component", q_component); ("q_start", q_start);
   ("r_component", r_component); ("r_start", r_start); ("component", component); ("pchar", pchar); ("scim_only", scim_only);
   ("scim_type", scim_type); ("scim_name", scim_name); ("scim_other", scim_other); ("scim_nid", scim_nid); ("urn", urn);
   ("nid_not_urn", nid_not_urn); ("nss", nss); ("sss", sss); ("hex", hex); ("nid", nid); ("pre", pre)].
Definition rl_insts : list (string * rgx) :=
  [("scim_only", scim_only); ("rfc8141_only", rfc8141_only); ("fail", fail); ("main", main)].
Definition actions_of (o : option (spec (A := action))) := match o with Some s => sp_actions s | None => [] end.
Definition rl_actions : list (string * list stm) :=
  Eval vm_compute in actions_of rl_spec.
Definition rl_read : spec (A := action) := mkSpec "urn" rl_actions rl_defs rl_insts.

Lemma read : read_rl named inline rl_depth machine_go_rl = Some rl_read.
Proof. vm_compute. reflexivity. Qed.

Lemma all_in a : In a all_actions.
Proof. destruct a; cbn; tauto. Qed.
Lemma written : directives machine_go_rl = map (fun s => B s ++ [x0a])
  ["%% write data noerror noprefix;"; "%% access m.;"; "%% variable p m.p;"; "%% variable pe m.pe;"; "%% variable eof m.eof;";
   "%% variable data m.data;"; "%% write exec;"].
Proof. vm_compute. reflexivity. Qed.
Lemma names a : a <> a_goto_main -> named (act_name a) = Some a.
Proof. destruct a; intros H; try reflexivity. destruct (H eq_refl). Qed.
Lemma text_body a mn fl : exists l, code_text rl_read a = Some l /\ flat_map (expand (entries mn fl)) l = map text_of (body mn fl a) /\
  t_code rl_read mn fl a = Some (body mn fl a).
Proof.
  destruct a; eexists; (split; [reflexivity|split; [reflexivity|]]); destruct mn, fl; vm_compute; reflexivity.
Qed.
Lemma body_same mn fl a : t_body rl_read mn fl a = body mn fl a.
Proof. destruct (text_body a mn fl) as (l & _ & _ & E). unfold t_body. rewrite E. reflexivity. Qed.
Lemma nodes_ext (f g : action -> list stmt) k m : (forall a, f a = g a) -> RagelSem.nodes action_beq f k m = RagelSem.nodes action_beq g k m.
Proof.
  intros E. apply map_ext. intros s. unfold RagelSem.node_of. assert (forall l, RagelSem.code action_beq f l = RagelSem.code action_beq g l) as C.
  { intros l. unfold RagelSem.code. apply flat_map_ext. exact E. }
  rewrite !C. f_equal. apply map_ext. intros [|t ts]; rewrite ?C; reflexivity.
Qed.

Lemma nodes4 (f g : action -> list stmt) e k1 m1 k2 m2 k3 m3 k4 m4 : (forall a, f a = g a) ->
  let n h k m := RagelSem.nodes action_beq h k m in
  e :: n f k1 m1 ++ n f k2 m2 ++ n f k3 m3 ++ n f k4 m4 = e :: n g k1 m1 ++ n g k2 m2 ++ n g k3 m3 ++ n g k4 m4.
Proof. intros E n. unfold n. rewrite !(nodes_ext f g _ _ E). reflexivity. Qed.

(* ---- the machine of the text ---------------------------------------------------------------- *)
Lemma i_main : inst rl_read "main" = main. Proof. reflexivity. Qed.
Lemma i_scim : inst rl_read "scim_only" = scim_only. Proof. reflexivity. Qed.
Lemma i_8141 : inst rl_read "rfc8141_only" = rfc8141_only. Proof. reflexivity. Qed.
Lemma i_fail : inst rl_read "fail" = fail. Proof. reflexivity. Qed.
Lemma t_blocks_rl : t_blocks rl_read = rl_blocks.
Proof. unfold t_blocks, rl_blocks. cbn [map]. rewrite i_main, i_scim, i_8141, i_fail. reflexivity. Qed.
Lemma fsm_main : t_fsm rl_read "main" = f_main.
Proof. unfold t_fsm, f_main, rl_sigma. rewrite t_blocks_rl, i_main. reflexivity. Qed.
Lemma fsm_scim : t_fsm rl_read "scim_only" = f_scim.
Proof. unfold t_fsm, f_scim, rl_sigma. rewrite t_blocks_rl, i_scim. reflexivity. Qed.
Lemma fsm_8141 : t_fsm rl_read "rfc8141_only" = f_8141.
Proof. unfold t_fsm, f_8141, rl_sigma. rewrite t_blocks_rl, i_8141. reflexivity. Qed.
Lemma fsm_fail : t_fsm rl_read "fail" = f_fail.
Proof. unfold t_fsm, f_fail, rl_sigma. rewrite t_blocks_rl, i_fail. reflexivity. Qed.
Lemma at_ x : t_at rl_read x =
  if String.eqb x "main" then at_main else if String.eqb x "scim_only" then at_scim else if String.eqb x "rfc8141_only" then at_8141 else at_fail.
Proof. unfold t_at, at_fail, at_8141, at_scim, at_main. rewrite fsm_main, fsm_scim, fsm_8141. reflexivity. Qed.
Lemma at_m : t_at rl_read "main" = at_main. Proof. rewrite at_. exact eq_refl. Qed.
Lemma at_s : t_at rl_read "scim_only" = at_scim.
Proof. rewrite at_. change ("scim_only" =? "main") with false. change ("scim_only" =? "scim_only") with true. cbv iota. exact eq_refl. Qed.
Lemma at_8 : t_at rl_read "rfc8141_only" = at_8141.
Proof.
  rewrite at_. change ("rfc8141_only" =? "main") with false. change ("rfc8141_only" =? "scim_only") with false.
  change ("rfc8141_only" =? "rfc8141_only") with true. cbv iota. exact eq_refl.
Qed.
Lemma at_f : t_at rl_read "fail" = at_fail.
Proof.
  rewrite at_. change ("fail" =? "main") with false. change ("fail" =? "scim_only") with false.
  change ("fail" =? "rfc8141_only") with false. cbv iota. exact eq_refl.
Qed.
Lemma t_nodes_rl : t_nodes rl_read = rl_nodes.
Proof.
  unfold t_nodes, rl_nodes, rl_sigma. cbv beta zeta.
  refine (eq_trans (nodes4 (t_body rl_read (t_at rl_read "main") (t_at rl_read "fail")) (body (t_at rl_read "main") (t_at rl_read "fail"))
    _ _ _ _ _ _ _ _ _ (body_same _ _)) _).
  rewrite at_m, at_s, at_8, at_f, fsm_main, fsm_scim, fsm_8141, fsm_fail, t_blocks_rl.
  exact eq_refl.
Qed.
Lemma t_Parse_at x mode s : t_Parse rl_read x mode s = spec_Parse (t_at rl_read x) mode s.
Proof. unfold t_Parse, spec_Parse, rl_block, rl_failed. rewrite t_nodes_rl, t_blocks_rl, at_f. exact eq_refl. Qed.
Lemma t_Parse_spec mode s : t_Parse rl_read "main" mode s = spec_Parse at_main mode s /\
  t_Parse rl_read "scim_only" mode s = spec_Parse at_scim mode s /\
  t_Parse rl_read "rfc8141_only" mode s = spec_Parse at_8141 mode s.
Proof. split; [|split]; rewrite t_Parse_at; [rewrite at_m|rewrite at_s|rewrite at_8]; exact eq_refl. Qed.

(* the state a machine starts in, and the machine of the text it is the entry of *)
Definition entry_name : list (N * string) := [(en_main, "main"); (en_scim_only, "scim_only"); (en_rfc8141_only, "rfc8141_only")].
Lemma parse_text m s x m' u e : In (m_startParsingAt m, x) entry_name -> machine_Parse m s = Ret (m', u, e) ->
  t_Parse rl_read x (m_parsingMode m) s = Ret (m_data m', u, e).
Proof.
  intros I P. destruct (t_Parse_spec (m_parsingMode m) s) as (T1 & T2 & T3). unfold spec_Parse in T1, T2, T3.
  pose proof (generic_parse rl_block rl_sigma rl_nodes go_of rl_failed at_main at_scim at_8141 at_fail all_ok_true m s) as G.
  destruct I as [E|[E|[E|[]]]]; apply pair_equal_spec in E; destruct E as [E <-].
  - rewrite T1. apply (G at_main m' u e); [rewrite <- E; right; left; exact eq_refl|exact P].
  - rewrite T2. apply (G at_scim m' u e); [rewrite <- E; right; right; left; exact eq_refl|exact P].
  - rewrite T3. apply (G at_8141 m' u e); [rewrite <- E; right; right; right; left; exact eq_refl|exact P].
Qed.

Theorem texts : forall uni newer n d h lm dv0 dv m input x, reachable m ->
  In (m_startParsingAt m, x) entry_name ->
  package_vars h -> 2 <= lm -> ~ In 0 (arr dv) -> ~ In 1 (arr dv) ->
  get h lm = Some (Cell (mval dv0 m)) -> data_at h dv input ->
  4 * List.length input + 16 <= n -> 2 <= d ->
  exists w u e h' r,
    t_Parse rl_read x (m_parsingMode m) input = Ret (w, u, e) /\
    GoPackage.run uni newer n d "machine.Parse" [VPtr lm; dv] h = GRet (h', VTuple [r; verr e]) /\
    data_at h' dv w /\ kept h h' [lm] /\ result h h' r u.
Proof.
  intros uni newer n d h lm dv0 dv m input x R I PV L A0 A1 G D N_ D_.
  destruct (parse_text_call uni newer n d h lm dv0 dv m input R PV L A0 A1 G D N_ D_) as (m' & u & e & h' & r & P & K & _ & GD & KP & RS).
  exists (m_data m'), u, e, h', r. split; [exact (parse_text m input x m' u e I P)|]. auto.
Qed.

Lemma parse_read sp : read_rl named inline rl_depth machine_go_rl = Some sp ->
  forall m s x m' u e, In (m_startParsingAt m, x) entry_name -> machine_Parse m s = Ret (m', u, e) ->
  t_Parse sp x (m_parsingMode m) s = Ret (m_data m', u, e).
Proof. intros R. rewrite read in R. apply (f_equal (fun o => match o with Some s => s | None => sp end)) in R. cbv beta iota in R. rewrite <- R. exact parse_text. Qed.
Lemma texts_read sp : read_rl named inline rl_depth machine_go_rl = Some sp ->
  forall uni newer n d h lm dv0 dv m input x, reachable m ->
  In (m_startParsingAt m, x) entry_name ->
  package_vars h -> 2 <= lm -> ~ In 0 (arr dv) -> ~ In 1 (arr dv) ->
  get h lm = Some (Cell (mval dv0 m)) -> data_at h dv input ->
  4 * List.length input + 16 <= n -> 2 <= d ->
  exists w u e h' r,
    t_Parse sp x (m_parsingMode m) input = Ret (w, u, e) /\
    GoPackage.run uni newer n d "machine.Parse" [VPtr lm; dv] h = GRet (h', VTuple [r; verr e]) /\
    data_at h' dv w /\ kept h h' [lm] /\ result h h' r u.
Proof. intros R. rewrite read in R. apply (f_equal (fun o => match o with Some s => s | None => sp end)) in R. cbv beta iota in R. rewrite <- R. exact texts. Qed.
