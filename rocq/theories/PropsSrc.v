(* Parse as written in machine.go and Parse as modelled. *)
From Coq Require Import Lia.
From Verif Require Import GoAst.
From Verif Require Import GoBase MachineSyntax MachineTables Machine.
From Verif Require Import GoSrc GoProg.
From Verif Require GoParse.
From Verif Require GoPackage.
From Verif Require Import GoSem SrcRender SrcSim SrcFacts SrcSim4 SrcSim5 Api.
Import ListNotations.
Local Open Scope string_scope.
Local Open Scope list_scope.

Lemma files : GoParse.parse_file GoProg.depth type_go = Some ("scimschema", type_decls) /\
  GoParse.parse_file GoProg.depth kind_go = Some ("urn", kind_decls) /\ GoParse.parse_file GoProg.depth parsing_mode_go = Some ("urn", mode_decls) /\
  GoParse.parse_file GoProg.depth scim_go = Some ("urn", scim_decls) /\ GoParse.parse_file GoProg.depth urn_go = Some ("urn", urn_decls) /\
  GoParse.parse_file GoProg.depth urn8141_go = Some ("urn", urn8141_decls) /\ GoParse.parse_file GoProg.depth options_go = Some ("urn", options_decls) /\
  GoParse.parse_file GoProg.depth machine_go = Some ("urn", machine_decls) /\
  GoPackage.loading = GRet (GoPackage.package, GoPackage.package_heap).
Proof.
  exact (conj type_text (conj kind_text (conj mode_text (conj scim_text (conj urn_text (conj urn8141_text (conj options_text
    (conj machine_text GoPackage.package_loaded)))))))).
Qed.

(* what stays in place: every object of h but those at but *)
Definition kept (h h' : heap) (but : list loc) : Prop :=
  forall l o, get h l = Some o -> ~ In l but -> get h' l = Some o.
(* the locations a value refers to *)
Definition arr (v : val) : list loc := match v with VSlice l _ _ => [l] | _ => [] end.
(* v is what Parse returns for u: nil, or a pointer to objects that were not there in h *)
Definition result (h h' : heap) (v : val) (u : option URN) : Prop :=
  match u with
  | None => v = VNil "URN"
  | Some u => exists lu sv lv, v = VPtr lu /\ get h lu = None /\ get h' lu = Some (Cell (uval sv lv u)) /\
      is_scim h' sv (u_scim u) /\ is_ints h' lv (u_tolower u) /\ (forall l, sv = VPtr l -> get h l = None)
  end.
(* the package variables are where loading left them *)
Definition package_vars (h : heap) : Prop := exists k, h = GoPackage.package_heap ++ k.

Lemma vars_at h : package_vars h -> get h 0 = Some (Arr "byte" (table_bytes to_state_actions)) /\ get h 1 = Some (Arr "byte" (table_bytes eof_actions)).
Proof. intros (k & ->). destruct tables as (-> & _). split; reflexivity. Qed.
Lemma at_loc_arr v l : at_loc v l <-> In l (arr v).
Proof. destruct v; cbn; tauto. Qed.
Lemma ext_errorf uni newer f args h : GoPackage.ext uni newer "fmt.Errorf" (VStr f :: args) h = GRet (h, VErr f args).
Proof. reflexivity. Qed.

Lemma kept_all h h' lm dv w : (forall l o, get h l = Some o -> l <> lm -> ~ at_loc dv l -> get h' l = Some o) ->
  around h h' dv -> data_at h dv w -> data_at h' dv w -> kept h h' [lm].
Proof.
  intros KP AR D D' l o GL N. destruct (in_dec PeanoNat.Nat.eq_dec l (arr dv)) as [I|I].
  - rewrite (around_same _ _ _ _ D D' AR); [exact GL|]. apply at_loc_arr, I.
  - apply KP; [exact GL| |rewrite at_loc_arr; exact I]. intros ->. apply N. left. reflexivity.
Qed.
Theorem parse_text_call : forall uni newer n d h lm dv0 dv m input, reachable m ->
  package_vars h -> 2 <= lm -> ~ In 0 (arr dv) -> ~ In 1 (arr dv) ->
  get h lm = Some (Cell (mval dv0 m)) -> data_at h dv input ->
  4 * List.length input + 16 <= n -> 2 <= d ->
  exists m' u e h' r,
    machine_Parse m input = Ret (m', u, e) /\
    GoPackage.run uni newer n d "machine.Parse" [VPtr lm; dv] h = GRet (h', VTuple [r; verr e]) /\
    get h' lm = Some (Cell (mval dv m')) /\ data_at h' dv (m_data m') /\
    kept h h' [lm] /\ result h h' r u.
Proof.
  intros uni newer n d h lm dv0 dv m input HR V L A0 A1 G D F FD.
  destruct (parse_reach m input HR) as (m' & u & e & Q & MD & _). destruct (vars_at h V) as (T0 & T1).
  destruct d as [|[|d]]; [lia|lia|].
  destruct (call_parse (GoPackage.ext uni newer) (ext_errorf uni newer) n d h lm dv0 dv m input m' u e T0 T1) as (h' & r & K & GM & GD & KP & AR & RS); auto.
  { rewrite !at_loc_arr. repeat split; auto; lia. }
  exists m', u, e, h', r. split; [exact Q|]. split; [exact K|]. split; [exact GM|]. split; [exact GD|]. split.
  - eapply kept_all; [exact KP|exact AR|exact D|]. rewrite <- MD. exact GD.
  - destruct u; exact RS.
Qed.
