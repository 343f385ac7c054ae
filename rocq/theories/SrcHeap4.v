(* The operations that make and write objects. *)
From Coq Require Import Lia.
From Verif Require Import GoAst.
From Verif Require Import GoBase MachineSyntax MachineTables Machine Urn Json.
From Verif Require GoPackage.
From Verif Require Heap.
From Verif Require Import GoSem SrcRender SrcSim SrcSim2 SrcFacts SrcSim4 SrcSim5 Api PropsSrc SrcApi SrcApi2 SrcApi3 SrcApi4 SrcApi5 SrcHeap SrcHeap2 SrcHeap3.
Import ListNotations.
Local Open Scope string_scope.
Local Open Scope list_scope.

Section Ops.
Variable uni : bytes -> bytes.
Variable newer : bool.
Variable n d : nat.
Local Notation D := (S (S (S (S (S (S d)))))).
Local Notation step_ok := (step_ok uni newer n d).

Ltac opn := intros r H h W g R V FU CA; inversion CA; subst; clear CA; cbn [Heap.exec Heap.valid needs] in *.
Ltac onp p a c N V := destruct p as [a|]; cbn [Heap.on]; [destruct (held_nth _ _ V) as (c & N); rewrite N|].

Lemma Parse_ret s ks : exists w u ok, Parse s ks = Ret (w, u, ok).
Proof.
  destruct (parse_reach (NewMachine ks) s (reach_new ks)) as (m' & u & e & Q & _). unfold Parse. rewrite Q. cbn [bind]. destruct e; eauto.
Qed.

Lemma s_Parse s ks : step_ok (Heap.Parses s ks).
Proof.
  opn. destruct (Parse_ret s ks) as (w & u & ok & P). rewrite P. cbn [bind].
  match goal with I : input h dv s |- _ => pose proof I as (DA & A0 & A1) end.
  destruct (call_Parse uni newer n (S (S d)) h dv vs ks s w u ok) as (h' & v & K & _ & KP & RS); auto; [apply R|].
  assert (R' : rel r H h') by (eapply rel_ext; [exact R|exact KP]).
  pose proof (new_urn_rel r H h h' v u R' (rel_old _ _ _ R) (result_made _ _ _ _ RS)) as NU.
  destruct (Heap.new_urn H u) as (H1 & p). destruct NU as (r' & R1 & GR & PV & _).
  exists h', (VTuple [v; VBool ok]), r'. split; [exact K|]. split; [exact R1|]. split; [exact GR|]. split; [apply kept_ext, KP|]. cbn [shows]. rewrite PV. reflexivity.
Qed.
Lemma s_New ks : step_ok (Heap.NewMachines ks).
Proof.
  opn. match goal with F : Forall2 (is_opt h) vs ks |- _ => destruct (call_New uni newer n (S (S (S d))) h vs ks F) as (h' & lm & K & FR & G & X) end.
  exists h', (VPtr lm), (add_m r lm). split; [exact K|]. split; [|split; [|split; [apply kept_ext, X|]]].
  - eapply add_m_rel; [eapply rel_ext; eassumption| |apply reach_new|exact G]. apply (rel_old _ _ _ R lm FR).
  - repeat split; try apply pre_refl. apply pre_app.
  - cbn [shows add_m l_m]. destruct R as (_ & _ & _ & _ & _ & EL & _). rewrite <- EL. symmetry. apply pv_last.
Qed.
Lemma s_MParse m s : step_ok (Heap.MParses m s).
Proof.
  opn. match goal with I : input h dv s |- _ => pose proof I as IN; destruct I as (DA & A0 & A1) end. onp m a c NN V; [|reflexivity].
  destruct (at_machine r H h a c R NN) as (l & dv0 & Q & E & G & HR). rewrite E.
  destruct l_MParse as (f & F & B). unfold meth_call. rewrite (meth_ptr _ l "machine" _ "Parse" f _ [dv] h G F B).
  destruct (parse_reach c s HR) as (m' & u & e & MP & MD & _). rewrite MP. cbn [bind].
  assert (V0 := R). destruct V0 as ((V0 & V1) & _).
  destruct (call_parse (GoPackage.ext uni newer) (ext_errorf uni newer) n (S (S (S (S d)))) h l dv0 dv c s m' u e) as (h' & v & K & GM & GD & KP & AR & RS); auto.
  { rewrite !at_loc_arr. repeat split; auto; intros Z; subst l; congruence. }
  assert (CB : cells_but l h h').
  { intros l' x NE G'. apply KP; [exact G'|exact NE|]. rewrite at_loc_arr. destruct DA as [(_ & ->)|(la & q & b & -> & GA)]; cbn; [tauto|]. intros [<-|[]]. congruence. }
  assert (V' : vars h').
  { split; (apply KP; [assumption|intros Z; subst l; congruence|rewrite at_loc_arr; assumption]). }
  assert (R1 : rel r (Heap.put_machine H a m') h').
  { eapply put_machine_rel; [exact R|exact Q|exact CB|exact V'|eapply reach_parse; eassumption|exact GM|exact V]. }
  pose proof (new_urn_rel r _ h h' v u R1 (rel_old _ _ _ R)) as NU.
  destruct (Heap.new_urn (Heap.put_machine H a m') u) as (H1 & p). destruct NU as (r' & R2 & GR & PV & _).
  { apply result_made. destruct u; exact RS. }
  exists h', (VTuple [v; verr e]), r'. split; [exact K|]. split; [exact R2|]. split; [exact GR|]. split.
  - cbn [at_]. rewrite Q. eapply kept_all; [exact KP|exact AR|exact DA|]. rewrite <- MD. exact GD.
  - cbn [shows]. rewrite PV. reflexivity.
Qed.

(* ---- UnmarshalJSON ---------------------------------------------------------------------------------------- *)
Lemma meets_fails r h o W H e v g : rel r H h -> fails h g v -> v = vjerr e -> meets r h o W (Ret (H, Heap.AJerr e)) g.
Proof. intros R (h' & -> & X) ->. eapply meets_pure; [exact R|exact X|reflexivity]. Qed.
Lemma kept_cells l h h' : kept h h' [l] -> cells_but l h h'.
Proof. intros K l' v NE G. apply K; [exact G|]. cbn. intuition. Qed.
Lemma kept_vars l v h h' : kept h h' [l] -> get h l = Some (Cell v) -> vars h -> vars h'.
Proof. intros K G (V0 & V1). split; apply K; auto; cbn; intros [Z|[]]; subst; congruence. Qed.

(* the heap h', with the old value at l *)
Lemma restored r H h h' l v : rel r H h -> kept h h' [l] -> get h l = Some (Cell v) -> vars h' ->
  (exists v', get h' l = Some (Cell v')) ->
  let hm := set h' l (Cell v) in rel r H hm /\ cells_but l hm h' /\ (forall l' o, l' <> l -> get h' l' = Some o -> get hm l' = Some o).
Proof.
  intros R K G V' (v' & G') hm.
  assert (MB : forall l' o, l' <> l -> get h' l' = Some o -> get hm l' = Some o) by (intros l' o NE GL; apply get_set_ne; assumption).
  split; [|split; [|exact MB]].
  - eapply rel_cells; [exact R| |].
    + intros l' x GL. destruct (PeanoNat.Nat.eq_dec l' l) as [->|NE].
      * rewrite G in GL. injection GL as <-. eapply get_set, G'.
      * apply MB; [exact NE|]. apply K; [exact GL|]. cbn. intuition.
    + destruct V' as (V0 & V1). split; apply MB; auto; intros Z; subst l; congruence.
  - intros l' x NE GL. destruct (get h' l') as [o|] eqn:Q.
    + rewrite (MB l' o NE Q) in GL. exact GL.
    + unfold hm, get, set in *. assert (List.length h' <= l') by (apply nth_error_None, Q).
      assert (L : List.length (set_nth l (Cell v) h') = List.length h') by apply set_len.
      assert (nth_error (set_nth l (Cell v) h') l' = None) by (apply nth_error_None; lia). congruence.
Qed.
Lemma s_Unmarshal p b : step_ok (Heap.Unmarshals p b).
Proof.
  opn. match goal with I : data_at h dv b |- _ => rename I into DA end.
  assert (E : exists uv, meth_call uni newer n D (pv "URN" (l_u r) p) "UnmarshalJSON" [dv] h = call package (GoPackage.ext uni newer) n D (CKey "URN.UnmarshalJSON") [uv; dv] false h /\
    match p with None => uv = VNil "URN" | Some a => exists l c, uv = VPtr l /\ nth_error (l_u r) a = Some l /\ get h l = Some (Cell c) end).
  { destruct p as [a|].
    - destruct (held_nth _ _ V) as (c & NN). destruct (at_urn r H h a c R NN) as (l & lv & Q & -> & G & _). exists (VPtr l). split; [|eauto].
      exact (meth_ptr _ l "URN" _ "UnmarshalJSON" b_Unmarshal _ [dv] h G l_Unmarshal eq_refl).
    - exists (VNil "URN"). split; [|reflexivity]. exact (meth_nil _ "URN" "UnmarshalJSON" b_Unmarshal _ [dv] h eq_refl l_Unmarshal eq_refl). }
  destruct E as (uv & -> & UV).
  pose proof (call_Unmarshal uni newer n (S d) h uv dv b (proj1 R) DA) as K. cbv zeta in K.
  destruct (json_Unmarshal b) as [str|] eqn:J.
  2:{ eapply meets_fails; [exact R|apply K|reflexivity]; [|exact I]. destruct p as [a|]; [destruct UV as (l & c & -> & _ & G); eauto|auto]. }
  destruct (Parse_ret str []) as (w & value & ok & P). rewrite P in K |- *. cbn [bind].
  specialize (K (match p as p return match p with None => uv = VNil "URN" | Some a => exists l c, uv = VPtr l /\ nth_error (l_u r) a = Some l /\ get h l = Some (Cell c) end -> _ with
    | Some a => fun X => match X with ex_intro _ l (ex_intro _ c (conj A (conj _ B))) => or_intror (ex_intro _ l (ex_intro _ c (conj A B))) end | None => fun X => or_introl X end UV) FU).
  destruct ok; cbn [negb].
  - destruct value as [u|]; [|exact K]. destruct p as [a|]; cbn [Heap.on].
    + destruct UV as (l & c & -> & Q & G). destruct (held_nth _ _ V) as (c0 & NN). rewrite NN.
      destruct K as (h' & sv & lv & K & KP & GU & IS & NS).
      assert (exists sv0 lv0 u0, get h l = Some (Cell (uval sv0 lv0 u0))) as (sv0 & lv0 & u0 & G0).
      { destruct (at_urn r H h a c0 R NN) as (l0 & lv0 & Q0 & _ & G0 & _). rewrite Q in Q0. injection Q0 as <-. eauto. }
      assert (V' : vars h') by (eapply kept_vars; [exact KP|exact G|apply R]).
      destruct (restored r H h h' l (uval sv0 lv0 u0) R KP G0 V' (ex_intro _ _ GU)) as (Rm & BM & MB).
      assert (ISm : is_scim (set h' l (Cell (uval sv0 lv0 u0))) sv (u_scim u)).
      { destruct (u_scim u) as [sc|]; [|exact IS]. destruct IS as (ls & -> & GS). exists ls. split; [reflexivity|]. apply MB; [|exact GS].
        intros ->. specialize (NS l eq_refl). congruence. }
      pose proof (new_cell_rel r H h _ sv u Rm (rel_old _ _ _ R) ISm NS) as NC.
      destruct (Heap.new_cell H u) as (H1 & c1). destruct NC as (r1 & R1 & GR & LU & _ & HU & _ & HD & PV & UE).
      exists h', (VNil ""), r1. split; [exact K|]. split; [|split; [exact GR|split; [|reflexivity]]].
      * eapply put_urn_rel; [exact R1|rewrite LU; exact Q|exact BM|exact V'|exact HD| |rewrite HU; exact V]. rewrite PV, UE. exact GU.
      * cbn [at_]. rewrite Q. exact KP.
    + subst uv. exact K.
  - assert (KF : fails h (call package (GoPackage.ext uni newer) n D (CKey "URN.UnmarshalJSON") [uv; dv] false h) (errorf_of "invalid URN: %s" str)) by (destruct value; exact K).
    eapply meets_fails; [exact R|exact KF|reflexivity].
Qed.

Lemma s_EUnmarshal p b : step_ok (Heap.EUnmarshals p b).
Proof.
  opn. match goal with I : data_at h dv b |- _ => rename I into DA end.
  assert (E : exists uv, meth_call uni newer n D (pv "URN8141" (l_e r) p) "UnmarshalJSON" [dv] h = call package (GoPackage.ext uni newer) n D (CKey "URN8141.UnmarshalJSON") [uv; dv] false h /\
    match p with None => uv = VNil "URN8141" | Some a => exists l c, uv = VPtr l /\ nth_error (l_e r) a = Some l /\ get h l = Some (Cell c) end).
  { destruct p as [a|].
    - destruct (held_nth _ _ V) as (c & NN). destruct (at_8141 r H h a c R NN) as (l & Q & -> & G & _). exists (VPtr l). split; [|eauto].
      exact (meth_ptr _ l "URN8141" _ "UnmarshalJSON" b_EUnmarshal _ [dv] h G l_EUnmarshal eq_refl).
    - exists (VNil "URN8141"). split; [|reflexivity]. exact (meth_nil _ "URN8141" "UnmarshalJSON" b_EUnmarshal _ [dv] h eq_refl l_EUnmarshal eq_refl). }
  destruct E as (uv & -> & UV).
  pose proof (call_EUnmarshal uni newer n (S d) h uv dv b (proj1 R) DA) as K. cbv zeta in K.
  assert (UV' : uv = VNil "URN8141" \/ exists l c, uv = VPtr l /\ get h l = Some (Cell c)).
  { destruct p as [a|]; [destruct UV as (l & c & -> & _ & G); eauto|auto]. }
  specialize (K UV').
  destruct (json_Unmarshal b) as [str|] eqn:J; [|eapply meets_fails; [exact R|apply K, I|reflexivity]].
  specialize (K FU). change (modes "RFC8141Only") with [PRFC8141Only] in K.
  destruct (Parse_ret str [PRFC8141Only]) as (w & value & ok & P). rewrite P in K |- *. cbn [bind].
  destruct ok; cbn [negb] in K |- *; [|eapply meets_fails; [exact R|exact K|reflexivity]].
  destruct p as [a|]; cbn [Heap.on]; [|subst uv; exact K].
  destruct UV as (l & c & -> & Q & G). destruct (held_nth _ _ V) as (c0 & NN). rewrite NN.
  destruct K as (h' & v & K & KP & GU & RS).
  assert (V' : vars h') by (eapply kept_vars; [exact KP|exact G|apply R]).
  destruct (restored r H h h' l c R KP G V' (ex_intro _ _ GU)) as (Rm & BM & MB).
  assert (MD : made h (set h' l (Cell c)) v value).
  { apply result_made in RS. destruct value as [u|]; [|exact RS]. destruct RS as (lu & sv & lv & -> & F & GR & IS & NS).
    exists lu, sv, lv. split; [reflexivity|]. split; [exact F|]. split; [apply MB; [congruence|exact GR]|]. split; [|exact NS].
    destruct (u_scim u) as [sc|]; [|exact IS]. destruct IS as (ls & -> & GS). exists ls. split; [reflexivity|]. apply MB; [|exact GS].
    intros ->. specialize (NS l eq_refl). congruence. }
  pose proof (new_urn_rel r H h _ v value Rm (rel_old _ _ _ R) MD) as NU.
  destruct (Heap.new_urn H value) as (H1 & q). destruct NU as (r1 & R1 & GR & PV & LE & HE & HD).
  exists h', (VNil ""), r1. split; [exact K|]. split; [|split; [exact GR|split; [|reflexivity]]].
  - eapply put_8141_rel; [exact R1|rewrite LE; exact Q|exact BM|exact V'|exact HD| |rewrite HE; exact V]. rewrite <- PV. exact GU.
  - cbn [at_]. rewrite Q. exact KP.
Qed.
Lemma s_SUnmarshal p b : step_ok (Heap.SUnmarshals p b).
Proof.
  opn. match goal with I : data_at h dv b |- _ => rename I into DA end.
  assert (E : exists uv, meth_call uni newer n D (pv "SCIM" (l_s r) p) "UnmarshalJSON" [dv] h = call package (GoPackage.ext uni newer) n D (CKey "SCIM.UnmarshalJSON") [uv; dv] false h /\
    match p with None => uv = VNil "SCIM" | Some a => exists l c, uv = VPtr l /\ nth_error (l_s r) a = Some l /\ get h l = Some (Cell c) end).
  { destruct p as [a|].
    - destruct (held_nth _ _ V) as (c & NN). destruct (at_scim r H h a c R NN) as (l & Q & -> & G). exists (VPtr l). split; [|eauto].
      exact (meth_ptr _ l "SCIM" _ "UnmarshalJSON" b_SUnmarshal _ [dv] h G l_SUnmarshal eq_refl).
    - exists (VNil "SCIM"). split; [|reflexivity]. exact (meth_nil _ "SCIM" "UnmarshalJSON" b_SUnmarshal _ [dv] h eq_refl l_SUnmarshal eq_refl). }
  destruct E as (uv & -> & UV).
  pose proof (call_SUnmarshal uni newer n (S d) h uv dv b (proj1 R) DA) as K. cbv zeta in K.
  assert (UV' : uv = VNil "SCIM" \/ exists l c, uv = VPtr l /\ get h l = Some (Cell c)).
  { destruct p as [a|]; [destruct UV as (l & c & -> & _ & G); eauto|auto]. }
  specialize (K UV').
  destruct (json_Unmarshal b) as [str|] eqn:J; [|eapply meets_fails; [exact R|apply K, I|reflexivity]].
  specialize (K FU). change (modes "RFC7643Only") with [PRFC7643Only] in K.
  destruct (Parse_ret str [PRFC7643Only]) as (w & value & ok & P). rewrite P in K |- *. cbn [bind].
  destruct ok; cbn [negb] in K |- *; [|eapply meets_fails; [exact R|exact K|reflexivity]].
  destruct value as [u|]; [|exact K].
  destruct (negb (RFC u =? KRFC7643)%Z); [eapply meets_fails; [exact R|exact K|reflexivity]|].
  destruct (URN_SCIM u) as [sc|]; [|exact K].
  destruct p as [a|]; cbn [Heap.on]; [|subst uv; exact K].
  destruct UV as (l & c & -> & Q & G). destruct (held_nth _ _ V) as (c0 & NN). rewrite NN.
  destruct K as (h' & K & KP & GU).
  assert (V' : vars h') by (eapply kept_vars; [exact KP|exact G|apply R]).
  exists h', (VNil ""), r. split; [exact K|]. split; [|split; [apply grows_refl|split; [|reflexivity]]].
  - eapply put_scim_rel; [exact R|exact Q|apply kept_cells, KP|exact V'|exact GU|exact V].
  - cbn [at_]. rewrite Q. exact KP.
Qed.

(* ---- the client's statements -------------------------------------------------------------------------------- *)
Lemma s_NewURN id ss : step_ok (Heap.NewURNs id ss).
Proof.
  opn. unfold new_struct, literal. rewrite z_URN. unfold uval. cbn [gbind].
  set (u0 := mkURN [] id ss [] KNONE None [] [] [] false false []). set (h' := h ++ _).
  assert (X : extends h h') by apply ext_app.
  pose proof (new_urn_rel r H h h' (VPtr (List.length h)) (Some u0) (rel_ext _ _ _ _ R X) (rel_old _ _ _ R)) as NU.
  destruct (Heap.new_urn H (Some u0)) as (H1 & q). destruct NU as (r1 & R1 & GR & PV & _).
  - exists (List.length h), (VNil "SCIM"), (VNil ""). split; [reflexivity|]. split; [apply get_none; lia|]. split; [apply get_last|]. split; [reflexivity|discriminate].
  - exists h', (VPtr (List.length h)), r1. split; [reflexivity|]. split; [exact R1|]. split; [exact GR|]. split; [apply kept_ext, X|exact PV].
Qed.
Lemma kept_set h l o : kept h (set h l o) [l].
Proof. intros l' x G NI. apply get_set_ne; [|exact G]. intros ->. apply NI. left. reflexivity. Qed.
Lemma s_SetID p s : step_ok (Heap.SetIDs p s).
Proof.
  opn. onp p a c NN V; [|reflexivity]. destruct (at_urn r H h a c R NN) as (l & lv & Q & -> & G & HD).
  unfold assigns, stores, store. rewrite G. unfold uval. cbn [gbind]. set (h' := set h l _).
  exists h', (VTuple []), r. split; [reflexivity|]. split; [|split; [apply grows_refl|split; [|reflexivity]]].
  - eapply put_urn_rel; [exact R|exact Q|apply kept_cells, kept_set|eapply vars_set; [apply R|exact G]|exact HD| |exact V]. eapply get_set, G.
  - cbn [at_]. rewrite Q. apply kept_set.
Qed.
Lemma s_SetSS p s : step_ok (Heap.SetSSs p s).
Proof.
  opn. onp p a c NN V; [|reflexivity]. destruct (at_urn r H h a c R NN) as (l & lv & Q & -> & G & HD).
  unfold assigns, stores, store. rewrite G. unfold uval. cbn [gbind]. set (h' := set h l _).
  exists h', (VTuple []), r. split; [reflexivity|]. split; [|split; [apply grows_refl|split; [|reflexivity]]].
  - eapply put_urn_rel; [exact R|exact Q|apply kept_cells, kept_set|eapply vars_set; [apply R|exact G]|exact HD| |exact V]. eapply get_set, G.
  - cbn [at_]. rewrite Q. apply kept_set.
Qed.
Lemma s_CopyURN p q : step_ok (Heap.CopyURNs p q).
Proof.
  opn. destruct V as (V & V'). destruct q as [b|].
  - destruct (held_nth _ _ V') as (c' & NN'). destruct (at_urn r H h b c' R NN') as (l' & lv' & Q' & E' & G' & HD'). rewrite E'. cbn [load]. rewrite G'. cbn [gbind].
    onp p a c NN V; [|reflexivity]. cbn [Heap.on]. rewrite NN'. destruct (at_urn r H h a c R NN) as (l & lv & Q & -> & G & HD). cbn [star].
    unfold assigns, stores, store. rewrite G. cbn [gbind]. set (h' := set h l _).
    exists h', (VTuple []), r. split; [reflexivity|]. split; [|split; [apply grows_refl|split; [|reflexivity]]].
    + eapply put_urn_rel; [exact R|exact Q|apply kept_cells, kept_set|eapply vars_set; [apply R|exact G]|exact HD'| |exact V]. eapply get_set, G.
    + cbn [at_]. rewrite Q. apply kept_set.
  - cbn [pv load gbind]. destruct p as [a|]; cbn [Heap.on]; [|reflexivity]. destruct (nth_error (Heap.h_urns H) a); reflexivity.
Qed.
Lemma z_SCIM : zero 4 package "" (TyName "SCIM") = sval (mkSCIM 0 [] [] 0).
Proof. vm_compute. reflexivity. Qed.
Lemma s_NewSCIM ty name other : step_ok (Heap.NewSCIMs ty name other).
Proof.
  opn. unfold new_struct, literal. rewrite z_SCIM. unfold sval at 1. cbn [gbind].
  set (h' := h ++ _). assert (X : extends h h') by apply ext_app.
  exists h', (VPtr (List.length h)), (add_s r (List.length h)). split; [reflexivity|]. split; [|split; [|split; [apply kept_ext, X|]]].
  - eapply add_s_rel; [eapply rel_ext; eassumption| |apply get_last]. apply (rel_old _ _ _ R). apply get_none. lia.
  - repeat split; try apply pre_refl. apply pre_app.
  - cbn [shows add_s l_s]. destruct R as (_ & _ & (_ & EL & _) & _). rewrite <- EL. symmetry. apply pv_last.
Qed.
Lemma s_SetSCIM t ty name other : step_ok (Heap.SetSCIMs t ty name other).
Proof.
  opn. onp t a c NN V; [|reflexivity]. destruct (at_scim r H h a c R NN) as (l & Q & -> & G).
  unfold assigns, stores, store. rewrite G. unfold sval at 1. cbn [gbind]. erewrite get_set by exact G. cbn [gbind]. rewrite set_set. erewrite get_set by exact G. cbn [gbind]. rewrite set_set. set (h' := set h l _).
  exists h', (VTuple []), r. split; [reflexivity|]. split; [|split; [apply grows_refl|split; [|reflexivity]]].
  - eapply put_scim_rel; [exact R|exact Q|apply kept_cells, kept_set|eapply vars_set; [apply R|exact G]| |exact V]. eapply get_set, G.
  - cbn [at_]. rewrite Q. apply kept_set.
Qed.
Lemma s_CopySCIM p q : step_ok (Heap.CopySCIMs p q).
Proof.
  opn. destruct V as (V & V'). destruct q as [b|].
  - destruct (held_nth _ _ V') as (c' & NN'). destruct (at_scim r H h b c' R NN') as (l' & Q' & E' & G'). rewrite E'. cbn [load]. rewrite G'. cbn [gbind].
    onp p a c NN V; [|reflexivity]. cbn [Heap.on]. rewrite NN'. destruct (at_scim r H h a c R NN) as (l & Q & -> & G). cbn [star].
    unfold assigns, stores, store. rewrite G. cbn [gbind]. set (h' := set h l _).
    exists h', (VTuple []), r. split; [reflexivity|]. split; [|split; [apply grows_refl|split; [|reflexivity]]].
    + eapply put_scim_rel; [exact R|exact Q|apply kept_cells, kept_set|eapply vars_set; [apply R|exact G]| |exact V]. eapply get_set, G.
    + cbn [at_]. rewrite Q. apply kept_set.
  - cbn [pv load gbind]. destruct p as [a|]; cbn [Heap.on]; [|reflexivity]. destruct (nth_error (Heap.h_scims H) a); reflexivity.
Qed.
Lemma s_NewURN8141 p : step_ok (Heap.NewURN8141s p).
Proof.
  opn. unfold new_struct, literal. rewrite z_URN8141. cbn [gbind].
  set (h' := h ++ _). assert (X : extends h h') by apply ext_app.
  exists h', (VPtr (List.length h)), (add_e r (List.length h)). split; [reflexivity|]. split; [|split; [|split; [apply kept_ext, X|]]].
  - eapply add_e_rel; [eapply rel_ext; eassumption| |exact V|apply get_last]. apply (rel_old _ _ _ R). apply get_none. lia.
  - repeat split; try apply pre_refl. apply pre_app.
  - cbn [shows add_e l_e]. destruct R as (_ & _ & _ & (_ & EL & _) & _). rewrite <- EL. symmetry. apply pv_last.
Qed.
Lemma s_GetURN e : step_ok (Heap.GetURNs e).
Proof.
  opn. onp e a c NN V; [|reflexivity]. destruct (at_8141 r H h a c R NN) as (l & Q & -> & G & HD). cbn [field]. rewrite G. cbn [val8141 find String.eqb Ascii.eqb Bool.eqb gbind].
  eapply meets_pure; [exact R|apply ext_refl|reflexivity].
Qed.
Lemma s_SetURN e p : step_ok (Heap.SetURNs e p).
Proof.
  opn. destruct V as (V & V'). onp e a c NN V; [|reflexivity]. destruct (at_8141 r H h a c R NN) as (l & Q & -> & G & HD).
  unfold assigns, stores, store. rewrite G. unfold val8141. cbn [gbind]. set (h' := set h l _).
  exists h', (VTuple []), r. split; [reflexivity|]. split; [|split; [apply grows_refl|split; [|reflexivity]]].
  - eapply put_8141_rel; [exact R|exact Q|apply kept_cells, kept_set|eapply vars_set; [apply R|exact G]|exact V'| |exact V]. eapply get_set, G.
  - cbn [at_]. rewrite Q. apply kept_set.
Qed.

Theorem step_all o : step_ok o.
Proof.
  destruct o.
  - apply s_Parse. - apply s_New. - apply s_MParse. - apply s_MMode. - apply s_MError. - apply s_String. - apply s_Normalize. - apply s_Equal.
  - apply s_IsSCIM. - apply s_SCIM. - apply s_RFC. - apply s_F. - apply s_Q. - apply s_R. - apply s_Marshal. - apply s_Unmarshal.
  - apply s_SString. - apply s_SMarshal. - apply s_SUnmarshal. - apply s_EString. - apply s_EMarshal. - apply s_EUnmarshal.
  - apply s_NewURN. - apply s_SetID. - apply s_SetSS. - apply s_CopyURN. - apply s_NewSCIM. - apply s_SetSCIM. - apply s_CopySCIM.
  - apply s_NewURN8141. - apply s_GetURN. - apply s_SetURN.
Qed.
End Ops.
