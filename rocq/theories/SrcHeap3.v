(* What the text does, operation by operation, is what Heap.v says. *)
From Coq Require Import Lia.
From Verif Require Import GoAst.
From Verif Require Import GoBase MachineSyntax MachineTables Machine Urn Json.
From Verif Require GoPackage.
From Verif Require Heap.
From Verif Require Import GoSem SrcRender SrcSim SrcSim2 SrcFacts SrcSim4 SrcSim5 Api PropsSrc SrcApi SrcApi2 SrcApi3 SrcApi4 SrcApi5 SrcHeap SrcHeap2.
Import ListNotations.
Local Open Scope string_scope.
Local Open Scope list_scope.

Section Ops.
Variable uni : bytes -> bytes.
Variable newer : bool.
Variable n d : nat.
Let D := S (S (S (S (S (S d))))).
Local Notation mc := (meth_call uni newer n D).
Local Notation fc := (fun_call uni newer n D).

(* ---- methods of *URN that read ---------------------------------------------------------------------- *)
Lemma mc_urn r H h a c f b x args : rel r H h -> nth_error (Heap.h_urns H) a = Some c -> find ("URN." ++ f)%string (p_funcs package) = Some b -> f_recv b = Some (TyPtr x) ->
  exists l lv, nth_error (l_u r) a = Some l /\ mc (pv "URN" (l_u r) (Some a)) f args h = call package (GoPackage.ext uni newer) n D (CKey ("URN." ++ f)%string) (VPtr l :: args) false h /\
    get h l = Some (Cell (uval (pv "SCIM" (l_s r) (Heap.c_scim c)) lv (Heap.view H c))) /\ Heap.held (Heap.h_scims H) (Heap.c_scim c).
Proof.
  intros R N F B. destruct (at_urn r H h a c R N) as (l & lv & Q & -> & G & HD). exists l, lv. split; [exact Q|]. split; [|split; assumption].
  unfold meth_call. exact (meth_ptr _ l "URN" _ f b x args h G F B).
Qed.
Lemma mc_urn_nil f b x args h : find ("URN." ++ f)%string (p_funcs package) = Some b -> f_recv b = Some (TyPtr x) ->
  mc (VNil "URN") f args h = call package (GoPackage.ext uni newer) n D (CKey ("URN." ++ f)%string) (VNil "URN" :: args) false h.
Proof. intros F B. unfold meth_call. exact (meth_nil _ "URN" f b x args h eq_refl F B). Qed.

Definition step_ok (o : Heap.op) : Prop := forall r H h W g, rel r H h -> Heap.valid o H -> needs o <= n -> calls uni newer n D r h o W g ->
  meets r h o W (Heap.exec uni newer o H) g.

(* open: o held by inversion of calls *)
Ltac opn := intros r H h W g R V FU CA; inversion CA; subst; clear CA; cbn [Heap.exec Heap.valid] in *.
Ltac onp p a c N V := destruct p as [a|]; cbn [Heap.on]; [destruct (held_nth _ _ V) as (c & N); rewrite N|].

Ltac reader L nilk :=
  match goal with
  | N : nth_error (Heap.h_urns _) ?a = Some ?c, R : rel _ _ _ |- meets _ _ _ _ _ (meth_call _ _ _ _ _ ?f ?args _) =>
      let l := fresh "l" in let lv := fresh "lv" in let Q := fresh "Q" in let E := fresh "E" in let G := fresh "G" in let HD := fresh "HD" in
      destruct (mc_urn _ _ _ a c f _ _ args R N L eq_refl) as (l & lv & Q & E & G & HD); rewrite E; clear E
  end.

Lemma s_String p : step_ok (Heap.Strings p).
Proof.
  opn. onp p a c NN V.
  - reader l_String tt. eapply meets_says; [exact R|eapply call_String; exact G|reflexivity].
  - cbn [pv]. erewrite mc_urn_nil; [|exact l_String|reflexivity]. apply nil_URN. cbn. tauto.
Qed.
Lemma s_IsSCIM p : step_ok (Heap.IsSCIMs p).
Proof.
  opn. onp p a c NN V.
  - reader l_IsSCIM tt. eapply meets_says; [exact R|eapply call_field; [exact G|cbn; tauto]|reflexivity].
  - cbn [pv]. erewrite mc_urn_nil; [|exact l_IsSCIM|reflexivity]. apply nil_URN. cbn. tauto.
Qed.
Lemma s_RFC p : step_ok (Heap.RFCs p).
Proof.
  opn. onp p a c NN V.
  - reader l_RFC tt. eapply meets_says; [exact R|eapply call_field; [exact G|cbn; tauto]|reflexivity].
  - cbn [pv]. erewrite mc_urn_nil; [|exact l_RFC|reflexivity]. apply nil_URN. cbn. tauto.
Qed.
Lemma s_F p : step_ok (Heap.FComponents p).
Proof.
  opn. onp p a c NN V.
  - reader l_F tt. eapply meets_says; [exact R|eapply call_field; [exact G|cbn; tauto]|reflexivity].
  - cbn [pv]. erewrite mc_urn_nil; [|exact l_F|reflexivity]. apply nil_URN. cbn. tauto.
Qed.
Lemma s_Q p : step_ok (Heap.QComponents p).
Proof.
  opn. onp p a c NN V.
  - reader l_Q tt. eapply meets_says; [exact R|eapply call_field; [exact G|cbn; tauto]|reflexivity].
  - cbn [pv]. erewrite mc_urn_nil; [|exact l_Q|reflexivity]. apply nil_URN. cbn. tauto.
Qed.
Lemma s_R p : step_ok (Heap.RComponents p).
Proof.
  opn. onp p a c NN V.
  - reader l_R tt. eapply meets_says; [exact R|eapply call_field; [exact G|cbn; tauto]|reflexivity].
  - cbn [pv]. erewrite mc_urn_nil; [|exact l_R|reflexivity]. apply nil_URN. cbn. tauto.
Qed.
Lemma s_SCIM p : step_ok (Heap.SCIMs p).
Proof.
  opn. onp p a c NN V.
  - reader l_SCIM tt. eapply meets_says; [exact R|eapply call_SCIM; [exact G|]|].
    + destruct (Heap.c_scim c) as [b|]; cbn [pv]; [|left; reflexivity]. destruct (nth_error (l_s r) b); eauto.
    + intros h'. cbn [shows]. change (u_kind (Heap.view H c)) with (u_kind (Heap.c_urn c)). destruct (negb _); reflexivity.
  - cbn [pv]. erewrite mc_urn_nil; [|exact l_SCIM|reflexivity]. apply nil_URN. cbn. tauto.
Qed.
Lemma s_Equal p q : step_ok (Heap.Equals p q).
Proof.
  opn. destruct V as (V & V'). destruct q as [b|].
  - destruct (held_nth _ _ V') as (c' & N'). destruct (at_urn r H h b c' R N') as (l' & lv' & Q' & E' & G' & _). rewrite E'. onp p a c NN V.
    + cbn [Heap.on]. rewrite N'. reader l_Equal tt. eapply meets_says; [exact R|eapply call_Equal; [exact G|exact G']|reflexivity].
    + cbn [pv]. erewrite mc_urn_nil; [|exact l_Equal|reflexivity]. apply nil_Equal.
  - change (pv "URN" (l_u r) None) with (VNil "URN"). destruct p as [a|].
    + destruct (held_nth _ _ V) as (c & N). reader l_Equal tt. eapply meets_says; [exact R|apply call_Equal_nil|reflexivity].
    + cbn [pv]. erewrite mc_urn_nil; [|exact l_Equal|reflexivity]. eapply meets_says; [exact R|apply call_Equal_nil|reflexivity].
Qed.
Lemma s_Normalize p : step_ok (Heap.Normalizes p).
Proof.
  opn. onp p a c NN V.
  - reader l_Normalize tt. pose proof (call_Normalize uni newer n (S (S (S (S (S d))))) h l _ _ _ G) as K.
    change (call package _ n D (CKey ("URN." ++ "Normalize")%string) [VPtr l] false h) with (call package (GoPackage.ext uni newer) n (S (S (S (S (S (S d)))))) (CKey "URN.Normalize") [VPtr l] false h).
    rewrite K. set (h' := h ++ _). set (nu := Normalize uni (Heap.view H c)) in *.
    assert (X : extends h h') by apply ext_app.
    pose proof (new_urn_rel r H h h' (VPtr (List.length h + 1)) (Some nu) (rel_ext _ _ _ _ R X) (rel_old _ _ _ R)) as NU.
    destruct (Heap.new_urn H (Some nu)) as (H' & q). destruct NU as (r' & R' & GR & PV & _).
    + exists (List.length h + 1), (VNil "SCIM"), (VNil ""). split; [reflexivity|]. split; [apply get_none; lia|]. split; [apply get_at|].
      split; [reflexivity|discriminate].
    + exists h', (VPtr (List.length h + 1)), r'. split; [reflexivity|]. split; [exact R'|]. split; [exact GR|]. split; [apply kept_ext, X|exact PV].
  - cbn [pv]. erewrite mc_urn_nil; [|exact l_Normalize|reflexivity]. apply nil_URN. cbn. tauto.
Qed.

(* ---- MarshalJSON, String of the other types ------------------------------------------------------------ *)
Lemma meets_json r h o W H w g : rel r H h -> is_marshal o = true -> (exists h' v, g = GRet (h', v) /\ json_result h h' v w) -> meets r h o W (Ret (H, Heap.AText w)) g.
Proof.
  intros R M (h' & v & -> & X & l & -> & _ & G). eapply meets_pure; [exact R|exact X|]. cbn [shows]. rewrite M. eexists. split; [reflexivity|].
  exists l, [], []. split; [reflexivity|]. cbn [app]. rewrite app_nil_r. exact G.
Qed.
Lemma s_Marshal p : step_ok (Heap.Marshals p).
Proof.
  opn. onp p a c NN V.
  - destruct (at_urn r H h a c R NN) as (l & lv & Q & -> & G & HD). unfold meth_call. rewrite (meth_val _ l "URN" _ "MarshalJSON" b_Marshal _ [] h G l_Marshal eq_refl).
    apply meets_json; [exact R|reflexivity|]. apply call_Marshal.
  - cbn [pv meets]. exact (meth_val_nil _ "URN" "MarshalJSON" b_Marshal _ [] h eq_refl l_Marshal eq_refl).
Qed.
Lemma s_SString p : step_ok (Heap.SStrings p).
Proof.
  opn. onp p a c NN V.
  - destruct (at_scim r H h a c R NN) as (l & Q & -> & G). unfold meth_call. rewrite (meth_ptr _ l "SCIM" _ "String" b_SString _ [] h G l_SString eq_refl).
    eapply meets_says; [exact R|eapply call_SString, G|reflexivity].
  - cbn [pv meets]. unfold meth_call. rewrite (meth_nil _ "SCIM" "String" b_SString _ [] h eq_refl l_SString eq_refl). apply nil_SString.
Qed.
Lemma s_SMarshal p : step_ok (Heap.SMarshals p).
Proof.
  opn. onp p a c NN V.
  - destruct (at_scim r H h a c R NN) as (l & Q & -> & G). unfold meth_call. rewrite (meth_val _ l "SCIM" _ "MarshalJSON" b_SMarshal _ [] h G l_SMarshal eq_refl).
    apply meets_json; [exact R|reflexivity|]. apply call_SMarshal.
  - cbn [pv meets]. exact (meth_val_nil _ "SCIM" "MarshalJSON" b_SMarshal _ [] h eq_refl l_SMarshal eq_refl).
Qed.
Lemma s_EMarshal p : step_ok (Heap.EMarshals p).
Proof.
  opn. onp p a c NN V.
  - destruct (at_8141 r H h a c R NN) as (l & Q & -> & G & HD). unfold meth_call. rewrite (meth_val _ l "URN8141" _ "MarshalJSON" b_EMarshal _ [] h G l_EMarshal eq_refl).
    onp c b c' NN' HD.
    + destruct (at_urn r H h b c' R NN') as (l' & lv & Q' & E' & G' & _). rewrite E'. apply meets_json; [exact R|reflexivity|].
      eapply call_EMarshal, G'.
    + cbn [pv meets]. apply nil_EMarshal.
  - cbn [pv meets]. exact (meth_val_nil _ "URN8141" "MarshalJSON" b_EMarshal _ [] h eq_refl l_EMarshal eq_refl).
Qed.
Lemma s_EString p : step_ok (Heap.EStrings p).
Proof.
  opn. onp p a c NN V.
  - destruct (at_8141 r H h a c R NN) as (l & Q & -> & G & HD).
    assert (E : mc (VPtr l) "String" [] h = method package (call package (GoPackage.ext uni newer) n D) 2 (pv "URN" (l_u r) c) None "String" [] false h).
    { unfold meth_call. cbn [method type_of]. rewrite G. unfold val8141. cbn [gbind]. change ("URN8141" ++ "." ++ "String")%string with "URN8141.String". rewrite x_String8, em8.
      cbn [field]. rewrite G. unfold val8141. cbn [find String.eqb Ascii.eqb Bool.eqb gbind]. reflexivity. }
    rewrite E. onp c b c' NN' HD.
    + destruct (at_urn r H h b c' R NN') as (l' & lv & Q' & E' & G' & _). rewrite E'.
      assert (E2 : method package (call package (GoPackage.ext uni newer) n D) 2 (VPtr l') None "String" [] false h = call package (GoPackage.ext uni newer) n D (CKey "URN.String") [VPtr l'] false h).
      { cbn [method type_of]. rewrite G'. unfold uval. cbn [gbind]. change ("URN" ++ "." ++ "String")%string with "URN.String". rewrite l_String. reflexivity. }
      rewrite E2. eapply meets_says; [exact R|eapply call_String, G'|reflexivity].
    + cbn [pv meets]. cbn [method type_of String.eqb gbind]. change ("URN" ++ "." ++ "String")%string with "URN.String". rewrite l_String. cbn [b_String f_recv]. apply nil_URN. cbn. tauto.
  - cbn [pv meets]. unfold meth_call. cbn [method type_of String.eqb Ascii.eqb gbind]. change ("URN8141" ++ "." ++ "String")%string with "URN8141.String". rewrite x_String8, em8. reflexivity.
Qed.

(* ---- machines ------------------------------------------------------------------------------------------- *)
Lemma s_MError m : step_ok (Heap.MErrors m).
Proof.
  opn. onp m a c NN V.
  - destruct (at_machine r H h a c R NN) as (l & dv & Q & -> & G & HR). unfold meth_call. rewrite (meth_ptr _ l "machine" _ "Error" b_Error _ [] h G l_Error eq_refl).
    eapply meets_says; [exact R|eapply call_Error, G|reflexivity].
  - reflexivity.
Qed.
Lemma vars_set h l o v : vars h -> get h l = Some (Cell v) -> vars (set h l o).
Proof. intros (V0 & V1) G. split; apply get_set_ne; auto; intros E; subst; congruence. Qed.
Lemma s_MMode m x : step_ok (Heap.MModes m x).
Proof.
  opn. onp m a c NN V.
  - destruct (at_machine r H h a c R NN) as (l & dv & Q & E & G & HR). rewrite E. unfold meth_call. rewrite (meth_ptr _ l "machine" _ "WithParsingMode" b_Mode _ _ h G l_Mode eq_refl).
    pose proof (call_Mode uni newer n (S (S (S (S (S d))))) h l dv c x G) as K.
    change (CKey ("machine" ++ "." ++ "WithParsingMode")%string) with (CKey "machine.WithParsingMode"). fold D in K. rewrite K. clear K.
    set (h' := set h l _ ++ _). assert (V1 : vars h') by (eapply vars_ext; [apply ext_app|]; eapply vars_set; [apply R|exact G]).
    assert (KP : forall l' o, l' <> l -> get h l' = Some o -> get h' l' = Some o) by (intros l' o NE G'; apply get_app, get_set_ne; assumption).
    exists h', (VTuple []), r. split; [reflexivity|]. split; [|split; [apply grows_refl|split; [|reflexivity]]].
    + eapply put_machine_rel; [exact R|exact Q| |exact V1|apply reach_mode, HR| |exact V].
      * intros l' v NE G'. apply KP; assumption.
      * apply get_app. eapply get_set, G.
    + intros l' o G' NI. apply KP; [|exact G']. intros ->. apply NI. cbn [at_]. rewrite Q. left. reflexivity.
  - reflexivity.
Qed.
End Ops.
