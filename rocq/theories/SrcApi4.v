(* Text of Parse of urn.go and of the JSON methods. *)
From Coq Require Import Lia.
From Verif Require Import GoAst.
From Verif Require Import GoBase MachineSyntax MachineTables Machine Urn Json.
From Verif Require GoPackage.
From Verif Require Import GoSem SrcRender SrcSim SrcSim2 SrcFacts SrcSim4 SrcSim5 Api PropsSrc SrcApi SrcApi2 SrcApi3.
Import ListNotations.
Local Open Scope string_scope.
Local Open Scope list_scope.

Lemma l_MParse : exists f, find "machine.Parse" (p_funcs package) = Some f /\ f_recv f = Some (TyPtr (TyName "machine")).
Proof. eexists. split; [vm_compute; reflexivity|reflexivity]. Qed.

(* the tables of machine.go *)
Definition vars (h : heap) : Prop :=
  get h 0 = Some (Arr "byte" (table_bytes to_state_actions)) /\ get h 1 = Some (Arr "byte" (table_bytes eof_actions)).
Lemma vars_ext h h' : extends h h' -> vars h -> vars h'.
Proof. intros E (A & B). split; apply E; assumption. Qed.
Lemma data_ext h h' v w : extends h h' -> data_at h v w -> data_at h' v w.
Proof. intros E [D|(l & a & b & -> & G)]; [left; exact D|right]. exists l, a, b. split; [reflexivity|]. apply E, G. Qed.
Lemma kept_ext h h' L : extends h h' -> kept h h' L.
Proof. intros E l o G _. apply E, G. Qed.
Lemma ext_none h h' l : extends h h' -> get h' l = None -> get h l = None.
Proof. intros E G. destruct (get h l) eqn:Q; [|reflexivity]. apply E in Q. congruence. Qed.
(* the result of Parse seen from an older and a newer heap *)
Lemma result_ext h0 h h' h1 v u : extends h0 h -> extends h' h1 -> result h h' v u -> result h0 h1 v u.
Proof.
  intros A E R. destruct u as [u|]; [|exact R]. destruct R as (lu & sv & lv & -> & F & G & S & I & N).
  exists lu, sv, lv. split; [reflexivity|]. split; [eapply ext_none; eassumption|]. split; [apply E, G|]. split.
  - destruct (u_scim u) as [s|]; [|exact S]. destruct S as (l & -> & GS). exists l. split; [reflexivity|]. apply E, GS.
  - split.
    + destruct I as (l & -> & GI). exists l. split; [reflexivity|]. apply E, GI.
    + intros l Q. eapply ext_none; [exact A|]. apply N, Q.
Qed.

Lemma if_cpanic pre C ext n i c t f e e1 h h1 : seq (map (fun s => (label_of s, exec package pre C ext n s)) i) e h = GRet (e1, h1, CNorm) ->
  eval package pre C ext c e1 h1 = GPanic -> exec package pre C ext n (GoAst.SIf i c t f) e h = GPanic.
Proof. intros A K. cbn [exec]. rewrite A. cbn [gbind]. rewrite K. reflexivity. Qed.
Ltac nil_enter L b := eapply call_panic; [exact L|norm; reflexivity|cbn [f_pre f_body b]; eapply blk_panic].

Arguments json_Marshal : simpl never.
Arguments json_Unmarshal : simpl never.

Section Api.
Variable uni : bytes -> bytes.
Variable newer : bool.
Let ext := GoPackage.ext uni newer.
Variable n : nat.
Let C := call package ext n.

Lemma method_Parse d v lm dv0 m args h : get h lm = Some (Cell (mval dv0 m)) -> v = VPtr lm ->
  method package (C d) 3 v None "Parse" args false h = C d (CKey "machine.Parse") (v :: args) false h.
Proof.
  intros G ->. destruct l_MParse as (f & F & R). cbn [method type_of]. rewrite G. unfold mval. cbn [gbind].
  change ("machine" ++ "." ++ "Parse")%string with "machine.Parse". rewrite F, R. reflexivity.
Qed.

Lemma call_Parse d h dv vs ks input w u ok : vars h -> ~ In 0 (arr dv) -> ~ In 1 (arr dv) -> data_at h dv input -> Forall2 (is_opt h) vs ks ->
  Parse input ks = Ret (w, u, ok) -> 4 * List.length input + 16 <= n ->
  exists h' r, C (S (S (S (S d)))) (CKey "Parse") (dv :: vs) false h = GRet (h', VTuple [r; VBool ok]) /\
    data_at h' dv w /\ extends h h' /\ result h h' r u.
Proof.
  intros V A0 A1 D F Q FU. unfold Parse in Q. destruct (machine_Parse (NewMachine ks) input) as [[[m' ou] oe]| |] eqn:MP; try discriminate.
  cbn [bind] in Q.
  set (cu := List.length h). set (h0 := h ++ [Cell dv]).
  assert (X0 : extends h h0) by apply ext_app.
  destruct (bind_opts h0 [("u", cu)] vs ks) as (h1 & co & ov & BP & GO & O & X1 & CO); [eapply opts_ext; eassumption|].
  assert (G0 : get h0 cu = Some (Cell dv)) by apply get_last.
  assert (G1 : get h1 cu = Some (Cell dv)) by (apply X1, G0).
  destruct (call_New_spread uni newer n d h1 ov ks O) as (h2 & lm & CN & FR & GM & X2). fold ext in CN.
  assert (XX : extends h h2) by (eapply ext_trans; [exact X0|]; eapply ext_trans; eassumption).
  assert (V2 : vars h2) by (eapply vars_ext; eassumption). destruct V2 as (V20 & V21).
  assert (G2 : get h2 cu = Some (Cell dv)) by (apply X2, G1).
  assert (D2 : data_at h2 dv input) by (eapply data_ext; eassumption).
  assert (FRh : get h lm = None) by (eapply ext_none; [exact (ext_trans _ _ _ X0 X1)|exact FR]).
  destruct (call_parse (GoPackage.ext uni newer) (ext_errorf uni newer) n (S d) h2 lm (VNil "") dv (NewMachine ks) input m' ou oe) as (h3 & r & K & GM3 & GD3 & KP & AR & RS); auto.
  { rewrite !at_loc_arr. split; [|split; [|split; assumption]].
    - intros ->. destruct V as (V0 & _). rewrite FRh in V0. discriminate V0.
    - intros ->. destruct V as (_ & V0). rewrite FRh in V0. discriminate V0. }
  assert (MD : m_data m' = input) by exact (proj1 (parse_reach_inv _ _ _ _ _ (reach_new ks) MP)).
  assert (KH : extends h h3).
  { intros l o G. refine (kept_all h2 h3 lm dv input KP AR D2 _ l o (XX _ _ G) _); [rewrite <- MD; exact GD3|]. intros [<-|[]]. rewrite FRh in G. discriminate G. }
  assert (RH : result h h3 r ou).
  { eapply result_ext; [exact XX|apply ext_refl|]. destruct ou; exact RS. }
  set (env := [("err", S (List.length h3)); ("urn", List.length h3); ("options", co); ("u", cu)]).
  set (h4 := (h3 ++ [Cell r]) ++ [Cell (verr oe)]).
  assert (X4 : extends h3 h4) by (eapply ext_trans; apply ext_app).
  assert (GR : get h4 (List.length h3) = Some (Cell r)) by (apply get_app, get_last).
  assert (GE : get h4 (S (List.length h3)) = Some (Cell (verr oe))).
  { unfold h4. replace (S (List.length h3)) with (List.length (h3 ++ [Cell r])) by (rewrite app_length; cbn; lia). apply get_last. }
  assert (DEF : exec package "" (C (S (S (S d)))) ext n (nth 0 (f_body b_Parse) (SBlock [])) [("options", co); ("u", cu)] h1 = GRet (env, h4, CNorm)).
  { cbn [b_Parse f_body nth]. cbn [exec rhs]. 
    cbn [eval]. cbn [find String.eqb Ascii.eqb Bool.eqb]. unfold ident_val. cbn [find String.eqb Ascii.eqb Bool.eqb]. rewrite GO. cbn [gbind].
    change (builtin "NewMachine" [ov] h1) with (@None (gres (heap * val))). cbv iota. change ("" ++ "NewMachine")%string with "NewMachine". unfold C. rewrite CN. cbn [gbind].
    rewrite G2. cbn [gbind]. fold C.
    rewrite (method_Parse _ _ lm (VNil "") (NewMachine ks) _ _ GM eq_refl).
    unfold C, ext. rewrite K. cbn [gbind as_list declares String.eqb Ascii.eqb Bool.eqb declare]. unfold env, h4. rewrite app_length. cbn [List.length]. rewrite PeanoNat.Nat.add_1_r. reflexivity. }
  destruct oe as [pe|].
  - injection Q as <- <- <-. exists h4, (VNil "URN"). split; [|split; [eapply data_ext; [exact X4|exact GD3]|split]].
    + unfold C. etransitivity; [eapply call_ok; [exact l_Parse| |cbn [f_pre f_body]; eapply blk; [|discriminate]]|].
      * cbn [b_Parse f_pre f_params bind_params declare]. rewrite coerce_slice. exact BP.
      * cbn [b_Parse f_pre]. eapply seq_step; [exact DEF|]. eapply seq_ret. eapply if_ok; [reflexivity|norm; reflexivity|].
        eapply blk; [rt|discriminate].
      * reflexivity.
    + eapply ext_trans; [exact KH|exact X4].
    + reflexivity.
  - injection Q as <- <- <-. exists h4, r. split; [|split; [eapply data_ext; [exact X4|exact GD3]|split]].
    + unfold C. etransitivity; [eapply call_ok; [exact l_Parse| |cbn [f_pre f_body]; eapply blk; [|discriminate]]|].
      * cbn [b_Parse f_pre f_params bind_params declare]. rewrite coerce_slice. exact BP.
      * cbn [b_Parse f_pre]. eapply seq_step; [exact DEF|]. eapply seq_step; [eapply if_ok; [reflexivity|norm; reflexivity|]; eapply blk; [reflexivity|discriminate]|].
        rt.
      * cbn [b_Parse f_pre f_results coerces]. replace (coerce package "" (TyPtr (TyName "URN")) r) with r; [reflexivity|].
        destruct ou; [destruct RH as (? & ? & ? & -> & _)|rewrite RH]; reflexivity.
    + eapply ext_trans; [exact KH|exact X4].
    + eapply result_ext; [apply ext_refl|exact X4|exact RH].
Qed.

(* ---- nil receivers --------------------------------------------------------------------------- *)
Lemma nil_URN d h k : In k ["URN.String"; "URN.Normalize"; "URN.FComponent"; "URN.QComponent"; "URN.RComponent"; "URN.RFC"; "URN.IsSCIM"; "URN.SCIM"] ->
  C (S d) (CKey k) [VNil "URN"] false h = GPanic.
Proof.
  unfold C. cbn [In]. intros [<-|[<-|[<-|[<-|[<-|[<-|[<-|[<-|[]]]]]]]]].
  - nil_enter l_String b_String. eapply seq_step; [norm; reflexivity|]. eapply seq_panic. eapply if_cpanic; [reflexivity|norm; reflexivity].
  - nil_enter l_Normalize b_Normalize. eapply seq_panic. norm. reflexivity.
  - nil_enter l_F b_F. eapply seq_panic. norm. reflexivity.
  - nil_enter l_Q b_Q. eapply seq_panic. norm. reflexivity.
  - nil_enter l_R b_R. eapply seq_panic. norm. reflexivity.
  - nil_enter l_RFC b_RFC. eapply seq_panic. norm. reflexivity.
  - nil_enter l_IsSCIM b_IsSCIM. eapply seq_panic. norm. reflexivity.
  - nil_enter l_SCIM b_SCIM. eapply seq_panic. eapply if_cpanic; [reflexivity|norm; reflexivity].
Qed.
Lemma nil_Equal d h lx : C (S (S d)) (CKey "URN.Equal") [VNil "URN"; VPtr lx] false h = GPanic.
Proof.
  unfold C. nil_enter l_Equal b_Equal. sif; [reflexivity|]. eapply seq_panic.
  pose proof (fun h => nil_URN d h "URN.Normalize") as N. unfold C in N. norm. rewrite N by (cbn; tauto). reflexivity.
Qed.
Lemma nil_SString d h : C (S d) (CKey "SCIM.String") [VNil "SCIM"] false h = GPanic.
Proof. unfold C. nil_enter l_SString b_SString. eapply seq_panic. norm. reflexivity. Qed.

(* ---- MarshalJSON: on values -------------------------------------------------------------------- *)
Definition json_result (h h' : heap) (v : val) (w : bytes) : Prop :=
  extends h h' /\ exists l, v = VTuple [VSlice l 0 (List.length w); VNil ""] /\ get h l = None /\ get h' l = Some (Arr "byte" (map VByte w)).
Lemma call_Marshal d h sv lv u : exists h' v, C (S (S d)) (CKey "URN.MarshalJSON") [uval sv lv u] false h = GRet (h', v) /\
  json_result h h' v (URN_MarshalJSON newer u).
Proof.
  destruct (call_String uni newer n d (h ++ [Cell (uval sv lv u)]) (List.length h) sv lv u (get_last _ _)) as (k & K). fold ext in K.
  eexists _, _. split.
  - unfold C. etransitivity; [eapply call_ok; [exact l_Marshal|reflexivity|cbn [f_pre f_body b_Marshal]; eapply blk; [|discriminate]]|].
    + eapply seq_ret. norm. rewrite K. norm. reflexivity.
    + reflexivity.
  - split.
    + eapply ext_app.
    + norm. eexists. split; [reflexivity|]. split; [apply get_none; lia|]. rewrite get_at. apply get_last.
Qed.

Lemma call_SMarshal d h s : exists h' v, C (S (S (S d))) (CKey "SCIM.MarshalJSON") [sval s] false h = GRet (h', v) /\
  json_result h h' v (SCIM_MarshalJSON newer s).
Proof.
  destruct (call_SString uni newer n d (h ++ [Cell (sval s)]) (List.length h) s (get_last _ _)) as (k & K). fold ext in K.
  eexists _, _. split.
  - unfold C. etransitivity; [eapply call_ok; [exact l_SMarshal|reflexivity|cbn [f_pre f_body b_SMarshal]; eapply blk; [|discriminate]]|].
    + eapply seq_ret. norm. rewrite K. norm. reflexivity.
    + reflexivity.
  - split.
    + eapply ext_app.
    + norm. eexists. split; [reflexivity|]. split; [apply get_none; lia|]. rewrite get_at. apply get_last.
Qed.
Lemma em8 : embedded package "URN8141" = Some "URN". Proof. vm_compute. reflexivity. Qed.
Definition val8141 (v : val) : val := VStruct "URN8141" [("URN", v)].
Lemma call_EMarshal d h lu sv lv u : get h lu = Some (Cell (uval sv lv u)) ->
  exists h' v, C (S (S d)) (CKey "URN8141.MarshalJSON") [val8141 (VPtr lu)] false h = GRet (h', v) /\
  json_result h h' v (URN_MarshalJSON newer u).
Proof.
  intros G.
  destruct (call_String uni newer n d (h ++ [Cell (val8141 (VPtr lu))]) lu sv lv u (get_app _ _ _ _ G)) as (k & K). fold ext in K.
  eexists _, _. split.
  - unfold C. etransitivity; [eapply call_ok; [exact l_EMarshal|reflexivity|cbn [f_pre f_body b_EMarshal]; eapply blk; [|discriminate]]|].
    + eapply seq_ret. unfold uval in G. unfold val8141 in *. norm. rewrite em8. norm. rewrite K. norm. reflexivity.
    + reflexivity.
  - split.
    + eapply ext_app.
    + norm. eexists. split; [reflexivity|]. split; [apply get_none; lia|]. rewrite get_at. apply get_last.
Qed.
Lemma nil_EMarshal d h : C (S (S d)) (CKey "URN8141.MarshalJSON") [val8141 (VNil "URN")] false h = GPanic.
Proof.
  unfold C. eapply call_panic; [exact l_EMarshal|reflexivity|cbn [f_pre f_body b_EMarshal]; eapply blk_panic, seq_panic].
  pose proof (fun h => nil_URN d h "URN.String") as N. unfold C in N. unfold val8141. norm. rewrite em8. norm. rewrite N by (cbn; tauto). reflexivity.
Qed.
End Api.
