(* Text of the UnmarshalJSON methods. *)
From Coq Require Import Lia.
From Verif Require Import GoAst.
From Verif Require Import GoBase MachineSyntax MachineTables Machine Urn Json.
From Verif Require GoPackage.
From Verif Require Import GoSem SrcRender SrcSim SrcSim2 SrcFacts SrcSim4 SrcSim5 Api PropsSrc SrcApi SrcApi2 SrcApi3 SrcApi4.
Import ListNotations.
Local Open Scope string_scope.
Local Open Scope list_scope.

Lemma as_bytes_map w : as_bytes (map VByte w) = Some w.
Proof. induction w as [|b w IH]; [reflexivity|]. cbn. rewrite IH. reflexivity. Qed.
Lemma slice_data h v w : data_at h v w -> GoPackage.slice_bytes h v = Some w.
Proof.
  intros [(-> & ->)|(l & a & b & -> & G)]; [reflexivity|]. cbn [GoPackage.slice_bytes]. unfold window. rewrite G.
  rewrite !app_length, map_length. replace (Nat.leb _ _) with true by (symmetry; apply Nat.leb_le; lia).
  rewrite skipn_app, skipn_all, PeanoNat.Nat.sub_diag. cbn [skipn app].
  rewrite firstn_app, map_length, PeanoNat.Nat.sub_diag. cbn [firstn]. rewrite app_nil_r.
  rewrite <- (map_length VByte w) at 1. rewrite firstn_all. apply as_bytes_map.
Qed.
Arguments GoPackage.slice_bytes : simpl never.

Section Api.
Variable uni : bytes -> bytes.
Variable newer : bool.
Let ext := GoPackage.ext uni newer.
Variable n : nat.
Let C := call package ext n.
Local Notation F d := (fun s => (label_of s, exec package "" (C d) ext n s)).

(* var str string; if err := json.Unmarshal(bytes, &str); err != nil { return err } *)
Definition U1 : stm := SVar "str" (TyName "string").
Definition U2 : stm := nth 1 (f_body b_Unmarshal) (SBlock []).
Definition recv (x : string) : Prop := x = "u" \/ x = "s".
Lemma head_err d h cb x cu dv b rest : recv x -> get h cb = Some (Cell dv) -> data_at h dv b -> json_Unmarshal b = None ->
  exists e h', seq (map (F d) (U1 :: U2 :: rest)) [("bytes", cb); (x, cu)] h = GRet (e, h', CRet [GoPackage.json_error]) /\ extends h h'.
Proof.
  intros X G D J. pose proof (slice_data _ _ _ (data_ext _ _ _ _ (ext_app h [Cell (VStr [])]) D)) as SD.
  destruct X as [-> | ->]; (eexists _, _; split).
  1, 3: (eapply seq_step; [unfold U1; norm; reflexivity|]; eapply seq_ret; cbn [U2 nth f_body b_Unmarshal]; eapply if_ok;
    [eapply seq_step; [norm; rewrite SD; norm; rewrite J; norm; reflexivity|reflexivity]|norm; reflexivity|eapply blk; [rt|discriminate]]).
  all: apply ext_app.
Qed.
Lemma head_ok d h cb x cu dv b str rest : recv x -> get h cb = Some (Cell dv) -> data_at h dv b -> json_Unmarshal b = Some str ->
  exists h' cs, seq (map (F d) (U1 :: U2 :: rest)) [("bytes", cb); (x, cu)] h = seq (map (F d) rest) [("str", cs); ("bytes", cb); (x, cu)] h' /\
    extends h h' /\ get h' cs = Some (Cell (VStr str)).
Proof.
  intros X G D J. pose proof (slice_data _ _ _ (data_ext _ _ _ _ (ext_app h [Cell (VStr [])]) D)) as SD.
  destruct X as [-> | ->]; (eexists _, _; split).
  1, 3: (eapply seq_step; [unfold U1; norm; reflexivity|]; eapply seq_step; [|reflexivity]; cbn [U2 nth f_body b_Unmarshal]; eapply if_ok;
    [eapply seq_step; [norm; rewrite SD; norm; rewrite J; norm; reflexivity|reflexivity]|norm; reflexivity|eapply blk; [reflexivity|discriminate]]).
  all: (split; [apply ext_app|]; norm; reflexivity).
Qed.

(* Parse([]byte(str)), Parse([]byte(str), WithParsingMode(x)) *)
Definition conv_str : expr := EConv (TySlice (TyName "byte")) (EId "str").
Definition parse_str (o : string) : expr :=
  ECall (EId "Parse") (conv_str :: if String.eqb o "" then [] else [ECall (EId "WithParsingMode") [EId o] false]) false.
Definition modes (o : string) : list Z :=
  if String.eqb o "" then [] else if String.eqb o "RFC7643Only" then [PRFC7643Only] else [PRFC8141Only].
Lemma eval_parse d h o cs cb x cu str w u ok : recv x -> In o [""; "RFC7643Only"; "RFC8141Only"] -> vars h -> get h cs = Some (Cell (VStr str)) ->
  Parse str (modes o) = Ret (w, u, ok) -> 4 * List.length str + 16 <= n ->
  exists h' r, eval package "" (C (S (S (S (S d))))) ext (parse_str o) [("str", cs); ("bytes", cb); (x, cu)] h = GRet (h', VTuple [r; VBool ok]) /\
    extends h h' /\ result h h' r u.
Proof.
  intros X O V G P FU. set (ha := h ++ [Arr "byte" (map VByte str)]). set (dv := VSlice (List.length h) 0 (List.length str)).
  assert (XA : extends h ha) by apply ext_app.
  assert (DA : data_at ha dv str).
  { right. exists (List.length h), [], []. split; [reflexivity|]. cbn [app]. rewrite app_nil_r. apply get_last. }
  assert (L2 : 2 <= List.length h).
  { destruct V as (_ & V1). unfold get in V1. destruct (nth_error_Some h 1) as (K & _). apply K. congruence. }
  assert (PP : forall hb vs, extends ha hb -> Forall2 (is_opt hb) vs (modes o) -> exists h' r, C (S (S (S (S d)))) (CKey "Parse") (dv :: vs) false hb = GRet (h', VTuple [r; VBool ok]) /\
    extends h h' /\ result h h' r u).
  { intros hb vs XB FB. assert (XX : extends h hb) by (eapply ext_trans; eassumption).
    destruct (call_Parse uni newer n d hb dv vs (modes o) str w u ok) as (h' & r & K & _ & KE & RS); auto.
    - eapply vars_ext; eassumption.
    - cbn. lia. - cbn. lia.
    - eapply data_ext; [exact XB|exact DA].
    - exists h', r. split; [exact K|]. split; [eapply ext_trans; eassumption|eapply result_ext; [exact XX|apply ext_refl|exact RS]]. }
  assert (WM : forall k, k = 2%Z \/ k = 3%Z -> exists v, C (S (S (S (S d)))) (CKey "WithParsingMode") [VInt "ParsingMode" k] false ha = GRet (ha ++ [Cell (VInt "ParsingMode" k)], v) /\
    is_opt (ha ++ [Cell (VInt "ParsingMode" k)]) v k) by (intros k _; apply call_With).
  cbn [In] in O. destruct O as [<-|[<-|[<-|[]]]].
  - destruct (PP ha [] (ext_refl _) (Forall2_nil _)) as (h' & r & K & Q). exists h', r. split; [|exact Q].
    cbn [parse_str String.eqb Ascii.eqb Bool.eqb conv_str]. destruct X as [-> | ->]; norm; fold dv; fold ha; exact K.
  - destruct (WM 2%Z) as (v & KW & OW); [auto|]. destruct (PP _ [v] (ext_app _ _) (Forall2_cons _ _ OW (Forall2_nil _))) as (h' & r & K & Q). exists h', r. split; [|exact Q].
    cbn [parse_str String.eqb Ascii.eqb Bool.eqb conv_str]. unfold C in *. destruct X as [-> | ->]; norm; fold dv; fold ha; rewrite KW; cbn [gbind]; exact K.
  - destruct (WM 3%Z) as (v & KW & OW); [auto|]. destruct (PP _ [v] (ext_app _ _) (Forall2_cons _ _ OW (Forall2_nil _))) as (h' & r & K & Q). exists h', r. split; [|exact Q].
    cbn [parse_str String.eqb Ascii.eqb Bool.eqb conv_str]. unfold C in *. destruct X as [-> | ->]; norm; fold dv; fold ha; rewrite KW; cbn [gbind]; exact K.
Qed.
(* value, ok := Parse(..) *)
Lemma def_parse d h o cs cb x cu str w u ok : recv x -> In o [""; "RFC7643Only"; "RFC8141Only"] -> vars h -> get h cs = Some (Cell (VStr str)) ->
  Parse str (modes o) = Ret (w, u, ok) -> 4 * List.length str + 16 <= n ->
  exists h' r cv co, exec package "" (C (S (S (S (S d))))) ext n (SDefine ["value"; "ok"] [parse_str o]) [("str", cs); ("bytes", cb); (x, cu)] h =
      GRet ([("ok", co); ("value", cv); ("str", cs); ("bytes", cb); (x, cu)], h', CNorm) /\
    extends h h' /\ result h h' r u /\ get h' cv = Some (Cell r) /\ get h' co = Some (Cell (VBool ok)).
Proof.
  intros X O V G P FU. destruct (eval_parse d h o cs cb x cu str w u ok X O V G P FU) as (h1 & r & E & XE & R).
  exists ((h1 ++ [Cell r]) ++ [Cell (VBool ok)]), r, (List.length h1), (List.length (h1 ++ [Cell r])).
  assert (X2 : extends h1 ((h1 ++ [Cell r]) ++ [Cell (VBool ok)])) by (eapply ext_trans; apply ext_app).
  split; [cbn [exec rhs]; rewrite E; reflexivity|]. split; [eapply ext_trans; eassumption|]. split; [eapply result_ext; [apply ext_refl|exact X2|exact R]|].
  split; [apply get_app, get_last|apply get_last].
Qed.
(* what a method that fails returns *)
Definition fails (h : heap) (r : gres (heap * val)) (v : val) : Prop := exists h', r = GRet (h', v) /\ extends h h'.
Definition errorf_of (f : string) (str : bytes) : val := VErr (B f) [VStr str].

Lemma call_Unmarshal d h uv dv b : vars h -> data_at h dv b -> (uv = VNil "URN" \/ exists lu c, uv = VPtr lu /\ get h lu = Some (Cell c)) ->
  match json_Unmarshal b with Some str => 4 * List.length str + 16 <= n | None => True end ->
  let r := C (S (S (S (S (S d))))) (CKey "URN.UnmarshalJSON") [uv; dv] false h in
  match json_Unmarshal b with
  | None => fails h r GoPackage.json_error
  | Some str =>
      match Parse str [] with
      | Ret (_, _, false) => fails h r (errorf_of "invalid URN: %s" str)
      | Ret (_, None, true) => r = GPanic
      | Ret (_, Some u, true) =>
          match uv with
          | VPtr lu => exists h' sv lv, r = GRet (h', VNil "") /\ kept h h' [lu] /\ get h' lu = Some (Cell (uval sv lv u)) /\
              is_scim h' sv (u_scim u) /\ (forall l, sv = VPtr l -> get h l = None)
          | _ => r = GPanic
          end
      | _ => True
      end
  end.
Proof.
  intros V D UV FU r. set (h1 := (h ++ [Cell uv]) ++ [Cell dv]). set (cu := List.length h). set (cb := S cu).
  assert (X1 : extends h h1) by (eapply ext_trans; apply ext_app).
  assert (GU : get h1 cu = Some (Cell uv)) by (apply get_app, get_last).
  assert (GB : get h1 cb = Some (Cell dv)).
  { unfold h1, cb, cu. replace (S (List.length h)) with (List.length (h ++ [Cell uv])) by (rewrite app_length; cbn; lia). apply get_last. }
  assert (BP : bind_params package "" (f_params b_Unmarshal) [uv; dv] false [] h = GRet ([("bytes", cb); ("u", cu)], h1)).
  { cbn [b_Unmarshal f_params bind_params declare]. rewrite coerce_slice. replace (coerce package "" (TyPtr (TyName "URN")) uv) with uv by (destruct UV as [->|(? & ? & -> & _)]; reflexivity).
    unfold h1, cb, cu. rewrite app_length. cbn [List.length]. rewrite PeanoNat.Nat.add_1_r. reflexivity. }
  assert (D1 : data_at h1 dv b) by (eapply data_ext; eassumption).
  assert (RX : recv "u") by (left; reflexivity).
  destruct (json_Unmarshal b) as [str|] eqn:J.
  2:{ destruct (head_err (S (S (S (S d)))) h1 cb "u" cu dv b (skipn 2 (f_body b_Unmarshal)) RX GB D1 J) as (e & h2 & E & X2).
    exists h2. split; [|eapply ext_trans; eassumption]. unfold r, C.
    etransitivity; [eapply call_ok; [exact l_Unmarshal|exact BP|cbn [f_pre b_Unmarshal]; eapply blk; [exact E|discriminate]]|]. reflexivity. }
  destruct (Parse str []) as [[[w value] ok]| |] eqn:P; try exact I.
  destruct (head_ok (S (S (S (S d)))) h1 cb "u" cu dv b str (skipn 2 (f_body b_Unmarshal)) RX GB D1 J) as (h2 & cs & E & X2 & GS).
  assert (XX : extends h h2) by (eapply ext_trans; eassumption).
  destruct (def_parse d h2 "" cs cb "u" cu str w value ok RX) as (h3 & v & cv & co & DEF & X3 & R & GV & GK);
    [left; reflexivity|eapply vars_ext; eassumption|exact GS|exact P|exact FU|].
  assert (X13 : extends h1 h3) by (eapply ext_trans; eassumption).
  assert (XX3 : extends h h3) by (eapply ext_trans; eassumption).
  assert (GU3 : get h3 cu = Some (Cell uv)) by (apply X13, GU).
  assert (GS3 : get h3 cs = Some (Cell (VStr str))) by (apply X3, GS).
  assert (IN : forall s, seq (map (F (S (S (S (S d))))) [SDefine ["value"; "ok"] [parse_str ""]]) [("str", cs); ("bytes", cb); ("u", cu)] h2 = s ->
    GRet ([("ok", co); ("value", cv); ("str", cs); ("bytes", cb); ("u", cu)], h3, CNorm) = s).
  { intros s <-. symmetry. eapply seq_step; [exact DEF|reflexivity]. }
  specialize (IN _ eq_refl). symmetry in IN.
  destruct ok.
  - destruct value as [u|].
    + destruct R as (lr & sv & lv & -> & FR & GR & IS & _ & NS). destruct UV as [->|(lu & c & -> & GL)].
      * unfold r, C. eapply call_panic; [exact l_Unmarshal|exact BP|cbn [f_pre b_Unmarshal]; eapply blk_panic].
        etransitivity; [exact E|]. cbn [skipn f_body b_Unmarshal]. eapply seq_panic. eapply if_panic; [exact IN|norm; reflexivity|].
        cbn [negb]. eapply blk_panic, seq_panic. norm. reflexivity.
      * assert (GL3 : get h3 lu = Some (Cell c)) by (apply XX3, GL).
        exists (set h3 lu (Cell (uval sv lv u))), sv, lv. split; [|split; [|split; [eapply get_set, GL3|split]]].
        -- unfold r, C. etransitivity; [eapply call_ok; [exact l_Unmarshal|exact BP|cbn [f_pre b_Unmarshal]; eapply blk; [|discriminate]]|].
           ++ etransitivity; [exact E|]. cbn [skipn f_body b_Unmarshal]. eapply seq_step.
              ** eapply if_ok; [exact IN|norm; reflexivity|]. cbn [negb]. eapply blk; [|discriminate]. eapply seq_step; [norm; reflexivity|reflexivity].
              ** rt.
           ++ reflexivity.
        -- intros l o G N. apply get_set_ne; [|apply XX3, G]. intros ->. apply N. left. reflexivity.
        -- destruct (u_scim u) as [sc|]; [|exact IS]. destruct IS as (ls & -> & GS'). exists ls. split; [reflexivity|]. apply get_set_ne; [|exact GS'].
           intros ->. specialize (NS lu eq_refl). apply XX in GL. congruence.
        -- intros l Q. eapply ext_none; [exact XX|]. apply NS, Q.
    + cbn [result] in R. subst v. unfold r, C. eapply call_panic; [exact l_Unmarshal|exact BP|cbn [f_pre b_Unmarshal]; eapply blk_panic].
      etransitivity; [exact E|]. cbn [skipn f_body b_Unmarshal]. eapply seq_panic. eapply if_panic; [exact IN|norm; reflexivity|].
      cbn [negb]. eapply blk_panic, seq_panic. destruct UV as [->|(lu & c & -> & GL)]; norm; reflexivity.
  - assert (FA : fails h r (errorf_of "invalid URN: %s" str)); [|destruct value; exact FA]. exists h3. split; [|exact XX3]. unfold r, C.
    etransitivity; [eapply call_ok; [exact l_Unmarshal|exact BP|cbn [f_pre b_Unmarshal]; eapply blk; [|discriminate]]|].
    + etransitivity; [exact E|]. cbn [skipn f_body b_Unmarshal]. eapply seq_ret. eapply if_ok; [exact IN|norm; reflexivity|].
      eapply blk; [rt|discriminate].
    + reflexivity.
Qed.

Lemma result_set h h' l c o v u : get h l = Some (Cell c) -> extends h h' -> result h h' v u -> result h (set h' l o) v u.
Proof.
  intros G X R. destruct u as [u|]; [|exact R]. destruct R as (lu & sv & lv & -> & F & GU & S & I & N).
  exists lu, sv, lv. split; [reflexivity|]. split; [exact F|]. split; [apply get_set_ne; [congruence|exact GU]|]. split; [|split; [|exact N]].
  - destruct (u_scim u) as [s|]; [|exact S]. destruct S as (ls & -> & GS). exists ls. split; [reflexivity|]. apply get_set_ne; [|exact GS].
    intros ->. specialize (N l eq_refl). congruence.
  - destruct I as (li & -> & GI). exists li. split; [reflexivity|]. apply get_set_ne; [|exact GI]. intros ->. apply X in G. congruence.
Qed.

Lemma call_EUnmarshal d h uv dv b : vars h -> data_at h dv b -> (uv = VNil "URN8141" \/ exists lu c, uv = VPtr lu /\ get h lu = Some (Cell c)) ->
  match json_Unmarshal b with Some str => 4 * List.length str + 16 <= n | None => True end ->
  let r := C (S (S (S (S (S d))))) (CKey "URN8141.UnmarshalJSON") [uv; dv] false h in
  match json_Unmarshal b with
  | None => fails h r GoPackage.json_error
  | Some str =>
      match Parse str (modes "RFC8141Only") with
      | Ret (_, value, ok) =>
          if negb ok then fails h r (errorf_of "invalid URN per RFC 8141: %s" str)
          else match uv with
          | VPtr lu => exists h' v, r = GRet (h', VNil "") /\ kept h h' [lu] /\ get h' lu = Some (Cell (val8141 v)) /\ result h h' v value
          | _ => r = GPanic
          end
      | _ => True
      end
  end.
Proof.
  intros V D UV FU r. set (h1 := (h ++ [Cell uv]) ++ [Cell dv]). set (cu := List.length h). set (cb := S cu).
  assert (X1 : extends h h1) by (eapply ext_trans; apply ext_app).
  assert (GU : get h1 cu = Some (Cell uv)) by (apply get_app, get_last).
  assert (GB : get h1 cb = Some (Cell dv)).
  { unfold h1, cb, cu. replace (S (List.length h)) with (List.length (h ++ [Cell uv])) by (rewrite app_length; cbn; lia). apply get_last. }
  assert (BP : bind_params package "" (f_params b_EUnmarshal) [uv; dv] false [] h = GRet ([("bytes", cb); ("u", cu)], h1)).
  { cbn [b_EUnmarshal f_params bind_params declare]. rewrite coerce_slice. replace (coerce package "" (TyPtr (TyName "URN8141")) uv) with uv by (destruct UV as [->|(? & ? & -> & _)]; reflexivity).
    unfold h1, cb, cu. rewrite app_length. cbn [List.length]. rewrite PeanoNat.Nat.add_1_r. reflexivity. }
  assert (D1 : data_at h1 dv b) by (eapply data_ext; eassumption).
  assert (RX : recv "u") by (left; reflexivity).
  destruct (json_Unmarshal b) as [str|] eqn:J.
  2:{ destruct (head_err (S (S (S (S d)))) h1 cb "u" cu dv b (skipn 2 (f_body b_EUnmarshal)) RX GB D1 J) as (e & h2 & E & X2).
    exists h2. split; [|eapply ext_trans; eassumption]. unfold r, C.
    etransitivity; [eapply call_ok; [exact l_EUnmarshal|exact BP|cbn [f_pre b_EUnmarshal]; eapply blk; [exact E|discriminate]]|]. reflexivity. }
  destruct (Parse str (modes "RFC8141Only")) as [[[w value] ok]| |] eqn:P; try exact I.
  destruct (head_ok (S (S (S (S d)))) h1 cb "u" cu dv b str (skipn 2 (f_body b_EUnmarshal)) RX GB D1 J) as (h2 & cs & E & X2 & GS).
  assert (XX : extends h h2) by (eapply ext_trans; eassumption).
  destruct (def_parse d h2 "RFC8141Only" cs cb "u" cu str w value ok RX) as (h3 & v & cv & co & DEF & X3 & R & GV & GK);
    [cbn; tauto|eapply vars_ext; eassumption|exact GS|exact P|exact FU|].
  assert (X13 : extends h1 h3) by (eapply ext_trans; eassumption).
  assert (XX3 : extends h h3) by (eapply ext_trans; eassumption).
  assert (GU3 : get h3 cu = Some (Cell uv)) by (apply X13, GU).
  assert (GS3 : get h3 cs = Some (Cell (VStr str))) by (apply X3, GS).
  assert (IN : forall s, seq (map (F (S (S (S (S d))))) [SDefine ["value"; "ok"] [parse_str "RFC8141Only"]]) [("str", cs); ("bytes", cb); ("u", cu)] h2 = s ->
    GRet ([("ok", co); ("value", cv); ("str", cs); ("bytes", cb); ("u", cu)], h3, CNorm) = s).
  { intros s <-. symmetry. eapply seq_step; [exact DEF|reflexivity]. }
  specialize (IN _ eq_refl). symmetry in IN.
  destruct ok.
  - cbn [negb]. destruct UV as [->|(lu & c & -> & GL)].
    + unfold r, C. eapply call_panic; [exact l_EUnmarshal|exact BP|cbn [f_pre b_EUnmarshal]; eapply blk_panic].
      etransitivity; [exact E|]. cbn [skipn f_body b_EUnmarshal]. eapply seq_panic. eapply if_panic; [exact IN|norm; reflexivity|].
      cbn [negb]. eapply blk_panic, seq_panic. norm. reflexivity.
    + assert (GL3 : get h3 lu = Some (Cell c)) by (apply XX3, GL).
      exists (set h3 lu (Cell (val8141 v))), v. split; [|split; [|split; [eapply get_set, GL3|]]].
      * unfold r, C. etransitivity; [eapply call_ok; [exact l_EUnmarshal|exact BP|cbn [f_pre b_EUnmarshal]; eapply blk; [|discriminate]]|].
        -- etransitivity; [exact E|]. cbn [skipn f_body b_EUnmarshal]. eapply seq_step.
           ++ eapply if_ok; [exact IN|norm; reflexivity|]. cbn [negb]. eapply blk; [|discriminate]. eapply seq_step; [norm; reflexivity|reflexivity].
           ++ rt.
        -- reflexivity.
      * intros l o G N. apply get_set_ne; [|apply XX3, G]. intros ->. apply N. left. reflexivity.
      * eapply result_set; [exact GL|exact XX3|]. eapply result_ext; [exact XX|apply ext_refl|exact R].
  - cbn [negb]. exists h3. split; [|exact XX3]. unfold r, C.
    etransitivity; [eapply call_ok; [exact l_EUnmarshal|exact BP|cbn [f_pre b_EUnmarshal]; eapply blk; [|discriminate]]|].
    + etransitivity; [exact E|]. cbn [skipn f_body b_EUnmarshal]. eapply seq_ret. eapply if_ok; [exact IN|norm; reflexivity|].
      eapply blk; [rt|discriminate].
    + reflexivity.
Qed.

Lemma call_SUnmarshal d h uv dv b : vars h -> data_at h dv b -> (uv = VNil "SCIM" \/ exists lu c, uv = VPtr lu /\ get h lu = Some (Cell c)) ->
  match json_Unmarshal b with Some str => 4 * List.length str + 16 <= n | None => True end ->
  let r := C (S (S (S (S (S d))))) (CKey "SCIM.UnmarshalJSON") [uv; dv] false h in
  match json_Unmarshal b with
  | None => fails h r GoPackage.json_error
  | Some str =>
      match Parse str (modes "RFC7643Only") with
      | Ret (_, value, ok) =>
          if negb ok then fails h r (errorf_of "invalid SCIM URN: %s" str)
          else match value with
          | None => r = GPanic
          | Some u =>
              if negb (Z.eqb (RFC u) KRFC7643) then fails h r (errorf_of "invalid SCIM URN: %s" str)
              else match URN_SCIM u, uv with
              | Some s, VPtr ls => exists h', r = GRet (h', VNil "") /\ kept h h' [ls] /\ get h' ls = Some (Cell (sval s))
              | _, _ => r = GPanic
              end
          end
      | _ => True
      end
  end.
Proof.
  intros V D UV FU r. set (h1 := (h ++ [Cell uv]) ++ [Cell dv]). set (cu := List.length h). set (cb := S cu).
  assert (X1 : extends h h1) by (eapply ext_trans; apply ext_app).
  assert (GU : get h1 cu = Some (Cell uv)) by (apply get_app, get_last).
  assert (GB : get h1 cb = Some (Cell dv)).
  { unfold h1, cb, cu. replace (S (List.length h)) with (List.length (h ++ [Cell uv])) by (rewrite app_length; cbn; lia). apply get_last. }
  assert (BP : bind_params package "" (f_params b_SUnmarshal) [uv; dv] false [] h = GRet ([("bytes", cb); ("s", cu)], h1)).
  { cbn [b_SUnmarshal f_params bind_params declare]. rewrite coerce_slice. replace (coerce package "" (TyPtr (TyName "SCIM")) uv) with uv by (destruct UV as [->|(? & ? & -> & _)]; reflexivity).
    unfold h1, cb, cu. rewrite app_length. cbn [List.length]. rewrite PeanoNat.Nat.add_1_r. reflexivity. }
  assert (D1 : data_at h1 dv b) by (eapply data_ext; eassumption).
  assert (RX : recv "s") by (right; reflexivity).
  destruct (json_Unmarshal b) as [str|] eqn:J.
  2:{ destruct (head_err (S (S (S (S d)))) h1 cb "s" cu dv b (skipn 2 (f_body b_SUnmarshal)) RX GB D1 J) as (e & h2 & E & X2).
    exists h2. split; [|eapply ext_trans; eassumption]. unfold r, C.
    etransitivity; [eapply call_ok; [exact l_SUnmarshal|exact BP|cbn [f_pre b_SUnmarshal]; eapply blk; [exact E|discriminate]]|]. reflexivity. }
  destruct (Parse str (modes "RFC7643Only")) as [[[w value] ok]| |] eqn:P; try exact I.
  destruct (head_ok (S (S (S (S d)))) h1 cb "s" cu dv b str (skipn 2 (f_body b_SUnmarshal)) RX GB D1 J) as (h2 & cs & E & X2 & GS).
  assert (XX : extends h h2) by (eapply ext_trans; eassumption).
  destruct (def_parse d h2 "RFC7643Only" cs cb "s" cu str w value ok RX) as (h3 & v & cv & co & DEF & X3 & R & GV & GK);
    [cbn; tauto|eapply vars_ext; eassumption|exact GS|exact P|exact FU|].
  assert (X13 : extends h1 h3) by (eapply ext_trans; eassumption).
  assert (XX3 : extends h h3) by (eapply ext_trans; eassumption).
  assert (GU3 : get h3 cu = Some (Cell uv)) by (apply X13, GU).
  assert (GS3 : get h3 cs = Some (Cell (VStr str))) by (apply X3, GS).
  assert (IN : forall s, seq (map (F (S (S (S (S d))))) [SDefine ["value"; "ok"] [parse_str "RFC7643Only"]]) [("str", cs); ("bytes", cb); ("s", cu)] h2 = s ->
    GRet ([("ok", co); ("value", cv); ("str", cs); ("bytes", cb); ("s", cu)], h3, CNorm) = s).
  { intros s <-. symmetry. eapply seq_step; [exact DEF|reflexivity]. }
  specialize (IN _ eq_refl). symmetry in IN.
  destruct ok.
  - cbn [negb]. destruct value as [u|].
    + destruct R as (lr & sv & lv & -> & FR & GR & IS & _ & NS).
      assert (E1 : seq (map (F (S (S (S (S d))))) (skipn 2 (f_body b_SUnmarshal))) [("str", cs); ("bytes", cb); ("s", cu)] h2 =
        seq (map (F (S (S (S (S d))))) (skipn 4 (f_body b_SUnmarshal))) [("ok", co); ("value", cv); ("str", cs); ("bytes", cb); ("s", cu)] h3).
      { cbn [skipn f_body b_SUnmarshal]. eapply seq_step; [exact DEF|]. eapply seq_step; [|reflexivity]. eapply if_ok; [reflexivity|norm; reflexivity|].
        eapply blk; [reflexivity|discriminate]. }
      destruct (call_field uni newer n (S (S (S d))) h3 lr sv lv u "URN.RFC" (VInt "Kind" (RFC u)) GR) as (k & KR); [cbn; tauto|]. fold ext in KR.
      assert (GU4 := get_app _ k _ _ GU3). assert (GS4 := get_app _ k _ _ GS3). assert (GV4 := get_app _ k _ _ GV). assert (GR4 := get_app _ k _ _ GR).
      assert (X4 : extends h (h3 ++ k)) by (eapply ext_trans; [exact XX3|apply ext_app]).
      assert (SVC : sv = VNil "SCIM" \/ exists l, sv = VPtr l) by (destruct (u_scim u); [destruct IS as (l & -> & _); eauto|left; exact IS]).
      destruct (call_SCIM uni newer n (S (S (S d))) (h3 ++ k) lr sv lv u GR4 SVC) as (k2 & KS). fold ext in KS.
      set (h4 := h3 ++ k) in *.
      unfold uval in GR, GR4.
      assert (RF : eval package "" (C (S (S (S (S d))))) ext (EBin "!=" (ECall (ESel (EId "value") "RFC") [] false) (EId "RFC7643"))
        [("ok", co); ("value", cv); ("str", cs); ("bytes", cb); ("s", cu)] h3 = GRet (h4, VBool (negb (Z.eqb (RFC u) KRFC7643)))).
      { unfold C. norm. rewrite KR. norm. reflexivity. }
      destruct (Z.eqb (RFC u) KRFC7643) eqn:KQ; cbn [negb] in RF |- *.
      * unfold RFC in KQ. rewrite KQ in KS. cbn [negb] in KS. unfold URN_SCIM. rewrite KQ. cbn [negb].
        assert (E2 : seq (map (F (S (S (S (S d))))) (skipn 4 (f_body b_SUnmarshal))) [("ok", co); ("value", cv); ("str", cs); ("bytes", cb); ("s", cu)] h3 =
          seq (map (F (S (S (S (S d))))) (skipn 5 (f_body b_SUnmarshal))) [("ok", co); ("value", cv); ("str", cs); ("bytes", cb); ("s", cu)] h4).
        { cbn [skipn f_body b_SUnmarshal]. eapply seq_step; [|reflexivity]. eapply if_ok; [reflexivity|exact RF|]. eapply blk; [reflexivity|discriminate]. }
        destruct (u_scim u) as [sc|] eqn:SC.
        -- destruct IS as (l & -> & GSC). assert (GSC4 := get_app _ k2 _ _ (get_app _ k _ _ GSC)). fold h4 in GSC4.
           destruct UV as [->|(lu & c & -> & GL)].
           ++ unfold r, C. eapply call_panic; [exact l_SUnmarshal|exact BP|cbn [f_pre b_SUnmarshal]; eapply blk_panic].
              etransitivity; [exact E|]. etransitivity; [exact E1|]. etransitivity; [exact E2|]. cbn [skipn f_body b_SUnmarshal].
              eapply seq_panic. unfold C. norm. rewrite KS. norm. reflexivity.
           ++ assert (GL4 : get (h4 ++ k2) lu = Some (Cell c)) by (apply get_app, X4, GL).
              exists (set (h4 ++ k2) lu (Cell (sval sc))). split; [|split; [|eapply get_set, GL4]].
              ** unfold r, C. etransitivity; [eapply call_ok; [exact l_SUnmarshal|exact BP|cbn [f_pre b_SUnmarshal]; eapply blk; [|discriminate]]|].
                 --- etransitivity; [exact E|]. etransitivity; [exact E1|]. etransitivity; [exact E2|]. cbn [skipn f_body b_SUnmarshal].
                     eapply seq_step; [unfold C; cbn; rewrite GU4; cbn; rewrite GV4; cbn; rewrite GR4; cbn; rewrite ?l_SCIM; cbn; rewrite KS; cbn; rewrite GSC4; cbn; rewrite GL4; cbn; reflexivity|]. rt.
                 --- reflexivity.
              ** intros l0 o G N. apply get_set_ne; [|apply get_app, X4, G]. intros ->. apply N. left. reflexivity.
        -- cbn [is_scim] in IS. subst sv.
           assert (RP : r = GPanic); [|exact RP].
           unfold r, C. eapply call_panic; [exact l_SUnmarshal|exact BP|cbn [f_pre b_SUnmarshal]; eapply blk_panic].
           etransitivity; [exact E|]. etransitivity; [exact E1|]. etransitivity; [exact E2|]. cbn [skipn f_body b_SUnmarshal].
           eapply seq_panic. unfold C. destruct UV as [->|(lu & c & -> & GL)]; norm; rewrite KS; norm; reflexivity.
      * exists h4. split; [|exact X4]. unfold r, C.
        etransitivity; [eapply call_ok; [exact l_SUnmarshal|exact BP|cbn [f_pre b_SUnmarshal]; eapply blk; [|discriminate]]|].
        -- etransitivity; [exact E|]. etransitivity; [exact E1|]. cbn [skipn f_body b_SUnmarshal].
           eapply seq_ret. eapply if_ok; [reflexivity|exact RF|]. eapply blk; [rt|discriminate].
        -- reflexivity.
    + cbn [result] in R. subst v. unfold r, C. eapply call_panic; [exact l_SUnmarshal|exact BP|cbn [f_pre b_SUnmarshal]; eapply blk_panic].
      etransitivity; [exact E|]. cbn [skipn f_body b_SUnmarshal]. eapply seq_step; [exact DEF|].
      eapply seq_step; [eapply if_ok; [reflexivity|norm; reflexivity|eapply blk; [reflexivity|discriminate]]|].
      pose proof (nil_URN uni newer n (S (S (S d))) h3 "URN.RFC") as N. fold ext in N.
      eapply seq_panic. eapply if_cpanic; [reflexivity|]. unfold C. norm. rewrite N by (cbn; tauto). reflexivity.
  - cbn [negb]. exists h3. split; [|exact XX3]. unfold r, C.
    etransitivity; [eapply call_ok; [exact l_SUnmarshal|exact BP|cbn [f_pre b_SUnmarshal]; eapply blk; [|discriminate]]|].
    + etransitivity; [exact E|]. cbn [skipn f_body b_SUnmarshal]. eapply seq_step; [exact DEF|].
      eapply seq_ret. eapply if_ok; [reflexivity|norm; reflexivity|].
      eapply blk; [rt|discriminate].
    + reflexivity.
Qed.
End Api.
