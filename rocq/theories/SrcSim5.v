(* Calling the text of Parse is calling the model of Parse. *)
From Coq Require Import Lia.
From Verif Require Import GoAst.
From Verif Require Import GoBase MachineSyntax MachineTables Machine.
From Verif Require GoPackage.
From Verif Require Import GoSem SrcRender SrcSim SrcSim2 SrcSim3 SrcFacts SrcSim4.
Import ListNotations.
Local Open Scope string_scope.
Local Open Scope list_scope.

Lemma set_set h l o o' : set (set h l o) l o' = set h l o'.
Proof. unfold set. revert l. induction h as [|x h IH]; intros [|l]; cbn; try reflexivity. rewrite IH. reflexivity. Qed.
Lemma set_id h l o : get h l = Some o -> set h l o = h.
Proof. unfold set, get. revert l. induction h as [|x h IH]; intros [|l]; cbn; try discriminate; [congruence|]. intros H. rewrite (IH l H). reflexivity. Qed.
Lemma len_data h v w : data_at h v w -> builtin "len" [v] h = Some (GRet (h, VInt "" (zlen w))).
Proof.
  intros [(-> & ->)|(l & a & z & -> & G)]; [reflexivity|]. cbn. reflexivity.
Qed.
Lemma set_len h l o : List.length (set h l o) = List.length h.
Proof. apply set_length. Qed.

Lemma zero_urn : exists x, zero 4 package "" (TyName "URN") = uval (VNil "SCIM") x zeroURN.
Proof. eexists. vm_compute. reflexivity. Qed.
Lemma finals : find "firstFinal" (p_globals package) = Some (VInt "" 172) /\ find "enFail" (p_globals package) = Some (VInt "" 193).
Proof. split; vm_compute; reflexivity. Qed.

Section Call.
Variable ext : string -> list val -> heap -> gres (heap * val).
Hypothesis Hext : forall f args h, ext "fmt.Errorf" (VStr f :: args) h = GRet (h, VErr f args).
Variables n d : nat.
Let C := call package ext n (S d).
Let ex := exec package "" C ext n.
Let ev := eval package "" C ext.

(* m.f = x in Parse's first statements *)
Lemma set_field e h cm lm f x v fs o : find "m" e = Some cm -> get h cm = Some (Cell (VPtr lm)) -> cm <> lm -> get h lm = Some o ->
  let hh := set h lm (Cell (VStruct "machine" fs)) in
  ev x e hh = GRet (hh, v) -> (forall vs, v <> VTuple vs) ->
  ex (set_ (M f) x) e hh = GRet (e, set h lm (Cell (VStruct "machine" (put f v fs))), CNorm).
Proof.
  intros F Gm D G hh X T. unfold ex, set_. cbn [exec places place_of M eval gbind rhs]. unfold ident_val. rewrite F.
  assert (A : get hh cm = Some (Cell (VPtr lm))) by (apply get_set_ne; assumption).
  assert (A' : get hh lm = Some (Cell (VStruct "machine" fs))) by (eapply get_set; exact G).
  rewrite A. cbn [gbind]. unfold ev in X. rewrite X. cbn [gbind].
  replace (as_list v) with [v] by (destruct v; try reflexivity; destruct (T vs eq_refl)).
  cbn -[put]. rewrite A'. cbn -[put]. unfold hh. rewrite set_set. reflexivity.
Qed.

(* the objects Parse is called on, and after it *)
Theorem call_parse h lm dv0 dv m input m' ou oe :
  get h 0 = Some (Arr "byte" (table_bytes to_state_actions)) -> get h 1 = Some (Arr "byte" (table_bytes eof_actions)) ->
  lm <> 0 /\ lm <> 1 /\ ~ at_loc dv 0 /\ ~ at_loc dv 1 ->
  get h lm = Some (Cell (mval dv0 m)) -> data_at h dv input ->
  machine_Parse m input = Ret (m', ou, oe) -> parse_fuel (List.length input) <= n ->
  exists h' r, call package ext n (S (S d)) (CKey "machine.Parse") [VPtr lm; dv] false h = GRet (h', VTuple [r; verr oe]) /\
    get h' lm = Some (Cell (mval dv m')) /\ data_at h' dv (m_data m') /\
    (forall l o, get h l = Some o -> l <> lm -> ~ at_loc dv l -> get h' l = Some o) /\ around h h' dv /\
    match ou with
    | None => r = VNil "URN"
    | Some u => exists lu sv lv, r = VPtr lu /\ get h lu = None /\ get h' lu = Some (Cell (uval sv lv u)) /\
        is_scim h' sv (u_scim u) /\ is_ints h' lv (u_tolower u) /\ (forall l, sv = VPtr l -> get h l = None)
    end.
Proof.
  intros T0 T1 L0 GM D Q F.
  set (cm := List.length h). set (ci := S (List.length h)).
  set (h2 := (h ++ [Cell (VPtr lm)]) ++ [Cell dv]). set (e := [("input", ci); ("m", cm)]).
  assert (Gcm : get h2 cm = Some (Cell (VPtr lm))) by (apply get_app, get_last).
  assert (Gci : get h2 ci = Some (Cell dv)).
  { unfold ci. replace (S (List.length h)) with (List.length (h ++ [Cell (VPtr lm)])) by (rewrite app_length; cbn; lia). apply get_last. }
  assert (GM2 : get h2 lm = Some (Cell (mval dv0 m))) by (apply get_app, get_app, GM).
  assert (Llm : lm < List.length h) by (apply nth_error_Some; unfold get in GM; congruence).
  assert (Dc : cm <> lm) by (unfold cm; lia). assert (Di : ci <> lm) by (unfold ci; lia).
  assert (D2 : forall o, data_at (set h2 lm (Cell o)) dv input).
  { intros o. eapply keep_data; [|exact GM2|discriminate]. apply app_data, app_data, D. }
  (* the resets *)
  assert (IN : forall fs, let hh := set h2 lm (Cell (VStruct "machine" fs)) in ev (EId "input") e hh = GRet (hh, dv)).
  { intros fs hh. unfold ev. cbn [eval]. unfold ident_val. change (find "input" e) with (Some ci). cbv iota.
    assert (A : get hh ci = Some (Cell dv)) by (apply get_set_ne; assumption). rewrite A. reflexivity. }
  assert (LEN : forall fs, let hh := set h2 lm (Cell (VStruct "machine" fs)) in ev (ECall (EId "len") [EId "input"] false) e hh = GRet (hh, vint (zlen input))).
  { intros fs hh. pose proof (IN fs) as A. fold hh in A. unfold ev in *.
    change ((let! (h1, vs) := (let! (h1, v0) := eval package "" C ext (EId "input") e hh in GRet (h1, [v0])) in
      match builtin "len" vs h1 with Some r => r | None => C (CKey "len") vs false h1 end) = GRet (hh, vint (zlen input))).
    rewrite A. cbn [gbind]. rewrite (len_data hh _ _ (D2 _)). reflexivity. }
  assert (NT : forall vs, dv <> VTuple vs) by (intros vs ->; destruct D as [(_ & X)|(? & ? & ? & X & _)]; discriminate X).
  set (hm := fun fs => set h2 lm (Cell (VStruct "machine" fs))).
  assert (ST : forall f x v fs, ev x e (hm fs) = GRet (hm fs, v) -> (forall vs, v <> VTuple vs) ->
    ex (set_ (M f) x) e (hm fs) = GRet (e, hm (put f v fs), CNorm)).
  { intros f x v fs X T. exact (set_field e h2 cm lm f x v fs _ eq_refl Gcm Dc GM2 X T). }
  assert (SEQ : forall s b fs fs', ex s e (hm fs) = GRet (e, hm fs', CNorm) ->
    seq (exl ext n d (s :: b)) e (hm fs) = seq (exl ext n d b) e (hm fs')).
  { intros s b fs fs' A. unfold exl. cbn [map seq]. unfold ex, C in A. rewrite A. reflexivity. }
  set (m1 := parse_init m input). set (h3 := hm (mfields dv m1)).
  assert (HEAD : forall b, seq (exl ext n d (firstn 7 parse_head ++ b)) e h2 = seq (exl ext n d b) e h3).
  { intros b. rewrite <- (set_id _ _ _ GM2). change (set h2 lm (Cell (mval dv0 m))) with (hm (mfields dv0 m)).
    unfold parse_head. cbn [firstn app].
    erewrite SEQ by (apply ST; [apply IN|exact NT]).
    erewrite SEQ by (apply ST; [reflexivity|discriminate]).
    erewrite SEQ by (apply ST; [reflexivity|discriminate]).
    erewrite SEQ by (apply ST; [apply LEN|discriminate]).
    erewrite SEQ by (apply ST; [apply LEN|discriminate]).
    erewrite SEQ by (apply ST; [reflexivity|discriminate]).
    erewrite SEQ.
    2:{ apply ST; [|shelve]. unfold ev. cbn [M eval]. change (is_pkg "m" e) with false. cbv iota. unfold ident_val. change (find "m" e) with (Some cm). cbv iota.
      unfold hm at 1. rewrite (get_set_ne _ _ _ _ _ Dc Gcm). cbn [gbind field]. unfold hm at 1. erewrite get_set by exact GM2.
      cbn. reflexivity. }
    Unshelve. 2:{ discriminate. }
    reflexivity. }
  (* output := &URN{tolower: []int{}} *)
  set (la := List.length h3). set (lu := S la). set (cu := S lu). set (lv := VSlice la 0 0). set (sv := VNil "SCIM").
  set (h4 := ((h3 ++ [Arr "int" []]) ++ [Cell (uval sv lv zeroURN)]) ++ [Cell (VPtr lu)]).
  assert (L3 : la = S (S (List.length h))).
  { unfold la, h3, hm, h2. rewrite set_len, !app_length. cbn [List.length]. lia. }
  assert (OUT : forall b, seq (exl ext n d (skipn 7 parse_head ++ b)) e h3 = seq (exl ext n d b) (penv cm ci cu) h4).
  { intros b. unfold parse_head. cbn [skipn app]. unfold exl. cbn [map seq exec rhs eval]. destruct zero_urn as (x & ZU).
    cbn [gbind]. unfold literal at 1. cbn [gbind map List.length]. unfold literal. rewrite ZU. unfold uval at 1. cbv iota. cbn [gbind elem_name as_list].
    cbn [declares String.eqb Ascii.eqb Bool.eqb declare gbind as_list].
    change (fill (ufields (VNil "SCIM") x zeroURN) [("tolower", VSlice (List.length h3) 0 0)] 0) with (ufields sv lv zeroURN).
    fold (uval sv lv zeroURN).
    replace (List.length ((h3 ++ [Arr "int" []]) ++ [Cell (uval sv lv zeroURN)])) with cu by (rewrite !app_length; cbn [List.length]; unfold cu, lu, la; lia).
    replace (List.length (h3 ++ [Arr "int" []])) with lu by (rewrite !app_length; cbn [List.length]; unfold lu, la; lia).
    reflexivity. }
  (* the objects correspond *)
  assert (HR : R h dv lm lu cm cu h4 m1 zeroURN sv lv).
  { constructor.
    - unfold h4. do 3 apply get_app. unfold h3, hm. apply get_set_ne; assumption.
    - unfold h4. replace cu with (List.length ((h3 ++ [Arr "int" []]) ++ [Cell (uval sv lv zeroURN)])); [apply get_last|].
      rewrite !app_length; cbn [List.length]; unfold cu, lu, la; lia.
    - unfold h4. do 3 apply get_app. unfold h3, hm. eapply get_set, GM2.
    - unfold h4. apply get_app. replace lu with (List.length (h3 ++ [Arr "int" []])); [apply get_last|]. rewrite !app_length; cbn [List.length]; unfold lu, la; lia.
    - reflexivity.
    - exists la. split; [reflexivity|]. unfold h4. do 2 apply get_app. apply get_last.
    - unfold h4. do 3 apply app_data. apply D2.
    - repeat split.
      + apply get_none. unfold lu. lia.
      + discriminate.
      + unfold h4. rewrite !app_length. fold la. lia.
    - intros l o G N _. unfold h4. do 3 apply get_app. unfold h3, hm. apply get_set_ne; [exact N|]. unfold h2. do 2 apply get_app. exact G.
    - apply around_ext. intros l t x _ G. unfold h4. do 3 apply get_app. unfold h3, hm. apply get_set_ne; [congruence|]. unfold h2. do 2 apply get_app. exact G. }
  unfold machine_Parse in Q. destruct (Machine.run (parse_fuel (List.length input)) LEnter (parse_init m input, zeroURN)) as [(mf, uf)| |] eqn:RUN; try discriminate Q.
  cbn [bind] in Q.
  destruct (run_sim ext Hext n d h dv lm lu cm ci cu T0 T1 L0 _ LEnter m1 zeroURN mf uf h4 sv lv big n HR RUN eq_refl F) as (h5 & sv5 & lv5 & J & HR5).
  assert (BIG : ex (SBlock big) (penv cm ci cu) h4 = GRet (penv cm ci cu, h5, CNorm)).
  { unfold ex. cbn [exec]. unfold block. unfold exl in J. fold C in J. rewrite J. reflexivity. }
  (* the end *)
  destruct finals as (FF & FE).
  assert (CND : ev (EBin "||" (EBin "<" (M "cs") (EId "firstFinal")) (EBin "==" (M "cs") (EId "enFail"))) (penv cm ci cu) h5 =
    GRet (h5, VBool (N.ltb (m_cs mf) first_final || N.eqb (m_cs mf) en_fail))).
  { assert (A1 : ev (EBin "<" (M "cs") (EId "firstFinal")) (penv cm ci cu) h5 = GRet (h5, VBool (N.ltb (m_cs mf) first_final))).
    { eapply ev_bin; [reflexivity|eapply ev_m; [exact HR5|reflexivity]|apply (ev_global package ext C); [reflexivity..|exact FF]|].
      unfold vint. cbn [binop String.eqb Ascii.eqb Bool.eqb cmp num].
      replace (Z.of_N (m_cs mf) <? 172)%Z with (N.ltb (m_cs mf) first_final); [reflexivity|]. unfold first_final.
      destruct (N.ltb_spec (m_cs mf) 172), (Z.ltb_spec (Z.of_N (m_cs mf)) 172); try reflexivity; lia. }
    assert (A2 : ev (EBin "==" (M "cs") (EId "enFail")) (penv cm ci cu) h5 = GRet (h5, VBool (N.eqb (m_cs mf) en_fail))).
    { eapply ev_bin; [reflexivity|eapply ev_m; [exact HR5|reflexivity]|apply (ev_global package ext C); [reflexivity..|exact FE]|].
      unfold vint. cbn [binop String.eqb Ascii.eqb Bool.eqb val_eq].
      replace (Z.of_N (m_cs mf) =? 193)%Z with (N.eqb (m_cs mf) en_fail); [reflexivity|]. unfold en_fail.
      destruct (N.eqb_spec (m_cs mf) 193), (Z.eqb_spec (Z.of_N (m_cs mf)) 193); try reflexivity; lia. }
    unfold ev in *.
    change ((let! (h1, v) := eval package "" C ext (EBin "<" (M "cs") (EId "firstFinal")) (penv cm ci cu) h5 in
      match v with VBool true => GRet (h1, v) | VBool false => eval package "" C ext (EBin "==" (M "cs") (EId "enFail")) (penv cm ci cu) h1 | _ => GStuck end) =
      GRet (h5, VBool (N.ltb (m_cs mf) first_final || N.eqb (m_cs mf) en_fail))).
    rewrite A1. cbn [gbind]. destruct (N.ltb (m_cs mf) first_final); [reflexivity|]. exact A2. }
  assert (ALL : forall vs, seq (exl ext n d parse_tail) (penv cm ci cu) h5 = GRet (penv cm ci cu, h5, CRet vs) ->
    call package ext n (S (S d)) (CKey "machine.Parse") [VPtr lm; dv] false h =
      GRet (h5, tuple (coerces package "" [TyPtr (TyName "URN"); TyName "error"] vs))).
  { intros vs T.
    assert (BL : body package "" C ext n parse_text e h2 = GRet (e, h5, CRet vs)).
    { unfold body. apply block_ok with (e' := penv cm ci cu); [|discriminate].
      rewrite parse_parts. rewrite <- (firstn_skipn 7 parse_head), <- app_assoc.
      change (seq (exl ext n d (firstn 7 parse_head ++ (skipn 7 parse_head ++ ([SBlock big] ++ parse_tail)))) e h2 = GRet (penv cm ci cu, h5, CRet vs)).
      rewrite HEAD, OUT. cbn [app]. unfold exl at 1. cbn [map seq]. fold C. fold ex. rewrite BIG. cbn [gbind]. exact T. }
    unfold C in BL.
    change (call package ext n (S (S d)) (CKey "machine.Parse") [VPtr lm; dv] false h) with
      (match find "machine.Parse" (p_funcs package) with
       | Some f => let! (e, h) := bind_params package (f_pre f) (f_params f) [VPtr lm; dv] false [] h in
          let! (_, h, c) := body package (f_pre f) (call package ext n (S d)) ext n (f_body f) e h in
          match c with CRet vs => GRet (h, tuple (coerces package (f_pre f) (f_results f) vs)) | CNorm => GRet (h, VTuple []) | CGoto _ => GStuck end
       | None => GStuck end).
    rewrite parse_func. cbn [f_pre f_params f_results f_body bind_params declare].
    replace (coerce package "" (TyPtr (TyName "machine")) (VPtr lm)) with (VPtr lm) by reflexivity.
    replace (coerce package "" (TySlice (TyName "byte")) dv) with dv by (destruct D as [(_ & ->)|(? & ? & ? & -> & _)]; reflexivity).
    cbn [gbind]. replace (List.length (h ++ [Cell (VPtr lm)])) with ci by (rewrite app_length; cbn [List.length]; unfold ci; lia).
    fold cm. fold h2. change (body package "" (call package ext n (S d)) ext n parse_text [("input", ci); ("m", cm)] h2) with (body package "" (call package ext n (S d)) ext n parse_text e h2). rewrite BL. reflexivity. }
  assert (FRAME : forall l o, get h l = Some o -> l <> lm -> ~ at_loc dv l -> get h5 l = Some o) by exact (r_frame _ _ _ _ _ _ _ _ _ _ _ HR5).
  pose proof (r_around _ _ _ _ _ _ _ _ _ _ _ HR5) as AR5.
  pose proof (r_m _ _ _ _ _ _ _ _ _ _ _ HR5) as GM5. pose proof (r_d _ _ _ _ _ _ _ _ _ _ _ HR5) as GD5.
  destruct (N.ltb (m_cs mf) first_final || N.eqb (m_cs mf) en_fail) eqn:END; inversion Q; subst m' ou oe; clear Q.
  - exists h5, (VNil "URN"). split; [|auto 6].
    rewrite (ALL [VNil ""; verr (m_err mf)]).
    + cbn. destruct (m_err mf); reflexivity.
    + change (seq (exl ext n d parse_tail) (penv cm ci cu) h5) with
        (let! (e1, h6, c) := ex (GoAst.SIf [] (EBin "||" (EBin "<" (M "cs") (EId "firstFinal")) (EBin "==" (M "cs") (EId "enFail")))
           [SReturn [EId "nil"; M "err"]] []) (penv cm ci cu) h5 in
         match c with CNorm => seq (exl ext n d [SReturn [EId "output"; EId "nil"]]) e1 h6 | _ => GRet (e1, h6, c) end).
      assert (X : ex (GoAst.SIf [] (EBin "||" (EBin "<" (M "cs") (EId "firstFinal")) (EBin "==" (M "cs") (EId "enFail")))
           [SReturn [EId "nil"; M "err"]] []) (penv cm ci cu) h5 = GRet (penv cm ci cu, h5, CRet [VNil ""; verr (m_err mf)])).
      { eapply (ex_if package ext n C); [reflexivity|exact CND|]. apply block_ok with (e' := penv cm ci cu); [|discriminate].
        assert (A : ev (M "err") (penv cm ci cu) h5 = GRet (h5, verr (m_err mf))) by (eapply ev_m; [exact HR5|reflexivity]).
        unfold ev in A.
        change ((let! (e1, h6, c) := (let! (h1, vs) := (let! (h1, v) := eval package "" C ext (EId "nil") (penv cm ci cu) h5 in
          let! (h1, vs) := (let! (h2, v2) := eval package "" C ext (M "err") (penv cm ci cu) h1 in GRet (h2, [v2])) in GRet (h1, v :: vs)) in GRet (penv cm ci cu, h1, CRet vs)) in
          match c with CNorm => GRet (e1, h6, CNorm) | _ => GRet (e1, h6, c) end) = GRet (penv cm ci cu, h5, CRet [VNil ""; verr (m_err mf)])).
        replace (eval package "" C ext (EId "nil") (penv cm ci cu) h5) with (@GRet (heap * val) (h5, VNil "")) by reflexivity.
        cbn [gbind]. rewrite A. reflexivity. }
      rewrite X. reflexivity.
  - exists h5, (VPtr lu). split; [|split; [exact GM5|split; [exact GD5|split; [exact FRAME|split; [exact AR5|]]]]].
    + rewrite (ALL [VPtr lu; VNil ""]); [reflexivity|].
      change (seq (exl ext n d parse_tail) (penv cm ci cu) h5) with
        (let! (e1, h6, c) := ex (GoAst.SIf [] (EBin "||" (EBin "<" (M "cs") (EId "firstFinal")) (EBin "==" (M "cs") (EId "enFail")))
           [SReturn [EId "nil"; M "err"]] []) (penv cm ci cu) h5 in
         match c with CNorm => seq (exl ext n d [SReturn [EId "output"; EId "nil"]]) e1 h6 | _ => GRet (e1, h6, c) end).
      assert (X : ex (GoAst.SIf [] (EBin "||" (EBin "<" (M "cs") (EId "firstFinal")) (EBin "==" (M "cs") (EId "enFail")))
           [SReturn [EId "nil"; M "err"]] []) (penv cm ci cu) h5 = GRet (penv cm ci cu, h5, CNorm)).
      { eapply (ex_if package ext n C); [reflexivity|exact CND|]. apply block_ok with (e' := penv cm ci cu); [reflexivity|discriminate]. }
      rewrite X. cbn [gbind]. pose proof (r_cu _ _ _ _ _ _ _ _ _ _ _ HR5) as GU.
      change ((let! (e1, h6, c) := (let! (h1, vs) := (let! (h1, v) := eval package "" C ext (EId "output") (penv cm ci cu) h5 in
          let! (h1, vs) := (let! (h2, v2) := eval package "" C ext (EId "nil") (penv cm ci cu) h1 in GRet (h2, [v2])) in GRet (h1, v :: vs)) in GRet (penv cm ci cu, h1, CRet vs)) in
          match c with CNorm => GRet (e1, h6, CNorm) | _ => GRet (e1, h6, c) end) = GRet (penv cm ci cu, h5, CRet [VPtr lu; VNil ""])).
      cbn [eval]. unfold ident_val. change (find "output" (penv cm ci cu)) with (Some cu). cbv iota. rewrite GU. reflexivity.
    + exists lu, sv5, lv5. pose proof (r_new _ _ _ _ _ _ _ _ _ _ _ HR5) as (N1 & N2 & _).
      repeat split; auto; apply HR5.
Qed.
End Call.
