(* Text of options.go, NewMachine and Parse of urn.go. *)
From Coq Require Import Lia.
From Verif Require Import GoAst.
From Verif Require Import GoBase MachineSyntax MachineTables Machine Urn.
From Verif Require GoPackage.
From Verif Require Import GoSem SrcRender SrcSim SrcSim2 SrcFacts SrcSim4 SrcApi SrcApi2.
Import ListNotations.
Local Open Scope string_scope.
Local Open Scope list_scope.

(* h' has all objects of h *)
Definition extends (h h' : heap) : Prop := forall l o, get h l = Some o -> get h' l = Some o.
Lemma ext_refl h : extends h h. Proof. intros l o G. exact G. Qed.
Lemma ext_app h k : extends h (h ++ k). Proof. intros l o. apply get_app. Qed.
Lemma ext_trans a b c : extends a b -> extends b c -> extends a c.
Proof. intros A B l o G. apply B, A, G. Qed.

(* options.go:5-9: an Option is the inner function, and the variable mode it holds on to *)
Definition opt_fun (lk : loc) : val :=
  VFun [("mode", lk)] "" [("m", TyName "Machine", false)] [SExpr (ECall (ESel (EId "m") "WithParsingMode") [EId "mode"] false)].
Definition is_opt (h : heap) (v : val) (x : Z) : Prop := exists lk, v = opt_fun lk /\ get h lk = Some (Cell (VInt "ParsingMode" x)).
Lemma opt_ext h h' v x : extends h h' -> is_opt h v x -> is_opt h' v x.
Proof. intros E (lk & -> & G). exists lk. split; [reflexivity|]. apply E, G. Qed.

Lemma opts_ext h h' vs ks : extends h h' -> Forall2 (is_opt h) vs ks -> Forall2 (is_opt h') vs ks.
Proof. intros E F. induction F; constructor; [eapply opt_ext; eassumption|assumption]. Qed.

Section Api.
Variable uni : bytes -> bytes.
Variable newer : bool.
Let ext := GoPackage.ext uni newer.
Variable n : nat.
Let C := call package ext n.

Lemma call_With d h x t : exists v, C (S d) (CKey "WithParsingMode") [VInt t x] false h = GRet (h ++ [Cell (VInt "ParsingMode" x)], v) /\
  is_opt (h ++ [Cell (VInt "ParsingMode" x)]) v x.
Proof.
  unfold C. eexists. split.
  - etransitivity; [enter l_With; cbn [b_With f_body]; rt|]. reflexivity.
  - eexists. split; [reflexivity|]. apply get_last.
Qed.
Lemma call_clo d e pre ps b args sp h e1 h1 e2 h2 : bind_params package pre ps args sp e h = GRet (e1, h1) ->
  body package pre (call package ext n d) ext n b e1 h1 = GRet (e2, h2, CNorm) ->
  call package ext n (S d) (CClo e pre ps b) args sp h = GRet (h2, VTuple []).
Proof. intros A K. cbn [call]. unfold call at 1. fold (call package ext n d). cbn. rewrite A. cbn [gbind]. rewrite K. reflexivity. Qed.

(* an Option applied to a machine *)
Lemma call_opt d h lm dv m x lk : get h lm = Some (Cell (mval dv m)) -> get h lk = Some (Cell (VInt "ParsingMode" x)) ->
  exists k, C (S (S d)) (CClo [("mode", lk)] "" [("m", TyName "Machine", false)] [SExpr (ECall (ESel (EId "m") "WithParsingMode") [EId "mode"] false)])
    [VPtr lm] false h = GRet (set h lm (Cell (mval dv (machine_WithParsingMode x m))) ++ k, VTuple []).
Proof.
  intros G GK. unfold C.
  pose proof (call_Mode uni newer n d (h ++ [Cell (VPtr lm)]) lm dv m x (get_app _ _ _ _ G)) as M. fold ext in M.
  eexists. etransitivity; [eapply call_clo; [norm; reflexivity|eapply blk; [|discriminate]]|].
  - eapply seq_step; [|reflexivity]. unfold mval in G. norm. rewrite M. norm. reflexivity.
  - norm. reflexivity.
Qed.

(* what stays but one object *)
Definition but (lm : loc) (h h' : heap) : Prop := forall l o, l <> lm -> get h l = Some o -> get h' l = Some o.
Lemma but_trans lm a b c : but lm a b -> but lm b c -> but lm a c.
Proof. intros A B l o N G. apply B, A; assumption. Qed.
Lemma but_set lm h o k : but lm h (set h lm o ++ k).
Proof. intros l o' N G. apply get_app, get_set_ne; assumption. Qed.
Lemma but_opt lm h h' dv m v x : but lm h h' -> get h lm = Some (Cell (mval dv m)) -> is_opt h v x -> is_opt h' v x.
Proof. intros B G (lk & -> & K). exists lk. split; [reflexivity|]. apply B; [|exact K]. intros ->. rewrite G in K. discriminate K. Qed.

Lemma ex_range pre c x y s b e h h1 la o k h2 r : eval package pre c ext s e h = GRet (h1, VSlice la o k) ->
  range k 0 x y (VSlice la o k) (body package pre c ext n b) e h1 = GRet (h2, r) ->
  exec package pre c ext n (SRange x y s b) e h = GRet (e, h2, r).
Proof. intros A K. cbn [exec]. rewrite A. cbn [gbind]. unfold body in K. rewrite K. reflexivity. Qed.
(* for _, o := range options { o(m) } *)
Definition apply_o : stm := SExpr (ECall (EId "o") [EId "m"] false).
Lemma loop d la t all lm cm co dv : forall ks vs h m i,
  get h la = Some (Arr t all) -> skipn i all = vs -> Forall2 (is_opt h) vs ks ->
  get h lm = Some (Cell (mval dv m)) -> get h cm = Some (Cell (VPtr lm)) ->
  exists h', range (List.length vs) i "_" "o" (VSlice la 0 (List.length all)) (body package "" (C (S (S d))) ext n [apply_o]) [("m", cm); ("options", co)] h = GRet (h', CNorm) /\
    get h' lm = Some (Cell (mval dv (fold_left (fun m o => machine_WithParsingMode o m) ks m))) /\ but lm h h'.
Proof.
  induction ks as [|x ks IH]; intros vs h m i GA E1 F G GC; destruct vs as [|v vs']; try (inversion F; fail).
  - exists h. split; [reflexivity|]. split; [exact G|]. intros l o _ X. exact X.
  - assert (OV : is_opt h v x) by (inversion F; assumption). destruct OV as (lk & -> & GK).
    assert (F' : Forall2 (is_opt h) vs' ks) by (inversion F; assumption). clear F.
    cbn [List.length range].
    assert (NT : nth_error all i = Some (opt_fun lk)).
    { clear - E1. revert i E1. induction all as [|a all IH]; intros [|i] Q; cbn in *; try discriminate; [congruence|]. apply IH, Q. }
    assert (SK : skipn (S i) all = vs').
    { clear - E1. revert i E1. induction all as [|a all IH]; intros [|i] Q; cbn in *; try discriminate; [congruence|]. apply (IH i Q). }
    assert (LT : i < List.length all) by (apply nth_error_Some; congruence).
    assert (EL : elem (VSlice la 0 (List.length all)) (VInt "" (Z.of_nat i)) h = GRet (opt_fun lk)).
    { unfold elem. rewrite in_bounds_ok by lia. rewrite GA, Nat2Z.id. cbn [Nat.add]. rewrite NT. reflexivity. }
    rewrite EL. cbn [gbind declares String.eqb Ascii.eqb Bool.eqb declare].
    set (h1 := h ++ [Cell (opt_fun lk)]).
    destruct (call_opt d h1 lm dv m x lk) as (k & K); [apply get_app, G|apply get_app, GK|].
    set (h2 := set h1 lm (Cell (mval dv (machine_WithParsingMode x m))) ++ k) in *.
    assert (B1 : but lm h h2) by (eapply but_trans; [intros l o N X; apply get_app; exact X|apply but_set]).
    assert (BODY : body package "" (C (S (S d))) ext n [apply_o] [("o", List.length h); ("m", cm); ("options", co)] h1 = GRet ([("o", List.length h); ("m", cm); ("options", co)], h2, CNorm)).
    { eapply blk; [|discriminate]. eapply seq_step; [|reflexivity]. unfold apply_o.
      assert (GC1 : get h1 cm = Some (Cell (VPtr lm))) by (apply get_app, GC).
      assert (GO : get h1 (List.length h) = Some (Cell (opt_fun lk))) by apply get_last.
      unfold opt_fun in GO. norm. rewrite K. norm. reflexivity. }
    rewrite BODY. cbn [gbind].
    destruct (IH vs' h2 (machine_WithParsingMode x m) (S i)) as (h' & R & G' & B'); auto.
    + apply B1; [|exact GA]. intros ->. rewrite G in GA. discriminate GA.
    + clear - F' B1 G. induction F' as [|v y ws js O F IHF]; constructor; [|exact IHF]. eapply but_opt; eauto.
    + apply get_app. eapply get_set, get_app, G.
    + apply B1; [|exact GC]. intros ->. rewrite G in GC. discriminate GC.
    + exists h'. split; [exact R|]. split; [exact G'|]. eapply but_trans; [exact B1|exact B'].
Qed.

(* the slice of options as Parse and NewMachine have it *)
Definition opts_at (h : heap) (v : val) (ks : list Z) : Prop :=
  (ks = [] /\ v = VNil "") \/ exists la t vs, v = VSlice la 0 (List.length vs) /\ get h la = Some (Arr t vs) /\ Forall2 (is_opt h) vs ks.

Lemma new_body d h co ov ks : get h co = Some (Cell ov) -> opts_at h ov ks ->
  exists h' lm e, body package "" (C (S (S d))) ext n (f_body b_New) [("options", co)] h = GRet (e, h', CRet [VPtr lm]) /\
    get h lm = None /\ get h' lm = Some (Cell (mval (VNil "") (NewMachine ks))) /\ extends h h'.
Proof.
  intros GO O. set (lm := List.length h). set (cm := S lm).
  set (h1 := (h ++ [Cell (mval (VNil "") zero_machine)]) ++ [Cell (VPtr lm)]).
  assert (G1 : get h1 lm = Some (Cell (mval (VNil "") zero_machine))) by (apply get_app, get_last).
  assert (C1 : get h1 cm = Some (Cell (VPtr lm))).
  { unfold cm, lm. replace (S (List.length h)) with (List.length (h ++ [Cell (mval (VNil "") zero_machine)])) by (rewrite app_length; cbn; lia). apply get_last. }
  assert (FR : get h lm = None) by (apply get_none; unfold lm; lia).
  assert (X1 : extends h h1) by (eapply ext_trans; apply ext_app).
  assert (L : exists h2, exec package "" (C (S (S d))) ext n (SRange "_" "o" (EId "options") [apply_o]) [("m", cm); ("options", co)] h1 = GRet ([("m", cm); ("options", co)], h2, CNorm) /\
    get h2 lm = Some (Cell (mval (VNil "") (fold_left (fun m o => machine_WithParsingMode o m) ks zero_machine))) /\ but lm h1 h2).
  { assert (GO1 : get h1 co = Some (Cell ov)) by (apply X1, GO).
    destruct O as [(-> & ->)|(la & t & vs & -> & GA & F)].
    - exists h1. split; [|split; [exact G1|intros l o _ X; exact X]]. cbn [exec eval]. unfold ident_val. change (find "options" [("m", cm); ("options", co)]) with (Some co). cbv iota. rewrite GO1. reflexivity.
    - destruct (loop d la t vs lm cm co (VNil "") ks vs h1 zero_machine 0) as (h2 & R & G2 & B2); auto.
      { clear - F X1. induction F; constructor; auto. eapply opt_ext; eauto. }
      exists h2. split; [|split; assumption]. eapply ex_range; [|exact R]. cbn [eval]. unfold ident_val. change (find "options" [("m", cm); ("options", co)]) with (Some co). cbv iota. rewrite GO1. reflexivity. }
  destruct L as (h2 & R & G2 & B2).
  assert (C2 : get h2 cm = Some (Cell (VPtr lm))) by (apply B2; [unfold cm; lia|exact C1]).
  assert (X2 : extends h h2).
  { intros l o G. apply B2; [|apply X1, G]. intros ->. rewrite FR in G. discriminate G. }
  assert (DEF : exec package "" (C (S (S d))) ext n (SDefine ["m"] [EUn "&" (ELit (TyName "machine") [("parsingModeSet", EId "false")])]) [("options", co)] h =
    GRet ([("m", cm); ("options", co)], h1, CNorm)).
  { replace cm with (List.length h + 1) by (unfold cm, lm; lia). unfold h1, lm. norm. reflexivity. }
  set (m1 := fold_left (fun m o => machine_WithParsingMode o m) ks zero_machine) in *.
  pose proof (call_Mode uni newer n (S d) h2 lm (VNil "") m1 1 G2) as CM. fold ext in CM.
  unfold NewMachine. fold m1. unfold mval in G2.
  destruct (m_parsingModeSet m1) eqn:PS.
  - exists h2, lm, [("options", co)]. split; [|split; [exact FR|split; [exact G2|exact X2]]].
    cbn [b_New f_body]. eapply blk; [|discriminate]. eapply seq_step; [exact DEF|]. eapply seq_step; [exact R|].
    eapply seq_step; [eapply if_ok; [reflexivity|norm; reflexivity|rewrite PS; eapply blk; [reflexivity|discriminate]]|]. rt.
  - eexists _, lm, [("options", co)]. split; [|split; [exact FR|split]].
    + cbn [b_New f_body]. eapply blk; [|discriminate]. eapply seq_step; [exact DEF|]. eapply seq_step; [exact R|].
      eapply seq_step; [eapply if_ok; [reflexivity|norm; reflexivity|rewrite PS; eapply blk; [|discriminate]]|].
      * eapply seq_step; [|reflexivity]. unfold C. norm. rewrite CM. norm. reflexivity.
      * assert (C3 : get (set h2 lm (Cell (mval (VNil "") (machine_WithParsingMode 1 m1))) ++ [Cell (VPtr lm); Cell (VInt "ParsingMode" 1)]) cm = Some (Cell (VPtr lm))).
        { apply get_app, get_set_ne; [unfold cm; lia|exact C2]. }
        rt.
    + apply get_app. eapply get_set, G2.
    + intros l o G. apply get_app, get_set_ne; [|apply X2, G]. intros ->. rewrite FR in G. discriminate G.
Qed.

Lemma coerce_slice P pre t v : coerce P pre (TySlice t) v = v.
Proof. destruct v; reflexivity. Qed.
(* the options as arguments: the slice they are in, then the variable *)
Lemma bind_opts h e vs ks : Forall2 (is_opt h) vs ks ->
  exists h1 co ov, bind_params package "" [("options", TyName "Option", true)] vs false e h = GRet (("options", co) :: e, h1) /\
    get h1 co = Some (Cell ov) /\ opts_at h1 ov ks /\ extends h h1 /\ (forall l, l < List.length h -> l <> co).
Proof.
  intros F. destruct vs as [|v vs].
  - inversion F. subst ks. exists (h ++ [Cell (VNil "")]), (List.length h), (VNil ""). split; [reflexivity|].
    split; [apply get_last|]. split; [left; auto|]. split; [apply ext_app|intros; lia].
  - set (ws := v :: vs) in *. set (ha := h ++ [Arr "Option" ws]).
    exists (ha ++ [Cell (VSlice (List.length h) 0 (List.length ws))]), (List.length ha), (VSlice (List.length h) 0 (List.length ws)).
    assert (X : extends h (ha ++ [Cell (VSlice (List.length h) 0 (List.length ws))])) by (eapply ext_trans; apply ext_app).
    split; [reflexivity|]. split; [apply get_last|]. split.
    + right. exists (List.length h), "Option", ws. split; [reflexivity|]. split; [apply get_app, get_last|].
      eapply opts_ext; eassumption.
    + split; [exact X|]. intros l L. unfold ha. rewrite app_length. cbn. lia.
Qed.
Lemma call_New d h vs ks : Forall2 (is_opt h) vs ks ->
  exists h' lm, C (S (S (S d))) (CKey "NewMachine") vs false h = GRet (h', VPtr lm) /\
    get h lm = None /\ get h' lm = Some (Cell (mval (VNil "") (NewMachine ks))) /\ extends h h'.
Proof.
  intros F. destruct (bind_opts h [] vs ks F) as (h1 & co & ov & BP & GO & O & X & _).
  destruct (new_body d h1 co ov ks GO O) as (h' & lm & e & B & FR & G & X').
  exists h', lm. split; [|split; [|split; [exact G|eapply ext_trans; eassumption]]].
  - unfold C. etransitivity; [eapply call_ok; [exact l_New|exact BP|exact B]|]. reflexivity.
  - destruct (get h lm) eqn:E; [|reflexivity]. apply X in E. rewrite FR in E. discriminate E.
Qed.
(* NewMachine(options...) *)
Lemma call_New_spread d h v ks : opts_at h v ks ->
  exists h' lm, C (S (S (S d))) (CKey "NewMachine") [v] true h = GRet (h', VPtr lm) /\
    get h lm = None /\ get h' lm = Some (Cell (mval (VNil "") (NewMachine ks))) /\ extends h h'.
Proof.
  intros O. assert (X : extends h (h ++ [Cell v])) by apply ext_app.
  destruct (new_body d (h ++ [Cell v]) (List.length h) v ks) as (h' & lm & e & B & FR & G & X').
  - apply get_last.
  - destruct O as [O|(la & t & vs & E & GA & F)]; [left; exact O|]. right. exists la, t, vs. split; [exact E|]. split; [apply X, GA|].
    eapply opts_ext; eassumption.
  - exists h', lm. split; [|split; [|split; [exact G|eapply ext_trans; eassumption]]].
    + unfold C. etransitivity; [eapply call_ok; [exact l_New|reflexivity|exact B]|]. reflexivity.
    + destruct (get h lm) eqn:E; [|reflexivity]. apply X in E. rewrite FR in E. discriminate E.
Qed.
End Api.
