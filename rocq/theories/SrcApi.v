(* The functions of the package but Parse of machine.go: what their text does. *)
From Coq Require Import Lia.
From Verif Require Import GoAst.
From Verif Require Import GoBase MachineSyntax MachineTables Machine Urn.
From Verif Require GoPackage.
From Verif Require Import GoSem SrcRender SrcSim SrcSim2 SrcFacts SrcSim4.
Import ListNotations.
Local Open Scope string_scope.
Local Open Scope list_scope.

Notation package := GoPackage.package.
Definition fn (k : string) : func := match find k (p_funcs package) with Some f => f | None => mkFunc "" None [] [] [] end.

(* ---- the bodies, as loaded -------------------------------------------------------------------- *)
Definition b_Type := Eval vm_compute in fn "scimschema.Type.String".
Lemma l_Type : find "scimschema.Type.String" (p_funcs package) = Some b_Type. Proof. vm_compute. reflexivity. Qed.
Definition b_SMarshal := Eval vm_compute in fn "SCIM.MarshalJSON".
Lemma l_SMarshal : find "SCIM.MarshalJSON" (p_funcs package) = Some b_SMarshal. Proof. vm_compute. reflexivity. Qed.
Definition b_SUnmarshal := Eval vm_compute in fn "SCIM.UnmarshalJSON".
Lemma l_SUnmarshal : find "SCIM.UnmarshalJSON" (p_funcs package) = Some b_SUnmarshal. Proof. vm_compute. reflexivity. Qed.
Definition b_SString := Eval vm_compute in fn "SCIM.String".
Lemma l_SString : find "SCIM.String" (p_funcs package) = Some b_SString. Proof. vm_compute. reflexivity. Qed.
Definition b_Normalize := Eval vm_compute in fn "URN.Normalize".
Lemma l_Normalize : find "URN.Normalize" (p_funcs package) = Some b_Normalize. Proof. vm_compute. reflexivity. Qed.
Definition b_Equal := Eval vm_compute in fn "URN.Equal".
Lemma l_Equal : find "URN.Equal" (p_funcs package) = Some b_Equal. Proof. vm_compute. reflexivity. Qed.
Definition b_String := Eval vm_compute in fn "URN.String".
Lemma l_String : find "URN.String" (p_funcs package) = Some b_String. Proof. vm_compute. reflexivity. Qed.
Definition b_Parse := Eval vm_compute in fn "Parse".
Lemma l_Parse : find "Parse" (p_funcs package) = Some b_Parse. Proof. vm_compute. reflexivity. Qed.
Definition b_Marshal := Eval vm_compute in fn "URN.MarshalJSON".
Lemma l_Marshal : find "URN.MarshalJSON" (p_funcs package) = Some b_Marshal. Proof. vm_compute. reflexivity. Qed.
Definition b_Unmarshal := Eval vm_compute in fn "URN.UnmarshalJSON".
Lemma l_Unmarshal : find "URN.UnmarshalJSON" (p_funcs package) = Some b_Unmarshal. Proof. vm_compute. reflexivity. Qed.
Definition b_IsSCIM := Eval vm_compute in fn "URN.IsSCIM".
Lemma l_IsSCIM : find "URN.IsSCIM" (p_funcs package) = Some b_IsSCIM. Proof. vm_compute. reflexivity. Qed.
Definition b_SCIM := Eval vm_compute in fn "URN.SCIM".
Lemma l_SCIM : find "URN.SCIM" (p_funcs package) = Some b_SCIM. Proof. vm_compute. reflexivity. Qed.
Definition b_RFC := Eval vm_compute in fn "URN.RFC".
Lemma l_RFC : find "URN.RFC" (p_funcs package) = Some b_RFC. Proof. vm_compute. reflexivity. Qed.
Definition b_F := Eval vm_compute in fn "URN.FComponent".
Lemma l_F : find "URN.FComponent" (p_funcs package) = Some b_F. Proof. vm_compute. reflexivity. Qed.
Definition b_Q := Eval vm_compute in fn "URN.QComponent".
Lemma l_Q : find "URN.QComponent" (p_funcs package) = Some b_Q. Proof. vm_compute. reflexivity. Qed.
Definition b_R := Eval vm_compute in fn "URN.RComponent".
Lemma l_R : find "URN.RComponent" (p_funcs package) = Some b_R. Proof. vm_compute. reflexivity. Qed.
Definition b_EMarshal := Eval vm_compute in fn "URN8141.MarshalJSON".
Lemma l_EMarshal : find "URN8141.MarshalJSON" (p_funcs package) = Some b_EMarshal. Proof. vm_compute. reflexivity. Qed.
Definition b_EUnmarshal := Eval vm_compute in fn "URN8141.UnmarshalJSON".
Lemma l_EUnmarshal : find "URN8141.UnmarshalJSON" (p_funcs package) = Some b_EUnmarshal. Proof. vm_compute. reflexivity. Qed.
Definition b_With := Eval vm_compute in fn "WithParsingMode".
Lemma l_With : find "WithParsingMode" (p_funcs package) = Some b_With. Proof. vm_compute. reflexivity. Qed.
Definition b_New := Eval vm_compute in fn "NewMachine".
Lemma l_New : find "NewMachine" (p_funcs package) = Some b_New. Proof. vm_compute. reflexivity. Qed.
Definition b_Error := Eval vm_compute in fn "machine.Error".
Lemma l_Error : find "machine.Error" (p_funcs package) = Some b_Error. Proof. vm_compute. reflexivity. Qed.
Definition b_Mode := Eval vm_compute in fn "machine.WithParsingMode".
Lemma l_Mode : find "machine.WithParsingMode" (p_funcs package) = Some b_Mode. Proof. vm_compute. reflexivity. Qed.
Lemma z_string : zero 4 package "" (TyName "string") = VStr []. Proof. reflexivity. Qed.
Lemma z_URN : zero 4 package "" (TyName "URN") = uval (VNil "SCIM") (VNil "") zeroURN. Proof. vm_compute. reflexivity. Qed.

Lemma x_ToLower : find "strings.ToLower" (p_funcs package) = None. Proof. vm_compute. reflexivity. Qed.
Lemma x_Errorf : find "fmt.Errorf" (p_funcs package) = None. Proof. vm_compute. reflexivity. Qed.
Lemma x_Sprintf : find "fmt.Sprintf" (p_funcs package) = None. Proof. vm_compute. reflexivity. Qed.
Lemma x_Marshal : find "json.Marshal" (p_funcs package) = None. Proof. vm_compute. reflexivity. Qed.
Lemma x_Unmarshal : find "json.Unmarshal" (p_funcs package) = None. Proof. vm_compute. reflexivity. Qed.
Lemma x_String8 : find "URN8141.String" (p_funcs package) = None. Proof. vm_compute. reflexivity. Qed.
Lemma g_RFC7643 : global package "RFC7643" = GRet (VInt "Kind" 2). Proof. vm_compute. reflexivity. Qed.
Lemma g_RFC2141Only : global package "RFC2141Only" = GRet (VInt "ParsingMode" 1). Proof. vm_compute. reflexivity. Qed.
Lemma g_RFC7643Only : global package "RFC7643Only" = GRet (VInt "ParsingMode" 2). Proof. vm_compute. reflexivity. Qed.
Lemma g_RFC8141Only : global package "RFC8141Only" = GRet (VInt "ParsingMode" 3). Proof. vm_compute. reflexivity. Qed.
Lemma g_DefaultParsingMode : global package "DefaultParsingMode" = GRet (VInt "ParsingMode" 1). Proof. vm_compute. reflexivity. Qed.
Lemma g_enMain : global package "enMain" = GRet (VInt "" 1). Proof. vm_compute. reflexivity. Qed.
Lemma g_enRfc8141Only : global package "enRfc8141Only" = GRet (VInt "" 83). Proof. vm_compute. reflexivity. Qed.
Lemma g_enScimOnly : global package "enScimOnly" = GRet (VInt "" 44). Proof. vm_compute. reflexivity. Qed.
Lemma g_Schemas : global package "scimschema.Schemas" = GRet (VInt "scimschema.Type" 1). Proof. vm_compute. reflexivity. Qed.
Lemma g_API : global package "scimschema.API" = GRet (VInt "scimschema.Type" 2). Proof. vm_compute. reflexivity. Qed.
Lemma g_Param : global package "scimschema.Param" = GRet (VInt "scimschema.Type" 3). Proof. vm_compute. reflexivity. Qed.
Lemma g_errInvalidURN : global package "errInvalidURN" = GRet (VStr (B "invalid URN: %s")). Proof. vm_compute. reflexivity. Qed.
Lemma g_errInvalidURN8141 : global package "errInvalidURN8141" = GRet (VStr (B "invalid URN per RFC 8141: %s")). Proof. vm_compute. reflexivity. Qed.
Lemma g_errInvalidSCIMURN : global package "errInvalidSCIMURN" = GRet (VStr (B "invalid SCIM URN: %s")). Proof. vm_compute. reflexivity. Qed.
Lemma t_Type : find "scimschema.Type" (p_types package) = Some (TyName "int"). Proof. vm_compute. reflexivity. Qed.
Lemma t_Kind : find "Kind" (p_types package) = Some (TyName "int"). Proof. vm_compute. reflexivity. Qed.
Lemma t_ParsingMode : find "ParsingMode" (p_types package) = Some (TyName "int"). Proof. vm_compute. reflexivity. Qed.
Lemma t_URN8141 : find "URN8141" (p_types package) = Some (TyStruct [("URN", TyPtr (TyName "URN"), true)]). Proof. vm_compute. reflexivity. Qed.
Lemma z_URN8141 : zero 4 package "" (TyName "URN8141") = VStruct "URN8141" [("URN", VNil "URN")]. Proof. vm_compute. reflexivity. Qed.
Lemma z_machine : zero 4 package "" (TyName "machine") = mval (VNil "") zero_machine. Proof. vm_compute. reflexivity. Qed.
#[export] Hint Rewrite l_Type l_SMarshal l_SUnmarshal l_SString l_Normalize l_Equal l_String l_Parse l_Marshal l_Unmarshal l_IsSCIM l_SCIM l_RFC l_F l_Q l_R l_EMarshal l_EUnmarshal l_With l_New l_Error l_Mode x_ToLower x_Errorf x_Sprintf x_Marshal x_Unmarshal x_String8 g_RFC7643 g_RFC2141Only g_RFC7643Only g_RFC8141Only g_DefaultParsingMode g_enMain g_enRfc8141Only g_enScimOnly g_Schemas g_API g_Param g_errInvalidURN g_errInvalidURN8141 g_errInvalidSCIMURN t_Type t_Kind t_ParsingMode t_URN8141 z_string z_URN z_URN8141 z_machine : pk.
Arguments p_funcs : simpl never.
Arguments p_globals : simpl never.
Arguments p_types : simpl never.

(* ---- heaps ------------------------------------------------------------------------------------ *)
Lemma get_at h k i : get (h ++ k) (List.length h + i) = nth_error k i.
Proof. unfold get. rewrite nth_error_app2 by lia. f_equal. lia. Qed.
Lemma get_at0 h k : get (h ++ k) (List.length h) = nth_error k 0.
Proof. rewrite <- (get_at h k 0). f_equal. lia. Qed.
Lemma set_at h k i o : set (h ++ k) (List.length h + i) o = h ++ set_nth i o k.
Proof. unfold set. induction h as [|x h IH]; [reflexivity|]. cbn. rewrite IH. reflexivity. Qed.
Lemma set_at0 h k o : set (h ++ k) (List.length h) o = h ++ set_nth 0 o k.
Proof. rewrite <- (set_at h k 0). f_equal. lia. Qed.
Lemma set_app h k l o o' : get h l = Some o' -> set (h ++ k) l o = set h l o ++ k.
Proof. unfold set, get. revert l. induction h as [|x h IH]; intros [|l]; try discriminate; [reflexivity|]. cbn. intros G. rewrite (IH l G). reflexivity. Qed.

Lemma set_set h l o o' : set (set h l o) l o' = set h l o'.
Proof. unfold set. revert l. induction h as [|x h IH]; intros [|l]; cbn; try reflexivity. rewrite IH. reflexivity. Qed.
Lemma set_twice h k l o o1 o2 : get h l = Some o -> set (set h l o1 ++ k) l o2 = set h l o2 ++ k.
Proof. intros G. rewrite (set_app _ _ _ _ o1) by (eapply get_set; exact G). rewrite set_set. reflexivity. Qed.
Lemma get_sat h k l o i : get (set h l o ++ k) (List.length h + i) = nth_error k i.
Proof. rewrite <- (set_len h l o). apply get_at. Qed.
Lemma get_sat0 h k l o : get (set h l o ++ k) (List.length h) = nth_error k 0.
Proof. rewrite <- (set_len h l o). apply get_at0. Qed.
Lemma set_sat h k l o i o' : set (set h l o ++ k) (List.length h + i) o' = set h l o ++ set_nth i o' k.
Proof. rewrite <- (set_len h l o). apply set_at. Qed.
Lemma set_sat0 h k l o o' : set (set h l o ++ k) (List.length h) o' = set h l o ++ set_nth 0 o' k.
Proof. rewrite <- (set_len h l o). apply set_at0. Qed.

Lemma call_key ext n d k f args sp h : find k (p_funcs package) = Some f ->
  call package ext n (S d) (CKey k) args sp h =
  let! (e, h) := bind_params package (f_pre f) (f_params f) args sp [] h in
  let! (_, h, c) := body package (f_pre f) (call package ext n d) ext n (f_body f) e h in
  match c with CRet vs => GRet (h, tuple (coerces package (f_pre f) (f_results f) vs)) | CNorm => GRet (h, VTuple []) | CGoto _ => GStuck end.
Proof. intros F. cbn [call]. rewrite F. reflexivity. Qed.

Arguments call : simpl never.
Arguments zero : simpl never.
Arguments ToLower : simpl never.
Arguments bytes_eqb : simpl never.
Arguments nth_error : simpl nomatch.
Arguments List.length : simpl nomatch.
Arguments app : simpl nomatch.
Lemma nil_eqb w : bytes_eqb w (B "") = is_empty w.
Proof. destruct w; reflexivity. Qed.

Ltac norm := cbn; repeat (progress (
  rewrite <- ?app_assoc, ?app_length; rewrite <- ?Nat.add_assoc; cbn;
  rewrite ?get_at0, ?get_at, ?set_at0, ?set_at, ?nil_eqb, ?set_len, ?get_sat0, ?get_sat, ?set_sat0, ?set_sat; try (lazymatch goal with |- context[find _ (_ package)] => idtac | |- context[global package _] => idtac | |- context[zero _ package] => idtac end; autorewrite with pk); cbn;
  repeat match goal with
   | H : get ?h ?l = Some _ |- context[get ?h ?l] => rewrite H
   | H : get ?h ?l = Some ?o |- context[get (?h ++ ?k) ?l] => rewrite (get_app h k l o H)
   | H : get ?h ?l = Some ?o |- context[set (?h ++ ?k) ?l ?o'] => rewrite (set_app h k l o' o H)
   | H : get ?h ?l = Some ?o |- context[set (set ?h ?l ?o1 ++ ?k) ?l ?o2] => rewrite (set_twice h k l o o1 o2 H)
   | H : get ?h ?l = Some ?o |- context[get (set ?h ?l ?o1 ++ ?k) ?l] => rewrite (get_app _ k _ _ (get_set h l o o1 H))
   end; cbn)).

(* ---- rules ------------------------------------------------------------------------------------- *)
Section Rules.
Variable pre : string.
Variable C : callee -> list val -> bool -> heap -> gres (heap * val).
Variable ext : string -> list val -> heap -> gres (heap * val).
Variable n : nat.
Local Notation ex := (exec package pre C ext n).
Local Notation F := (fun s => (label_of s, exec package pre C ext n s)).
Lemma seq_step s b e h e1 h1 r : ex s e h = GRet (e1, h1, CNorm) -> seq (map F b) e1 h1 = r -> seq (map F (s :: b)) e h = r.
Proof. intros A K. cbn [map seq]. rewrite A. exact K. Qed.
Lemma seq_ret s b e h e1 h1 vs : ex s e h = GRet (e1, h1, CRet vs) -> seq (map F (s :: b)) e h = GRet (e1, h1, CRet vs).
Proof. intros A. cbn [map seq]. rewrite A. reflexivity. Qed.
Lemma seq_panic s b e h : ex s e h = GPanic -> seq (map F (s :: b)) e h = GPanic.
Proof. intros A. cbn [map seq]. rewrite A. reflexivity. Qed.
Lemma blk b e h e1 h1 k : seq (map F b) e h = GRet (e1, h1, k) -> (forall l, k <> CGoto l) ->
  body package pre C ext n b e h = GRet (e, h1, k).
Proof. intros A N. apply block_ok with (e' := e1); [exact A|]. intros l ->. destruct (N l eq_refl). Qed.
Lemma blk_panic b e h : seq (map F b) e h = GPanic -> body package pre C ext n b e h = GPanic.
Proof. intros A. unfold body, block. rewrite jumps_eq, A. reflexivity. Qed.
Lemma if_ok i c t f e e1 h h1 h2 b e3 h3 k : seq (map F i) e h = GRet (e1, h1, CNorm) ->
  eval package pre C ext c e1 h1 = GRet (h2, VBool b) -> body package pre C ext n (if b then t else f) e1 h2 = GRet (e3, h3, k) ->
  ex (GoAst.SIf i c t f) e h = GRet (e, h3, k).
Proof.
  intros A K B. cbn [exec]. rewrite A. cbn [gbind]. rewrite K. cbn [gbind].
  unfold body in B. destruct b; rewrite B; reflexivity.
Qed.
Lemma if_panic i c t f e e1 h h1 h2 b : seq (map F i) e h = GRet (e1, h1, CNorm) ->
  eval package pre C ext c e1 h1 = GRet (h2, VBool b) -> body package pre C ext n (if b then t else f) e1 h2 = GPanic ->
  ex (GoAst.SIf i c t f) e h = GPanic.
Proof.
  intros A K B. cbn [exec]. rewrite A. cbn [gbind]. rewrite K. cbn [gbind].
  unfold body in B. destruct b; rewrite B; reflexivity.
Qed.
End Rules.
Lemma call_ok ext n d k f args sp h e h1 e2 h2 vs : find k (p_funcs package) = Some f ->
  bind_params package (f_pre f) (f_params f) args sp [] h = GRet (e, h1) ->
  body package (f_pre f) (call package ext n d) ext n (f_body f) e h1 = GRet (e2, h2, CRet vs) ->
  call package ext n (S d) (CKey k) args sp h = GRet (h2, tuple (coerces package (f_pre f) (f_results f) vs)).
Proof. intros A K B. rewrite (call_key _ _ _ _ _ _ _ _ A), K. cbn [gbind]. rewrite B. reflexivity. Qed.
Lemma call_void ext n d k f args sp h e h1 e2 h2 : find k (p_funcs package) = Some f ->
  bind_params package (f_pre f) (f_params f) args sp [] h = GRet (e, h1) ->
  body package (f_pre f) (call package ext n d) ext n (f_body f) e h1 = GRet (e2, h2, CNorm) ->
  call package ext n (S d) (CKey k) args sp h = GRet (h2, VTuple []).
Proof. intros A K B. rewrite (call_key _ _ _ _ _ _ _ _ A), K. cbn [gbind]. rewrite B. reflexivity. Qed.
Lemma call_panic ext n d k f args sp h e h1 : find k (p_funcs package) = Some f ->
  bind_params package (f_pre f) (f_params f) args sp [] h = GRet (e, h1) ->
  body package (f_pre f) (call package ext n d) ext n (f_body f) e h1 = GPanic ->
  call package ext n (S d) (CKey k) args sp h = GPanic.
Proof. intros A K B. rewrite (call_key _ _ _ _ _ _ _ _ A), K. cbn [gbind]. rewrite B. reflexivity. Qed.
(* one statement; a condition; a return *)
Ltac st := eapply seq_step; [norm; reflexivity|].
Ltac rt := eapply seq_ret; norm; reflexivity.
Ltac sif := eapply seq_step; [eapply if_ok; [reflexivity|norm; reflexivity|eapply blk; [|discriminate]]|].
Ltac enter L := eapply call_ok; [exact L|norm; reflexivity|cbn [f_pre f_body]; eapply blk; [|discriminate]].

Section Api.
Variable uni : bytes -> bytes.
Variable newer : bool.
Let ext := GoPackage.ext uni newer.
Variable n : nat.
Let C := call package ext n.

Definition says (h : heap) (r : gres (heap * val)) (v : val) : Prop := exists k, r = GRet (h ++ k, v).

Lemma call_String d h lu sv lv u : get h lu = Some (Cell (uval sv lv u)) -> says h (C (S d) (CKey "URN.String") [VPtr lu] false h) (VStr (URN_String u)).
Proof.
  intros G0. pose proof G0 as G. unfold uval in G. unfold says. unfold C. eexists. etransitivity.
  - eapply call_ok; [exact l_String|norm; reflexivity|cbn [b_String f_pre f_body]; eapply blk; [|discriminate]]. st.
    set (e := [("res", List.length h + 1); ("u", List.length h)]).
    eapply seq_step.
    + assert (X : exec package "" (call package ext n d) ext n (nth 1 (f_body b_String) (SBlock [])) e (h ++ [Cell (VPtr lu); Cell (VStr [])]) =
        GRet (e, h ++ [Cell (VPtr lu); Cell (VStr (URN_String u))], CNorm)); [|exact X].
      cbn [nth f_body b_String]. unfold URN_String.
      destruct (is_empty (u_ID u)) eqn:EI; [|destruct (is_empty (u_SS u)) eqn:ES].
      * eapply if_ok; [reflexivity|norm; rewrite EI; reflexivity|eapply blk; [reflexivity|discriminate]].
      * eapply if_ok; [reflexivity|norm; rewrite EI; norm; rewrite ES; reflexivity|eapply blk; [reflexivity|discriminate]].
      * eapply if_ok; [reflexivity|norm; rewrite EI; norm; rewrite ES; reflexivity|eapply blk; [|discriminate]].
        eapply seq_step; [eapply if_ok; [reflexivity|norm; reflexivity|eapply blk with (h1 := h ++ [Cell (VPtr lu); Cell (VStr (if is_empty (u_prefix u) then B "urn" else []))]); [|discriminate]]|].
        { destruct (is_empty (u_prefix u)); [st; reflexivity|reflexivity]. }
        eapply seq_step; [norm; reflexivity|].
        set (r0 := if is_empty (u_prefix u) then B "urn" else []).
        assert (O : forall r f c w b rr, find f (ufields sv lv u) = Some (VStr w) -> In f ["rComponent"; "qComponent"; "fComponent"] ->
          seq (map (fun s => (label_of s, exec package "" (call package ext n d) ext n s)) b) e (h ++ [Cell (VPtr lu); Cell (VStr (if negb (is_empty w) then r ++ (B c ++ w) else r))]) = rr ->
          seq (map (fun s => (label_of s, exec package "" (call package ext n d) ext n s)) (GoAst.SIf [] (EBin "!=" (ESel (EId "u") f) (EStr ""))
            [SAssign "+=" [EId "res"] [EBin "+" (EStr c) (ESel (EId "u") f)]] [] :: b)) e (h ++ [Cell (VPtr lu); Cell (VStr r)]) = rr).
        { intros r f c w b rr Q I K. eapply seq_step; [|exact K]. destruct I as [<-|[<-|[<-|[]]]].
          all: inversion Q; subst w; eapply if_ok; [reflexivity|norm; reflexivity|eapply blk with (e1 := e); [|discriminate]].
          all: match goal with |- context[is_empty ?w] => destruct (is_empty w) end; cbn [negb]; [reflexivity|st; reflexivity]. }
        eapply O; [reflexivity|cbn; tauto|]. eapply O; [reflexivity|cbn; tauto|]. eapply O; [reflexivity|cbn; tauto|].
        destruct (is_empty (u_prefix u)); reflexivity.
    + rt.
  - reflexivity.
Qed.

(* a new URN, and its address *)
Lemma call_Normalize d h lu sv lv u : get h lu = Some (Cell (uval sv lv u)) ->
  C (S d) (CKey "URN.Normalize") [VPtr lu] false h =
    GRet (h ++ [Cell (VPtr lu); Cell (uval (VNil "SCIM") (VNil "") (Normalize uni u))], VPtr (List.length h + 1)).
Proof.
  intros G. unfold uval in G. unfold C.
  etransitivity; [enter l_Normalize; cbn [b_Normalize f_body]; rt|]. reflexivity.
Qed.
Lemma call_Equal d h lu sv lv u lx sv' lv' x : get h lu = Some (Cell (uval sv lv u)) -> get h lx = Some (Cell (uval sv' lv' x)) ->
  says h (C (S (S d)) (CKey "URN.Equal") [VPtr lu; VPtr lx] false h) (VBool (Equal uni u (Some x))).
Proof.
  intros G G'. unfold says, C. cbn [Equal Normalize u_prefix u_ID u_SS].
  change (bytes_eqb (B "urn") (B "urn")) with true. cbn [andb].
  assert (N1 := fun k => call_Normalize d (h ++ k) lu sv lv u (get_app _ k _ _ G)).
  assert (N2 := fun k => call_Normalize d (h ++ k) lx sv' lv' x (get_app _ k _ _ G')). unfold C in N1, N2.
  unfold uval in G, G'.
  eexists. etransitivity; [enter l_Equal; cbn [b_Equal f_body]|].
  - sif; [reflexivity|].
    eapply seq_step; [norm; rewrite N1; norm; reflexivity|].
    eapply seq_step; [norm; rewrite N2; norm; reflexivity|].
    eapply seq_ret. norm. change (bytes_eqb (B "urn") (B "urn")) with true. norm.
    instantiate (1 := [VBool (bytes_eqb (ToLower uni (u_ID u)) (ToLower uni (u_ID x)) && bytes_eqb (u_norm u) (u_norm x))]).
    destruct (bytes_eqb (ToLower uni (u_ID u)) (ToLower uni (u_ID x))); norm; reflexivity.
  - reflexivity.
Qed.

Lemma call_Equal_nil d h v t : says h (C (S d) (CKey "URN.Equal") [v; VNil t] false h) (VBool false).
Proof.
  unfold says, C. eexists. etransitivity; [enter l_Equal; cbn [b_Equal f_body]|].
  - eapply seq_ret. eapply if_ok; [reflexivity|norm; reflexivity|eapply blk; [rt|discriminate]].
  - reflexivity.
Qed.
(* the accessors: the field, the call that reads it *)
Lemma call_field d h lu sv lv u k v : get h lu = Some (Cell (uval sv lv u)) ->
  In (k, v) [("URN.FComponent", VStr (FComponent u)); ("URN.QComponent", VStr (QComponent u)); ("URN.RComponent", VStr (RComponent u));
    ("URN.RFC", VInt "Kind" (RFC u)); ("URN.IsSCIM", VBool (IsSCIM u))] ->
  says h (C (S d) (CKey k) [VPtr lu] false h) v.
Proof.
  intros G I. unfold uval in G. unfold says, C. cbn [In] in I. repeat (destruct I as [I|I]); try (destruct I; fail);
    (inversion I; subst k v; clear I; eexists; etransitivity).
  1: (enter l_F; cbn [b_F f_body]; rt). 2: (enter l_Q; cbn [b_Q f_body]; rt). 3: (enter l_R; cbn [b_R f_body]; rt).
  4: (enter l_RFC; cbn [b_RFC f_body]; rt). 5: (enter l_IsSCIM; cbn [b_IsSCIM f_body]; rt).
  all: norm; reflexivity.
Qed.
End Api.
