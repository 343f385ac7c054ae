(* Text of scim.go, type.go, options.go, NewMachine and the machine's small methods. *)
From Coq Require Import Lia.
From Verif Require Import GoAst.
From Verif Require Import GoBase MachineSyntax MachineTables Machine Urn.
From Verif Require GoPackage.
From Verif Require Import GoSem SrcRender SrcSim SrcSim2 SrcFacts SrcSim4 SrcApi.
Import ListNotations.
Local Open Scope string_scope.
Local Open Scope list_scope.

(* a switch case *)
Ltac sw := norm; unfold block; rewrite jumps_eq; norm.

Section Api.
Variable uni : bytes -> bytes.
Variable newer : bool.
Let ext := GoPackage.ext uni newer.
Variable n : nat.
Let C := call package ext n.

(* u.scim, when u is a SCIM URN *)
Lemma call_SCIM d h lu sv lv u : get h lu = Some (Cell (uval sv lv u)) -> (sv = VNil "SCIM" \/ exists l, sv = VPtr l) ->
  says h (C (S d) (CKey "URN.SCIM") [VPtr lu] false h) (if negb (Z.eqb (u_kind u) KRFC7643) then VNil "SCIM" else sv).
Proof.
  intros G SV. unfold uval in G. unfold says, C. destruct (Z.eqb (u_kind u) KRFC7643) eqn:K; cbn [negb].
  - eexists. etransitivity; [enter l_SCIM; cbn [b_SCIM f_body]|].
    + eapply seq_step; [eapply if_ok; [reflexivity|norm; reflexivity|unfold KRFC7643 in K; rewrite K; eapply blk; [reflexivity|discriminate]]|]. rt.
    + destruct SV as [->|(l & ->)]; reflexivity.
  - eexists. etransitivity; [enter l_SCIM; cbn [b_SCIM f_body]|].
    + eapply seq_ret; eapply if_ok; [reflexivity|norm; reflexivity|unfold KRFC7643 in K; rewrite K; eapply blk; [rt|discriminate]].
    + reflexivity.
Qed.

(* ---- scim.go, scim/schema/type.go ------------------------------------------------------------------- *)

Lemma call_Type d h t : C (S d) (CKey "scimschema.Type.String") [VInt "scimschema.Type" t] false h =
  GRet (h ++ [Cell (VInt "scimschema.Type" t)], VStr (Type_String t)).
Proof.
  unfold C, Type_String, TSchemas, TAPI, TParam.
  destruct (Z.eqb t 1) eqn:T1; [|destruct (Z.eqb t 2) eqn:T2; [|destruct (Z.eqb t 3) eqn:T3]].
  all: etransitivity; [enter l_Type; cbn [b_Type f_body]|].
  1: (eapply seq_ret; norm; rewrite T1; sw; reflexivity). 1: reflexivity.
  1: (eapply seq_ret; norm; rewrite T1; norm; rewrite T2; sw; reflexivity). 1: reflexivity.
  1: (eapply seq_ret; norm; rewrite T1; norm; rewrite T2; norm; rewrite T3; sw; reflexivity). 1: reflexivity.
  1: (eapply seq_step; [norm; rewrite T1; norm; rewrite T2; norm; rewrite T3; norm; reflexivity|]; rt). reflexivity.
Qed.
Lemma sp1 a b : GoPackage.sprintf (B "urn:ietf:params:scim:%s:%s") [VStr a; VStr b] = Some (B "urn:ietf:params:scim:" ++ a ++ B ":" ++ b).
Proof. cbv -[app]. rewrite app_nil_r. reflexivity. Qed.
Lemma sp2 a : GoPackage.sprintf (B ":%s") [VStr a] = Some (B ":" ++ a).
Proof. cbv -[app]. rewrite app_nil_r. reflexivity. Qed.
Arguments GoPackage.sprintf : simpl never.
Lemma call_SString d h l s : get h l = Some (Cell (sval s)) ->
  says h (C (S (S d)) (CKey "SCIM.String") [VPtr l] false h) (VStr (SCIM_String s)).
Proof.
  intros G. unfold sval in G. unfold says, C.
  pose proof (call_Type d (h ++ [Cell (VPtr l)]) (s_Type s)) as T. unfold C in T.
  unfold SCIM_String. destruct (is_empty (s_Other s)) eqn:O; cbn [negb].
  all: eexists; etransitivity; [enter l_SString; cbn [b_SString f_body]|].
  - eapply seq_step; [norm; rewrite T; norm; rewrite sp1; norm; reflexivity|].
    eapply seq_step; [eapply if_ok; [reflexivity|norm; rewrite O; reflexivity|eapply blk; [reflexivity|discriminate]]|]. rt.
  - norm. reflexivity.
  - eapply seq_step; [norm; rewrite T; norm; rewrite sp1; norm; reflexivity|].
    eapply seq_step; [eapply if_ok; [reflexivity|norm; rewrite O; reflexivity|eapply blk; [|discriminate]]|].
    { eapply seq_step; [norm; rewrite sp2; norm; reflexivity|reflexivity]. }
    rt.
  - norm. reflexivity.
Qed.
(* ---- machine.go:129-131, 5035-5046 ------------------------------------------------------------------ *)
Lemma call_Error d h lm dv m : get h lm = Some (Cell (mval dv m)) ->
  says h (C (S d) (CKey "machine.Error") [VPtr lm] false h) (verr (machine_Error m)).
Proof.
  intros G. unfold mval in G. unfold says, C. eexists. etransitivity; [enter l_Error; cbn [b_Error f_body]; rt|].
  destruct m as [? ? ? ? ? ? [|] ? ? ?]; reflexivity.
Qed.
Lemma call_Mode d h lm dv m x : get h lm = Some (Cell (mval dv m)) ->
  C (S d) (CKey "machine.WithParsingMode") [VPtr lm; VInt "ParsingMode" x] false h =
    GRet (set h lm (Cell (mval dv (machine_WithParsingMode x m))) ++ [Cell (VPtr lm); Cell (VInt "ParsingMode" x)], VTuple []).
Proof.
  intros G. unfold mval in G. unfold C, machine_WithParsingMode.
  unfold PRFC2141Only, PRFC8141Only, PRFC7643Only, en_main, en_rfc8141_only, en_scim_only.
  destruct (Z.eqb x 1) eqn:X1; [|destruct (Z.eqb x 3) eqn:X3; [|destruct (Z.eqb x 2) eqn:X2]].
  all: etransitivity; [eapply call_void; [exact l_Mode|norm; reflexivity|cbn [b_Mode f_pre f_body]; eapply blk; [|discriminate]]|].
  1: (st; eapply seq_step; [norm; rewrite X1; sw; reflexivity|]; st; reflexivity). 1: reflexivity.
  1: (st; eapply seq_step; [norm; rewrite X1; norm; rewrite X3; sw; reflexivity|]; st; reflexivity). 1: reflexivity.
  1: (st; eapply seq_step; [norm; rewrite X1; norm; rewrite X3; norm; rewrite X2; sw; reflexivity|]; st; reflexivity). 1: reflexivity.
  1: (st; eapply seq_step; [norm; rewrite X1; norm; rewrite X3; norm; rewrite X2; norm; reflexivity|]; st; reflexivity). reflexivity.
Qed.
End Api.
