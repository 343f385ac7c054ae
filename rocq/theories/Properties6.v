(* Property theorems: error texts (C38), errors and continuations (C39), letter case (C40),
   canonical normal form (C41). *)
From Coq Require Import Lia.
From Verif Require Import GoBase MachineSyntax MachineTables Machine Errors Urn Json Spec SpecErr SpecErr8 SpecText Ref Api
  PropsA PropsB PropsErr PropsErrB PropsErr8c PropsJson PropsText PropsFinal PropsCase PropsCanon.
Local Open Scope Z_scope.

(* ================================================================ C38 *)
(* the text of an error of Parse: the sentence of the rule, then " [col n]" with n the
   column in decimal; on every machine *)
Theorem C38_text : forall m s m' uo e, reachable m -> machine_Parse m s = Ret (m', uo, Some e) ->
  exists w, numeral (e_col e) w /\ perr_Error e = (sentence (e_kind e) ++ " [col " ++ w ++ "]")%string.
Proof.
  intros m s m' uo [k n] H Hp. apply error_text. exact (proj1 (column_bounds _ _ _ _ _ H Hp)).
Qed.
Print Assumptions C38_text.

(* two errors with the same text are the same: rule and column can be read off the text *)
Theorem C38_text_tells : forall m1 s1 m1' uo1 e1 m2 s2 m2' uo2 e2, reachable m1 -> reachable m2 ->
  machine_Parse m1 s1 = Ret (m1', uo1, Some e1) -> machine_Parse m2 s2 = Ret (m2', uo2, Some e2) ->
  perr_Error e1 = perr_Error e2 -> e_kind e1 = e_kind e2 /\ e_col e1 = e_col e2.
Proof.
  intros m1 s1 m1' uo1 e1 m2 s2 m2' uo2 e2 H1 H2 Hp1 Hp2 E.
  apply error_text_inj in E; [subst e2; auto|exact (proj1 (column_bounds _ _ _ _ _ H1 Hp1))|exact (proj1 (column_bounds _ _ _ _ _ H2 Hp2))].
Qed.
Print Assumptions C38_text_tells.

Example C38_example :
  (exists m e, machine_Parse (NewMachine []) (B "urn:a-b:c%4") = Ret (m, None, Some e) /\
     perr_Error e = "expecting the percent encoded chars to be well-formed (%alnum{2}) [col 11]"%string) /\
  (exists m e, machine_Parse (NewMachine [PRFC7643Only]) (B "urn:ietf:params:scim:schemas:core:") = Ret (m, None, Some e) /\
     perr_Error e = "expecting a not empty SCIM other part after colon [col 33]"%string) /\
  numeral 1205 "1205" /\ ~ numeral 5 "05".
Proof.
  split; [eexists _, _; split; vm_compute; reflexivity|]. split; [eexists _, _; split; vm_compute; reflexivity|]. split.
  - split; [discriminate|]. split; [reflexivity|]. split; [lia|]. right. intros r; discriminate.
  - intros (_ & _ & _ & [K|K]); [discriminate K|]. eapply K. reflexivity.
Qed.

(* the error of UnmarshalJSON on a string that does not parse: a fixed phrase and the
   decoded string; otherwise the error is that of encoding/json *)
Theorem C38_json : 
  (forall u b u' e, URN_UnmarshalJSON u b = Ret (u', Some e) ->
     match json_Unmarshal b with None => jerr_Error e = None | Some w => jerr_Error e = Some (B "invalid URN: " ++ w) end) /\
  (forall u b u' e, URN8141_UnmarshalJSON u b = Ret (u', Some e) ->
     match json_Unmarshal b with None => jerr_Error e = None | Some w => jerr_Error e = Some (B "invalid URN per RFC 8141: " ++ w) end) /\
  (forall s b s' e, SCIM_UnmarshalJSON s b = Ret (s', Some e) ->
     match json_Unmarshal b with None => jerr_Error e = None | Some w => jerr_Error e = Some (B "invalid SCIM URN: " ++ w) end).
Proof.
  split; [|split].
  - intros u b u' e H. pose proof (URN_unmarshal u b) as K. destruct (json_Unmarshal b) as [w|].
    + destruct K as [(x & _ & K)|[_ K]]; rewrite K in H; [discriminate H|]. injection H as _ <-. cbn. rewrite app_nil_r. reflexivity.
    + rewrite K in H. injection H as _ <-. reflexivity.
  - intros u b u' e H. pose proof (URN8141_unmarshal u b) as K. destruct (json_Unmarshal b) as [w|].
    + destruct K as [(x & _ & K)|[[_ K]|(_ & _ & K)]]; rewrite K in H; [discriminate H..|]. injection H as _ <-. cbn. rewrite app_nil_r. reflexivity.
    + rewrite K in H. injection H as _ <-. reflexivity.
  - intros u b u' e H. pose proof (SCIM_unmarshal u b) as K. destruct (json_Unmarshal b) as [w|].
    + destruct K as [(x & y & _ & _ & K)|[_ K]]; rewrite K in H; [discriminate H|]. injection H as _ <-. cbn. rewrite app_nil_r. reflexivity.
    + rewrite K in H. injection H as _ <-. reflexivity.
Qed.
Print Assumptions C38_json.

(* urn_test.go:45, urn8141_test.go:43, scim_test.go:63 *)
Example C38_example_json : exists e1 e2 e3 b, b = ["034"%byte] ++ B "not a URN" ++ ["034"%byte] /\
  URN_UnmarshalJSON (handbuilt [] []) b = Ret (handbuilt [] [], Some e1) /\ jerr_Error e1 = Some (B "invalid URN: not a URN") /\
  URN8141_UnmarshalJSON None b = Ret (None, Some e2) /\ jerr_Error e2 = Some (B "invalid URN per RFC 8141: not a URN") /\
  SCIM_UnmarshalJSON zeroSCIM b = Ret (zeroSCIM, Some e3) /\ jerr_Error e3 = Some (B "invalid SCIM URN: not a URN").
Proof. eexists _, _, _, _. repeat split; vm_compute; reflexivity. Qed.

(* the sentences promise rules the parser does not keep: an identifier of 32 characters
   is accepted against "1..31", and "urn-1abc" against "urn-[1-9][0-9]" *)
Theorem C38_sentences_refuted :
  (exists s u, parsed PRFC2141Only s u /\ zlen (u_ID u) = 32) /\
  (exists s u, parsed PRFC8141Only s u /\ u_ID u = B "urn-1abc") /\
  (exists s u, parsed PRFC8141Only s u /\ u_ID u = B "urn--x").
Proof.
  split; [|split].
  - exists (B "urn:abcdefghijklmnopqrstuvwxyz012345:x"), (demo PRFC2141Only (B "urn:abcdefghijklmnopqrstuvwxyz012345:x")).
    split; [apply demo_parsed|]; vm_compute; reflexivity.
  - exists (B "urn:urn-1abc:x"), (demo PRFC8141Only (B "urn:urn-1abc:x")). split; [apply demo_parsed|]; vm_compute; reflexivity.
  - exists (B "urn:urn--x:x"), (demo PRFC8141Only (B "urn:urn--x:x")). split; [apply demo_parsed|]; vm_compute; reflexivity.
Qed.
Print Assumptions C38_sentences_refuted.

(* ================================================================ C39 *)
(* an error whose column lies inside the input stays the same, whatever is appended;
   in RFC 2141 mode from 8 bytes on (the look-ahead reads byte 7), and not for "SCIM other
   part incomplete", which is reported one byte early *)
Theorem C39_final : forall m s t m1 uo e, reachable m -> three (m_parsingMode m) ->
  machine_Parse m s = Ret (m1, uo, Some e) -> e_col e < zlen s ->
  (m_parsingMode m = PRFC2141Only -> 8 <= zlen s) -> e_kind e <> ErrSCIMOtherIncomplete ->
  exists m2, machine_Parse m (s ++ t) = Ret (m2, None, Some e).
Proof.
  intros m s t m1 uo e Hr Hm Hp Hc Hl Hk. eapply errors_final; eauto. intros H2.
  destruct (u_lookahead_dec s) as [K|K]; [left; exact K|right]. intros L. apply K. eapply lookahead_back; eauto.
Qed.
Print Assumptions C39_final.

(* shorter RFC 2141 inputs: the same unless the continuation brings in the look-ahead *)
Theorem C39_final_short : forall m s t m1 uo e, reachable m -> m_parsingMode m = PRFC2141Only ->
  machine_Parse m s = Ret (m1, uo, Some e) -> e_col e < zlen s -> ~ u_lookahead (s ++ t) ->
  exists m2, machine_Parse m (s ++ t) = Ret (m2, None, Some e).
Proof.
  intros m s t m1 uo e Hr Hm Hp Hc Hl. eapply errors_final; eauto; [left; exact Hm|].
  pose proof (proj1 (parse_err2141 m s m1 uo (Some e) Hr Hm Hp e) eq_refl) as He.
  destruct He as [(x & y & _ & _ & ->)|[(p & r & _ & _ & _ & ->)|[(p & x & y & _ & _ & _ & _ & ->)|(p & nid & x & y & why & _ & _ & _ & _ & _ & ->)]]];
    try discriminate. destruct why; discriminate.
Qed.
Print Assumptions C39_final_short.

(* both exceptions are real *)
Theorem C39_final_refuted :
  (exists s t m1 m2 e1 e2, machine_Parse (NewMachine []) s = Ret (m1, None, Some e1) /\ e_col e1 < zlen s /\
     machine_Parse (NewMachine []) (s ++ t) = Ret (m2, None, Some e2) /\ e1 <> e2) /\
  (exists s t m1 m2 e1 u, machine_Parse (NewMachine [PRFC7643Only]) s = Ret (m1, None, Some e1) /\ e_col e1 < zlen s /\
     machine_Parse (NewMachine [PRFC7643Only]) (s ++ t) = Ret (m2, Some u, None)).
Proof.
  split.
  - exists (B "urn:u%"), (B "%:x"). eexists _, _, _, _. split; [vm_compute; reflexivity|]. split; [vm_compute; reflexivity|].
    split; [vm_compute; reflexivity|discriminate].
  - exists (B "urn:ietf:params:scim:api:m:"), (B "v"). eexists _, _, _, _. split; [vm_compute; reflexivity|]. split; vm_compute; reflexivity.
Qed.
Print Assumptions C39_final_refuted.

Example C39_example :
  (exists m1, machine_Parse (NewMachine [PRFC8141Only]) (B "urn:ab:c?+?+x") = Ret (m1, None, Some (mkErr Err8141RComponentStart 12))) /\ 12 < zlen (B "urn:ab:c?+?+x") /\
  (exists m2, machine_Parse (NewMachine [PRFC8141Only]) (B "urn:ab:c?+?+x" ++ B "?=q") = Ret (m2, None, Some (mkErr Err8141RComponentStart 12))).
Proof. split; [eexists; vm_compute; reflexivity|]. split; [vm_compute; reflexivity|eexists; vm_compute; reflexivity]. Qed.

(* ================================================================ C40 *)
(* two inputs that differ only in the case of letters: the same error, or both silently
   rejected, or both accepted with parts that differ only in the case of letters *)
Theorem C40_case_blind : forall m s s' m1 uo eo m2 uo' eo', reachable m ->
  m_parsingMode m = PRFC2141Only \/ m_parsingMode m = PRFC8141Only -> lowers s = lowers s' ->
  machine_Parse m s = Ret (m1, uo, eo) -> machine_Parse m s' = Ret (m2, uo', eo') ->
  eo = eo' /\
  match uo, uo' with
  | Some u, Some v =>
      lowers (u_prefix u) = lowers (u_prefix v) /\ lowers (u_ID u) = lowers (u_ID v) /\ lowers (u_SS u) = lowers (u_SS v) /\
      lowers (u_r u) = lowers (u_r v) /\ lowers (u_q u) = lowers (u_q v) /\ lowers (u_f u) = lowers (u_f v) /\ RFC u = RFC v
  | None, None => True
  | _, _ => False
  end.
Proof. exact case_blind. Qed.
Print Assumptions C40_case_blind.

(* SCIM mode: the case of the prefix does not matter *)
Theorem C40_scim_prefix : forall m p p' r m1 uo eo m2 uo' eo', reachable m -> m_parsingMode m = PRFC7643Only ->
  lowers p = B "urn" -> lowers p' = B "urn" ->
  machine_Parse m (p ++ r) = Ret (m1, uo, eo) -> machine_Parse m (p' ++ r) = Ret (m2, uo', eo') ->
  eo = eo' /\ (uo = None <-> uo' = None) /\
  forall u v, uo = Some u -> uo' = Some v -> u_ID u = u_ID v /\ u_SS u = u_SS v /\ u_norm u = u_norm v /\
    forall sc, URN_SCIM u = Some sc -> exists sc', URN_SCIM v = Some sc' /\ s_Type sc' = s_Type sc /\ s_Name sc' = s_Name sc /\ s_Other sc' = s_Other sc.
Proof. exact case_scim. Qed.
Print Assumptions C40_scim_prefix.

(* but that of the namespace and the type does *)
Theorem C40_scim_refuted : exists s s' m1 u m2 e, lowers s = lowers s' /\
  machine_Parse (NewMachine [PRFC7643Only]) s = Ret (m1, Some u, None) /\ machine_Parse (NewMachine [PRFC7643Only]) s' = Ret (m2, None, Some e).
Proof.
  exists (B "urn:ietf:params:scim:api:m"), (B "urn:IETF:params:scim:api:m"). eexists _, _, _, _.
  split; [vm_compute; reflexivity|]. split; vm_compute; reflexivity.
Qed.
Print Assumptions C40_scim_refuted.

Example C40_example : lowers (B "URN:aB:C%dE?=Q#f") = lowers (B "urn:Ab:c%De?=q#F") /\
  (exists m1 u m2 v, machine_Parse (NewMachine [PRFC8141Only]) (B "URN:aB:C%dE?=Q#f") = Ret (m1, Some u, None) /\
     machine_Parse (NewMachine [PRFC8141Only]) (B "urn:Ab:c%De?=q#F") = Ret (m2, Some v, None) /\ u_SS u <> u_SS v) /\
  (exists m1 m2, machine_Parse (NewMachine []) (B "urn:AB:x{") = Ret (m1, None, Some (mkErr ErrSpecificString 8)) /\
     machine_Parse (NewMachine []) (B "URN:ab:X{") = Ret (m2, None, Some (mkErr ErrSpecificString 8))).
Proof.
  split; [vm_compute; reflexivity|]. split; [eexists _, _, _, _; split; [vm_compute; reflexivity|]; split; [vm_compute; reflexivity|discriminate]|].
  eexists _, _. split; vm_compute; reflexivity.
Qed.

(* ================================================================ C41 *)
(* two parsed URNs are Equal exactly when their normal forms print the same *)
Theorem C41_canonical : forall uni mode1 mode2 s1 s2 u1 u2, parsed mode1 s1 u1 -> parsed mode2 s2 u2 -> three mode1 -> three mode2 ->
  (mode1 = PRFC7643Only <-> mode2 = PRFC7643Only) ->
  (Equal uni u1 (Some u2) = true <-> URN_String (Normalize uni u1) = URN_String (Normalize uni u2)).
Proof. exact canonical. Qed.
Print Assumptions C41_canonical.

(* a SCIM URN and one parsed in another mode can print the same normal form and not be Equal *)
Theorem C41_across_refuted : forall uni, exists s u1 u2, parsed PRFC7643Only s u1 /\ parsed PRFC8141Only s u2 /\
  URN_String (Normalize uni u1) = URN_String (Normalize uni u2) /\ Equal uni u1 (Some u2) = false.
Proof.
  intros uni. exists (B "urn:ietf:params:scim:api:m"), (demo PRFC7643Only (B "urn:ietf:params:scim:api:m")), (demo PRFC8141Only (B "urn:ietf:params:scim:api:m")).
  split; [apply demo_parsed; vm_compute; reflexivity|]. split; [apply demo_parsed; vm_compute; reflexivity|]. split; vm_compute; reflexivity.
Qed.
Print Assumptions C41_across_refuted.

Example C41_example : forall uni, exists u1 u2, parsed PRFC2141Only (B "URN:Ab:x%3D") u1 /\ parsed PRFC8141Only (B "urn:aB:x%3d?=q") u2 /\
  Equal uni u1 (Some u2) = true /\ URN_String (Normalize uni u1) = B "urn:ab:x%3d" /\ URN_String (Normalize uni u2) = B "urn:ab:x%3d".
Proof.
  intros uni. exists (demo PRFC2141Only (B "URN:Ab:x%3D")), (demo PRFC8141Only (B "urn:aB:x%3d?=q")).
  split; [apply demo_parsed; vm_compute; reflexivity|]. split; [apply demo_parsed; vm_compute; reflexivity|]. repeat split; vm_compute; reflexivity.
Qed.
