(* The property theorems.  Each is stated over the machines of the exported API
   (reachable, parsed: Api.v) and the grammars of Spec.v; the proofs are in the files
   imported below.  Beside each theorem stands an Example that meets its hypotheses. *)
From Coq Require Import Lia.
From Verif Require Import GoBase MachineSyntax MachineTables Machine Errors Urn Spec Ref ParseThm Api
  PropsA PropsB.
Local Open Scope Z_scope.

(* ================================================================ C01 *)
(* Parse returns (no panic, no endless loop) on every machine and every input *)
Theorem C01_parse_returns : forall m s, reachable m ->
  exists m' uo eo, machine_Parse m s = Ret (m', uo, eo).
Proof. intros m s H. destruct (parse_reach m s H) as (m' & uo & eo & K & _). eauto. Qed.
Print Assumptions C01_parse_returns.

Theorem C01_Parse_returns : forall s options, exists uo ok, Parse s options = Ret (s, uo, ok).
Proof. exact Parse_total. Qed.
Print Assumptions C01_Parse_returns.

Example C01_example : reachable (machine_WithParsingMode PRFC7643Only (NewMachine [PRFC8141Only; 17])) /\
  (exists uo, Parse (B "urn:a:%") [PDefault; -5] = Ret (B "urn:a:%", uo, true)).
Proof. split; [apply reach_mode, reach_new|]. eexists. vm_compute. reflexivity. Qed.

(* ================================================================ C02 *)
(* the goto program stops after at most 4 len + 16 steps *)
Theorem C02_linear_steps : forall m s, reachable m ->
  exists n y, steps LEnter (parse_init m s, zeroURN) n y /\ (n <= 4 * List.length s + 16)%nat.
Proof. exact parse_steps. Qed.
Print Assumptions C02_linear_steps.

Example C02_example : exists n y, steps LEnter (parse_init (NewMachine []) (B "urn:a:%AA"), zeroURN) n y /\ (15 <= n <= 52)%nat.
Proof.
  eexists _, _. split.
  - repeat (eapply steps_one; [discriminate|vm_compute; reflexivity|]). apply steps_out.
  - lia.
Qed.

(* ================================================================ C03 *)
(* the caller's bytes are the same before and after *)
Theorem C03_buffer_restored : forall m s m' uo eo, reachable m ->
  machine_Parse m s = Ret (m', uo, eo) -> m_data m' = s.
Proof. intros m s m' uo eo H K. exact (proj1 (parse_reach_inv m s m' uo eo H K)). Qed.
Print Assumptions C03_buffer_restored.

(* an input whose bytes are lower-cased and restored on the way *)
Example C03_example : exists m' u, machine_Parse (NewMachine []) (B "urn:a:%AB%cD") = Ret (m', Some u, None) /\
  u_norm u = B "%ab%cd" /\ m_data m' = B "urn:a:%AB%cD".
Proof. eexists _, _. split; [vm_compute; reflexivity|]. split; reflexivity. Qed.

(* ================================================================ C04 *)
(* earlier calls leave no trace: the whole result (URN, error, machine) is the same *)
Theorem C04_reuse : forall m s0 m1 uo0 eo0 s, reachable m ->
  machine_Parse m s0 = Ret (m1, uo0, eo0) -> machine_Parse m1 s = machine_Parse m s.
Proof. exact parse_reuse. Qed.
Print Assumptions C04_reuse.

(* any two machines set to the same documented mode, whatever their histories, agree *)
Theorem C04_mode_decides : forall m1 m2 s, reachable m1 -> reachable m2 ->
  m_parsingMode m1 = m_parsingMode m2 -> three (m_parsingMode m1) -> machine_Parse m1 s = machine_Parse m2 s.
Proof. exact parse_mode_eq. Qed.
Print Assumptions C04_mode_decides.

(* Error() is the error of the last Parse, nil before, and WithParsingMode keeps it *)
Theorem C04_error : (forall m s m' uo eo, reachable m -> machine_Parse m s = Ret (m', uo, eo) -> machine_Error m' = eo) /\
  (forall options, machine_Error (NewMachine options) = None) /\
  (forall x m, machine_Error (machine_WithParsingMode x m) = machine_Error m).
Proof.
  split; [|split; [exact new_error|reflexivity]].
  intros m s m' uo eo H K. destruct (parse_reach_inv m s m' uo eo H K) as (_ & _ & E & _). exact E.
Qed.
Print Assumptions C04_error.

(* after a failed call the same machine accepts, and Error() is nil again *)
Example C04_example : exists m1 e m2 u,
  machine_Parse (NewMachine []) (B "urn:a:%A") = Ret (m1, None, Some e) /\ machine_Error m1 = Some e /\
  machine_Parse m1 (B "urn:a:b") = Ret (m2, Some u, None) /\ machine_Error m2 = None.
Proof.
  eexists _, _, _, _. split; [vm_compute; reflexivity|]. split; [reflexivity|]. split; [vm_compute; reflexivity|reflexivity].
Qed.

(* ================================================================ C05 *)
(* the accepted language, exactly: the RFC 2141 grammar with alphanumeric escapes, minus
   the inputs hit by the look-ahead *)
Theorem C05_language : forall m s m' uo eo, reachable m -> m_parsingMode m = PRFC2141Only ->
  machine_Parse m s = Ret (m', uo, eo) ->
  ((uo <> None /\ eo = None) <-> (exists prefix nid nss, urn2141 alnum s prefix nid nss) /\ ~ u_lookahead s).
Proof. exact lang2141. Qed.
Print Assumptions C05_language.

(* the documented language is not accepted in full *)
Theorem C05_documented_refuted : exists s, (exists prefix nid nss, urn2141 hexdig s prefix nid nss) /\
  exists m' e, machine_Parse (NewMachine [PRFC2141Only]) s = Ret (m', None, Some e) /\ e = mkErr ErrNoUrnWithinID 7.
Proof.
  exists (B "urn:uci:x"). split; [|eexists _, _; split; [vm_compute; reflexivity|reflexivity]].
  exists (B "urn"), (B "uci"), (B "x"). split; [reflexivity|]. split; [reflexivity|]. split.
  - split; [cbn; lia|]. split; [eexists _, _; split; reflexivity|]. split; [reflexivity|discriminate].
  - split; [discriminate|]. apply esc_plain; [reflexivity|apply esc_nil].
Qed.
Print Assumptions C05_documented_refuted.

(* both sides of the equivalence are inhabited *)
Example C05_example_in : (exists prefix nid nss, urn2141 alnum (B "URN:foo:a%3Db") prefix nid nss) /\ ~ u_lookahead (B "URN:foo:a%3Db") /\
  parsed PRFC2141Only (B "URN:foo:a%3Db") (demo PRFC2141Only (B "URN:foo:a%3Db")).
Proof.
  pose proof (demo_parsed PRFC2141Only (B "URN:foo:a%3Db") ltac:(vm_compute; reflexivity)) as H.
  destruct (parsed2141_inv _ _ H) as (p & n & x & H1 & H2 & _). split; [eauto|]. auto.
Qed.
Example C05_example_out : exists m' e, machine_Parse (NewMachine []) (B "urn:-a:b") = Ret (m', None, Some e).
Proof. eexists _, _. vm_compute. reflexivity. Qed.

(* ================================================================ C06 *)
(* ID and SS lie between the first two colons and after the second; no components *)
Theorem C06_parts : forall s u, parsed PRFC2141Only s u ->
  (exists a, s = a ++ colon ++ u_ID u ++ colon ++ u_SS u /\ ~ In ":"%byte a /\ ~ In ":"%byte (u_ID u)) /\
  RComponent u = [] /\ QComponent u = [] /\ FComponent u = [].
Proof. exact colons2141. Qed.
Print Assumptions C06_parts.

Theorem C06_unique : forall s p n x p' n' x',
  urn2141 alnum s p n x -> urn2141 alnum s p' n' x' -> p = p' /\ n = n' /\ x = x'.
Proof. exact urn2141_unique. Qed.
Print Assumptions C06_unique.

Example C06_example : parsed PRFC2141Only (B "urn:a-b:c:d:e") (demo PRFC2141Only (B "urn:a-b:c:d:e")) /\
  u_ID (demo PRFC2141Only (B "urn:a-b:c:d:e")) = B "a-b" /\ u_SS (demo PRFC2141Only (B "urn:a-b:c:d:e")) = B "c:d:e".
Proof. split; [apply demo_parsed; vm_compute; reflexivity|]. split; vm_compute; reflexivity. Qed.

(* ================================================================ C07 *)
Theorem C07_language : forall m s m' uo eo, reachable m -> m_parsingMode m = PRFC7643Only ->
  machine_Parse m s = Ret (m', uo, eo) ->
  ((uo <> None /\ eo = None) <-> exists prefix t name other, urnscim s prefix t name other).
Proof. exact langscim. Qed.
Print Assumptions C07_language.

Example C07_example_in : parsed PRFC7643Only (B "URN:ietf:params:scim:api:messages:2.0:%aB")
  (demo PRFC7643Only (B "URN:ietf:params:scim:api:messages:2.0:%aB")).
Proof. apply demo_parsed; vm_compute; reflexivity. Qed.
Example C07_example_out : exists m' e, machine_Parse (NewMachine [PRFC7643Only]) (B "urn:ietf:params:scim:API:x") = Ret (m', None, Some e).
Proof. eexists _, _. vm_compute. reflexivity. Qed.

(* ================================================================ C08 *)
Theorem C08_parts : forall s u, parsed PRFC7643Only s u ->
  exists prefix t sc, URN_SCIM u = Some sc /\ urnscim s prefix t (s_Name sc) (s_Other sc) /\
    s_Type sc = TypeFromString t /\ Type_String (s_Type sc) = t /\
    u_ID u = B "ietf:params:scim" /\ s = prefix ++ B ":ietf:params:scim:" ++ u_SS u.
Proof.
  intros s u H. destruct (partsscim s u H) as (p & t & sc & Hu & _ & E1 & E2 & E3 & E4 & _ & E5 & _).
  exists p, t, sc. unfold URN_SCIM. rewrite E5. split; [exact E1|]. split; [exact Hu|]. split; [exact E2|].
  destruct Hu as (Hs & _ & Ht & _). rewrite E2. split; [apply type_string_scim; exact Ht|]. split; [exact E3|].
  rewrite E4. exact Hs.
Qed.
Print Assumptions C08_parts.

Theorem C08_unique : forall s p t n o p' t' n' o',
  urnscim s p t n o -> urnscim s p' t' n' o' -> p = p' /\ t = t' /\ n = n' /\ o = o'.
Proof. exact urnscim_unique. Qed.
Print Assumptions C08_unique.

Example C08_example : parsed PRFC7643Only (B "urn:ietf:params:scim:schemas:core:2.0:User") (demo PRFC7643Only (B "urn:ietf:params:scim:schemas:core:2.0:User")) /\
  exists sc, URN_SCIM (demo PRFC7643Only (B "urn:ietf:params:scim:schemas:core:2.0:User")) = Some sc /\
    s_Type sc = TSchemas /\ s_Name sc = B "core" /\ s_Other sc = B "2.0:User".
Proof. split; [apply demo_parsed; vm_compute; reflexivity|]. eexists. split; [vm_compute; reflexivity|]. repeat split. Qed.

(* ================================================================ C09 *)
Theorem C09_language : forall m s m' uo eo, reachable m -> m_parsingMode m = PRFC8141Only ->
  machine_Parse m s = Ret (m', uo, eo) ->
  ((uo <> None /\ eo = None) <-> exists prefix nid nss r q f, urn8141 s prefix nid nss r q f).
Proof. exact lang8141. Qed.
Print Assumptions C09_language.

Example C09_example_in : parsed PRFC8141Only (B "urn:example:a/b~&?+r?/x?=q?a#f/?") (demo PRFC8141Only (B "urn:example:a/b~&?+r?/x?=q?a#f/?")).
Proof. apply demo_parsed; vm_compute; reflexivity. Qed.
Example C09_example_out : exists m' e, machine_Parse (NewMachine [PRFC8141Only]) (B "urn:urn-abc:c") = Ret (m', None, Some e).
Proof. eexists _, _. vm_compute. reflexivity. Qed.

(* ================================================================ C10 *)
Theorem C10_parts : forall s u, parsed PRFC8141Only s u ->
  exists prefix r q f, urn8141 s prefix (u_ID u) (u_SS u) r q f /\
    RComponent u = opt_val r /\ QComponent u = opt_val q /\ FComponent u = opt_val f.
Proof.
  intros s u H. destruct (parts8141 s u H) as (p & r & q & f & Hu & _ & _ & _ & _ & E). exists p, r, q, f. auto.
Qed.
Print Assumptions C10_parts.

Theorem C10_unique : forall s p n x r q f p' n' x' r' q' f',
  urn8141 s p n x r q f -> urn8141 s p' n' x' r' q' f' ->
  p = p' /\ n = n' /\ x = x' /\ r = r' /\ q = q' /\ f = f'.
Proof. exact urn8141_unique. Qed.
Print Assumptions C10_unique.

Example C10_example : parsed PRFC8141Only (B "urn:ex:n?+a?+/b?=c?=/d#e") (demo PRFC8141Only (B "urn:ex:n?+a?+/b?=c?=/d#e")) /\
  RComponent (demo PRFC8141Only (B "urn:ex:n?+a?+/b?=c?=/d#e")) = B "a?+/b" /\
  QComponent (demo PRFC8141Only (B "urn:ex:n?+a?+/b?=c?=/d#e")) = B "c?=/d" /\
  FComponent (demo PRFC8141Only (B "urn:ex:n?+a?+/b?=c?=/d#e")) = B "e".
Proof. split; [apply demo_parsed; vm_compute; reflexivity|]. repeat split; vm_compute; reflexivity. Qed.

(* ================================================================ C11 *)
(* true of the RFC 2141 and SCIM modes *)
Theorem C11_2141_scim : forall m s m' uo eo, reachable m ->
  m_parsingMode m = PRFC2141Only \/ m_parsingMode m = PRFC7643Only ->
  machine_Parse m s = Ret (m', uo, eo) -> (eo = None <-> uo <> None).
Proof. exact nilnil2141. Qed.
Print Assumptions C11_2141_scim.

Theorem C11_Parse_ok : forall s options uo ok,
  m_parsingMode (NewMachine options) = PRFC2141Only \/ m_parsingMode (NewMachine options) = PRFC7643Only ->
  Parse s options = Ret (s, uo, ok) -> (ok = true <-> uo <> None).
Proof. exact Parse_ok. Qed.
Print Assumptions C11_Parse_ok.

(* never both a URN and an error, on any machine *)
Theorem C11_never_both : forall m s m' uo eo, reachable m -> machine_Parse m s = Ret (m', uo, eo) -> uo = None \/ eo = None.
Proof. exact never_both. Qed.
Print Assumptions C11_never_both.

(* false in RFC 8141 mode: ok is true and the URN nil *)
Theorem C11_8141_refuted : exists s, Parse s [PRFC8141Only] = Ret (s, None, true).
Proof. exists (B "urn:ab:c?x"). vm_compute. reflexivity. Qed.
Print Assumptions C11_8141_refuted.

(* exactly on these inputs *)
Theorem C11_8141_silent : forall m s m' uo eo, reachable m -> m_parsingMode m = PRFC8141Only ->
  machine_Parse m s = Ret (m', uo, eo) -> ((uo = None /\ eo = None) <-> silent8141 s).
Proof. exact nilnil8141. Qed.
Print Assumptions C11_8141_silent.

Example C11_example : Parse (B "urn:ab:c#a#b") [PRFC8141Only] = Ret (B "urn:ab:c#a#b", None, true) /\
  Parse (B "urn:ab:c#%aa#b") [PRFC8141Only] = Ret (B "urn:ab:c#%aa#b", None, false) /\
  Parse (B "urn:ab:c?x") [] = Ret (B "urn:ab:c?x", None, false).
Proof. repeat split; vm_compute; reflexivity. Qed.

(* ================================================================ C12 *)
Theorem C12_kind : forall mode s u, parsed mode s u -> three mode ->
  RFC u = (if mode =? PRFC2141Only then KRFC2141 else if mode =? PRFC7643Only then KRFC7643 else KRFC8141) /\
  (IsSCIM u = true <-> mode = PRFC7643Only) /\ (URN_SCIM u <> None <-> mode = PRFC7643Only).
Proof. exact kind_of_mode. Qed.
Print Assumptions C12_kind.

(* of any URN value, however obtained *)
Theorem C12_any_value : forall u, (IsSCIM u = true <-> RFC u = KRFC7643) /\
  (URN_SCIM u <> None -> RFC u = KRFC7643) /\ (RFC u = KRFC7643 -> URN_SCIM u = u_scim u).
Proof. exact kind_any. Qed.
Print Assumptions C12_any_value.

Example C12_any_example :
  URN_SCIM (mkURN [] [] [] [] KRFC2141 (Some (mkSCIM TAPI [] [] 0)) [] [] [] false false []) = None /\
  URN_SCIM (mkURN [] [] [] [] KRFC7643 (Some (mkSCIM TAPI [] [] 0)) [] [] [] false false []) = Some (mkSCIM TAPI [] [] 0).
Proof. split; reflexivity. Qed.

(* Normalize() returns a bare value: whatever u was, the result reports no RFC, is no SCIM
   URN, has no components and its text starts "urn:" *)
Theorem C12_normalized : forall uni u, RFC (Normalize uni u) = KNONE /\
  IsSCIM (Normalize uni u) = false /\ URN_SCIM (Normalize uni u) = None /\
  RComponent (Normalize uni u) = [] /\ QComponent (Normalize uni u) = [] /\ FComponent (Normalize uni u) = [] /\
  (URN_String (Normalize uni u) <> [] -> firstn 4 (URN_String (Normalize uni u)) = B "urn:").
Proof. exact normalized_bare. Qed.
Print Assumptions C12_normalized.

Example C12_normalized_example :
  let u := demo PRFC7643Only (B "urn:ietf:params:scim:api:M") in
  IsSCIM u = true /\ RFC u = KRFC7643 /\ IsSCIM (Normalize (fun w => w) u) = false /\
  URN_String (Normalize (fun w => w) u) = B "urn:ietf:params:scim:api:M".
Proof. repeat split; vm_compute; reflexivity. Qed.

Example C12_example : parsed PRFC7643Only (B "urn:ietf:params:scim:api:m") (demo PRFC7643Only (B "urn:ietf:params:scim:api:m")) /\
  three PRFC7643Only /\ RFC (demo PRFC7643Only (B "urn:ietf:params:scim:api:m")) = KRFC7643.
Proof. split; [apply demo_parsed; vm_compute; reflexivity|]. split; [unfold three; auto|vm_compute; reflexivity]. Qed.

(* ================================================================ C13 *)
Theorem C13_string : forall mode s u, parsed mode s u -> mode = PRFC2141Only \/ mode = PRFC7643Only -> URN_String u = s.
Proof. intros mode s u H [->| ->]; [exact (String2141 s u H)|exact (Stringscim s u H)]. Qed.
Print Assumptions C13_string.

Example C13_example : parsed PRFC2141Only (B "UrN:FoO:%aB:x") (demo PRFC2141Only (B "UrN:FoO:%aB:x")) /\
  URN_String (demo PRFC2141Only (B "UrN:FoO:%aB:x")) = B "UrN:FoO:%aB:x".
Proof. split; [apply demo_parsed; vm_compute; reflexivity|vm_compute; reflexivity]. Qed.

(* ================================================================ C14 *)
Theorem C14_string_refuted : exists s u, parsed PRFC8141Only s u /\ URN_String u <> s.
Proof.
  exists (B "URN:UrN-7:c"), (demo PRFC8141Only (B "URN:UrN-7:c")).
  split; [apply demo_parsed; vm_compute; reflexivity|vm_compute; discriminate].
Qed.
Print Assumptions C14_string_refuted.

(* what String() gives: the text with the prefix shown_prefix and without an empty "#" *)
Theorem C14_string_is : forall s u, parsed PRFC8141Only s u ->
  exists prefix r q f out, urn8141 s prefix (u_ID u) (u_SS u) r q f /\ shown_prefix prefix (u_ID u) out /\
    URN_String u = out ++ colon ++ u_ID u ++ colon ++ u_SS u ++ tail8141 r q (nonempty_opt f).
Proof.
  intros s u H. destruct (String8141 s u H) as (p & r & q & f & H1 & H2 & H3). exists p, r, q, f, (u_prefix u). auto.
Qed.
Print Assumptions C14_string_is.

(* it is the input exactly when the NID does not begin with another spelling of "urn-"
   and no empty fragment occurs *)
Theorem C14_string_iff : forall s u prefix r q f, parsed PRFC8141Only s u ->
  urn8141 s prefix (u_ID u) (u_SS u) r q f ->
  (URN_String u = s <-> shown_prefix prefix (u_ID u) prefix /\ f <> Some []).
Proof. exact String8141_iff2. Qed.
Print Assumptions C14_string_iff.

Example C14_example : URN_String (demo PRFC8141Only (B "urn:ab:c#")) = B "urn:ab:c" /\
  URN_String (demo PRFC8141Only (B "URN:UrN-7:c")) = B "UrN:UrN-7:c" /\
  URN_String (demo PRFC8141Only (B "URN:ab:c?+r?=q#f")) = B "URN:ab:c?+r?=q#f".
Proof. repeat split; vm_compute; reflexivity. Qed.

(* ================================================================ C15 *)
Theorem C15_reparse : forall mode s u, parsed mode s u -> three mode ->
  exists u', parsed mode (URN_String u) u' /\ pub_of u' = pub_of u.
Proof.
  intros mode s u H [->|[->| ->]]; [|..|exact (reparse8141 s u H)].
  - exists u. split; [exact (reparse2141 s u H)|reflexivity].
  - exists u. split; [exact (reparsescim s u H)|reflexivity].
Qed.
Print Assumptions C15_reparse.

Example C15_example : parsed PRFC8141Only (B "URN:UrN-7:c?=q#") (demo PRFC8141Only (B "URN:UrN-7:c?=q#")) /\
  URN_String (demo PRFC8141Only (B "URN:UrN-7:c?=q#")) = B "UrN:UrN-7:c?=q".
Proof. split; [apply demo_parsed; vm_compute; reflexivity|vm_compute; reflexivity]. Qed.

(* ================================================================ C16 *)
(* what Normalize puts into SS: SS with exactly the bytes after percent signs lowered *)
Theorem C16_norm : forall uni mode s u, parsed mode s u -> three mode ->
  List.length (u_SS (Normalize uni u)) = List.length (u_SS u) /\
  forall i c, nth_error (u_SS u) i = Some c ->
    (after_pct (u_SS u) i -> nth_error (u_SS (Normalize uni u)) i = Some (low c)) /\
    (~ after_pct (u_SS u) i -> nth_error (u_SS (Normalize uni u)) i = Some c).
Proof. intros uni. exact norm_spec. Qed.
Print Assumptions C16_norm.

Example C16_example : parsed PRFC2141Only (B "urn:A:X%AAAA%3d%3D") (demo PRFC2141Only (B "urn:A:X%AAAA%3d%3D")) /\
  forall uni, u_SS (Normalize uni (demo PRFC2141Only (B "urn:A:X%AAAA%3d%3D"))) = B "X%aaAA%3d%3d".
Proof. split; [apply demo_parsed; vm_compute; reflexivity|intros uni; vm_compute; reflexivity]. Qed.

(* ================================================================ C17 *)
Theorem C17_normal_form : forall uni mode s u, parsed mode s u -> three mode ->
  exists u', parsed mode (URN_String (Normalize uni u)) u' /\ Equal uni u (Some u') = true /\
    URN_String (Normalize uni u') = URN_String (Normalize uni u) /\
    URN_String u' = URN_String (Normalize uni u).
Proof. exact norm_stable. Qed.
Print Assumptions C17_normal_form.

(* and it is the text "urn:" lower-cased NID ":" normalised NSS *)
Theorem C17_normal_text : forall uni mode s u, parsed mode s u -> three mode ->
  URN_String (Normalize uni u) = B "urn" ++ colon ++ lowers (u_ID u) ++ colon ++ norm_pct (u_SS u).
Proof. exact norm_text. Qed.
Print Assumptions C17_normal_text.

Example C17_example : parsed PRFC8141Only (B "URN:UrN-7:c%AB/D?=q#F") (demo PRFC8141Only (B "URN:UrN-7:c%AB/D?=q#F")) /\
  forall uni, URN_String (Normalize uni (demo PRFC8141Only (B "URN:UrN-7:c%AB/D?=q#F"))) = B "urn:urn-7:c%ab/D".
Proof. split; [apply demo_parsed; vm_compute; reflexivity|intros uni; vm_compute; reflexivity]. Qed.

(* ================================================================ C18 *)
Theorem C18_idempotent_refuted : forall uni, exists s u, parsed PRFC2141Only s u /\
  Equal uni u (Some (Normalize uni u)) = false /\
  URN_String (Normalize uni (Normalize uni u)) <> URN_String (Normalize uni u).
Proof.
  intros uni. exists (B "urn:a:b"), (demo PRFC2141Only (B "urn:a:b")).
  split; [apply demo_parsed; vm_compute; reflexivity|]. split; [vm_compute; reflexivity|vm_compute; discriminate].
Qed.
Print Assumptions C18_idempotent_refuted.

(* indeed it fails for every parsed URN *)
Theorem C18_always_fails : forall uni mode s u, parsed mode s u -> three mode ->
  Equal uni u (Some (Normalize uni u)) = false /\
  u_SS (Normalize uni (Normalize uni u)) = [] /\ u_SS (Normalize uni u) <> [] /\
  URN_String (Normalize uni (Normalize uni u)) = [] /\ URN_String (Normalize uni u) <> [].
Proof. exact norm_not_idem. Qed.
Print Assumptions C18_always_fails.

(* ================================================================ C19 *)
Theorem C19_equivalence : forall uni,
  (forall u, Equal uni u (Some u) = true) /\
  (forall u v, Equal uni u (Some v) = Equal uni v (Some u)) /\
  (forall u v w, Equal uni u (Some v) = true -> Equal uni v (Some w) = true -> Equal uni u (Some w) = true) /\
  (forall u, Equal uni u None = false).
Proof. intros uni. split; [apply Equal_refl|]. split; [apply Equal_sym|]. split; [apply Equal_trans|reflexivity]. Qed.
Print Assumptions C19_equivalence.

Example C19_example : forall uni,
  Equal uni (demo PRFC2141Only (B "urn:A:%aB")) (Some (demo PRFC2141Only (B "URN:a:%Ab"))) = true /\
  Equal uni (demo PRFC2141Only (B "URN:a:%Ab")) (Some (demo PRFC8141Only (B "urn:A:%ab"))) = false /\
  Equal uni (demo PRFC2141Only (B "URN:aa:%Ab")) (Some (demo PRFC8141Only (B "urn:AA:%ab#x"))) = true.
Proof. intros uni. repeat split; vm_compute; reflexivity. Qed.

(* ================================================================ C20 *)
(* Equal decides lexical equivalence of the NID and NSS of the two texts, within SCIM
   mode and among the other two modes *)
Theorem C20_lexical : forall uni mode1 mode2 s1 s2 u1 u2 nid1 nss1 nid2 nss2,
  parsed mode1 s1 u1 -> parsed mode2 s2 u2 -> name_of mode1 s1 nid1 nss1 -> name_of mode2 s2 nid2 nss2 ->
  (mode1 = PRFC7643Only <-> mode2 = PRFC7643Only) ->
  (Equal uni u1 (Some u2) = true <-> lex_equiv nid1 nss1 nid2 nss2).
Proof. exact Equal_lex. Qed.
Print Assumptions C20_lexical.

(* a SCIM URN is never Equal to one parsed in another mode, even from the same text *)
Theorem C20_across_modes_refuted : forall uni, exists s u1 u2,
  parsed PRFC7643Only s u1 /\ parsed PRFC2141Only s u2 /\ Equal uni u1 (Some u2) = false.
Proof.
  intros uni. exists (B "urn:ietf:params:scim:api:m"), (demo PRFC7643Only (B "urn:ietf:params:scim:api:m")), (demo PRFC2141Only (B "urn:ietf:params:scim:api:m")).
  split; [apply demo_parsed; vm_compute; reflexivity|]. split; [apply demo_parsed; vm_compute; reflexivity|]. vm_compute; reflexivity.
Qed.
Print Assumptions C20_across_modes_refuted.

Theorem C20_across_modes_never : forall uni mode s1 s2 u1 u2, parsed PRFC7643Only s1 u1 -> parsed mode s2 u2 ->
  mode = PRFC2141Only \/ mode = PRFC8141Only -> Equal uni u1 (Some u2) = false.
Proof. exact Equal_scim_other. Qed.
Print Assumptions C20_across_modes_never.

Example C20_example : name_of PRFC2141Only (B "urn:Ab:c%3D") (B "Ab") (B "c%3D") /\
  name_of PRFC2141Only (B "urn:aB:c%3d") (B "aB") (B "c%3d") /\
  lex_equiv (B "Ab") (B "c%3D") (B "aB") (B "c%3d") /\ ~ lex_equiv (B "Ab") (B "c%3D") (B "aB") (B "C%3d").
Proof.
  split; [|split; [|split; [split; reflexivity|intros [_ H]; discriminate H]]].
  - left. split; [reflexivity|]. destruct (parts2141 _ _ (demo_parsed PRFC2141Only (B "urn:Ab:c%3D") ltac:(vm_compute; reflexivity))) as (p & H & _).
    exists p. exact H.
  - left. split; [reflexivity|]. destruct (parts2141 _ _ (demo_parsed PRFC2141Only (B "urn:aB:c%3d") ltac:(vm_compute; reflexivity))) as (p & H & _).
    exists p. exact H.
Qed.

(* ================================================================ C21 *)
Theorem C21_components_ignored : forall uni s1 s2 u1 u2 p1 p2 nid nss r1 q1 f1 r2 q2 f2,
  parsed PRFC8141Only s1 u1 -> parsed PRFC8141Only s2 u2 ->
  urn8141 s1 p1 nid nss r1 q1 f1 -> urn8141 s2 p2 nid nss r2 q2 f2 ->
  Equal uni u1 (Some u2) = true /\ URN_String (Normalize uni u1) = URN_String (Normalize uni u2).
Proof. exact components_ignored. Qed.
Print Assumptions C21_components_ignored.

Example C21_example : forall uni,
  Equal uni (demo PRFC8141Only (B "urn:ab:c?+r?=q#f")) (Some (demo PRFC8141Only (B "urn:ab:c?=z"))) = true.
Proof. intros uni. vm_compute. reflexivity. Qed.

(* ================================================================ C22 *)
(* a hand-built value: only exported fields set *)
Theorem C22_handbuilt_refuted : forall uni, exists id ss1 ss2, norm_pct ss1 <> norm_pct ss2 /\
  Equal uni (handbuilt id ss1) (Some (handbuilt id ss2)) = true.
Proof. intros uni. exists (B "a"), (B "x"), (B "y"). split; [discriminate|vm_compute; reflexivity]. Qed.
Print Assumptions C22_handbuilt_refuted.

Theorem C22_handbuilt_is : forall uni id1 ss1 id2 ss2,
  Equal uni (handbuilt id1 ss1) (Some (handbuilt id2 ss2)) = true <-> ToLower uni id1 = ToLower uni id2.
Proof. intros uni id1 ss1 id2 ss2. rewrite Equal_iff. cbn. tauto. Qed.
Print Assumptions C22_handbuilt_is.

(* for ASCII IDs this is: the IDs agree up to the case of A-Z *)
Theorem C22_handbuilt_ascii : forall uni id1 ss1 id2 ss2,
  (forall c, List.In c (id1 ++ id2) -> (Byte.to_N c < 128)%N) ->
  (Equal uni (handbuilt id1 ss1) (Some (handbuilt id2 ss2)) = true <-> lowers id1 = lowers id2).
Proof. exact handbuilt_ascii. Qed.
Print Assumptions C22_handbuilt_ascii.

Example C22_ascii_example :
  (forall c, List.In c (B "A@z" ++ x7f :: B "[`") -> (Byte.to_N c < 128)%N) /\
  Equal (fun w => w) (handbuilt (B "A@z" ++ [x7f]) (B "x")) (Some (handbuilt (B "a@Z" ++ [x7f]) (B "y"))) = true /\
  Equal (fun w => w) (handbuilt (B "@") (B "x")) (Some (handbuilt (B "`") (B "x"))) = false.
Proof.
  split; [|split; vm_compute; reflexivity].
  apply Forall_forall. repeat constructor.
Qed.

(* ================================================================ C23 *)
Theorem C23_string : forall u,
  (u_ID u = [] \/ u_SS u = [] -> URN_String u = []) /\
  (u_ID u <> [] -> u_SS u <> [] ->
     URN_String u = string_text (or_urn (u_prefix u)) (u_ID u) (u_SS u) (u_r u) (u_q u) (u_f u)).
Proof. intros u. split; [apply String_empty|apply String_text]. Qed.
Print Assumptions C23_string.

Example C23_example : URN_String (handbuilt (B "id") (B "ss")) = B "urn:id:ss" /\ URN_String (handbuilt (B "id") (B "")) = B "".
Proof. split; reflexivity. Qed.

(* ================================================================ C26 *)
Theorem C26_last_option_wins : forall l x s, three x ->
  machine_Parse (NewMachine (l ++ [x])) s = machine_Parse (NewMachine [x]) s.
Proof.
  intros l x s Hx. apply parse_mode_eq; try apply reach_new; rewrite new_last; auto.
Qed.
Print Assumptions C26_last_option_wins.

Theorem C26_no_option : forall s, machine_Parse (NewMachine []) s = machine_Parse (NewMachine [PRFC2141Only]) s.
Proof. intros s. apply parse_mode_eq; try apply reach_new; [reflexivity|left; reflexivity]. Qed.
Print Assumptions C26_no_option.

(* a later WithParsingMode on the machine decides, whatever happened before *)
Theorem C26_method : forall m x s, reachable m -> three x ->
  machine_Parse (machine_WithParsingMode x m) s = machine_Parse (NewMachine [x]) s.
Proof.
  intros m x s H Hx. apply parse_mode_eq; [apply reach_mode; exact H|apply reach_new|reflexivity|exact Hx].
Qed.
Print Assumptions C26_method.

(* WithParsingMode(Default) is not the default: it answers nil, nil to everything *)
Theorem C26_default_refuted : exists s m1 m2 u,
  machine_Parse (NewMachine [PDefault]) s = Ret (m1, None, None) /\
  machine_Parse (NewMachine []) s = Ret (m2, Some u, None).
Proof. exists (B "urn:a:b"). eexists _, _, _. split; vm_compute; reflexivity. Qed.
Print Assumptions C26_default_refuted.

Theorem C26_default_is_nil : forall s, exists m', machine_Parse (NewMachine [PDefault]) s = Ret (m', None, None).
Proof. exact default_nil. Qed.
Print Assumptions C26_default_is_nil.

(* inside a hand-written Option that runs first the machine has no mode yet: Parse answers nil, nil;
   and the Parse calls made there leave no trace *)
Theorem C26_inside_option : (forall s, exists m', machine_Parse zero_machine s = Ret (m', None, None)) /\
  (forall s m' uo eo x t, machine_Parse zero_machine s = Ret (m', uo, eo) -> three x ->
     machine_Parse (machine_WithParsingMode x m') t = machine_Parse (NewMachine [x]) t).
Proof.
  split; [exact zero_nil|]. intros s m' uo eo x t Hp Hx. apply parse_mode_eq; [|apply reach_new|reflexivity|exact Hx].
  apply reach_mode. eapply reach_parse; [apply reach_zero|exact Hp].
Qed.
Print Assumptions C26_inside_option.

Example C26_example : exists m u, machine_Parse (NewMachine [PRFC7643Only; 42; PRFC8141Only]) (B "urn:ab:c/d#e") = Ret (m, Some u, None).
Proof. eexists _, _. vm_compute. reflexivity. Qed.

(* ================================================================ C31 *)
Theorem C31_types :
  (forall t, t = TSchemas \/ t = TAPI \/ t = TParam -> TypeFromString (Type_String t) = t) /\
  (forall s, TypeFromString s = TUnsupported <-> s <> B "schemas" /\ s <> B "api" /\ s <> B "param") /\
  (forall t1 t2, Type_String t1 = Type_String t2 -> Type_String t1 <> [] -> t1 = t2) /\
  (forall t, Type_String t = [] <-> t <> TSchemas /\ t <> TAPI /\ t <> TParam).
Proof. split; [exact type_rt|]. split; [exact type_uns|]. split; [exact type_inj|exact type_empty]. Qed.
Print Assumptions C31_types.

Example C31_example : TypeFromString (B "api") = TAPI /\ TypeFromString (B "Api") = TUnsupported /\ Type_String 77 = [].
Proof. repeat split. Qed.

(* ================================================================ C32 *)
Theorem C32_string : forall s u, parsed PRFC7643Only s u ->
  exists sc prefix rest, URN_SCIM u = Some sc /\ s = prefix ++ rest /\ urn_word prefix /\ SCIM_String sc = lowers prefix ++ rest.
Proof. exact scim_string_parsed. Qed.
Print Assumptions C32_string.

Theorem C32_reparse : forall sc, s_Type sc = TSchemas \/ s_Type sc = TAPI \/ s_Type sc = TParam ->
  scim_name (s_Name sc) -> s_Other sc = [] \/ scim_other (s_Other sc) ->
  exists u sc', parsed PRFC7643Only (SCIM_String sc) u /\ URN_SCIM u = Some sc' /\
    s_Type sc' = s_Type sc /\ s_Name sc' = s_Name sc /\ s_Other sc' = s_Other sc.
Proof. exact scim_string_rt. Qed.
Print Assumptions C32_reparse.

Example C32_example : SCIM_String (mkSCIM TParam (B "n1") (B "o%Aa:p") 99) = B "urn:ietf:params:scim:param:n1:o%Aa:p" /\
  scim_name (B "n1") /\ scim_other (B "o%Aa:p").
Proof.
  split; [reflexivity|]. split; [split; [discriminate|reflexivity]|]. split; [discriminate|].
  apply esc_plain; [reflexivity|]. apply esc_pct; [reflexivity|reflexivity|]. apply esc_forall. reflexivity.
Qed.

(* ================================================================ C33 *)
Theorem C33_scim_in_2141 : forall s u, parsed PRFC7643Only s u ->
  exists v, parsed PRFC2141Only s v /\ u_ID v = B "ietf" /\ u_SS v = B "params:scim:" ++ u_SS u /\ u_norm v = B "params:scim:" ++ u_norm u.
Proof. exact scim_in_2141. Qed.
Print Assumptions C33_scim_in_2141.

Theorem C33_scim_in_8141 : forall s u, parsed PRFC7643Only s u ->
  exists v, parsed PRFC8141Only s v /\ u_ID v = B "ietf" /\ u_SS v = B "params:scim:" ++ u_SS u /\ u_norm v = B "params:scim:" ++ u_norm u /\
    u_r v = [] /\ u_q v = [] /\ u_f v = [].
Proof. exact scim_in_8141. Qed.
Print Assumptions C33_scim_in_8141.

Theorem C33_2141_in_8141 : forall s u, parsed PRFC2141Only s u -> nid8141 (u_ID u) ->
  exists v, parsed PRFC8141Only s v /\ u_ID v = u_ID u /\ u_SS v = u_SS u /\ u_norm v = u_norm u /\
    u_r v = [] /\ u_q v = [] /\ u_f v = [].
Proof. exact u2141_in_8141. Qed.
Print Assumptions C33_2141_in_8141.

Theorem C33_8141_in_2141 : forall s u, parsed PRFC8141Only s u -> forallb (fun b => negb (one_of "~&/?#" b)) s = true ->
  nid2141 (u_ID u) -> ~ u_lookahead s ->
  exists v, parsed PRFC2141Only s v /\ u_ID v = u_ID u /\ u_SS v = u_SS u /\ u_norm v = u_norm u.
Proof. exact u8141_in_2141. Qed.
Print Assumptions C33_8141_in_2141.

Example C33_example : parsed PRFC7643Only (B "urn:ietf:params:scim:api:m:%Aa") (demo PRFC7643Only (B "urn:ietf:params:scim:api:m:%Aa")) /\
  parsed PRFC2141Only (B "urn:isbn:0451450523") (demo PRFC2141Only (B "urn:isbn:0451450523")) /\
  nid8141 (u_ID (demo PRFC2141Only (B "urn:isbn:0451450523"))).
Proof.
  split; [apply demo_parsed; vm_compute; reflexivity|]. split; [apply demo_parsed; vm_compute; reflexivity|].
  destruct (parts8141 _ _ (demo_parsed PRFC8141Only (B "urn:isbn:0451450523") ltac:(vm_compute; reflexivity))) as (p & r & q & f & (_ & _ & H & _) & _).
  exact H.
Qed.

(* ================================================================ C34 *)
Theorem C34_escapes : forall mode s u, parsed mode s u -> three mode -> pct_ok s.
Proof. exact pct_parsed. Qed.
Print Assumptions C34_escapes.

Theorem C34_hex_refuted : exists s u a b x, parsed PRFC2141Only s u /\ s = x ++ ["%"%byte; a; b] /\ hexdig a = false /\ hexdig b = false.
Proof.
  exists (B "urn:a:%zz"), (demo PRFC2141Only (B "urn:a:%zz")), "z"%byte, "z"%byte, (B "urn:a:").
  split; [apply demo_parsed; vm_compute; reflexivity|]. repeat split.
Qed.
Print Assumptions C34_hex_refuted.

Example C34_example : parsed PRFC8141Only (B "urn:ab:%aa?+%bb?=%cc#%dd") (demo PRFC8141Only (B "urn:ab:%aa?+%bb?=%cc#%dd")).
Proof. apply demo_parsed; vm_compute; reflexivity. Qed.

(* ================================================================ C36 *)
Theorem C36_characters : forall mode s u b, parsed mode s u -> three mode -> In b s ->
  url_char b = true /\ (33 <= Z.of_N (Byte.to_N b) <= 126) /\
  b <> """"%byte /\ b <> "\"%byte /\ b <> "<"%byte /\ b <> ">"%byte.
Proof.
  intros mode s u b H Hm Hb. pose proof (chars_parsed mode s u H Hm) as K. rewrite forallb_forall in K.
  specialize (K b Hb). split; [exact K|apply url_char_plain; exact K].
Qed.
Print Assumptions C36_characters.

Example C36_example : parsed PRFC8141Only (B "urn:ab:(+,-.:=@;$_!*'%25/~&)?+r#f") (demo PRFC8141Only (B "urn:ab:(+,-.:=@;$_!*'%25/~&)?+r#f")).
Proof. apply demo_parsed; vm_compute; reflexivity. Qed.
