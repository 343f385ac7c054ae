(* C52: parsing modes outside the three documented ones (options.go:5-9, machine.go:5035-5046:
   any integer converts to ParsingMode).  C53: the JSON methods against the grammar of RFC 8259. *)
From Coq Require Import Lia.
From Verif Require Import GoBase MachineSyntax MachineTables Machine Errors Urn Json Spec SpecErr Api SpecOdd PropsOdd SpecJson PropsJson2.
Local Open Scope Z_scope.

(* ================================================================ C52 *)
(* every machine of a program falls under one of the theorems below *)
Theorem C52_cases : forall m, reachable m -> never m \/ exists x, since x m.
Proof. exact since_or_never. Qed.
Print Assumptions C52_cases.

(* none of the three modes was ever set: every text is answered nil, nil *)
Theorem C52_never : forall m s, never m -> exists m', machine_Parse m s = Ret (m', None, None).
Proof. exact odd_never. Qed.
Print Assumptions C52_never.

(* after RFC7643Only an unlisted mode changes nothing *)
Theorem C52_scim : forall m s, since PRFC7643Only m -> exists m1 uo eo m2 uo',
  machine_Parse (NewMachine [PRFC7643Only]) s = Ret (m1, uo, eo) /\ machine_Parse m s = Ret (m2, uo', eo) /\ alike_opt uo uo'.
Proof. exact odd_scim_parse. Qed.
Print Assumptions C52_scim.

(* after RFC2141Only it accepts the same texts with the same values; only the percent-escape
   error becomes the error of the NSS, at the same column *)
Theorem C52_rfc2141 : forall m s, since PRFC2141Only m -> ~ three (m_parsingMode m) -> exists m1 uo eo m2 uo' eo',
  machine_Parse (NewMachine [PRFC2141Only]) s = Ret (m1, uo, eo) /\ machine_Parse m s = Ret (m2, uo', eo') /\ alike_opt uo uo' /\
  (forall e, eo' = Some e <-> (eo = Some e /\ e_kind e <> ErrHex) \/
                              (e_kind e = ErrSpecificString /\ eo = Some (mkErr ErrHex (e_col e)))).
Proof. exact odd_2141_parse. Qed.
Print Assumptions C52_rfc2141.

(* after RFC8141Only: the look-ahead of the other modes comes back, and percent-escape
   errors become the error of their place, in a fragment no error at all *)
Theorem C52_rfc8141 : forall m s, since PRFC8141Only m -> ~ three (m_parsingMode m) -> exists m1 uo eo m2 uo' eo',
  machine_Parse (NewMachine [PRFC8141Only]) s = Ret (m1, uo, eo) /\ machine_Parse m s = Ret (m2, uo', eo') /\
  ((looks_ahead s -> uo' = None /\ eo' = Some (mkErr ErrNoUrnWithinID 7)) /\
   (~ looks_ahead s -> alike_opt uo uo' /\ match eo with None => eo' = None | Some e => replaced s e eo' end)).
Proof. exact odd_8141_parse. Qed.
Print Assumptions C52_rfc8141.

(* so an unlisted mode is neither the mode before it nor the default *)
Theorem C52_same_refuted : exists s m1 m2 u,
  machine_Parse (NewMachine [PRFC8141Only]) s = Ret (m1, Some u, None) /\
  machine_Parse (NewMachine [PRFC8141Only; PDefault]) s = Ret (m2, None, Some (mkErr ErrNoUrnWithinID 7)).
Proof. exists (B "urn:uci:x"). eexists _, _, _. split; vm_compute; reflexivity. Qed.
Print Assumptions C52_same_refuted.

Definition odd (x : Z) : machine := machine_WithParsingMode 77 (machine_WithParsingMode PDefault (NewMachine [x])).
Example C52_odd : since PRFC2141Only (odd PRFC2141Only) /\ since PRFC7643Only (odd PRFC7643Only) /\ since PRFC8141Only (odd PRFC8141Only) /\
  (forall x, ~ three (m_parsingMode (odd x))).
Proof.
  assert (D : ~ three 77 /\ ~ three PDefault) by (split; intros [H|[H|H]]; discriminate H). destruct D as [D1 D2].
  assert (S : forall x, three x -> since x (odd x)).
  { intros x Hx. do 2 (apply since_odd; [|assumption]). apply (since_set x zero_machine reach_zero Hx). }
  repeat split; try (apply S; unfold three; auto; fail). intros x. exact D1.
Qed.
Example C52_never_example : never (NewMachine [PDefault; 77; -1]).
Proof.
  apply (never_odd (machine_WithParsingMode 77 (machine_WithParsingMode PDefault zero_machine))); [|intros [H|[H|H]]; discriminate H].
  apply never_odd; [|intros [H|[H|H]]; discriminate H]. apply never_odd; [apply never_zero|intros [H|[H|H]]; discriminate H].
Qed.
(* each place of C52_rfc8141, with the two answers *)
Definition answers (s : bytes) : option (option perr * option perr) :=
  match machine_Parse (NewMachine [PRFC8141Only]) s, machine_Parse (odd PRFC8141Only) s with
  | Ret (_, _, e), Ret (_, _, e') => Some (e, e')
  | _, _ => None
  end.
Example C52_places :
  answers (B "urn:ab:c%!") = Some (Some (mkErr ErrHex 9), Some (mkErr Err8141SpecificString 9)) /\
  answers (B "urn:ab:c?+d%!") = Some (Some (mkErr ErrHex 12), Some (mkErr Err8141MalformedRComp 12)) /\
  answers (B "urn:ab:c?=d%!") = Some (Some (mkErr ErrHex 12), Some (mkErr Err8141MalformedQComp 12)) /\
  answers (B "urn:ab:c?+d?=%!") = Some (Some (mkErr ErrHex 14), Some (mkErr Err8141MalformedRComp 14)) /\
  answers (B "urn:ab:c?+d?=%20%!") = Some (Some (mkErr ErrHex 17), Some (mkErr Err8141MalformedQComp 17)) /\
  answers (B "urn:ab:c#%!") = Some (Some (mkErr ErrHex 10), None) /\
  answers (B "urn:ab:c/?") = Some (None, None).
Proof. repeat split; vm_compute; reflexivity. Qed.
Example C52_2141_example : exists m1 m2,
  machine_Parse (NewMachine [PRFC2141Only]) (B "urn:a:b%!") = Ret (m1, None, Some (mkErr ErrHex 8)) /\
  machine_Parse (odd PRFC2141Only) (B "urn:a:b%!") = Ret (m2, None, Some (mkErr ErrSpecificString 8)).
Proof. eexists _, _. split; vm_compute; reflexivity. Qed.

(* ================================================================ C53 *)
(* the documents the decoder takes are the RFC 8259 strings and null, and the string it
   yields is the one they denote *)
Theorem C53_decode : forall b w, json_Unmarshal b = Some w <-> string_doc b w \/ (null_doc b /\ w = []).
Proof. exact unmarshal_doc. Qed.
Print Assumptions C53_decode.

Theorem C53_unique : forall b w w', string_doc b w -> string_doc b w' -> w = w' /\ ~ null_doc b.
Proof. intros b w w' H H'. split; [exact (string_fun b w w' H H')|exact (string_not_null b w H)]. Qed.
Print Assumptions C53_unique.

(* every document, for each of the three types: what UnmarshalJSON does *)
Theorem C53_URN : forall u b,
  (exists w u', string_doc b w /\ parsed PRFC2141Only w u' /\ URN_UnmarshalJSON u b = Ret (u', None)) \/
  (exists w, (string_doc b w \/ (null_doc b /\ w = [])) /\ (forall u', ~ parsed PRFC2141Only w u') /\
     URN_UnmarshalJSON u b = Ret (u, Some (JInvalid "invalid URN: %s" w))) \/
  ((forall w, ~ string_doc b w) /\ ~ null_doc b /\ URN_UnmarshalJSON u b = Ret (u, Some JJson)).
Proof.
  intros u b. destruct (URN_doc u b) as [H|[H|[H H']]]; [left; exact H|right; left; exact H|right; right].
  split; [intros w K; apply (H w); left; exact K|]. split; [intros K; apply (H []); right; auto|exact H'].
Qed.
Print Assumptions C53_URN.

Theorem C53_URN8141 : forall u b,
  (exists w u', string_doc b w /\ parsed PRFC8141Only w u' /\ URN8141_UnmarshalJSON u b = Ret (Some u', None)) \/
  (exists w, string_doc b w /\ silent8141 w /\ URN8141_UnmarshalJSON u b = Ret (None, None)) \/
  (exists w, (string_doc b w \/ (null_doc b /\ w = [])) /\ (forall u', ~ parsed PRFC8141Only w u') /\ ~ silent8141 w /\
     URN8141_UnmarshalJSON u b = Ret (u, Some (JInvalid "invalid URN per RFC 8141: %s" w))) \/
  ((forall w, ~ string_doc b w) /\ ~ null_doc b /\ URN8141_UnmarshalJSON u b = Ret (u, Some JJson)).
Proof.
  intros u b. destruct (URN8141_doc u b) as [H|[H|[H|[H H']]]]; [left; exact H|right; left; exact H|right; right; left; exact H|right; right; right].
  split; [intros w K; apply (H w); left; exact K|]. split; [intros K; apply (H []); right; auto|exact H'].
Qed.
Print Assumptions C53_URN8141.

Theorem C53_SCIM : forall s b,
  (exists w u' s', string_doc b w /\ parsed PRFC7643Only w u' /\ URN_SCIM u' = Some s' /\ SCIM_UnmarshalJSON s b = Ret (s', None)) \/
  (exists w, (string_doc b w \/ (null_doc b /\ w = [])) /\ (forall u', ~ parsed PRFC7643Only w u') /\
     SCIM_UnmarshalJSON s b = Ret (s, Some (JInvalid "invalid SCIM URN: %s" w))) \/
  ((forall w, ~ string_doc b w) /\ ~ null_doc b /\ SCIM_UnmarshalJSON s b = Ret (s, Some JJson)).
Proof.
  intros s b. destruct (SCIM_doc s b) as [H|[H|[H H']]]; [left; exact H|right; left; exact H|right; right].
  split; [intros w K; apply (H w); left; exact K|]. split; [intros K; apply (H []); right; auto|exact H'].
Qed.
Print Assumptions C53_SCIM.

(* MarshalJSON of any value: a string literal that is UTF-8 and free of control characters
   and of <, > and &, denoting the String of the value with stray bytes replaced *)
Theorem C53_encode : forall newer u, exists t w, URN_MarshalJSON newer u = [x22] ++ t ++ [x22] /\ body t w /\ clean (URN_String u) w /\
  utf8_text t /\ Forall (fun c => (32 <= Byte.to_N c)%N /\ c <> "<"%byte /\ c <> ">"%byte /\ c <> "&"%byte) t.
Proof.
  intros newer u. destruct (marshal_doc newer (URN_String u)) as (t & w & H1 & H2 & H3 & H4 & H5). exists t, w. auto.
Qed.
Print Assumptions C53_encode.

Theorem C53_encode_scim : forall newer s, exists t w, SCIM_MarshalJSON newer s = [x22] ++ t ++ [x22] /\ body t w /\ clean (SCIM_String s) w /\
  utf8_text t /\ Forall (fun c => (32 <= Byte.to_N c)%N /\ c <> "<"%byte /\ c <> ">"%byte /\ c <> "&"%byte) t.
Proof.
  intros newer s. destruct (marshal_doc newer (SCIM_String s)) as (t & w & H1 & H2 & H3 & H4 & H5). exists t, w. auto.
Qed.
Print Assumptions C53_encode_scim.

(* what comes back from a string; nothing is lost exactly when there is nothing to replace *)
Theorem C53_back : forall newer s, (forall w, json_Unmarshal (json_Marshal newer s) = Some w <-> clean s w) /\
  (utf8_text s -> json_Unmarshal (json_Marshal newer s) = Some s).
Proof.
  intros newer s. split; [intros w; apply marshal_unmarshal|]. intros H. apply marshal_unmarshal, clean_text, H.
Qed.
Print Assumptions C53_back.

Theorem C53_back_refuted : exists newer s w, json_Unmarshal (json_Marshal newer s) = Some w /\ w <> s.
Proof. exists true, [xff], replacement. split; [vm_compute; reflexivity|discriminate]. Qed.
Print Assumptions C53_back_refuted.

(* a document with every kind of character, and the same through the decoder *)
Example C53_example_body :
  body (B "\u" ++ B "0075rn:a\/b" ++ [xc3; xa9; xff] ++ B "\u" ++ B "d83d\u" ++ B "de00\u" ++ B "dc00")
       (B "urn:a/b" ++ [xc3; xa9] ++ replacement ++ [xf0; x9f; x98; x80] ++ replacement).
Proof.
  assert (D : string_doc ([x22] ++ (B "\u" ++ B "0075rn:a\/b" ++ [xc3; xa9; xff] ++ B "\u" ++ B "d83d\u" ++ B "de00\u" ++ B "dc00") ++ [x22] ++ [])
    (B "urn:a/b" ++ [xc3; xa9] ++ replacement ++ [xf0; x9f; x98; x80] ++ replacement)).
  { assert (K : json_Unmarshal ([x22] ++ (B "\u" ++ B "0075rn:a\/b" ++ [xc3; xa9; xff] ++ B "\u" ++ B "d83d\u" ++ B "de00\u" ++ B "dc00") ++ [x22] ++ []) =
      Some (B "urn:a/b" ++ [xc3; xa9] ++ replacement ++ [xf0; x9f; x98; x80] ++ replacement)) by (vm_compute; reflexivity).
    apply C53_decode in K. destruct K as [K|[_ K]]; [exact K|discriminate K]. }
  destruct D as (l & t & r & E & Hl & Hr & Hb).
  destruct Hl as [|c l [->|[->|[->| ->]]] Hl]; try discriminate E.
  injection E as E.
  destruct r as [|c r].
  - change (body (removelast (B "\u" ++ B "0075rn:a\/b" ++ [xc3; xa9; xff] ++ B "\u" ++ B "d83d\u" ++ B "de00\u" ++ B "dc00" ++ [x22]))
       (B "urn:a/b" ++ [xc3; xa9] ++ replacement ++ [xf0; x9f; x98; x80] ++ replacement)).
    assert (Et : removelast (t ++ [x22]) = t) by apply removelast_last. rewrite <- Et in Hb. rewrite <- E in Hb. exact Hb.
  - exfalso. assert (L : last (t ++ x22 :: c :: r) x22 = last (c :: r) x22).
    { clear. induction t as [|d t IH]; [reflexivity|]. cbn [app]. rewrite <- IH. destruct t; reflexivity. }
    assert (W : forall r, Forall (fun c => c = " "%byte \/ c = x09 \/ c = x0a \/ c = x0d) r -> r <> [] -> last r x22 <> x22).
    { clear. intros r H. induction H as [|d r Hd _ IH]; [contradiction|]. intros _. destruct r; [|exact (IH ltac:(discriminate))].
      cbn. destruct Hd as [->|[->|[->| ->]]]; discriminate. }
    apply (W _ Hr); [discriminate|]. rewrite <- L. cbn [app] in E. rewrite <- E. reflexivity.
Qed.
Example C53_example : 
  URN_UnmarshalJSON (handbuilt [] []) (B "  " ++ [x22] ++ B "urn:a\u" ++ B "0062:c\/" ++ [x22]) = Ret (handbuilt [] [], Some (JInvalid "invalid URN: %s" (B "urn:ab:c/"))) /\
  (exists u, URN_UnmarshalJSON (handbuilt [] []) (B "  " ++ [x22] ++ B "urn:a\u" ++ B "0062:c" ++ [x22; x0a]) = Ret (u, None) /\ URN_String u = B "urn:ab:c") /\
  URN_UnmarshalJSON (handbuilt [] []) (B "[1]") = Ret (handbuilt [] [], Some JJson).
Proof.
  split; [vm_compute; reflexivity|]. split; [|vm_compute; reflexivity]. eexists. split; vm_compute; reflexivity.
Qed.
