(* Property theorems about the JSON methods (C27-C30).  [newer] selects the Go version
   (see Json.v); the theorems hold for both. *)
From Coq Require Import Lia.
From Verif Require Import GoBase MachineSyntax MachineTables Machine Urn Json Spec Ref Api PropsA PropsB PropsJson.
Local Open Scope Z_scope.

Definition quoted (s : bytes) : bytes := ["034"%byte] ++ s ++ ["034"%byte].

(* ================================================================ C27 *)
(* a parsed URN is written as its text in quotes, and reading it back restores it *)
Theorem C27_roundtrip : forall newer s u v, parsed PRFC2141Only s u ->
  URN_MarshalJSON newer u = quoted s /\
  exists u', URN_UnmarshalJSON v (URN_MarshalJSON newer u) = Ret (u', None) /\
    URN_String u' = URN_String u /\ (forall uni, Equal uni u (Some u') = true) /\ u' = u.
Proof.
  intros newer s u v H. split; [exact (URN_json_text newer s u H)|]. exists u.
  split; [exact (URN_roundtrip_parsed newer s u v H)|]. split; [reflexivity|]. split; [|reflexivity].
  intros uni. apply Equal_refl.
Qed.
Print Assumptions C27_roundtrip.

(* any URN value, hand-built ones included: what comes back is the parse of its String()
   when that parses, an error that leaves the receiver alone otherwise *)
Theorem C27_any_value : forall newer u v,
  (exists u', parsed PRFC2141Only (URN_String u) u' /\ URN_UnmarshalJSON v (URN_MarshalJSON newer u) = Ret (u', None)) \/
  ((forall u', ~ parsed PRFC2141Only (URN_String u) u') /\
   exists e, URN_UnmarshalJSON v (URN_MarshalJSON newer u) = Ret (v, Some e)).
Proof.
  intros newer u v. destruct (URN_roundtrip newer u v) as [H|[H (w & E & _)]]; [left; exact H|right]. split; [exact H|eauto].
Qed.
Print Assumptions C27_any_value.

(* urn_test.go TestJSONMarshaling, examples_test.go ExampleURN_MarshalJSON *)
Example C27_example :
  (exists u', URN_UnmarshalJSON (handbuilt [] []) (URN_MarshalJSON true (handbuilt (B "oid") (B "1.2.3.4"))) = Ret (u', None) /\
     URN_String u' = URN_String (handbuilt (B "oid") (B "1.2.3.4"))) /\
  (exists u, parsed PRFC2141Only (B "URN:foo:a123,456") u /\ URN_MarshalJSON false u = quoted (B "URN:foo:a123,456")) /\
  URN_UnmarshalJSON (handbuilt [] []) (quoted (B "not a URN")) = Ret (handbuilt [] [], Some (JInvalid "invalid URN: %s" (B "not a URN"))) /\
  URN_UnmarshalJSON (handbuilt [] []) [] = Ret (handbuilt [] [], Some JJson).
Proof.
  split; [eexists; split; vm_compute; reflexivity|].
  split; [exists (demo PRFC2141Only (B "URN:foo:a123,456")); split; [apply demo_parsed; vm_compute; reflexivity|vm_compute; reflexivity]|].
  split; vm_compute; reflexivity.
Qed.
(* a value that does not come back: its String() is no URN *)
Example C27_example_bad : exists e, URN_UnmarshalJSON (handbuilt [] []) (URN_MarshalJSON true (handbuilt (B "a b") (xff :: B "<&"))) = Ret (handbuilt [] [], Some e).
Proof. eexists. vm_compute. reflexivity. Qed.

(* ================================================================ C28 *)
(* a parsed RFC 8141 URN is written as String() in quotes with "&" escaped; reading it
   back restores String, ID, SS, prefix, kind and the components *)
Theorem C28_roundtrip : forall newer s u v, parsed PRFC8141Only s u ->
  exists t u', URN8141_MarshalJSON newer (Some u) = Ret t /\ t = quoted (flat_map amp_esc (URN_String u)) /\
    URN8141_UnmarshalJSON v t = Ret (Some u', None) /\
    URN_String u' = URN_String u /\ u_ID u' = u_ID u /\ u_SS u' = u_SS u /\ u_prefix u' = u_prefix u /\ RFC u' = RFC u /\
    RComponent u' = RComponent u /\ QComponent u' = QComponent u /\ FComponent u' = FComponent u /\
    forall uni, Equal uni u (Some u') = true.
Proof.
  intros newer s u v H. destruct (URN8141_roundtrip newer s u v H) as (t & u' & H1 & H2 & H3 & Hp & Hpub). exists t, u'.
  split; [exact H1|]. split; [exact H2|]. split; [exact H3|].
  unfold pub_of in Hpub. injection Hpub as E1 E2 E3 E4 E5 E6 E7 E8 E9.
  split; [unfold URN_String; rewrite E1, E2, E3, E7, E8, E9; reflexivity|]. unfold RFC, RComponent, QComponent, FComponent.
  repeat (split; [assumption|]). intros uni. unfold Equal, Normalize. rewrite E2, E4. apply (Equal_refl uni u).
Qed.
Print Assumptions C28_roundtrip.

(* but unmarshalling can succeed and leave a value whose String panics *)
Theorem C28_nil_refuted : exists b v, URN8141_UnmarshalJSON (Some (handbuilt (B "id") (B "ss"))) b = Ret (v, None) /\
  URN8141_String v = Panic /\ forall newer, URN8141_MarshalJSON newer v = Panic.
Proof. exists (quoted (B "urn:ab:c?x")). exists None. repeat split; vm_compute; reflexivity. Qed.
Print Assumptions C28_nil_refuted.

(* exactly for the strings RFC 8141 mode rejects silently *)
Theorem C28_nil_iff : forall v b v', URN8141_UnmarshalJSON v b = Ret (v', None) ->
  (URN8141_String v' = Panic <-> exists w, json_Unmarshal b = Some w /\ silent8141 w).
Proof.
  intros v b v' H. pose proof (URN8141_unmarshal v b) as K. destruct (json_Unmarshal b) as [w|].
  - destruct K as [(u & Hp & K)|[[Hs K]|[_ [_ K]]]]; rewrite K in H; [| |discriminate H]; injection H as <-; cbn [URN8141_String].
    + split; [discriminate|]. intros (w' & E & Hs). injection E as <-. destruct Hp as (m & m' & Hr & Hm & Hp).
      apply (nilnil8141 _ _ _ _ _ Hr Hm Hp) in Hs. destruct Hs as [Hs _]; discriminate Hs.
    + split; [eauto|reflexivity].
  - rewrite K in H. discriminate H.
Qed.
Print Assumptions C28_nil_iff.

(* urn8141_test.go TestURN8141JSONMarshaling *)
Definition lex_test : URN := mkURN [] (B "lex") (B "it:ministero.giustizia:decreto:1992-07-24;358~art5") [] KNONE None (B "r") (B "q%D0") (B "frag") false false [].
Example C28_example :
  URN8141_MarshalJSON true (Some lex_test) = Ret (quoted (B "urn:lex:it:ministero.giustizia:decreto:1992-07-24;358~art5?+r?=q%D0#frag")) /\
  (exists u', URN8141_UnmarshalJSON None (quoted (B "urn:lex:it:ministero.giustizia:decreto:1992-07-24;358~art5?+r?=q%D0#frag")) = Ret (Some u', None) /\
     URN_String u' = URN_String lex_test /\ FComponent u' = B "frag" /\ QComponent u' = B "q%D0" /\ RComponent u' = B "r") /\
  (exists u2, parsed PRFC8141Only (B "urn:ab:c&d?=x&y#") u2 /\
     URN8141_MarshalJSON true (Some u2) = Ret (quoted (B "urn:ab:c\u" ++ B "0026d?=x\u" ++ B "0026y"))).
Proof.
  split; [vm_compute; reflexivity|]. split; [eexists; split; [vm_compute; reflexivity|]; vm_compute; auto|].
  exists (demo PRFC8141Only (B "urn:ab:c&d?=x&y#")). split; [apply demo_parsed; vm_compute; reflexivity|vm_compute; reflexivity].
Qed.

(* ================================================================ C29 *)
Theorem C29_roundtrip : forall newer sc v,
  s_Type sc = TSchemas \/ s_Type sc = TAPI \/ s_Type sc = TParam -> scim_name (s_Name sc) ->
  s_Other sc = [] \/ scim_other (s_Other sc) ->
  SCIM_MarshalJSON newer sc = quoted (SCIM_String sc) /\
  exists sc', SCIM_UnmarshalJSON v (SCIM_MarshalJSON newer sc) = Ret (sc', None) /\
    s_Type sc' = s_Type sc /\ s_Name sc' = s_Name sc /\ s_Other sc' = s_Other sc.
Proof. exact SCIM_roundtrip. Qed.
Print Assumptions C29_roundtrip.

(* in particular the SCIM value of a parsed URN *)
Theorem C29_parsed : forall newer s u sc v, parsed PRFC7643Only s u -> URN_SCIM u = Some sc ->
  SCIM_MarshalJSON newer sc = quoted (SCIM_String sc) /\
  exists sc', SCIM_UnmarshalJSON v (SCIM_MarshalJSON newer sc) = Ret (sc', None) /\
    s_Type sc' = s_Type sc /\ s_Name sc' = s_Name sc /\ s_Other sc' = s_Other sc.
Proof.
  intros newer s u sc v H Hs. destruct (partsscim s u H) as (p & t & sc' & (_ & _ & Ht & Hn & Ho) & _ & E1 & E2 & _ & _ & _ & Ek & _).
  assert (sc' = sc) as -> by (unfold URN_SCIM in Hs; destruct (negb _); [discriminate Hs|congruence]).
  apply SCIM_roundtrip; [rewrite E2; destruct Ht as [->|[->| ->]]; cbn; auto|exact Hn|exact Ho].
Qed.
Print Assumptions C29_parsed.

(* scim_test.go TestSCIMJSONMarshaling *)
Example C29_example :
  SCIM_MarshalJSON true (mkSCIM TSchemas (B "core") (B "extension:enterprise:2.0:User") 0) =
    quoted (B "urn:ietf:params:scim:schemas:core:extension:enterprise:2.0:User") /\
  SCIM_UnmarshalJSON (mkSCIM 0 [] [] 0) (quoted (B "urn:ietf:params:scim:schemas:core:extension:enterprise:2.0:User")) =
    Ret (mkSCIM TSchemas (B "core") (B "extension:enterprise:2.0:User") 34, None) /\
  SCIM_UnmarshalJSON (mkSCIM 0 [] [] 0) (quoted (B "urn:ietf:params:scim:schemas:extension:enterprise:2.0:User")) =
    Ret (mkSCIM TSchemas (B "extension") (B "enterprise:2.0:User") 39, None) /\
  SCIM_UnmarshalJSON (mkSCIM 0 [] [] 0) (quoted (B "urn:ietf:params:scim:schemas:core")) =
    Ret (mkSCIM TSchemas (B "core") [] 29, None) /\
  SCIM_UnmarshalJSON (mkSCIM 0 [] [] 0) (quoted (B "not a URN")) = Ret (mkSCIM 0 [] [] 0, Some (JInvalid "invalid SCIM URN: %s" (B "not a URN"))).
Proof. repeat split; vm_compute; reflexivity. Qed.

(* ================================================================ C30 *)
(* URN: no panic; success exactly for a JSON string that parses; an error leaves the
   receiver as it was *)
Theorem C30_URN : forall u b,
  (exists u' e, URN_UnmarshalJSON u b = Ret (u', e)) /\
  (forall u', URN_UnmarshalJSON u b = Ret (u', None) <-> exists w, json_Unmarshal b = Some w /\ parsed PRFC2141Only w u') /\
  (forall u' e, URN_UnmarshalJSON u b = Ret (u', Some e) -> u' = u).
Proof.
  intros u b. pose proof (URN_unmarshal u b) as K. destruct (json_Unmarshal b) as [w|].
  - destruct K as [(u' & Hp & ->)|[Hp ->]].
    + split; [eauto|]. split; [|intros u2 e H; discriminate H]. intros u2. split.
      * intros H. injection H as <-. eauto.
      * intros (w' & E & Hw). injection E as <-. rewrite (parsed_det PRFC2141Only w u' u2); auto. left; reflexivity.
    + split; [eauto|]. split; [|intros u2 e H; injection H as -> _; reflexivity]. intros u2. split; [discriminate|].
      intros (w' & E & Hw). injection E as <-. exfalso. apply (Hp u2 Hw).
  - rewrite K. split; [eauto|]. split; [|intros u2 e H; injection H as -> _; reflexivity]. intros u2. split; [discriminate|].
    intros (w' & E & _). discriminate E.
Qed.
Print Assumptions C30_URN.

Theorem C30_SCIM : forall s b,
  (exists s' e, SCIM_UnmarshalJSON s b = Ret (s', e)) /\
  (forall s', SCIM_UnmarshalJSON s b = Ret (s', None) <->
     exists w u, json_Unmarshal b = Some w /\ parsed PRFC7643Only w u /\ URN_SCIM u = Some s') /\
  (forall s' e, SCIM_UnmarshalJSON s b = Ret (s', Some e) -> s' = s).
Proof.
  intros s b. pose proof (SCIM_unmarshal s b) as K. destruct (json_Unmarshal b) as [w|].
  - destruct K as [(u & s1 & Hp & Hs & ->)|[Hp ->]].
    + split; [eauto|]. split; [|intros u2 e H; discriminate H]. intros s2. split.
      * intros H. injection H as <-. eauto.
      * intros (w' & u2 & E & Hw & Hs2). injection E as <-. rewrite (parsed_det PRFC7643Only w u2 u) in Hs2; auto; [|right; left; reflexivity].
        rewrite Hs in Hs2. injection Hs2 as <-. reflexivity.
    + split; [eauto|]. split; [|intros u2 e H; injection H as -> _; reflexivity]. intros s2. split; [discriminate|].
      intros (w' & u & E & Hw & _). injection E as <-. exfalso. apply (Hp u Hw).
  - rewrite K. split; [eauto|]. split; [|intros u2 e H; injection H as -> _; reflexivity]. intros s2. split; [discriminate|].
    intros (w' & u & E & _). discriminate E.
Qed.
Print Assumptions C30_SCIM.

(* URN8141: the same, except that the strings RFC 8141 mode rejects silently are taken
   for a success that stores the nil pointer *)
Theorem C30_URN8141 : forall v b,
  (exists v' e, URN8141_UnmarshalJSON v b = Ret (v', e)) /\
  (forall u', URN8141_UnmarshalJSON v b = Ret (Some u', None) <-> exists w, json_Unmarshal b = Some w /\ parsed PRFC8141Only w u') /\
  (URN8141_UnmarshalJSON v b = Ret (None, None) <-> exists w, json_Unmarshal b = Some w /\ silent8141 w) /\
  (forall v' e, URN8141_UnmarshalJSON v b = Ret (v', Some e) -> v' = v).
Proof.
  intros v b. pose proof (URN8141_unmarshal v b) as K.
  assert (X : forall w u, parsed PRFC8141Only w u -> silent8141 w -> False).
  { intros w u (m & m' & Hr & Hm & Hp) Hs. apply (nilnil8141 _ _ _ _ _ Hr Hm Hp) in Hs. destruct Hs as [Hs _]; discriminate Hs. }
  assert (T : three PRFC8141Only) by (unfold three; auto).
  destruct (json_Unmarshal b) as [w|].
  - destruct K as [(u & Hp & ->)|[[Hs ->]|(Hp & Hs & ->)]].
    + split; [eauto|]. split; [|split; [|intros u2 e H; discriminate H]].
      * intros u2. split; [intros H; injection H as <-; eauto|]. intros (w' & E & Hw). injection E as <-. rewrite (parsed_det PRFC8141Only w u u2); auto.
      * split; [discriminate|]. intros (w' & E & Hw). injection E as <-. exfalso. eauto.
    + split; [eauto|]. split; [|split; [|intros u2 e H; discriminate H]].
      * intros u2. split; [discriminate|]. intros (w' & E & Hw). injection E as <-. exfalso. eauto.
      * split; [eauto|reflexivity].
    + split; [eauto|]. split; [|split; [|intros u2 e H; injection H as -> _; reflexivity]].
      * intros u2. split; [discriminate|]. intros (w' & E & Hw). injection E as <-. exfalso. eapply Hp; eauto.
      * split; [discriminate|]. intros (w' & E & Hw). injection E as <-. contradiction.
  - rewrite K. split; [eauto|]. split; [|split; [|intros u2 e H; injection H as -> _; reflexivity]].
    + intros u2. split; [discriminate|]. intros (w' & E & _). discriminate E.
    + split; [discriminate|]. intros (w' & E & _). discriminate E.
Qed.
Print Assumptions C30_URN8141.

Theorem C30_URN8141_refuted : exists b, (exists v, URN8141_UnmarshalJSON None b = Ret (v, None)) /\
  forall w u, json_Unmarshal b = Some w -> ~ parsed PRFC8141Only w u.
Proof.
  exists (quoted (B "urn:ab:c#[")). split; [eexists; vm_compute; reflexivity|].
  intros w u E Hp. pose proof (C30_URN8141 None (quoted (B "urn:ab:c#["))) as (_ & K & _).
  specialize (K u). apply proj2 in K. assert (H : URN8141_UnmarshalJSON None (quoted (B "urn:ab:c#[")) = Ret (Some u, None)) by (apply K; eauto).
  vm_compute in H. discriminate H.
Qed.
Print Assumptions C30_URN8141_refuted.

(* JSON null is an error: the empty string does not parse *)
Theorem C30_null : forall u, json_Unmarshal (B " null ") = Some [] /\
  URN_UnmarshalJSON u (B "null") = Ret (u, Some (JInvalid "invalid URN: %s" [])).
Proof. intros u. split; vm_compute; reflexivity. Qed.
Print Assumptions C30_null.

Example C30_example :
  json_Unmarshal (B " " ++ quoted (B "urn:\u" ++ B "0061:b\/\u" ++ B "d83d\u" ++ B "de00\n" ++ [xff]) ++ B " ") =
    Some (B "urn:a:b/" ++ [xf0; x9f; x98; x80; x0a; xef; xbf; xbd]) /\
  json_Unmarshal (quoted (B "a") ++ B "x") = None /\ json_Unmarshal (B "12") = None /\ json_Unmarshal (quoted (B "\x")) = None /\
  (exists u, URN_UnmarshalJSON (handbuilt [] []) (quoted (B "urn:\u" ++ B "0061:b")) = Ret (u, None) /\ u_ID u = B "a").
Proof. repeat split; try (vm_compute; reflexivity). eexists. split; vm_compute; reflexivity. Qed.
