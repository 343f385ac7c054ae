(* Property theorems: machine.go against the ragel source (C42), and against the grammars of
   RFC 2141 and RFC 7643 (C43) and RFC 8141 (C44). *)
From Coq Require Import Lia.
From Verif Require Import GoBase MachineSyntax MachineTables Machine Errors Urn Spec RegLang Ragel SpecRfc Ref Api PropsA PropsB PropsErr PropsGram PropsGram8.
Import ListNotations.
Local Open Scope Z_scope.
Local Open Scope lang_scope.

(* ================================================================ C42 *)
(* RFC 2141 mode: the language of "urn" in machine.go.rl, less what the look-ahead of the
   action throw_pre_urn_err throws away *)
Theorem C42_urn : forall s, (exists u, parsed PRFC2141Only s u) <-> rl_urn s /\ ~ u_lookahead s.
Proof.
  intros s. rewrite rl_urn_iff. split.
  - intros (u & H). destruct (parsed2141_inv s u H) as (p & n & x & H1 & H2 & _). eauto 6.
  - intros [(p & n & x & H1) H2]. destruct (parsed2141_ok s p n x H1 H2) as (u & H & _). eauto.
Qed.
Print Assumptions C42_urn.

(* SCIM mode: exactly the language of scim_only *)
Theorem C42_scim : forall s, (exists u, parsed PRFC7643Only s u) <-> rl_scim_only s.
Proof.
  intros s. rewrite rl_scim_iff. split.
  - intros (u & H). destruct (parsedscim_inv s u H) as (p & t & n & o & H1 & _). eauto 6.
  - intros (p & t & n & o & H1). destruct (parsedscim_ok s p t n o H1) as (u & H & _). eauto.
Qed.
Print Assumptions C42_scim.

(* RFC 8141 mode: nothing outside rfc8141_only is accepted; what is inside is accepted unless
   the NID is informal or an opener "?+" or "?=" is repeated *)
Theorem C42_8141 : forall s,
  ((exists u, parsed PRFC8141Only s u) -> rl_rfc8141_only s) /\
  (rl_rfc8141_only s -> ~ informal_name s -> once "?+" s -> once "?=" s -> exists u, parsed PRFC8141Only s u).
Proof.
  intros s. split.
  - intros (u & H). destruct (parsed8141_inv s u H) as (p & n & x & r & q & f & H1 & _). eapply rl_8141_in; eauto.
  - intros H Hi O1 O2. destruct (rl_8141_conv s H Hi O1 O2) as (p & n & x & r & q & f & H1).
    destruct (parsed8141_ok _ _ _ _ _ _ _ H1) as (u & K & _). eauto.
Qed.
Print Assumptions C42_8141.

(* both restrictions are needed *)
Theorem C42_8141_refuted :
  (exists s, rl_rfc8141_only s /\ informal_name s /\ exists m e, machine_Parse (NewMachine [PRFC8141Only]) s = Ret (m, None, Some e)) /\
  (exists s, rl_rfc8141_only s /\ ~ once "?+" s /\ exists m e, machine_Parse (NewMachine [PRFC8141Only]) s = Ret (m, None, Some e)) /\
  (exists s, rl_rfc8141_only s /\ ~ once "?=" s /\ exists m e, machine_Parse (NewMachine [PRFC8141Only]) s = Ret (m, None, Some e)).
Proof.
  split; [|split].
  - exists (B "urn:urn-ab:c"). split; [|split; [|eexists _, _; vm_compute; reflexivity]].
    + apply (rl_make (B "urn") (B "urn-ab") (B "c") [] []); [reflexivity|nid_tac| |nss_tac|left; reflexivity|left; reflexivity].
      intros (u & y & E & Hu & (d & y' & -> & Ed & Hy)). unfold lit in Ed. subst d. apply rl_pre_iff in Hu.
      assert (K : List.length u = 3%nat) by (unfold urn_word, lowers in Hu; apply (f_equal (@List.length _)) in Hu; rewrite map_length in Hu; exact Hu).
      destruct y' as [|? [|? ?]]; destruct Hy as [[(c & Hy & _)|(c & Hy & _)]|Hy]; try discriminate Hy;
        apply (f_equal (@List.length _)) in E; rewrite !app_length, K in E; discriminate E.
    + exists (B "urn"), (B "urn"), "a"%byte, (B "b:c"). split; [reflexivity|]. split; [apply r2_urn_iff; reflexivity|]. split; [apply r2_urn_iff; reflexivity|].
      left. apply alpha_iff. auto.
  - exists (B "urn:ab:c?+x?+y"). split; [|split; [|eexists _, _; vm_compute; reflexivity]].
    + apply (rl_make (B "urn") (B "ab") (B "c") (B "?+x?+y") []); [reflexivity|nid_tac|not_informal|nss_tac| |left; reflexivity].
      right. left. exists (B "?+x?+y"), []. split; [reflexivity|]. split; [|left; reflexivity]. exists (B "?+"), (B "x?+y"). split; [reflexivity|]. split; [reflexivity|].
      exists (B "x?+y"), []. split; [reflexivity|]. split; [right; apply rl_component_iff; comp_tac|apply star_nil].
    + intros K. specialize (K (B "urn:ab:c") (B "x") (B "y") eq_refl). revert K. apply no_in. reflexivity.
  - exists (B "urn:ab:c?=x?=y"). split; [|split; [|eexists _, _; vm_compute; reflexivity]].
    + apply (rl_make (B "urn") (B "ab") (B "c") (B "?=x?=y") []); [reflexivity|nid_tac|not_informal|nss_tac| |left; reflexivity].
      right. right. exists (B "?="), (B "x?=y"). split; [reflexivity|]. split; [reflexivity|].
      exists (B "x?=y"), []. split; [reflexivity|]. split; [right; apply rl_component_iff; comp_tac|apply star_nil].
    + intros K. specialize (K (B "urn:ab:c") (B "x") (B "y") eq_refl). revert K. apply no_in. reflexivity.
Qed.
Print Assumptions C42_8141_refuted.

(* texts of the three languages *)
Example C42_example : rl_urn (B "URN:foo:a%3Db") /\ ~ u_lookahead (B "URN:foo:a%3Db") /\ rl_scim_only (B "urn:ietf:params:scim:api:messages:2.0") /\
  rl_rfc8141_only (B "urn:ab:c?+r?=q#f") /\ ~ rl_rfc8141_only (B "urn:ab:c?").
Proof.
  pose proof (demo_parsed PRFC2141Only (B "URN:foo:a%3Db") ltac:(vm_compute; reflexivity)) as H1.
  pose proof (demo_parsed PRFC7643Only (B "urn:ietf:params:scim:api:messages:2.0") ltac:(vm_compute; reflexivity)) as H2.
  pose proof (demo_parsed PRFC8141Only (B "urn:ab:c?+r?=q#f") ltac:(vm_compute; reflexivity)) as H3.
  split; [apply C42_urn; eauto|]. split; [eapply C42_urn; eauto|]. split; [apply C42_scim; eauto|]. split; [eapply (proj1 (C42_8141 _)); eauto|].
  intros H. apply rl_8141_conv in H as (p & n & x & r & q & f & H).
  - destruct (parsed8141_ok _ _ _ _ _ _ _ H) as (u & (m & m' & Hr & Hm & Hp) & _).
    destruct (reach_mach PRFC8141Only) as [R1 R2].
    rewrite <- (parse_mode_eq _ m (B "urn:ab:c?") R1 Hr (eq_trans R2 (eq_sym Hm))) in Hp; [|rewrite R2; right; right; reflexivity].
    vm_compute in Hp. discriminate Hp.
  - intros (p' & u & c & t & E & Hp & Hu & _). apply r2_urn_iff in Hp. apply r2_urn_iff in Hu.
    destruct p' as [|a1 [|a2 [|a3 [|? ?]]]]; try discriminate Hp. injection E as <- <- <- E.
    destruct u as [|b1 [|b2 [|b3 [|? ?]]]]; try discriminate Hu. injection E; intros; subst; discriminate.
  - intros a b c E. exfalso. apply (occ_len (B "?+") (B "urn:ab:c?") a (b ++ B "?+" ++ c)); [reflexivity|exact E].
  - intros a b c E. exfalso. apply (occ_len (B "?=") (B "urn:ab:c?") a (b ++ B "?=" ++ c)); [reflexivity|exact E].
Qed.

(* ================================================================ C43 *)
(* every text accepted in RFC 2141 mode is in the grammar of RFC 2141; it is in the strict one
   (no reserved characters) exactly when its escapes are hexadecimal *)
Theorem C43_accepted_valid : forall s u, parsed PRFC2141Only s u -> r2_URN s /\ (r2_URN_strict s <-> hex_ok s).
Proof.
  intros s u H. destruct (parsed2141_inv s u H) as (p & n & x & H1 & _ & _). split; [eapply r2_accepted; eauto|].
  split; [apply r2_strict_hex|]. intros K. apply r2_strict_iff. exists p, n, x. apply r2_hex_back; auto.
Qed.
Print Assumptions C43_accepted_valid.

(* a text of the strict grammar is accepted unless the look-ahead throws it away *)
Theorem C43_valid_accepted : forall s, r2_URN_strict s -> ((exists u, parsed PRFC2141Only s u) <-> ~ u_lookahead s).
Proof.
  intros s H. apply r2_strict_iff in H as (p & n & x & H). split.
  - intros (u & K). destruct (parsed2141_inv s u K) as (_ & _ & _ & _ & L & _). exact L.
  - intros L. destruct (parsed2141_ok s p n x (r2_hex_in _ _ _ _ H) L) as (u & K & _). eauto.
Qed.
Print Assumptions C43_valid_accepted.

(* the code differs from the RFC in both directions *)
Theorem C43_valid_refuted :
  (exists s m e, r2_URN_strict s /\ machine_Parse (NewMachine []) s = Ret (m, None, Some e)) /\
  (exists s m e, r2_URN s /\ machine_Parse (NewMachine []) s = Ret (m, None, Some e) /\ ~ u_lookahead s) /\
  (exists s u, parsed PRFC2141Only s u /\ ~ r2_URN_strict s).
Proof.
  split; [|split].
  - exists (B "urn:uci:x"). eexists _, _. split; [|vm_compute; reflexivity]. apply r2_strict_iff. exists (B "urn"), (B "uci"), (B "x").
    split; [reflexivity|]. split; [reflexivity|]. split; [split; [cbn; lia|split; [eexists _, _; split; reflexivity|split; [reflexivity|discriminate]]]|].
    split; [discriminate|apply esc_plain; [reflexivity|apply esc_nil]].
  - exists (B "urn:a:b/c"). eexists _, _. split; [|split; [vm_compute; reflexivity|]].
    + exists (B "urn:a:"), (B "b/c"). split; [reflexivity|]. split.
      * exists (B "urn:a"), (B ":"). split; [reflexivity|]. split; [|reflexivity]. exists (B "urn:"), (B "a"). split; [reflexivity|].
        split; [exists (B "urn"), (B ":"); split; [reflexivity|]; split; [apply r2_urn_iff; reflexivity|reflexivity]|].
        apply r2_NID_iff. split; [cbn; lia|]. split; [eexists _, _; split; reflexivity|reflexivity].
      * exists (B "b"), (B "/c"). split; [reflexivity|]. split; [left; apply r2_trans_one; eexists; split; reflexivity|].
        apply (star_app _ (B "/") (B "c")); [left; apply r2_trans_one; eexists; split; reflexivity|].
        apply (star_app _ (B "c") []); [left; apply r2_trans_one; eexists; split; reflexivity|apply star_nil].
    + intros (c & E & Hc & _). injection E as <-. discriminate Hc.
  - exists (B "urn:a:%zz"), (demo PRFC2141Only (B "urn:a:%zz")). split; [apply demo_parsed; vm_compute; reflexivity|].
    intros H. apply r2_strict_hex in H. destruct (H (B "urn:a:") (B "zz") eq_refl) as (a & b & y & E & K & _). injection E as <- <- _.
    apply hexdig_iff in K. discriminate K.
Qed.
Print Assumptions C43_valid_refuted.

(* SCIM: accepted texts with hexadecimal escapes follow RFC 7643; texts that follow it and have
   an alphanumeric name are accepted *)
Theorem C43_scim : forall s,
  (forall u, parsed PRFC7643Only s u -> hex_ok s -> r7_URN s) /\ (r7_URN_alnum s -> exists u, parsed PRFC7643Only s u).
Proof.
  intros s. split.
  - intros u H Hx. destruct (parsedscim_inv s u H) as (p & t & n & o & H1 & _). eapply r7_accepted_valid; eauto.
  - intros H. destruct (r7_alnum_iff s H) as (p & t & n & o & H1 & _). destruct (parsedscim_ok s p t n o H1) as (u & K & _). eauto.
Qed.
Print Assumptions C43_scim.

(* RFC 7643 allows names the code rejects *)
Theorem C43_scim_refuted : exists s m e, r7_URN s /\ machine_Parse (NewMachine [PRFC7643Only]) s = Ret (m, None, Some e).
Proof.
  exists (B "urn:ietf:params:scim:schemas:my-org:2.0"). eexists _, _. split; [|vm_compute; reflexivity].
  exists (B "urn:ietf:params:scim:schemas:"), (B "my-org:2.0"). split; [reflexivity|]. split.
  - exists (B "urn:ietf:params:scim:schemas"), (B ":"). split; [reflexivity|]. split; [|reflexivity].
    exists (B "urn:ietf:params:scim:"), (B "schemas"). split; [reflexivity|]. split; [|left; left; reflexivity].
    exists (B "urn"), (B ":ietf:params:scim:"). split; [reflexivity|]. split; [apply r2_urn_iff; reflexivity|reflexivity].
  - apply (plus_unit _ _ _ _ r2_unit). split; [discriminate|]. esc_tac.
Qed.
Print Assumptions C43_scim_refuted.

Example C43_example : (exists u, parsed PRFC2141Only (B "URN:foo:a%3Db,c") u) /\ hex_ok (B "URN:foo:a%3Db,c") /\ r2_URN_strict (B "URN:foo:a%3Db,c") /\
  r7_URN_alnum (B "urn:ietf:params:scim:api:messages:2.0").
Proof.
  pose proof (demo_parsed PRFC2141Only (B "URN:foo:a%3Db,c") ltac:(vm_compute; reflexivity)) as H1.
  assert (K : r2_URN_strict (B "URN:foo:a%3Db,c")).
  { apply r2_strict_iff. exists (B "URN"), (B "foo"), (B "a%3Db,c"). split; [reflexivity|]. split; [reflexivity|].
    split; [split; [cbn; lia|split; [eexists _, _; split; reflexivity|split; [reflexivity|discriminate]]]|]. split; [discriminate|esc_tac]. }
  split; [eauto|]. split; [apply r2_strict_hex; exact K|]. split; [exact K|].
  exists (B "urn:ietf:params:scim:api:messages"), (B ":2.0"). split; [reflexivity|]. split.
  - exists (B "urn:ietf:params:scim:api:"), (B "messages"). split; [reflexivity|]. split.
    + exists (B "urn:ietf:params:scim:api"), (B ":"). split; [reflexivity|]. split; [|reflexivity].
      exists (B "urn:ietf:params:scim:"), (B "api"). split; [reflexivity|]. split; [|left; right; reflexivity].
      exists (B "urn"), (B ":ietf:params:scim:"). split; [reflexivity|]. split; [apply r2_urn_iff; reflexivity|reflexivity].
    + exists (B "m"), (B "essages"). split; [reflexivity|]. split; [apply r2_let_num_one; eexists; split; reflexivity|apply (star_one _ _ _ r2_let_num_one); reflexivity].
  - right. exists (B ":"), (B "2.0"). split; [reflexivity|]. split; [reflexivity|]. apply (plus_unit _ _ _ _ r2_unit). split; [discriminate|esc_tac].
Qed.

(* ================================================================ C44 *)
(* a text accepted in RFC 8141 mode is a namestring of RFC 8141 exactly when its escapes are
   hexadecimal *)
Theorem C44_accepted_valid : forall s u, parsed PRFC8141Only s u -> (r8_namestring s <-> hex_ok s).
Proof.
  intros s u H. destruct (parsed8141_inv s u H) as (p & n & x & r & q & f & H1 & _). split; [apply r8_hex|]. intros K. eapply r8_accepted_valid; eauto.
Qed.
Print Assumptions C44_accepted_valid.

(* a namestring is accepted unless its NID is "urn-" and a letter or 0, or it repeats "?+" or "?=" *)
Theorem C44_valid_accepted : forall s, r8_namestring s -> ~ informal_name s -> once "?+" s -> once "?=" s -> exists u, parsed PRFC8141Only s u.
Proof.
  intros s H Hi O1 O2. destruct (r8_valid_accepted s H Hi O1 O2) as (p & n & x & r & q & f & H1).
  destruct (parsed8141_ok _ _ _ _ _ _ _ H1) as (u & K & _). eauto.
Qed.
Print Assumptions C44_valid_accepted.

(* the code differs from the RFC in both directions *)
Theorem C44_valid_refuted :
  (exists s m e, r8_namestring s /\ once "?+" s /\ once "?=" s /\ machine_Parse (NewMachine [PRFC8141Only]) s = Ret (m, None, Some e)) /\
  (exists s m e, r8_namestring s /\ ~ informal_name s /\ machine_Parse (NewMachine [PRFC8141Only]) s = Ret (m, None, Some e)) /\
  (exists s u, parsed PRFC8141Only s u /\ ~ r8_namestring s).
Proof.
  split; [|split].
  - exists (B "urn:urn-ab:c"). eexists _, _. split; [|split; [|split; [|vm_compute; reflexivity]]].
    + apply (r8_make (B "urn") (B "urn-ab") (B "c") [] []); [reflexivity|nid_tac|nss_tac|left; reflexivity|left; reflexivity].
    + intros a b c E. exfalso. apply (occ_len (B "?+") (B "urn:urn-ab:c") a (b ++ B "?+" ++ c)); [reflexivity|exact E].
    + intros a b c E. exfalso. apply (occ_len (B "?=") (B "urn:urn-ab:c") a (b ++ B "?=" ++ c)); [reflexivity|exact E].
  - exists (B "urn:ab:c?+x?+y"). eexists _, _. split; [|split; [|vm_compute; reflexivity]].
    + apply (r8_make (B "urn") (B "ab") (B "c") (B "?+x?+y") []); [reflexivity|nid_tac|nss_tac| |left; reflexivity].
      right. exists (B "?+x?+y"), []. split; [reflexivity|]. split; [|left; reflexivity]. right. exists (B "?+"), (B "x?+y"). split; [reflexivity|]. split; [reflexivity|].
      apply (comp_of _ _ hexdig _ r8_pchar_unit r8_frag_unit). comp_tac.
    + intros (p' & u & c & t & E & Hp & Hu & _). apply r2_urn_iff in Hp. apply r2_urn_iff in Hu.
      destruct p' as [|a1 [|a2 [|a3 [|? ?]]]]; try discriminate Hp. injection E as <- <- <- E.
      destruct u as [|b1 [|b2 [|b3 [|? ?]]]]; try discriminate Hu. injection E; intros; subst; discriminate.
  - exists (B "urn:ab:%zz"), (demo PRFC8141Only (B "urn:ab:%zz")). split; [apply demo_parsed; vm_compute; reflexivity|].
    intros H. apply r8_hex in H. destruct (H (B "urn:ab:") (B "zz") eq_refl) as (a & b & y & E & K & _). injection E as <- <- _.
    apply hexdig_iff in K. discriminate K.
Qed.
Print Assumptions C44_valid_refuted.

(* RFC 8141 section 2.3.1: a namestring with all components *)
Example C44_example : exists s, s = B "urn:example:foo-bar-baz-qux?+CCResolve:cc=uk?=op=map#somepart" /\ r8_namestring s /\ once "?+" s /\ once "?=" s /\ ~ informal_name s.
Proof.
  eexists. split; [reflexivity|]. split; [|split; [|split]].
  - apply (r8_make (B "urn") (B "example") (B "foo-bar-baz-qux") (B "?+CCResolve:cc=uk?=op=map") (B "#somepart")); [reflexivity|nid_tac|nss_tac| |].
    + right. exists (B "?+CCResolve:cc=uk"), (B "?=op=map"). split; [reflexivity|]. split; right.
      * exists (B "?+"), (B "CCResolve:cc=uk"). split; [reflexivity|]. split; [reflexivity|]. apply (comp_of _ _ hexdig _ r8_pchar_unit r8_frag_unit). comp_tac.
      * exists (B "?="), (B "op=map"). split; [reflexivity|]. split; [reflexivity|]. apply (comp_of _ _ hexdig _ r8_pchar_unit r8_frag_unit). comp_tac.
    + right. exists (B "#"), (B "somepart"). split; [reflexivity|]. split; [reflexivity|]. apply (star_unit _ _ _ _ r8_frag_unit). esc_tac.
  - intros a b c E. exfalso. destruct (two_occ "?" "+" (B "urn:example:foo-bar-baz-qux") (B "CCResolve:cc=uk?=op=map#somepart") a (b ++ B "?+" ++ c) ltac:(discriminate) E)
      as [[_ K]|[(z & _ & K)|(z & K & _)]].
    + apply (occ_len (B "?+") (B "CCResolve:cc=uk?=op=map#somepart") b c); [reflexivity|exact K].
    + apply (occ_len (B "?+") (B "CCResolve:cc=uk?=op=map#somepart") z (b ++ B "?+" ++ c)); [reflexivity|exact K].
    + apply (occ_len (B "?+") (B "urn:example:foo-bar-baz-qux") a z); [reflexivity|exact K].
  - intros a b c E. exfalso. destruct (two_occ "?" "=" (B "urn:example:foo-bar-baz-qux?+CCResolve:cc=uk") (B "op=map#somepart") a (b ++ B "?=" ++ c) ltac:(discriminate) E)
      as [[_ K]|[(z & _ & K)|(z & K & _)]].
    + apply (occ_len (B "?=") (B "op=map#somepart") b c); [reflexivity|exact K].
    + apply (occ_len (B "?=") (B "op=map#somepart") z (b ++ B "?=" ++ c)); [reflexivity|exact K].
    + apply (occ_len (B "?=") (B "urn:example:foo-bar-baz-qux?+CCResolve:cc=uk") a z); [reflexivity|exact K].
  - intros (p' & u & c & t & E & Hp & Hu & _). apply r2_urn_iff in Hp. apply r2_urn_iff in Hu.
    destruct p' as [|a1 [|a2 [|a3 [|? ?]]]]; try discriminate Hp. injection E as <- <- <- E.
    destruct u as [|b1 [|b2 [|b3 [|? ?]]]]; try discriminate Hu. injection E; intros; subst; discriminate.
Qed.
