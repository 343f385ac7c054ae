(* Property theorems about the work done by one call of Parse (C37). *)
From Coq Require Import Lia.
From Verif Require Import GoBase MachineSyntax MachineTables Machine Errors Urn Spec Exec Api Cost SpecCost PropsCost PropsCostB PropsCostExact4.
Local Open Scope Z_scope.

(* ================================================================ C37 *)
(* In RFC 2141 mode a call moves at most 7 bytes per byte of input, in SCIM mode at most 10. *)
Theorem C37_linear_2141 : forall m s, reachable m -> m_parsingMode m = PRFC2141Only ->
  Parse_cost m s <= 7 * zlen s.
Proof. exact cost_linear_2141. Qed.
Print Assumptions C37_linear_2141.

Theorem C37_linear_scim : forall m s, reachable m -> m_parsingMode m = PRFC7643Only ->
  Parse_cost m s <= 10 * zlen s.
Proof. exact cost_linear_scim. Qed.
Print Assumptions C37_linear_scim.

(* In every mode: each question mark of the input may add one more pass over the input. *)
Theorem C37_bound : forall m s, reachable m ->
  Parse_cost m s <= (10 + Z.of_nat (count_occ Byte.byte_eq_dec s "?"%byte)) * zlen s.
Proof. exact cost_bound. Qed.
Print Assumptions C37_bound.

(* In RFC 8141 mode no linear bound exists: the r-component is copied again at every
   question mark inside it.  The inputs are accepted. *)
Theorem C37_quadratic_refuted : forall m K, reachable m -> m_parsingMode m = PRFC8141Only ->
  exists s m' u, machine_Parse m s = Ret (m', Some u, None) /\ Parse_cost m s > K * zlen s.
Proof. exact cost_quadratic. Qed.
Print Assumptions C37_quadratic_refuted.

(* instances of the bounds *)
Example C37_example_2141 :
  let s := B "urn:ab:" ++ List.concat (repeat (B "%AA") 40) in
  Parse_cost (NewMachine [PRFC2141Only]) s = 485 /\ zlen s = 127 /\ reachable (NewMachine [PRFC2141Only]).
Proof. split; [vm_compute; reflexivity|]. split; [reflexivity|apply reach_new]. Qed.
Example C37_example_scim :
  Parse_cost (NewMachine [PRFC7643Only]) (B "urn:ietf:params:scim:api:messages:2.0:Error%AA") = 98 /\ reachable (NewMachine [PRFC7643Only]).
Proof. split; [vm_compute; reflexivity|apply reach_new]. Qed.
Example C37_example_8141 :
  map (fun s => Parse_cost (NewMachine [PRFC8141Only]) (B s))
    ["urn:ab:c?+a"; "urn:ab:c?+a?a"; "urn:ab:c?+a?a?a"; "urn:ab:c?+a?a?a?a?a?a?a"; "urn:ab:c?=a?a?a?a?a?a?a"]%string
  = [8; 11; 16; 56; 20] /\ reachable (NewMachine [PRFC8141Only]).
Proof. split; [vm_compute; reflexivity|apply reach_new]. Qed.

(* The exact number for every text that is accepted.  The prefix, the NID and the NSS are copied
   (the NSS twice: as written and in its normal form), every letter of an escape that is turned into
   lower case is noted once, turned once and turned back once. *)
Theorem C37_exact_2141 : forall m s prefix nid nss, reachable m -> m_parsingMode m = PRFC2141Only ->
  urn2141 alnum s prefix nid nss -> ~ u_lookahead s ->
  Parse_cost m s = 3 + zlen nid + 2 * zlen nss + 3 * changed nss (norm_pct nss).
Proof. exact exact_2141. Qed.
Print Assumptions C37_exact_2141.

(* the three parts of a SCIM text are copied once more *)
Theorem C37_exact_scim : forall m s prefix t name other, reachable m -> m_parsingMode m = PRFC7643Only ->
  urnscim s prefix t name other ->
  let ss := scim_ss t name other in
  Parse_cost m s = 3 + zlen scim_nid + zlen t + zlen name + zlen other + 2 * zlen ss + 3 * changed ss (norm_pct ss).
Proof. exact exact_scim. Qed.
Print Assumptions C37_exact_scim.

(* In RFC 8141 mode three bytes more when the NID begins with urn- (the prefix is copied a second time).
   The letters noted in the components are never turned.  What stands before a question mark of the
   r-component is copied at that question mark. *)
Theorem C37_exact_8141 : forall m s prefix nid nss r q f, reachable m -> m_parsingMode m = PRFC8141Only ->
  urn8141 s prefix nid nss r q f ->
  let R := opt_val r in let Q := opt_val q in let F := opt_val f in
  Parse_cost m s = 3 + (if dashed nid then 3 else 0) + zlen nid + 2 * zlen nss + 3 * changed nss (norm_pct nss) +
    (zlen R + changed R (norm_pct R) + marks 0 R) + (zlen Q + changed Q (norm_pct Q)) + (zlen F + changed F (norm_pct F)).
Proof. exact exact_8141. Qed.
Print Assumptions C37_exact_8141.

(* texts with escapes in every part, and both sides of the equations *)
Example C37_exact_example_2141 :
  urn2141 alnum (B "urn:ab:c%AB%aFd") (B "urn") (B "ab") (B "c%AB%aFd") /\ ~ u_lookahead (B "urn:ab:c%AB%aFd") /\
  3 + zlen (B "ab") + 2 * zlen (B "c%AB%aFd") + 3 * changed (B "c%AB%aFd") (norm_pct (B "c%AB%aFd")) = 30 /\
  Parse_cost (NewMachine [PRFC2141Only]) (B "urn:ab:c%AB%aFd") = 30.
Proof.
  split; [|split; [|split; vm_compute; reflexivity]].
  - split; [reflexivity|]. split; [reflexivity|]. split.
    + split; [cbn; lia|]. split; [exists "a"%byte, (B "b"); split; reflexivity|]. split; [reflexivity|discriminate].
    + split; [discriminate|]. apply esc_plain; [reflexivity|]. apply esc_pct; [reflexivity..|]. apply esc_pct; [reflexivity..|].
      apply esc_plain; [reflexivity|constructor].
  - intros (c & H & L & _). injection H as <-. discriminate L.
Qed.
Example C37_exact_example_scim :
  urnscim (B "urn:ietf:params:scim:api:a1:b%AA") (B "urn") (B "api") (B "a1") (B "b%AA") /\
  Parse_cost (NewMachine [PRFC7643Only]) (B "urn:ietf:params:scim:api:a1:b%AA") = 3 + 16 + 3 + 2 + 4 + 2 * 11 + 3 * 2.
Proof.
  split; [|vm_compute; reflexivity]. split; [reflexivity|]. split; [reflexivity|]. split; [right; left; reflexivity|].
  split; [split; [discriminate|reflexivity]|]. right. split; [discriminate|]. apply esc_plain; [reflexivity|]. apply esc_pct; [reflexivity..|constructor].
Qed.
Example C37_exact_example_8141 :
  let R := B "a%AA?b?c" in
  urn8141 (B "urn:urn-7:x%Cc?+a%AA?b?c?=q%aE#%FFf") (B "urn") (B "urn-7") (B "x%Cc") (Some R) (Some (B "q%aE")) (Some (B "%FFf")) /\
  dashed (B "urn-7") = true /\ changed R (norm_pct R) = 2 /\ marks 0 R = 4 + 6 /\
  Parse_cost (NewMachine [PRFC8141Only]) (B "urn:urn-7:x%Cc?+a%AA?b?c?=q%aE#%FFf") = 3 + 3 + 5 + 2 * 4 + 3 * 1 + (8 + 2 + 10) + (4 + 1) + (4 + 2).
Proof.
  split; [|repeat split; vm_compute; reflexivity].
  split; [reflexivity|]. split; [reflexivity|]. split; [|split; [|split; [|split]]].
  - split; [cbn; lia|]. split; [reflexivity|]. split; [exists "u"%byte, (B "rn-7"); split; reflexivity|].
    split; [exists "7"%byte, (B "urn-"); split; reflexivity|].
    intros (u & c & r & H & Hu & Hc). unfold urn_word, lowers in Hu. apply (f_equal (@List.length byte)) in Hu as Hl. rewrite map_length in Hl. cbn in Hl.
    destruct u as [|a [|b [|d [|x u]]]]; try discriminate Hl. injection H as _ _ _ <- _.
    destruct Hc as [Hc|[Hc|Hc]]; discriminate Hc.
  - split; [|exists "x"%byte, (B "%Cc"); split; [reflexivity|discriminate]]. apply esc_plain; [reflexivity|]. apply esc_pct; [reflexivity..|constructor].
  - assert (Hq : forall x y z, B "a%AA?b?c" = x ++ "?"%byte :: z :: y -> z = "b"%byte \/ z = "c"%byte).
    { intros x y z H. do 8 (destruct x as [|? x]; [injection H; intros; subst; try discriminate; auto|try (injection H as <- H)]); try discriminate H. destruct x; discriminate H. }
    split; [split; [|exists "a"%byte, (B "%AA?b?c"); repeat split; discriminate]|].
    + repeat (first [apply esc_pct; [reflexivity|reflexivity|] | apply esc_plain; [reflexivity|] | constructor]).
    + split; intros x y H; destruct (Hq x y _ H) as [Q|Q]; discriminate Q.
  - split; [split; [|exists "q"%byte, (B "%aE"); repeat split; discriminate]|].
    + repeat (first [apply esc_pct; [reflexivity|reflexivity|] | apply esc_plain; [reflexivity|] | constructor]).
    + intros x y H. do 4 (destruct x as [|? x]; [discriminate H|try (injection H as <- H)]); destruct x; discriminate H.
  - repeat (first [apply esc_pct; [reflexivity|reflexivity|] | apply esc_plain; [reflexivity|] | constructor]).
Qed.
