(* Property theorems about longer and shorter texts (C59). *)
From Coq Require Import Lia.
From Verif Require Import GoBase MachineSyntax MachineTables Machine Errors Urn Spec Api PropsB PropsGrow.
Local Open Scope Z_scope.

(* ================================================================ C59 *)
(* RFC 2141 mode: to an accepted text exactly the NSS characters and complete escapes can be
   appended, except a colon behind a text of the form urn:u:x (the look-ahead).  They are
   added to SS; the rest of the URN stays. *)
Theorem C59_append_2141 : forall s u t, parsed PRFC2141Only s u ->
  ((exists v, parsed PRFC2141Only (s ++ t) v) <->
   escaped alnum sss t /\ ~ (lowers (u_ID u) = B "u" /\ List.length (u_SS u) = 1%nat /\ exists t', t = ":"%byte :: t')) /\
  (forall v, parsed PRFC2141Only (s ++ t) v ->
     u_prefix v = u_prefix u /\ u_ID v = u_ID u /\ u_SS v = u_SS u ++ t /\ u_norm v = u_norm u ++ norm_pct t).
Proof. exact grow2141. Qed.
Print Assumptions C59_append_2141.

(* The exception is real: more NSS characters turn an accepted text into a rejected one. *)
Theorem C59_append_refuted : exists s u t, parsed PRFC2141Only s u /\ escaped alnum sss t /\
  forall v, ~ parsed PRFC2141Only (s ++ t) v.
Proof.
  exists (B "urn:u:a"), (demo PRFC2141Only (B "urn:u:a")), (B ":b"). split; [apply demo_parsed; vm_compute; reflexivity|].
  split; [apply esc_forall; reflexivity|]. intros v Hv.
  destruct (C59_append_2141 (B "urn:u:a") (demo PRFC2141Only (B "urn:u:a")) (B ":b")) as [K _]; [apply demo_parsed; vm_compute; reflexivity|].
  apply (proj2 (proj1 K (ex_intro _ v Hv))). split; [reflexivity|]. split; [reflexivity|]. eexists. reflexivity.
Qed.
Print Assumptions C59_append_refuted.

(* The accepted beginnings of an accepted text: those that keep some of the NSS and do not cut
   an escape in two. *)
Theorem C59_cut_2141 : forall s u a t, parsed PRFC2141Only s u -> s = a ++ t ->
  ((exists v, parsed PRFC2141Only a v) <-> exists x, u_SS u = x ++ t /\ x <> [] /\ escaped alnum sss x).
Proof. exact cut2141. Qed.
Print Assumptions C59_cut_2141.

(* SCIM mode: behind the other part NSS characters and complete escapes; behind the name more
   of the name, and an other part. *)
Theorem C59_append_scim : forall s u sc z, parsed PRFC7643Only s u -> URN_SCIM u = Some sc ->
  ((exists v, parsed PRFC7643Only (s ++ z) v) <->
   (s_Other sc <> [] /\ escaped alnum sss z) \/
   (s_Other sc = [] /\ exists y o, z = y ++ scim_tail o /\ forallb alnum y = true /\ (o = [] \/ scim_other o))) /\
  (forall v, parsed PRFC7643Only (s ++ z) v -> exists sv, URN_SCIM v = Some sv /\ s_Type sv = s_Type sc /\
     u_prefix v = u_prefix u /\ u_ID v = u_ID u /\ u_SS v = u_SS u ++ z /\
     (s_Other sc <> [] -> s_Name sv = s_Name sc /\ s_Other sv = s_Other sc ++ z) /\
     (s_Other sc = [] -> exists y, s_Name sv = s_Name sc ++ y /\ z = y ++ scim_tail (s_Other sv))).
Proof. exact growscim. Qed.
Print Assumptions C59_append_scim.

(* RFC 8141 mode, a text without components: more NSS, then components. *)
Theorem C59_append_bare : forall s u p n x t, parsed PRFC8141Only s u -> urn8141 s p n x None None None ->
  ((exists v, parsed PRFC8141Only (s ++ t) v) <->
   exists y r q f, t = y ++ tail8141 r q f /\ escaped alnum pchar_slash y /\
     opt_ok r_component r /\ opt_ok q_component q /\ opt_ok fragment f) /\
  (forall v y r q f, parsed PRFC8141Only (s ++ t) v -> t = y ++ tail8141 r q f -> escaped alnum pchar_slash y ->
     opt_ok r_component r /\ opt_ok q_component q /\ opt_ok fragment f ->
     u_prefix v = u_prefix u /\ u_ID v = u_ID u /\ u_SS v = u_SS u ++ y /\ u_norm v = u_norm u ++ norm_pct y /\
     RComponent v = opt_val r /\ QComponent v = opt_val q /\ FComponent v = opt_val f).
Proof. exact bare8141. Qed.
Print Assumptions C59_append_bare.

(* A text without a fragment, however it looks: one can be added, and changes nothing else. *)
Theorem C59_append_hash : forall s u p n x r q g, parsed PRFC8141Only s u -> urn8141 s p n x r q None ->
  ((exists v, parsed PRFC8141Only (s ++ B "#" ++ g) v) <-> fragment g) /\
  (forall v, parsed PRFC8141Only (s ++ B "#" ++ g) v -> FComponent v = g /\
     u_prefix v = u_prefix u /\ u_ID v = u_ID u /\ u_SS v = u_SS u /\ u_norm v = u_norm u /\
     RComponent v = RComponent u /\ QComponent v = QComponent u).
Proof. exact hash8141. Qed.
Print Assumptions C59_append_hash.

(* A text with a fragment: the fragment grows. *)
Theorem C59_append_fragment : forall s u p n x r q g t, parsed PRFC8141Only s u -> urn8141 s p n x r q (Some g) ->
  ((exists v, parsed PRFC8141Only (s ++ t) v) <-> fragment t) /\
  (forall v, parsed PRFC8141Only (s ++ t) v -> FComponent v = FComponent u ++ t /\
     u_prefix v = u_prefix u /\ u_ID v = u_ID u /\ u_SS v = u_SS u /\ u_norm v = u_norm u /\
     RComponent v = RComponent u /\ QComponent v = QComponent u).
Proof. exact frag8141. Qed.
Print Assumptions C59_append_fragment.

(* A text that ends in a q-component: the q-component grows, or a fragment follows. *)
Theorem C59_append_q : forall s u p n x r w t, parsed PRFC8141Only s u -> urn8141 s p n x r (Some w) None ->
  ((exists v, parsed PRFC8141Only (s ++ t) v) <->
   exists y f, t = y ++ opt_part (B "#") f /\ q_component (w ++ y) /\ opt_ok fragment f) /\
  (forall v, parsed PRFC8141Only (s ++ t) v -> exists y f, t = y ++ opt_part (B "#") f /\
     QComponent v = QComponent u ++ y /\ FComponent v = opt_val f /\
     u_prefix v = u_prefix u /\ u_ID v = u_ID u /\ u_SS v = u_SS u /\ u_norm v = u_norm u /\ RComponent v = RComponent u).
Proof. exact q8141. Qed.
Print Assumptions C59_append_q.

(* A text that ends in an r-component: r-component and addition are read afresh. *)
Theorem C59_append_r : forall s u p n x w t, parsed PRFC8141Only s u -> urn8141 s p n x (Some w) None None ->
  ((exists v, parsed PRFC8141Only (s ++ t) v) <->
   exists r q f, w ++ t = r ++ opt_part (B "?=") q ++ opt_part (B "#") f /\
     r_component r /\ opt_ok q_component q /\ opt_ok fragment f) /\
  (forall v r q f, parsed PRFC8141Only (s ++ t) v -> w ++ t = r ++ opt_part (B "?=") q ++ opt_part (B "#") f ->
     r_component r /\ opt_ok q_component q /\ opt_ok fragment f ->
     RComponent v = r /\ QComponent v = opt_val q /\ FComponent v = opt_val f /\
     u_prefix v = u_prefix u /\ u_ID v = u_ID u /\ u_SS v = u_SS u /\ u_norm v = u_norm u).
Proof. exact r8141. Qed.
Print Assumptions C59_append_r.

(* It need not grow: an r-component may end in "?=", which becomes the start of the
   q-component when more is appended. *)
Theorem C59_r_refuted : exists s u t v, parsed PRFC8141Only s u /\ parsed PRFC8141Only (s ++ t) v /\
  RComponent u = B "r?=" /\ RComponent v = B "r" /\ QComponent u = [] /\ QComponent v = t.
Proof.
  exists (B "urn:ab:c?+r?="), (demo PRFC8141Only (B "urn:ab:c?+r?=")), (B "q"), (demo PRFC8141Only (B "urn:ab:c?+r?=" ++ B "q")).
  split; [apply demo_parsed; vm_compute; reflexivity|]. split; [apply demo_parsed; vm_compute; reflexivity|]. repeat split; vm_compute; reflexivity.
Qed.
Print Assumptions C59_r_refuted.

(* Cut inside the NSS, or just behind it: accepted when some of the NSS is left and no escape
   is cut in two. *)
Theorem C59_cut_8141 : forall s u p n x r q f y z, parsed PRFC8141Only s u -> urn8141 s p n x r q f -> x = y ++ z ->
  ((exists v, parsed PRFC8141Only (p ++ colon ++ n ++ colon ++ y) v) <-> y <> [] /\ escaped alnum pchar_slash y) /\
  (forall v, parsed PRFC8141Only (p ++ colon ++ n ++ colon ++ y) v ->
     u_ID v = u_ID u /\ u_SS v = y /\ RComponent v = [] /\ QComponent v = [] /\ FComponent v = []).
Proof. exact cut8141. Qed.
Print Assumptions C59_cut_8141.

(* texts that meet the hypotheses, with additions that are and are not accepted *)
Example C59_example :
  parsed PRFC2141Only (B "urn:u:a") (demo PRFC2141Only (B "urn:u:a")) /\
  (exists v, parsed PRFC2141Only (B "urn:u:a" ++ B "%3A:b") v /\ u_SS v = B "a%3A:b" /\ u_norm v = B "a%3a:b") /\
  parsed PRFC7643Only (B "urn:ietf:params:scim:api:m") (demo PRFC7643Only (B "urn:ietf:params:scim:api:m")) /\
  (exists v sv, parsed PRFC7643Only (B "urn:ietf:params:scim:api:m" ++ B "n:o") v /\ URN_SCIM v = Some sv /\ s_Name sv = B "mn" /\ s_Other sv = B "o").
Proof.
  split; [apply demo_parsed; vm_compute; reflexivity|].
  split; [exists (demo PRFC2141Only (B "urn:u:a" ++ B "%3A:b")); split; [apply demo_parsed; vm_compute; reflexivity|split; vm_compute; reflexivity]|].
  split; [apply demo_parsed; vm_compute; reflexivity|].
  eexists (demo PRFC7643Only (B "urn:ietf:params:scim:api:m" ++ B "n:o")), _. split; [apply demo_parsed; vm_compute; reflexivity|].
  split; [vm_compute; reflexivity|]. split; reflexivity.
Qed.
Example C59_example_8141 :
  map (fun t => option_map (fun u => (u_SS u, u_r u, u_q u, u_f u))
    (match machine_Parse (NewMachine [PRFC8141Only]) (B "urn:ab:c" ++ B t) with Ret (_, uo, _) => uo | _ => None end))
    ["d/e?+r"; "?+r?=q#f"; "#"; "?="; "?+r?=?"; "?=q?="; "?=q?=/"]%string =
  [Some (B "cd/e", B "r", [], []); Some (B "c", B "r", B "q", B "f"); Some (B "c", [], [], []); None;
   Some (B "c", B "r?=?", [], []); None; Some (B "c", [], B "q?=/", [])].
Proof. vm_compute. reflexivity. Qed.
(* texts of each shape the theorems ask for *)
Example C59_example_shapes : forall r q f, In (r, q, f)
   [(None, None, None); (Some (B "r"), None, None); (None, Some (B "q"), None); (Some (B "r"), Some (B "q"), None); (None, None, Some []); (Some (B "r"), Some (B "q"), Some (B "f"))] ->
  exists u, let s := B "urn:ab:c" ++ tail8141 r q f in parsed PRFC8141Only s u /\ urn8141 s (B "urn") (B "ab") (B "c") r q f.
Proof.
  intros r q f H.
  assert (K : forall s, match machine_Parse (NewMachine [PRFC8141Only]) s with Ret (_, Some _, None) => true | _ => false end = true ->
    exists u, parsed PRFC8141Only s u) by (intros s Hs; exists (demo PRFC8141Only s); apply demo_parsed, Hs).
  assert (G : exists u, parsed PRFC8141Only (B "urn:ab:c" ++ tail8141 r q f) u).
  { apply K. repeat (destruct H as [H|H]; [injection H as <- <- <-; vm_compute; reflexivity|]). destruct H. }
  destruct G as (u & Hu). exists u. cbn zeta. split; [exact Hu|].
  assert (N : nid8141 (B "ab") /\ nss8141 (B "c")).
  { destruct (PropsA.parts8141 _ _ (demo_parsed PRFC8141Only (B "urn:ab:c") ltac:(vm_compute; reflexivity))) as (p & r' & q' & f' & (_ & _ & H1 & H2 & _) & _).
    split; [exact H1|exact H2]. }
  split; [reflexivity|]. split; [reflexivity|]. split; [apply N|]. split; [apply N|].
  assert (C : forall c, frag_char c = true -> c <> "/"%byte -> c <> "?"%byte -> component [c]).
  { intros c H1 H2 H3. split; [apply esc_plain; [exact H1|apply esc_nil]|eauto]. }
  assert (L : forall c (x y : bytes) d, d <> c -> [c] = x ++ ["?"%byte; d] ++ y -> False).
  { intros c [|a [|b x]] y d Hd E; [injection E; discriminate|discriminate E|destruct x; discriminate E]. }
  assert (R : r_component (B "r")).
  { split; [apply C; [reflexivity|discriminate|discriminate]|]. split; intros x y E; exfalso; (eapply L; [|exact E]; discriminate). }
  assert (Q : q_component (B "q")).
  { split; [apply C; [reflexivity|discriminate|discriminate]|]. intros x y E; exfalso; (eapply L; [|exact E]; discriminate). }
  assert (F : fragment [] /\ fragment (B "f")) by (split; [apply esc_nil|apply esc_forall; reflexivity]).
  destruct F as [F1 F2].
  repeat (destruct H as [H|H]; [injection H as <- <- <-; cbn [opt_ok]; auto|]). destruct H.
Qed.
