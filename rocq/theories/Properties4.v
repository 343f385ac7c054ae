(* Property theorems about calls that run at the same time (C35). *)
From Coq Require Import Lia.
From Verif Require Import GoBase MachineSyntax MachineTables Machine Errors Urn Spec Api Conc PropsConc PropsConc2.
Local Open Scope Z_scope.

(* ================================================================ C35 *)
(* No letter of an escape in front of the first '?' or '#' is upper case: for any number
   of calls, in any modes, and any schedule, no call panics, the slice always holds the
   caller's bytes, no call is ever about to write to it (so there is no data race), and a
   call that has returned has returned what it returns when it runs alone. *)
Theorem C35_safe : forall s ms schedule, Forall reachable ms -> plain_escapes s ->
  exists c, crun schedule (cstart s ms) = Ret c /\ buf c = s /\ (forall i, ~ about_to_write c i) /\
    (forall i m r, nth_error ms i = Some m -> returned c i r -> machine_Parse m s = Ret r).
Proof. exact conc_safe. Qed.
Print Assumptions C35_safe.

(* and a call that is given enough steps returns *)
Theorem C35_finish : forall s ms, Forall reachable ms -> plain_escapes s ->
  exists K : nat, forall schedule c, crun schedule (cstart s ms) = Ret c ->
    forall i, (i < List.length ms)%nat -> (K <= count_occ Nat.eq_dec schedule i)%nat -> exists r, returned c i r.
Proof. exact conc_finish. Qed.
Print Assumptions C35_finish.

(* Without a condition on the text: calls on one slice that do not overlap return what each
   returns alone, and between the calls the slice holds the caller's bytes. *)
Theorem C35_serial : forall s ms schedule, Forall reachable ms -> one_by_one schedule (cstart s ms) ->
  exists c, crun schedule (cstart s ms) = Ret c /\ ((forall i, ~ under_way c i) -> buf c = s) /\
    (forall i m r, nth_error ms i = Some m -> returned c i r -> machine_Parse m s = Ret r).
Proof. exact conc_serial. Qed.
Print Assumptions C35_serial.

Theorem C35_serial_finish : forall s ms, Forall reachable ms -> exists K : nat, forall schedule c,
  one_by_one schedule (cstart s ms) -> crun schedule (cstart s ms) = Ret c ->
  forall i, (i < List.length ms)%nat -> (K <= count_occ Nat.eq_dec schedule i)%nat -> exists r, returned c i r.
Proof. exact conc_serial_finish. Qed.
Print Assumptions C35_serial_finish.

(* Two calls on an accepted text always return what one call returns exactly when the NSS
   has no upper-case escape. *)
Theorem C35_iff : forall m s m' u, reachable m -> three (m_parsingMode m) ->
  machine_Parse m s = Ret (m', Some u, None) ->
  (no_upper_escape (u_SS u) <->
   forall schedule c i r, crun schedule (cstart s [m; m]) = Ret c -> returned c i r -> r = (m', Some u, None)).
Proof. exact conc_iff. Qed.
Print Assumptions C35_iff.

(* For every accepted text with an upper-case escape in the NSS there is a schedule after
   which the second call has returned no URN, or one with another text. *)
Theorem C35_disturbed : forall m s m' u, reachable m -> three (m_parsingMode m) ->
  machine_Parse m s = Ret (m', Some u, None) -> u_norm u <> u_SS u ->
  exists schedule c r, crun schedule (cstart s [m; m]) = Ret c /\ returned c 1 r /\
    forall m2 u2 e2, r = (m2, Some u2, e2) ->
      (u_ID u2, u_SS u2, u_r u2, u_q u2, u_f u2) <> (u_ID u, u_SS u, u_r u, u_q u, u_f u).
Proof. exact conc_disturbed. Qed.
Print Assumptions C35_disturbed.

(* The claim itself is false: after these steps both calls have returned, the second one
   with an SS that is not in the input. *)
Definition esc_text : bytes := B "urn:a:%A0".
Theorem C35_refuted : exists s m schedule c r0 m1 u1,
  reachable m /\ crun schedule (cstart s [m; m]) = Ret c /\ returned c 0 r0 /\ machine_Parse m s = Ret r0 /\
  returned c 1 (m1, Some u1, None) /\ s = esc_text /\ u_SS u1 = B "%a0" /\ buf c = s.
Proof.
  exists esc_text, (NewMachine []), (repeat 0 63 ++ repeat 1 200 ++ repeat 0 60)%nat.
  destruct (crun (repeat 0 63 ++ repeat 1 200 ++ repeat 0 60)%nat (cstart esc_text [NewMachine []; NewMachine []])) as [c| |] eqn:E;
    [|vm_compute in E; discriminate E|vm_compute in E; discriminate E].
  vm_compute in E. injection E as E.
  exists c. do 3 eexists.
  split; [apply reach_new|]. split; [reflexivity|]. rewrite <- E.
  split; [eexists; split; reflexivity|]. split; [vm_compute; reflexivity|].
  split; [eexists; split; reflexivity|]. repeat split.
Qed.
Print Assumptions C35_refuted.

(* The two read-modify-writes can also overlap: both calls return, and the caller's slice
   is left holding other bytes. *)
Theorem C35_corrupt_refuted : exists s m schedule c r0 r1,
  reachable m /\ crun schedule (cstart s [m; m]) = Ret c /\ returned c 0 r0 /\ returned c 1 r1 /\
  s = esc_text /\ buf c = B "urn:a:%!0".
Proof.
  exists esc_text, (NewMachine []), (repeat 0 61 ++ repeat 1 61 ++ [0; 1; 0; 1] ++ repeat 0 60 ++ repeat 1 60)%nat.
  destruct (crun (repeat 0 61 ++ repeat 1 61 ++ [0; 1; 0; 1] ++ repeat 0 60 ++ repeat 1 60)%nat
              (cstart esc_text [NewMachine []; NewMachine []])) as [c| |] eqn:E;
    [|vm_compute in E; discriminate E|vm_compute in E; discriminate E].
  vm_compute in E. injection E as E.
  exists c. do 2 eexists.
  split; [apply reach_new|]. split; [reflexivity|]. rewrite <- E.
  split; [eexists; split; reflexivity|]. split; [eexists; split; reflexivity|]. split; reflexivity.
Qed.
Print Assumptions C35_corrupt_refuted.

(* texts that meet the hypothesis: lower-case escapes, no escapes, upper case only behind
   the '#'; and one that does not *)
Example C35_example :
  plain_escapes (B "URN:ab:c%0ad/X") /\ plain_escapes (B "urn:ab:c#%AB") /\ ~ plain_escapes esc_text /\
  no_upper_escape (u_SS (demo PRFC8141Only (B "urn:ab:c#%AB"))) /\
  u_norm (demo PRFC2141Only esc_text) <> u_SS (demo PRFC2141Only esc_text).
Proof.
  assert (P1 : parsed PRFC8141Only (B "URN:ab:c%0ad/X") (demo PRFC8141Only (B "URN:ab:c%0ad/X"))) by (apply demo_parsed; vm_compute; reflexivity).
  assert (P2 : parsed PRFC8141Only (B "urn:ab:c#%AB") (demo PRFC8141Only (B "urn:ab:c#%AB"))) by (apply demo_parsed; vm_compute; reflexivity).
  assert (P3 : parsed PRFC2141Only esc_text (demo PRFC2141Only esc_text)) by (apply demo_parsed; vm_compute; reflexivity).
  assert (T : three PRFC8141Only /\ three PRFC2141Only) by (unfold three; auto). destruct T as [T8 T2].
  assert (U2 : no_upper_escape (u_SS (demo PRFC8141Only (B "urn:ab:c#%AB")))).
  { intros [|[|i]] c Hc [(j & E & Hj)|(j & E & Hj)]; vm_compute in Hc; try discriminate Hc; discriminate E. }
  repeat split.
  - apply (parsed_plain _ _ _ T8 P1). intros i c Hc Ha.
    do 7 (destruct i as [|i]; [vm_compute in Hc; first [injection Hc as <-; first [reflexivity|exfalso; destruct Ha as [(j & E & Hj)|(j & E & Hj)]; try discriminate E; injection E as <-; vm_compute in Hj; discriminate Hj] | discriminate Hc]|]).
    vm_compute in Hc. destruct i; discriminate Hc.
  - apply (parsed_plain _ _ _ T8 P2). exact U2.
  - intros H. apply (parsed_plain _ _ _ T2 P3) in H.
    specialize (H 1%nat "A"%byte eq_refl (or_introl (ex_intro _ 0%nat (conj eq_refl eq_refl)))). discriminate H.
  - exact U2.
  - vm_compute. discriminate.
Qed.

(* one call after the other on a text with an upper-case escape *)
Definition serial_schedule : list nat := (repeat 1 100 ++ repeat 0 100)%nat.
Definition serial_start : conf := cstart (B "urn:ab:%A0") [NewMachine []; NewMachine [PRFC8141Only]].
Example C35_serial_example : one_by_one serial_schedule serial_start /\
  option_map (fun c => (buf c, map (fun t : thread => u_norm (snd (snd t))) (calls c)))
    (match crun serial_schedule serial_start with Ret c => Some c | _ => None end) = Some (B "urn:ab:%A0", [B "%a0"; B "%a0"]).
Proof.
  split; [|vm_compute; reflexivity].
  set (ok := fun k => match nth_error serial_schedule k, crun (firstn k serial_schedule) serial_start with
    | Some i, Ret c => forallb (fun j => Nat.eqb i j || match nth_error (calls c) j with
        | Some (At LEnter, _) | Some (At LOut, _) | None => true | _ => false end) [0; 1]%nat && Nat.eqb (List.length (calls c)) 2
    | _, _ => true end).
  assert (K : forallb ok (seq 0 200) = true) by (vm_compute; reflexivity).
  intros k c i j Hc Hi (pc & x & Hj & N1 & N2). rewrite forallb_forall in K.
  assert (Hk : (k < 200)%nat) by (change 200%nat with (List.length serial_schedule); apply nth_error_Some; congruence).
  specialize (K k ltac:(apply in_seq; lia)). unfold ok in K. rewrite Hc, Hi in K. apply andb_prop in K. destruct K as [K KL].
  apply Nat.eqb_eq in KL. rewrite forallb_forall in K. assert (Lj : (j < 2)%nat) by (rewrite <- KL; apply nth_error_Some; congruence).
  specialize (K j ltac:(destruct j as [|[|j]]; cbn; lia)). rewrite Hj in K.
  apply orb_true_iff in K. destruct K as [K|K]; [apply Nat.eqb_eq, K|]. destruct pc as [[]|]; try discriminate K; congruence.
Qed.
