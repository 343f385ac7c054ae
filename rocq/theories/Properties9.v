(* C47: several Parse calls on one machine. *)
From Verif Require Import GoBase MachineSyntax MachineTables Machine Urn Api Conc Shared PropsShared.
Local Open Scope Z_scope.

(* Calls on one machine that never overlap (whatever their number, inputs and order, and
   whoever makes them) return what each returns alone, and none panics. *)
Theorem C47_serial : forall m inputs schedule, reachable m -> one_at_a_time schedule (sstart m inputs) ->
  exists c, srun schedule (sstart m inputs) = Ret c /\
    forall i s r, nth_error inputs i = Some s -> gave c i r -> machine_Parse m s = Ret r.
Proof. exact serial_ok. Qed.
Print Assumptions C47_serial.

(* and each of them returns if it is given enough steps *)
Theorem C47_finish : forall m inputs, reachable m -> exists K : nat, forall schedule c,
  one_at_a_time schedule (sstart m inputs) -> srun schedule (sstart m inputs) = Ret c ->
  forall i, (i < List.length inputs)%nat -> (K <= count_occ Nat.eq_dec schedule i)%nat -> exists r, gave c i r.
Proof. exact serial_finish. Qed.
Print Assumptions C47_finish.

(* a schedule that qualifies: call 1 entirely before call 0 *)
Example C47_example : let m := NewMachine [] in let inputs := [B "urn:a:b"; B "urn:xyz:%Aa"] in
  exists c u0 m0 u1 m1, srun (repeat 1 50 ++ repeat 0 50)%nat (sstart m inputs) = Ret c /\
    gave c 0 (m0, Some u0, None) /\ gave c 1 (m1, Some u1, None) /\
    URN_String u0 = B "urn:a:b" /\ URN_String u1 = B "urn:xyz:%Aa" /\ u_norm u1 = B "%aa" /\
    one_at_a_time (repeat 1 50 ++ repeat 0 50)%nat (sstart m inputs).
Proof.
  cbv zeta. do 5 eexists. split; [vm_compute; reflexivity|].
  split; [reflexivity|]. split; [reflexivity|]. split; [reflexivity|]. split; [reflexivity|]. split; [reflexivity|].
  assert (H : forall k, (k <= 100)%nat -> match srun (firstn k (repeat 1 50 ++ repeat 0 50)%nat) (sstart (NewMachine []) [B "urn:a:b"; B "urn:xyz:%Aa"]) with
    | Ret c => List.length (users c) = 2%nat /\ match users c with [SRun _ _; SRun _ _] => False | _ => True end | _ => False end).
  { assert (K : forallb (fun k => match srun (firstn k (repeat 1 50 ++ repeat 0 50)%nat) (sstart (NewMachine []) [B "urn:a:b"; B "urn:xyz:%Aa"]) with
      | Ret c => match users c with [SRun _ _; SRun _ _] => false | [_; _] => true | _ => false end | _ => false end) (seq 0 101) = true) by (vm_compute; reflexivity).
    intros k Hk. rewrite forallb_forall in K. specialize (K k). rewrite in_seq in K. specialize (K ltac:(Lia.lia)).
    destruct (srun _ _) as [c| |]; try discriminate K. destruct (users c) as [|a [|b [|? ?]]]; try discriminate K; destruct a; try discriminate K;
      destruct b; try discriminate K; split; try reflexivity; exact I. }
  intros k c E i j Hi Hj.
  assert (Hc : List.length (users c) = 2%nat /\ match users c with [SRun _ _; SRun _ _] => False | _ => True end).
  { destruct (Nat.leb_spec k 100) as [L|L].
    - specialize (H k L). rewrite E in H. exact H.
    - specialize (H 100%nat ltac:(Lia.lia)).
      rewrite firstn_all2 in E by (rewrite app_length, !repeat_length; Lia.lia).
      rewrite firstn_all2 in H by (rewrite app_length, !repeat_length; Lia.lia). rewrite E in H. exact H. }
  destruct Hi as (l1 & u1 & Hi). destruct Hj as (l2 & u2 & Hj). destruct c as [mm us]. cbn [users] in *.
  destruct Hc as [Hl Hc]. destruct us as [|a [|b [|? ?]]]; try discriminate Hl.
  destruct i as [|[|i]], j as [|[|j]]; cbn in Hi, Hj; try reflexivity;
    try (destruct i; discriminate); try (destruct j; discriminate);
    injection Hi as ->; injection Hj as ->; contradiction.
Qed.

(* Overlapping calls: for every two texts and each documented mode there is an order of
   steps in which the first call returns neither a URN nor an error. *)
Theorem C47_overlap_refuted : forall m s s', reachable m -> three (m_parsingMode m) ->
  exists schedule c m1, srun schedule (sstart m [s; s']) = Ret c /\ gave c 0 (m1, None, None).
Proof. exact lost. Qed.
Print Assumptions C47_overlap_refuted.

(* For every text that is not empty there is a second text and an order of steps in which
   the first call panics. *)
Theorem C47_no_panic_refuted : forall m s, reachable m -> three (m_parsingMode m) -> s <> [] ->
  exists schedule s', srun schedule (sstart m [s; s']) = Panic.
Proof. intros m s H T N. exists [0; 0; 1; 0]%nat, []. apply shared_panics; assumption. Qed.
Print Assumptions C47_no_panic_refuted.

(* A call can also return, without an error, the other call's URN, the empty URN, or one
   made of pieces of both texts. *)
Theorem C47_own_text_refuted : forall out, List.In out [B "urn:xyz:w"; []; B "x:z:w"] ->
  exists schedule c m1 u, srun schedule (sstart (NewMachine []) [B "urn:a:b"; B "urn:xyz:w"]) = Ret c /\
    gave c 0 (m1, Some u, None) /\ URN_String u = out.
Proof.
  intros out [<-|[<-|[<-|[]]]].
  - exists (repeat 0 1 ++ repeat 1 1 ++ repeat 0 80)%nat. do 3 eexists. split; [vm_compute; reflexivity|]. split; reflexivity.
  - exists (repeat 0 1 ++ repeat 1 44 ++ repeat 0 80)%nat. do 3 eexists. split; [vm_compute; reflexivity|]. split; reflexivity.
  - exists (repeat 0 13 ++ repeat 1 20 ++ repeat 0 80)%nat. do 3 eexists. split; [vm_compute; reflexivity|]. split; reflexivity.
Qed.
Print Assumptions C47_own_text_refuted.
