(* The normal form is canonical: equal URNs have the same one, different URNs different ones. *)
From Coq Require Import Lia.
From Verif Require Import GoBase MachineSyntax MachineTables Machine Urn Spec Ref ParseThm Api PropsA PropsB.
Local Open Scope Z_scope.

Lemma colon_cut (a a' b b' : bytes) : ~ In ":"%byte a -> ~ In ":"%byte a' -> a ++ colon ++ b = a' ++ colon ++ b' -> a = a' /\ b = b'.
Proof.
  revert a'. induction a as [|c a IH]; intros [|d a'] Ha Ha' E; cbn [app colon] in E.
  - injection E as E. auto.
  - injection E as <- _. exfalso. apply Ha'. left; reflexivity.
  - injection E as -> _. exfalso. apply Ha. left; reflexivity.
  - injection E as <- E. destruct (IH a') as [-> ->]; [intros K; apply Ha; right; exact K|intros K; apply Ha'; right; exact K|exact E|]. auto.
Qed.
Lemma nid_no_colon w : forallb nid_char w = true -> ~ In ":"%byte w.
Proof. intros H K. rewrite forallb_forall in H. specialize (H _ K). discriminate H. Qed.
Lemma ID_no_colon mode s u : parsed mode s u -> mode = PRFC2141Only \/ mode = PRFC8141Only -> ~ In ":"%byte (lowers (u_ID u)).
Proof.
  intros H Hm. apply nid_no_colon. rewrite forallb_lowers. destruct Hm as [->| ->].
  - destruct (parts2141 _ _ H) as (p2 & (_ & _ & (_ & _ & K & _) & _) & _). exact K.
  - destruct (parts8141 _ _ H) as (p2 & r2 & q2 & f2 & (_ & _ & (_ & K & _) & _) & _). exact K.
Qed.

Theorem canonical uni mode1 mode2 s1 s2 u1 u2 : parsed mode1 s1 u1 -> parsed mode2 s2 u2 -> three mode1 -> three mode2 ->
  (mode1 = PRFC7643Only <-> mode2 = PRFC7643Only) ->
  (Equal uni u1 (Some u2) = true <-> URN_String (Normalize uni u1) = URN_String (Normalize uni u2)).
Proof.
  intros H1 H2 T1 T2 Hm. rewrite (norm_text uni mode1 s1 u1 H1 T1), (norm_text uni mode2 s2 u2 H2 T2), Equal_iff.
  destruct (parsed_ID uni _ _ _ H1 T1) as (-> & _). destruct (parsed_ID uni _ _ _ H2 T2) as (-> & _).
  destruct (parsed_SS _ _ _ H1 T1) as (_ & ->). destruct (parsed_SS _ _ _ H2 T2) as (_ & ->).
  split; [intros [-> ->]; reflexivity|]. intros E. apply app_inv_head in E. apply app_inv_head in E.
  destruct (Z.eq_dec mode1 PRFC7643Only) as [K|K].
  - pose proof (proj1 Hm K) as K'. subst mode1 mode2.
    destruct (partsscim _ _ H1) as (p & t & sc & _ & _ & _ & _ & Ei & _). destruct (partsscim _ _ H2) as (p' & t' & sc' & _ & _ & _ & _ & Ei' & _).
    rewrite Ei, Ei' in *. apply app_inv_head in E. apply app_inv_head in E. auto.
  - apply colon_cut; [| |exact E]; eapply ID_no_colon; eauto.
    + destruct T1 as [->|[->| ->]]; auto; contradiction K; reflexivity.
    + destruct T2 as [->|[->| ->]]; auto. contradiction K. apply Hm. reflexivity.
Qed.
