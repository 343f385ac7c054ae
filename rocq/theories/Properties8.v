(* C45, C46: the two programs that post-process the output of ragel. *)
From Verif Require Import GoBase Spec Tools SpecTools PropsTools.
Local Open Scope list_scope.

(* ---- C45 ------------------------------------------------------------------------------------- *)
(* snake2camel ends, on every text, with the left-to-right reading of SpecTools.v *)
Theorem C45_result : forall s, snake2camel s = Ret (camel false s).
Proof. exact snake_spec. Qed.
Print Assumptions C45_result.

(* nothing is left to convert, and nothing is touched when there is nothing to convert *)
Theorem C45_fixed : forall s, snake2camel s = Ret s <-> ~ snake s.
Proof. exact snake_fixed. Qed.
Print Assumptions C45_fixed.
Theorem C45_done : forall s t, snake2camel s = Ret t -> ~ snake t /\ snake2camel t = Ret t.
Proof. intros s t H. split; [eapply snake_done, H|eapply snake_idem, H]. Qed.
Print Assumptions C45_done.

(* only underscores go and only the case of letters changes *)
Theorem C45_letters : forall s t, snake2camel s = Ret t -> bare t = bare s.
Proof. intros s t. rewrite C45_result. intros E; injection E as <-. apply camel_bare. Qed.
Print Assumptions C45_letters.

(* two names of a program can become the same name *)
Theorem C45_names_apart_refuted : exists s s' t, s <> s' /\ snake2camel s = Ret t /\ snake2camel s' = Ret t.
Proof. exists (B "en_urn"), (B "enUrn"), (B "enUrn"). split; [discriminate|]. split; vm_compute; reflexivity. Qed.
Print Assumptions C45_names_apart_refuted.
(* the inside of a string literal is converted too *)
Theorem C45_literals_refuted : exists w w', w <> w' /\
  snake2camel (B "x := " ++ [""""%byte] ++ w ++ [""""%byte]) = Ret (B "x := " ++ [""""%byte] ++ w' ++ [""""%byte]).
Proof. exists (B "no_case"), (B "noCase"). split; [discriminate|vm_compute; reflexivity]. Qed.
Print Assumptions C45_literals_refuted.

Example C45_example :
  snake2camel (B "goto st_case_1 // a_1_b _x A_b ab__c") = Ret (B "goto stCase1 // a1B _x A_b ab__c") /\
  snake (B "goto st_case_1") /\ ~ snake (B "_x A_b ab__c").
Proof.
  split; [vm_compute; reflexivity|]. split.
  - exists (B "goto s"), "t"%byte, [], "c"%byte, (B "ase_1"). repeat split.
  - apply C45_fixed. vm_compute. reflexivity.
Qed.

(* ---- C46 ------------------------------------------------------------------------------------- *)
(* removecomments keeps exactly the lines that are neither directives nor blank lines before one *)
Theorem C46_result : forall s t, removeComments s = Ret t <-> cleaned (lines s) (lines t).
Proof.
  intros s t. split; [apply remove_lines|]. intros H. apply remove_spec. exists (lines t). split; [exact H|symmetry; apply lines_concat].
Qed.
Print Assumptions C46_result.
Theorem C46_ends : forall s, exists t, removeComments s = Ret t.
Proof. intros s. destruct (removeComments_ok s) as (ls & H & _). eauto. Qed.
Print Assumptions C46_ends.

Theorem C46_fixed : forall s, removeComments s = Ret s <-> Forall (fun l => ~ directive l) (lines s).
Proof. exact remove_fixed. Qed.
Print Assumptions C46_fixed.
Theorem C46_done : forall s t, removeComments s = Ret t ->
  Forall (fun l => ~ directive l) (lines t) /\ removeComments t = Ret t.
Proof. intros s t H. pose proof (remove_idem _ _ H) as G. split; [apply C46_fixed; exact G|exact G]. Qed.
Print Assumptions C46_done.

(* the lines with code on them stay, in order *)
Theorem C46_code : forall s t (code : bytes -> bool),
  (forall l, code l = true -> ~ blank l /\ ~ directive l) ->
  removeComments s = Ret t -> filter code (lines t) = filter code (lines s).
Proof. intros s t code Hc H. apply C46_result in H. eapply cleaned_rest; eassumption. Qed.
Print Assumptions C46_code.

(* not only directives go: blank lines before one go as well *)
Theorem C46_blank_kept_refuted : exists s t, removeComments s = Ret t /\
  exists l, blank l /\ In l (lines s) /\ ~ In l (lines t).
Proof.
  exists (txt ["a"; ""; "//line x.rl:1"; "b"; ""]%string), (txt ["a"; "b"; ""]%string). split; [vm_compute; reflexivity|].
  exists [newline]. split; [reflexivity|]. split; [right; left; reflexivity|].
  intros [H|[H|[]]]; discriminate H.
Qed.
Print Assumptions C46_blank_kept_refuted.
(* and so do ordinary comments that begin with the word: a //line directive has a blank or a
   tab after the word *)
Theorem C46_comments_kept_refuted : exists s t l x c, removeComments s = Ret t /\
  l = B "//line" ++ c :: x /\ lower c = true /\ In l (lines s) /\ ~ In l (lines t).
Proof.
  exists (txt ["a"; "//linear search"; "b"; ""]%string), (txt ["a"; "b"; ""]%string).
  exists (B "//linear search" ++ [newline]), (B "r search" ++ [newline]), "a"%byte.
  split; [vm_compute; reflexivity|]. split; [reflexivity|]. split; [reflexivity|]. split; [right; left; reflexivity|].
  intros [H|[H|[]]]; discriminate H.
Qed.
Print Assumptions C46_comments_kept_refuted.

Example C46_example :
  removeComments (txt ["package urn"; ""; "	//line machine.go.rl:1"; "// line"; "x // a"; "//line"]%string)
  = Ret (txt ["package urn"; "// line"; "x // a"; ""]%string) /\
  directive (B "	//line machine.go.rl:1") /\ ~ directive (B "// line").
Proof.
  split; [vm_compute; reflexivity|]. split.
  - exists (B "	"), (B " machine.go.rl:1"). split; reflexivity.
  - assert (H : removeComments (B "// line") = Ret (B "// line")) by (vm_compute; reflexivity).
    apply C46_fixed in H. inversion H; assumption.
Qed.
