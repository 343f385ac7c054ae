(* C56: the two programs as programs, with files, arguments and exit status. *)
From Verif Require Import GoBase Spec Tools SpecTools PropsTools ToolsIO PropsToolsIO.
Local Open Scope list_scope.

(* ---- C56 ------------------------------------------------------------------------------------- *)
(* Whatever the system answers, a run ends with status 0 or 1, and with 0 exactly when there
   is one argument, it names a file that can be read, and the write is done. *)
Theorem C56_status : forall t e w, exists n w',
  process (main_of t e) w = Some (n, w') /\ (n = 0 \/ n = 1)%N /\
  (n = 0%N <-> exists prog path c,
     os_Args e = [prog; path] /\ on_read e = None /\ w_files w path = Some c /\ on_write e = WDone).
Proof. exact tool_status. Qed.
Print Assumptions C56_status.

(* status 0: the named file holds its old text transformed, every other file its old text,
   and nothing was printed *)
Theorem C56_success : forall t e w w', process (main_of t e) w = Some (0%N, w') ->
  exists prog path c c', os_Args e = [prog; path] /\ w_files w path = Some c /\ w_files w' path = Some c' /\
    match t with Removecomments => cleaned (lines c) (lines c') | Snake2camel => c' = camel false c end /\
    (forall q, q <> path -> w_files w' q = w_files w q) /\ w_stderr w' = w_stderr w.
Proof. exact tool_success. Qed.
Print Assumptions C56_success.

(* any other status: one message, the reason, on standard error; no file changes, except
   that a write that breaks leaves the first bytes of the new text in the named file *)
Theorem C56_failure : forall t e w n w', process (main_of t e) w = Some (n, w') -> n <> 0%N ->
  exists m, w_stderr w' = w_stderr w ++ B "error: " ++ m ++ [newline; newline] /\
  ((w_files w' = w_files w /\
     ((List.length (os_Args e) <> 2%nat /\ m = B "must be called with the file path as the only argument") \/
      (on_read e = Some m) \/
      (exists prog path, os_Args e = [prog; path] /\ w_files w path = None /\ m = no_file e) \/
      (on_write e = WRefused m))) \/
   (exists prog path c c' k, os_Args e = [prog; path] /\ w_files w path = Some c /\
      match t with Removecomments => cleaned (lines c) (lines c') | Snake2camel => c' = camel false c end /\
      on_write e = WBroke k m /\
      w_files w' path = Some (firstn k c') /\ (forall q, q <> path -> w_files w' q = w_files w q))).
Proof. exact tool_failure. Qed.
Print Assumptions C56_failure.

(* so a run that fails can lose the text of the file: the programs write over it in place *)
Theorem C56_text_kept_on_failure_refuted : forall t, exists e w w' path c,
  process (main_of t e) w = Some (1%N, w') /\ w_files w path = Some c /\ c <> [] /\ w_files w' path = Some [].
Proof.
  intros t. destruct (tool_runs t) as (T & _ & H).
  exists (mkEnv [B "tool"; B "machine.go"] None [] (WBroke 0 (B "write machine.go: no space left on device"))).
  exists (mkWorld (set_file (fun _ => None) (B "machine.go") (B "package urn")) []).
  eexists. exists (B "machine.go"), (B "package urn"). split.
  - rewrite H. unfold closed_form. cbn [os_Args on_read on_write w_files]. rewrite set_same. reflexivity.
  - cbn [w_files]. rewrite !set_same. repeat split. discriminate.
Qed.
Print Assumptions C56_text_kept_on_failure_refuted.

(* the order in which the makefile runs the two does not matter *)
Theorem C56_order : forall s a b, removeComments s = Ret a -> snake2camel a = Ret b ->
  exists a', snake2camel s = Ret a' /\ removeComments a' = Ret b.
Proof. exact tools_commute. Qed.
Print Assumptions C56_order.

(* the recipe: the file holds the text with both transformations, and both find nothing more
   to do in it *)
Theorem C56_recipe : forall e1 e2 w w' p1 p2 path,
  os_Args e1 = [p1; path] -> os_Args e2 = [p2; path] -> recipe e1 e2 w = Some (0%N, w') ->
  exists c a c', w_files w path = Some c /\ w_files w' path = Some c' /\
    cleaned (lines c) (lines a) /\ c' = camel false a /\
    Forall (fun l => ~ directive l) (lines c') /\ ~ snake c' /\
    (forall q, q <> path -> w_files w' q = w_files w q) /\ w_stderr w' = w_stderr w.
Proof.
  intros e1 e2 w w' p1 p2 path A1 A2 H.
  destruct (recipe_ok e1 e2 w w' p1 p2 path A1 A2 H) as (c & a & c' & B1 & B2 & B3 & B4 & B5 & B6).
  exists c, a, c'. pose proof (cleaned_remove _ _ B3) as R. pose proof (snake_spec a) as S1. rewrite <- B4 in S1.
  destruct (recipe_stable _ _ _ R S1) as [R1 R2].
  repeat (split; [assumption|]). split; [apply remove_fixed, R1|]. split; [apply snake_fixed, R2|]. split; assumption.
Qed.
Print Assumptions C56_recipe.

Definition a_world : world :=
  mkWorld (fun p => if path_eqb p (B "machine.go") then Some (txt ["//line machine.go.rl:1"; "goto st_case_1"; ""]%string)
                    else if path_eqb p (B "urn.go") then Some (B "keep_me") else None) [].
Definition a_run : run_env := mkEnv [B "./tool"; B "machine.go"] None (B "open: no such file") WDone.
Example C56_example :
  match recipe a_run a_run a_world with
  | Some (n, w) => n = 0%N /\ w_files w (B "machine.go") = Some (txt ["goto stCase1"; ""]%string) /\
                   w_files w (B "urn.go") = Some (B "keep_me") /\ w_files w (B "x") = None /\ w_stderr w = []
  | None => False
  end /\
  match process (main_of Snake2camel (mkEnv [B "./tool"; B "x"] None (B "open x: no such file or directory") WDone)) a_world with
  | Some (n, w) => n = 1%N /\ w_files w (B "x") = None /\
                   w_stderr w = txt ["error: open x: no such file or directory"; ""; ""]%string
  | None => False
  end /\
  match process (main_of Removecomments (mkEnv [B "./tool"] None [] WDone)) a_world with
  | Some (n, w) => n = 1%N /\
                   w_stderr w = txt ["error: must be called with the file path as the only argument"; ""; ""]%string
  | None => False
  end.
Proof. vm_compute. repeat split; reflexivity. Qed.
