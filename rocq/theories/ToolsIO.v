(* Model of the parts of tools/removecomments/removecomments.go and
   tools/snake2camel/snake2camel.go that touch the operating system: the file functions,
   exitWithError and main; and of the recipe that runs the two programs (makefile:32-36). *)
From Verif Require Import GoBase Tools.
Local Open Scope list_scope.

(* ---- the operating system ------------------------------------------------------------------- *)
(* The files by path.  Two different paths are two different files (no links), and a path
   that is not there, or not a regular file, has None. *)
Definition files := bytes -> option bytes.
Definition path_eqb (p q : bytes) : bool := if list_eq_dec Byte.byte_eq_dec p q then true else false.
Definition set_file (f : files) (p : bytes) (c : bytes) : files := fun q => if path_eqb q p then Some c else f q.

(* What the system answers to one write of a file: done; refused, before the file is
   touched; or an error after the file was truncated and so many bytes were written. *)
Inductive wanswer := WDone | WRefused (msg : bytes) | WBroke (n : nat) (msg : bytes).
(* One run of a program: its arguments, the answer to the read (None: read, if the file is
   there), the message for a file that is not there, and the answer to the write.
   The answers are arbitrary: the theorems are about all of them. *)
Record run_env := mkEnv { os_Args : list bytes; on_read : option bytes; no_file : bytes; on_write : wanswer }.

Record world := mkWorld { w_files : files; w_stderr : bytes }.

(* A computation that can end the process (os.Exit), as a function of the world.
   OCrash: a panic or a loop that does not end. *)
Inductive outcome (A : Type) := ODone (a : A) (w : world) | OExit (code : N) (w : world) | OCrash.
Arguments ODone {A}. Arguments OExit {A}. Arguments OCrash {A}.
Definition io (A : Type) := world -> outcome A.
Definition ret {A} (a : A) : io A := fun w => ODone a w.
Definition bind {A C} (x : io A) (k : A -> io C) : io C := fun w =>
  match x w with ODone a w' => k a w' | OExit n w' => OExit n w' | OCrash => OCrash end.
Definition lift {A} (r : res A) : io A := fun w => match r with Ret a => ODone a w | _ => OCrash end.

(* os.ReadFile: the content, or an error *)
Definition ReadFile (e : run_env) (path : bytes) : io (bytes * option bytes) := fun w =>
  match on_read e with
  | Some msg => ODone ([], Some msg) w
  | None => match w_files w path with
            | Some c => ODone (c, None) w
            | None => ODone ([], Some (no_file e)) w
            end
  end.
(* os.WriteFile(path, data, 0): opens with O_TRUNC, writes, closes.  The permission 0 is for
   a file that it creates; permissions are not modelled. *)
Definition WriteFile (e : run_env) (path data : bytes) : io (option bytes) := fun w =>
  match on_write e with
  | WDone => ODone None (mkWorld (set_file (w_files w) path data) (w_stderr w))
  | WRefused msg => ODone (Some msg) w
  | WBroke n msg => ODone (Some msg) (mkWorld (set_file (w_files w) path (firstn n data)) (w_stderr w))
  end.
(* fmt.Fprintln(os.Stderr, s) *)
Definition Fprintln_stderr (s : bytes) : io unit := fun w => ODone tt (mkWorld (w_files w) (w_stderr w ++ s ++ [nl])).
Definition os_Exit (code : N) : io unit := fun w => OExit code w.

(* ---- the code --------------------------------------------------------------------------------- *)
(* removecomments.go:38-42, snake2camel.go:10-14 *)
Definition exitWithError (msg : bytes) : io unit :=
  let err := B "error: " ++ msg ++ [nl] in
  bind (Fprintln_stderr err) (fun _ => os_Exit 1).

(* removecomments.go:29-36 *)
Definition removeCommentsFromFile (e : run_env) (path : bytes) : io (option bytes) :=
  bind (ReadFile e path) (fun '(content, err) =>
    match err with
    | Some _ => ret err
    | None => bind (lift (removeComments content)) (fun updated => WriteFile e path updated)
    end).

(* snake2camel.go:51-59 *)
Definition snake2camelFile (e : run_env) (path : bytes) : io (option bytes) :=
  bind (ReadFile e path) (fun '(content, err) =>
    match err with
    | Some _ => ret err
    | None => bind (lift (snake2camel content)) (fun updated => WriteFile e path updated)
    end).

(* os.Args[1] *)
Definition arg1 (e : run_env) : io bytes := fun w =>
  match os_Args e with _ :: p :: _ => ODone p w | _ => OCrash end.

(* removecomments.go:44-52 *)
Definition removecomments_main (e : run_env) : io unit :=
  bind (if negb (Nat.eqb (List.length (os_Args e)) 2)
        then exitWithError (B "must be called with the file path as the only argument") else ret tt) (fun _ =>
  bind (arg1 e) (fun path =>
  bind (removeCommentsFromFile e path) (fun err =>
  match err with Some m => exitWithError m | None => ret tt end))).

(* snake2camel.go:61-69 *)
Definition snake2camel_main (e : run_env) : io unit :=
  bind (if negb (Nat.eqb (List.length (os_Args e)) 2)
        then exitWithError (B "must be called with the file path as the only argument") else ret tt) (fun _ =>
  bind (arg1 e) (fun path =>
  bind (snake2camelFile e path) (fun err =>
  match err with Some m => exitWithError m | None => ret tt end))).

(* the run time: a main that returns ends the process with status 0; a panic with status 2,
   which is not modelled (None) *)
Definition process (main : io unit) (w : world) : option (N * world) :=
  match main w with ODone _ w' => Some (0%N, w') | OExit n w' => Some (n, w') | OCrash => None end.

(* makefile:34-35: the two programs one after the other on the same file; make stops at the
   first that does not end with 0.  The lines before and after, ragel and go fmt, are not
   modelled. *)
Definition recipe (e1 e2 : run_env) (w : world) : option (N * world) :=
  match process (removecomments_main e1) w with
  | Some (0%N, w1) => process (snake2camel_main e2) w1
  | r => r
  end.
