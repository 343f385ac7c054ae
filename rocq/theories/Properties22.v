(* C64: the text of the Go files, run, is the model. *)
From Verif Require Import GoAst.
From Verif Require Import GoBase MachineSyntax MachineTables Machine.
From Verif Require Import GoSrc GoProg.
From Verif Require GoParse GoPackage.
From Verif Require Import GoSem SrcRender SrcSim Api PropsSrc.
Import ListNotations.
Local Open Scope string_scope.
Local Open Scope list_scope.

(* the eight files of the package, byte by byte in GoSrc.v, are these declarations to the
   reader of Go in GoLex.v and GoParse.v; loaded, they are the program `package` and the
   package variables in package_heap *)
Theorem C64_files : GoParse.parse_file GoProg.depth type_go = Some ("scimschema", type_decls) /\
  GoParse.parse_file GoProg.depth kind_go = Some ("urn", kind_decls) /\
  GoParse.parse_file GoProg.depth parsing_mode_go = Some ("urn", mode_decls) /\
  GoParse.parse_file GoProg.depth scim_go = Some ("urn", scim_decls) /\
  GoParse.parse_file GoProg.depth urn_go = Some ("urn", urn_decls) /\
  GoParse.parse_file GoProg.depth urn8141_go = Some ("urn", urn8141_decls) /\
  GoParse.parse_file GoProg.depth options_go = Some ("urn", options_decls) /\
  GoParse.parse_file GoProg.depth machine_go = Some ("urn", machine_decls) /\
  GoPackage.loading = GRet (GoPackage.package, GoPackage.package_heap).
Proof. exact files. Qed.
Print Assumptions C64_files.

(* the program's Parse, called on a machine m the API can produce and any bytes, wherever
   they are in whatever heap: it returns (no panic, no missing case of the interpreter), and
   what it returns and leaves in the machine, the caller's bytes and the new URN is what
   machine_Parse of the model says.  All objects but the machine, the caller's array among
   them, are afterwards as they were. *)
Theorem C64_parse : forall uni newer n d h lm dv0 dv m input, reachable m ->
  package_vars h -> 2 <= lm -> ~ In 0 (arr dv) -> ~ In 1 (arr dv) ->
  get h lm = Some (Cell (mval dv0 m)) -> data_at h dv input ->
  4 * List.length input + 16 <= n -> 2 <= d ->
  exists m' u e h' r,
    machine_Parse m input = Ret (m', u, e) /\
    GoPackage.run uni newer n d "machine.Parse" [VPtr lm; dv] h = GRet (h', VTuple [r; verr e]) /\
    get h' lm = Some (Cell (mval dv m')) /\ data_at h' dv (m_data m') /\
    kept h h' [lm] /\ result h h' r u.
Proof. exact parse_text_call. Qed.
Print Assumptions C64_parse.

(* the text run on bytes in the middle of an array: a URN whose bytes are changed in place,
   one that is refused, a SCIM one *)
Example C64_example :
  let h mode s := GoPackage.package_heap ++ [Cell (mval (VNil "") (NewMachine mode)); Arr "byte" (VByte x58 :: map VByte s ++ [VByte x59])] in
  let n := List.length GoPackage.package_heap in
  let call mode s :=
    match GoPackage.run (fun s => s) false (4 * List.length s + 16) 2 "machine.Parse" [VPtr n; VSlice (S n) 1 (List.length s)] (h mode s) with
    | GRet (h', VTuple [VPtr l; e]) => Some (get h' l, e, get h' (S n))
    | GRet (h', VTuple [VNil _; e]) => Some (None, e, get h' (S n))
    | _ => None
    end in
  (reachable (NewMachine []) /\ package_vars (h [] (B "urn:a:b%aB")) /\ data_at (h [] (B "urn:a:b%aB")) (VSlice (S n) 1 10) (B "urn:a:b%aB") /\ n = 2) /\
  (match call [] (B "URN:A:b%aBc") with
   | Some (Some (Cell (VStruct _ fs)), VNil _, Some (Arr _ vs)) =>
       find "ID" fs = Some (VStr (B "A")) /\ find "SS" fs = Some (VStr (B "b%aBc")) /\ find "norm" fs = Some (VStr (B "b%abc")) /\
       vs = map VByte (B "XURN:A:b%aBcY")
   | _ => False
   end) /\
  call [] (B "urn:a:b%x") = Some (None, VErr (B (err_format ErrHex)) [VInt "" 9], Some (Arr "byte" (map VByte (B "Xurn:a:b%xY")))) /\
  (match call [PRFC7643Only] (B "urn:ietf:params:scim:api:a:b") with
   | Some (Some (Cell (VStruct _ fs)), VNil _, _) => find "kind" fs = Some (VInt "Kind" 2)
   | _ => False
   end).
Proof.
  cbv zeta. split; [|split; [|split]].
  - split; [apply reach_new|]. split; [eexists; reflexivity|]. split; [|reflexivity].
    right. exists 3, [VByte x58], [VByte x59]. split; reflexivity.
  - vm_compute. repeat split; reflexivity.
  - vm_compute. reflexivity.
  - vm_compute. reflexivity.
Qed.
