(* The package as a program: the declarations of its files, loaded. *)
From Verif Require Import GoBase Errors Urn Json GoAst GoProg GoSem.
From Verif Require Machine.
Import ListNotations.
Local Open Scope string_scope.
Local Open Scope list_scope.

(* scim/schema/type.go is package scimschema, all other files are package urn *)
Definition loading : gres (prog * heap) :=
  let! (P, h) := load "scimschema." type_decls (mkProg [] [] []) [] in
  load "" (kind_decls ++ mode_decls ++ scim_decls ++ urn_decls ++ urn8141_decls ++ options_decls ++ machine_decls) P h.
Definition loaded : prog * heap := Eval vm_compute in match loading with GRet x => x | _ => (mkProg [] [] [], []) end.
Lemma loading_loaded : loading = GRet loaded.
Proof. vm_compute. reflexivity. Qed.
(* the program, and the package variables that are slices *)
Definition package : prog := Eval vm_compute in fst loaded.
Definition package_heap : heap := Eval vm_compute in snd loaded.
Lemma package_loaded : loading = GRet (package, package_heap).
Proof. vm_compute. reflexivity. Qed.

(* ---- functions of other packages ------------------------------------------------------- *)
(* fmt.Sprintf with %s and strings only *)
Fixpoint sprintf (f : bytes) (args : list val) : option bytes :=
  match f with
  | "%"%byte :: "s"%byte :: f =>
      match args with
      | VStr s :: args => match sprintf f args with Some r => Some (s ++ r) | None => None end
      | _ => None
      end
  | "%"%byte :: _ => None
  | b :: f => match sprintf f args with Some r => Some (b :: r) | None => None end
  | [] => match args with [] => Some [] | _ => None end
  end.
(* an error of encoding/json; its text is not modelled *)
Definition json_error : val := VErr (B "json") [].

(* what is in a []byte *)
Definition slice_bytes (h : heap) (v : val) : option bytes :=
  match v with
  | VNil _ => Some []
  | VSlice l off n => match window h l off n with Some (_, vs) => as_bytes vs | None => None end
  | _ => None
  end.

(* fmt.Errorf keeps its format and arguments (Errors.v renders them); strings.ToLower is
   Urn.v's, json.Marshal and json.Unmarshal are Json.v's *)
Definition ext (uni : bytes -> bytes) (newer : bool) (f : string) (args : list val) (h : heap) : gres (heap * val) :=
  if String.eqb f "fmt.Errorf" then
    match args with VStr f :: args => GRet (h, VErr f args) | _ => GStuck end
  else if String.eqb f "fmt.Sprintf" then
    match args with
    | VStr f :: args => match sprintf f args with Some s => GRet (h, VStr s) | None => GStuck end
    | _ => GStuck
    end
  else if String.eqb f "strings.ToLower" then
    match args with [VStr s] => GRet (h, VStr (ToLower uni s)) | _ => GStuck end
  else if String.eqb f "json.Marshal" then
    match args with
    | [VStr s] =>
        let b := json_Marshal newer s in
        GRet (h ++ [Arr "byte" (map VByte b)], VTuple [VSlice (List.length h) 0 (List.length b); VNil ""])
    | _ => GStuck
    end
  else if String.eqb f "json.Unmarshal" then
    match args with
    | [v; VPtr c] =>
        match slice_bytes h v, get h c with
        | Some b, Some (Cell (VStr _)) =>
            match json_Unmarshal b with
            | Some s => GRet (set h c (Cell (VStr s)), VNil "")
            | None => GRet (h, json_error)
            end
        | _, _ => GStuck
        end
    | _ => GStuck
    end
  else GStuck.

(* what calling a function of the package does *)
Definition run (uni : bytes -> bytes) (newer : bool) (n d : nat) (f : string) (args : list val) (h : heap) : gres (heap * val) :=
  call package (ext uni newer) n d (CKey f) args false h.
