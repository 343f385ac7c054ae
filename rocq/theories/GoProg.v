(* The parsed source files.  The constants on the left are computed from the text. *)
From Coq Require Import List String ZArith.
From Verif Require Import GoBase GoAst GoLex GoParse GoSrc.

Definition depth : nat := (100 * 100)%nat.
Definition parsed_file (s : bytes) : string * list decl :=
  match parse_file depth s with Some p => p | None => (EmptyString, nil) end.

Definition kind_decls := Eval vm_compute in snd (parsed_file kind_go).
Definition mode_decls := Eval vm_compute in snd (parsed_file parsing_mode_go).
Definition type_decls := Eval vm_compute in snd (parsed_file type_go).
Definition scim_decls := Eval vm_compute in snd (parsed_file scim_go).
Definition urn_decls := Eval vm_compute in snd (parsed_file urn_go).
Definition urn8141_decls := Eval vm_compute in snd (parsed_file urn8141_go).
Definition options_decls := Eval vm_compute in snd (parsed_file options_go).
Definition machine_decls := Eval vm_compute in snd (parsed_file machine_go).

Local Open Scope string_scope.
Lemma kind_text : parse_file depth kind_go = Some ("urn", kind_decls). Proof. vm_compute. reflexivity. Qed.
Lemma mode_text : parse_file depth parsing_mode_go = Some ("urn", mode_decls). Proof. vm_compute. reflexivity. Qed.
Lemma type_text : parse_file depth type_go = Some ("scimschema", type_decls). Proof. vm_compute. reflexivity. Qed.
Lemma scim_text : parse_file depth scim_go = Some ("urn", scim_decls). Proof. vm_compute. reflexivity. Qed.
Lemma urn_text : parse_file depth urn_go = Some ("urn", urn_decls). Proof. vm_compute. reflexivity. Qed.
Lemma urn8141_text : parse_file depth urn8141_go = Some ("urn", urn8141_decls). Proof. vm_compute. reflexivity. Qed.
Lemma options_text : parse_file depth options_go = Some ("urn", options_decls). Proof. vm_compute. reflexivity. Qed.
Lemma machine_text : parse_file depth machine_go = Some ("urn", machine_decls).
Proof. vm_compute. reflexivity. Qed.
