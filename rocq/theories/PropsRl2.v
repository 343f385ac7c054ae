(* The Go part of machine.go.rl and machine.go. *)
From Verif Require Import GoAst.
From Verif Require Import GoBase RlSrc RlParse RlText GoProg Tools.
From Verif Require GoParse.
Local Open Scope string_scope.

Definition rl_go : bytes := Eval vm_compute in go_part machine_go_rl.
Definition ret_bytes (r : res bytes) : bytes := match r with Ret t => t | _ => nil end.
Definition rl_camel : bytes := Eval vm_compute in ret_bytes (snake2camel rl_go).
Lemma go_is : go_part machine_go_rl = rl_go. Proof. vm_compute. reflexivity. Qed.
Lemma camel : snake2camel rl_go = Ret rl_camel.
Proof. vm_cast_no_check (eq_refl (Ret rl_camel)). Qed.
Lemma go_decls : GoParse.parse_file GoProg.depth rl_camel = Some ("urn", hand machine_decls).
Proof. vm_compute. reflexivity. Qed.
Lemma go_same : exists t, snake2camel (go_part machine_go_rl) = Ret t /\
  GoParse.parse_file GoProg.depth t = Some ("urn", hand machine_decls).
Proof. exists rl_camel. rewrite go_is. split; [exact camel|exact go_decls]. Qed.
