(* C67: the regular expressions of the two tools as text. *)
From Verif Require Import GoBase Tools SpecTools RuneTools RlParse ReParse ToolsSrc PropsRe.
Local Open Scope list_scope.

(* ---- C67 -------------------------------------------------------------------------------------- *)
(* snake2camel.go has one raw string; the expression it is read as makes the tool do to every
   text what the specification of C45 says *)
Theorem C67_snake2camel : exists t r, raws snake2camel_go = Some [t] /\ read_re t = Some r /\
  forall s, snake2camel_with r s = Ret (camel false s).
Proof. exact snake_source. Qed.
Print Assumptions C67_snake2camel.

(* the same for removecomments.go and C46: exactly the lines with a //line comment are taken out *)
Theorem C67_removecomments : exists t r, raws removecomments_go = Some [t] /\ read_re t = Some r /\
  forall s u, removeComments_with r s = Ret u <-> cleaned (lines s) (lines u).
Proof. exact comment_source. Qed.
Print Assumptions C67_removecomments.

(* the two texts; what is read and what is refused *)
Example C67_ex_text : raws snake2camel_go = Some [B "(.*)([a-z]+[0-9]*)_([a-zA-Z0-9])(.*)"] /\
  raws removecomments_go = Some [B "(?m)^\s*//line.*$\r?\n?"].
Proof. vm_compute. split; reflexivity. Qed.
Example C67_ex_read :
  let first e s := match read_re (B e) with
                   | Some r => match umatch r (mkPos None (B s) [] []) with y :: _ => Some (taken y, caps y) | [] => Some ([], []) end
                   | None => None end in
  first "a(b*)([c-d]+)e?"%string "abbcdcx"%string = Some (B "abbcdc", [(2, B "cdc"); (1, B "bb")]) /\
  first "((a)b)(.)"%string "abz"%string = Some (B "abz", [(3, B "z"); (1, B "ab"); (2, B "a")]) /\
  map (fun e => read_re (B e)) ["a|b"; "a*?"; "(a"; "a)"; "[^a]"; "[]"; "^a"; "(a)*"; "a{2}"; "\d"; "*"; ""; "[z-a]"]%string = repeat None 13.
Proof. vm_compute. repeat split. Qed.
(* another expression is another tool: without [0-9]* the 1 stops the change *)
Example C67_ex_other : exists r r', read_re (B "(.*)([a-z]+)_([a-zA-Z0-9])(.*)") = Some r /\ snake2camel_with r (B "st1_x") = Ret (B "st1_x") /\
  read_re (B "(.*)([a-z]+[0-9]*)_([a-zA-Z0-9])(.*)") = Some r' /\ snake2camel_with r' (B "st1_x") = Ret (B "st1X").
Proof.
  eexists _, _. split; [lazy -[u_dot rune_in]; reflexivity|]. split; [vm_compute; reflexivity|].
  split; [lazy -[u_dot rune_in]; reflexivity|vm_compute; reflexivity].
Qed.
