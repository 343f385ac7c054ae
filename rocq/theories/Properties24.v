(* C66: machine.go.rl as text. *)
From Verif Require Import GoAst.
From Verif Require Import GoBase RlSrc RlParse RlText.
From Verif Require MachineSyntax MachineTables Machine RagelSem RagelRl SrcRender GoParse GoProg GoPackage Tools.
From Verif Require Import GoSem SrcSim Api PropsSrc PropsRl PropsRl2.
Import MachineTables Machine RagelRl SrcRender.
Local Open Scope string_scope.
Local Open Scope list_scope.

(* ---- C66 -------------------------------------------------------------------------------------- *)
(* machine.go.rl, byte by byte in RlSrc.v, is to the reader of ragel in RlParse.v these
   expressions under these names; and these are the lines to ragel outside the specification *)
Theorem C66_read : read_rl named inline rl_depth machine_go_rl = Some rl_read /\
  sp_insts rl_read = [("scim_only", scim_only); ("rfc8141_only", rfc8141_only); ("fail", fail); ("main", main)] /\
  (forall a, a <> a_goto_main -> named (act_name a) = Some a) /\
  directives machine_go_rl = map (fun s => B s ++ [x0a])
    ["%% write data noerror noprefix;"; "%% access m.;"; "%% variable p m.p;"; "%% variable pe m.pe;"; "%% variable eof m.eof;";
     "%% variable data m.data;"; "%% write exec;"].
Proof. exact (conj read (conj eq_refl (conj names written))). Qed.
Print Assumptions C66_read.

(* the code of every action in the text, with what ragel writes for fhold and fgoto, is the Go
   text of the statements in RagelRl.v, whatever numbers the two machines get that are jumped
   to; these are the statements found for the text when the machine is built *)
Theorem C66_actions : forall a main fail, exists l,
  code_text rl_read a = Some l /\ flat_map (expand (entries main fail)) l = map text_of (body main fail a) /\
  t_code rl_read main fail a = Some (body main fail a).
Proof. exact text_body. Qed.
Print Assumptions C66_actions.

(* what the model of machine.go answers, the machine built from the text answers *)
Theorem C66_parse : forall sp, read_rl named inline rl_depth machine_go_rl = Some sp ->
  forall m s x m' u e, In (m_startParsingAt m, x) entry_name -> machine_Parse m s = Ret (m', u, e) ->
  t_Parse sp x (m_parsingMode m) s = Ret (m_data m', u, e).
Proof. exact parse_read. Qed.
Print Assumptions C66_parse.

(* text to text: the Parse written in machine.go, run by the interpreter of Go on any heap, and
   the machine that machine.go.rl describes, on the same bytes *)
Theorem C66_texts : forall sp, read_rl named inline rl_depth machine_go_rl = Some sp ->
  forall uni newer n d h lm dv0 dv m input x, reachable m ->
  In (m_startParsingAt m, x) entry_name ->
  package_vars h -> 2 <= lm -> ~ In 0 (arr dv) -> ~ In 1 (arr dv) ->
  get h lm = Some (Cell (mval dv0 m)) -> data_at h dv input ->
  4 * List.length input + 16 <= n -> 2 <= d ->
  exists w u e h' r,
    t_Parse sp x (m_parsingMode m) input = Ret (w, u, e) /\
    GoPackage.run uni newer n d "machine.Parse" [VPtr lm; dv] h = GRet (h', VTuple [r; verr e]) /\
    data_at h' dv w /\ kept h h' [lm] /\ result h h' r u.
Proof. exact texts_read. Qed.
Print Assumptions C66_texts.

(* the Go text around the machine, its names changed by snake2camel, has the declarations of
   machine.go; only ragel's own (constants, tables, the block in Parse) are missing *)
Theorem C66_go : exists t, Tools.snake2camel (go_part machine_go_rl) = Ret t /\
  GoParse.parse_file GoProg.depth t = Some ("urn", hand GoProg.machine_decls).
Proof. exact go_same. Qed.
Print Assumptions C66_go.

(* a small text, read: names, classes, precedence, embeddings; and texts that are refused *)
Example C66_ex_read :
  let rd s := match read_rl named inline 300 (B "%%{" ++ [x0a] ++ B s ++ [x0a] ++ B "}%%" ++ [x0a]) with
              | Some sp => Some (map fst (sp_insts sp), map (fun p => RagelSem.classes (snd p)) (sp_insts sp)) | None => None end in
  let sizes o := match o with Some (n, l) => Some (n, map (map (fun p => List.length (List.filter p RagelSem.all_bytes))) l) | None => None end in
  sizes (rd "x = [a-c\-\n] | 'uv' >mark; main := (x - [a-b])+ $err(err_nid);") = Some (["main"], [[5; 1; 1; 2]]) /\
  rd "main := y;" = None /\ rd "main := 'a' >nothing;" = None /\ rd "main := 'a' :> 'b';" = None /\ rd "main := 'a'" = None /\
  rd "main := 'a' $mark;" = None.
Proof. vm_compute. repeat split. Qed.
Example C66_ex_parts :
  List.length (sp_actions rl_read) = 34 /\ List.length (sp_defs rl_read) = 28 /\
  map fst (sp_insts rl_read) = ["scim_only"; "rfc8141_only"; "fail"; "main"] /\
  List.length (hand GoProg.machine_decls) = 24.
Proof. vm_compute. repeat split. Qed.
Example C66_ex_parse : exists w u, t_Parse rl_read "rfc8141_only" 3%Z (B "urn:ab:c?=q#f") = Ret (w, Some u, None) /\
  u_ID u = B "ab" /\ u_q u = B "q" /\ u_f u = B "f".
Proof.
  assert (exists m' u, machine_Parse (NewMachine [3%Z]) (B "urn:ab:c?=q#f") = Ret (m', Some u, None) /\
    u_ID u = B "ab" /\ u_q u = B "q" /\ u_f u = B "f") as (m' & u & P & H).
  { eexists _, _. split; [vm_compute; reflexivity|]. repeat split; vm_compute; reflexivity. }
  exists (m_data m'), u. split; [|exact H].
  apply (C66_parse rl_read read (NewMachine [3%Z]) _ "rfc8141_only" m' (Some u) None); [vm_compute; tauto|exact P].
Qed.
