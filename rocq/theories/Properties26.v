(* C68: what the tools of the makefile do to the program. *)
From Verif Require Import GoBase Spec Tools SpecTools PropsTools ToolsIO PropsToolsIO RlSrc GoSrc.
From Verif Require GoLex RlParse.
From Verif Require Import PropsRename PropsRename2 PropsRename3 Properties14.
Import GoLex.
Local Open Scope list_scope.

(* ---- C68 -------------------------------------------------------------------------------------- *)
(* On a Go text the lexer knows, in whose string literals no underscore stands just before a
   letter or digit, snake2camel renames identifiers and does nothing else: the tokens (with
   the semicolons that ends of lines stand for) are the old ones, each identifier converted.
   (GoLex.v knows no general comments: it reads what is in them as tokens; the files have none.) *)
Theorem C68_renames : forall s t, snake2camel s = Ret t -> ~ In TBad (tokens s) ->
  (forall w x c y, In (TStr w) (tokens s) -> list_byte_of_string w = x ++ "_"%byte :: c :: y -> alnum c = false) ->
  tokens t = map (fun k => match k with TId n => TId (string_of_list_byte (camel false (list_byte_of_string n))) | k => k end) (tokens s).
Proof.
  intros s t H B L. rewrite snake_spec in H. injection H as <-. apply renames. split; [exact B|]. intros w I x c y E. exact (L w x c y I E).
Qed.
Print Assumptions C68_renames.

(* removecomments takes no token away and adds none *)
Theorem C68_comments : forall s t, removeComments s = Ret t -> ~ In TBad (tokens s) -> tokens t = tokens s.
Proof. exact comments_kept. Qed.
Print Assumptions C68_comments.

(* so what the makefile runs on a file, when it succeeds, renames its identifiers *)
Theorem C68_recipe : forall e1 e2 w w' p1 p2 path s,
  os_Args e1 = [p1; path] -> os_Args e2 = [p2; path] -> recipe e1 e2 w = Some (0%N, w') -> w_files w path = Some s ->
  ~ In TBad (tokens s) ->
  (forall w x c y, In (TStr w) (tokens s) -> list_byte_of_string w = x ++ "_"%byte :: c :: y -> alnum c = false) ->
  exists t, w_files w' path = Some t /\
    tokens t = map (fun k => match k with TId n => TId (string_of_list_byte (camel false (list_byte_of_string n))) | k => k end) (tokens s).
Proof.
  intros e1 e2 w w' p1 p2 path s A1 A2 R F B L. destruct (recipe_ok _ _ _ _ _ _ _ A1 A2 R) as (c & a & t & F1 & F2 & C & E & _).
  rewrite F in F1. injection F1 as <-. exists t. split; [exact F2|]. pose proof (comments_kept _ _ (cleaned_remove _ _ C) B) as T.
  rewrite <- T in B, L |- *. apply (C68_renames a t); [rewrite snake_spec, E; reflexivity|exact B|exact L].
Qed.
Print Assumptions C68_recipe.

(* The Go text in machine.go.rl (around the machine, and the code of its actions) is such a
   text.  No two of its names become one, and none becomes a name that the other files of the
   package use and it does not. *)
Theorem C68_names : forall s, s = RlParse.go_part machine_go_rl \/ In s (action_codes machine_go_rl) ->
  (~ In TBad (tokens s) /\
   forall w x c y, In (TStr w) (tokens s) -> list_byte_of_string w = x ++ "_"%byte :: c :: y -> alnum c = false) /\
  forall a, In (TId a) (tokens s) ->
  (forall s' b, s' = RlParse.go_part machine_go_rl \/ In s' (action_codes machine_go_rl) -> In (TId b) (tokens s') ->
     camel false (list_byte_of_string a) = camel false (list_byte_of_string b) -> a = b) /\
  (forall f b, In f [urn_go; urn8141_go; scim_go; options_go; kind_go; parsing_mode_go] -> In (TId b) (tokens f) ->
     camel false (list_byte_of_string a) = list_byte_of_string b -> a = b).
Proof.
  pose proof rl_name as N.
  intros s H. split.
  - destruct (rl_fine s H) as [F1 F2]. split; [exact F1|]. intros w x c y I E. exact (F2 w I x c y E).
  - intros a I. destruct (names_apart a (N s a H I)) as [A1 A2]. split.
    + intros s' b H' I' E. apply A1; [exact (N s' b H' I')|]. unfold camel_name, lit. rewrite E. reflexivity.
    + intros f b If I' E. apply A2; [exact (other_name b f If I')|]. unfold camel_name, lit. rewrite E. apply string_of_list_byte_of_string.
Qed.
Print Assumptions C68_names.

(* machine.go, token by token, is machine.go.rl (without the machine) with its names converted and
   two things put in: constants and tables where ragel is told to write the data, one block
   where it is told to write the code.  Imports, messages and types included. *)
Theorem C68_text : exists s1 s2 s3 data code,
  let renamed s := map (fun k => match k with TId n => TId (string_of_list_byte (camel false (list_byte_of_string n))) | k => k end)
                       (tokens (RlParse.go_part s)) in
  machine_go_rl = s1 ++ B "%% write data noerror noprefix;" ++ s2 ++ B "%% write exec;" ++ s3 /\
  tokens machine_go = renamed s1 ++ data ++ renamed s2 ++ (TOp "{" :: code ++ [TOp "}"; TOp ";"]) ++ renamed (s3 ++ [newline]) /\
  (forall k, In (TId k) data -> ~ In k ["func"; "type"; "import"; "package"; "goto"; "if"; "switch"; "for"]%string) /\
  balanced 0 data = true /\ balanced 0 (TOp "{" :: code ++ [TOp "}"; TOp ";"]) = true.
Proof.
  destruct (passes_spec _ _ machine_passes) as (s1 & s2 & s3 & x & y & E1 & E2 & D & B1 & B2). exists s1, s2, s3, x, y. cbv zeta.
  split; [exact E1|]. split; [exact E2|]. split; [|split; [exact B1|exact B2]]. intros k I J. unfold data_only in D. rewrite forallb_forall in D.
  specialize (D _ I). cbv beta iota in D. apply negb_true_iff in D. apply not_true_iff_false in D. apply D. unfold mem. apply existsb_exists.
  exists k. split; [exact J|apply String.eqb_refl].
Qed.
Print Assumptions C68_text.

(* machine.go as committed has been through both tools: running them on it again, wherever it
   lies, ends with status 0 and changes no file *)
Theorem C68_committed : forall e1 e2 w p1 p2 path,
  os_Args e1 = [p1; path] -> os_Args e2 = [p2; path] -> on_read e1 = None -> on_read e2 = None -> on_write e1 = WDone -> on_write e2 = WDone ->
  w_files w path = Some machine_go ->
  exists w', recipe e1 e2 w = Some (0%N, w') /\ (forall q, w_files w' q = w_files w q) /\ w_stderr w' = w_stderr w.
Proof.
  intros e1 e2 w p1 p2 path A1 A2 R1 R2 W1 W2 F.
  destruct (tool_status Removecomments e1 w) as (n1 & w1 & E1 & _ & S1).
  assert (n1 = 0%N) as -> by (apply S1; exists p1, path, machine_go; auto).
  destruct (tool_success _ _ _ _ E1) as (q1 & pa & c & a & B1 & B2 & B3 & B4 & B5 & B6).
  rewrite A1 in B1. injection B1 as <- <-. rewrite F in B2. injection B2 as <-.
  assert (a = machine_go) as ->.
  { pose proof (cleaned_remove _ _ B4) as K. rewrite (proj1 machine_done) in K. injection K as K. symmetry. exact K. }
  destruct (tool_status Snake2camel e2 w1) as (n2 & w2 & E2 & _ & S2).
  assert (n2 = 0%N) as -> by (apply S2; exists p2, path, machine_go; auto).
  destruct (tool_success _ _ _ _ E2) as (q2 & pb & c2 & a2 & D1 & D2 & D3 & D4 & D5 & D6).
  rewrite A2 in D1. injection D1 as <- <-. rewrite B3 in D2. injection D2 as <-. cbn [effect] in D4; rewrite machine_camel in D4. subst a2.
  exists w2. split; [unfold recipe; cbn [main_of] in E1, E2; rewrite E1; exact E2|]. split; [|congruence].
  intros q. destruct (list_eq_dec Byte.byte_eq_dec q path) as [->|N]; [congruence|]. rewrite (D5 q N), (B5 q N). reflexivity.
Qed.
Print Assumptions C68_committed.

(* a text with a literal, a comment, a number and ends of lines; one whose literal is changed *)
Example C68_ex_renames :
  let s := txt ["if m.cs < first_final { // at_end"; "return err_hex1, ""a_"", 12"; "}"]%string in
  snake2camel s = Ret (txt ["if m.cs < firstFinal { // atEnd"; "return errHex1, ""a_"", 12"; "}"]%string) /\
  tokens s = [TId "if"; TId "m"; TOp "."; TId "cs"; TOp "<"; TId "first_final"; TOp "{"; TId "return"; TId "err_hex1"; TOp ",";
              TStr "a_"; TOp ","; TInt 12; TOp ";"; TOp "}"]%string /\
  snake2camel (B "x := ""no_case""") = Ret (B "x := ""noCase""") /\
  tokens (B "x := ""noCase""") <> tokens (B "x := ""no_case""").
Proof. vm_compute. repeat split; discriminate. Qed.
(* lines that go, at the front, after a statement, at the end; a blank line that goes with one *)
Example C68_ex_comments :
  let s := txt ["//line a.rl:1"; "x := 1"; ""; "  //line a.go:7"; "y = x //line b"; "//line c"]%string in
  removeComments s = Ret (txt ["x := 1"; "y = x //line b"; ""]%string) /\
  tokens s = [TId "x"; TOp ":="; TInt 1; TOp ";"; TId "y"; TOp "="; TId "x"; TOp ";"]%string.
Proof. vm_compute. repeat split. Qed.
Example C68_ex_recipe :
  let s := txt ["//line a.rl:1"; "if cs < first_final {"; "}"]%string in
  match recipe a_run a_run (mkWorld (fun p => if path_eqb p (B "machine.go") then Some s else None) []) with
  | Some (n, w) => n = 0%N /\ w_files w (B "machine.go") = Some (txt ["if cs < firstFinal {"; "}"]%string) | None => False end.
Proof. vm_compute. repeat split. Qed.
Example C68_ex_names :
  existsb (fun k => match k with TId n => String.eqb n "en_fail" | _ => false end) (tokens (RlParse.go_part machine_go_rl)) = true /\
  List.length (action_codes machine_go_rl) = 35%nat /\ List.length rl_names = 107%nat /\
  filter (fun a => negb (String.eqb (camel_name a) a)) rl_names = ["first_final"; "en_fail"; "en_main"; "en_rfc8141_only"; "en_scim_only"]%string.
Proof. vm_compute. repeat split. Qed.
(* a small pair; an import, a name or a piece of code that differs *)
Example C68_ex_text :
  let rl := txt ["import ""fmt"""; "%%{"; "machine m;"; "}%%"; "%% write data noerror noprefix;"; "func f() {"; "%% write exec;"; "return first_final"; "}"]%string in
  let go i n := txt ["import """ ++ i ++ """"; "const firstFinal int = 3"; "func f() {"; "{"; "goto out"; "}"; "return " ++ n; "}"; ""]%string in
  passes rl (go "fmt" "firstFinal")%string = true /\ passes rl (go "fm" "firstFinal")%string = false /\
  passes rl (go "fmt" "first_final")%string = false /\ passes rl (go "fmt" "firstFinal + 1")%string = false.
Proof. vm_compute. repeat split. Qed.
(* no general comment in the Go files *)
Example C68_ex_general : existsb (has (B "/*")) [machine_go; urn_go; urn8141_go; scim_go; options_go; kind_go; parsing_mode_go; type_go; machine_go_rl] = false.
Proof. vm_compute. reflexivity. Qed.
Example C68_ex_committed :
  match recipe a_run a_run (mkWorld (fun p => if path_eqb p (B "machine.go") then Some machine_go else None) []) with
  | Some (n, w) => n = 0%N /\ w_files w (B "urn.go") = None | None => False end.
Proof.
  destruct (C68_committed a_run a_run (mkWorld (fun p => if path_eqb p (B "machine.go") then Some machine_go else None) []) (B "./tool") (B "./tool") (B "machine.go"))
    as (w' & -> & H & _); try reflexivity. split; [reflexivity|]. rewrite H. reflexivity.
Qed.
