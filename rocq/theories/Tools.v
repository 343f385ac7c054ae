(* Model of the two programs the makefile runs over the output of ragel
   (makefile:32-36): tools/removecomments/removecomments.go and
   tools/snake2camel/snake2camel.go. *)
From Verif Require Import GoBase.
Local Open Scope Z_scope.

(* ---- package regexp, as far as the two expressions need it ----------------------------- *)
(* The syntax: byte classes, class*, class?, (?m)^, (?m)$, concatenation, groups.  In Go the
   classes are over runes; the negated-newline class "." is the only one here with
   non-ASCII members, and it consumes whole runes (an invalid byte counts as one rune).
   Reading byte by byte gives the same matches: wherever a "." run ends, an ASCII byte or
   the end of a line follows (proved in PropsRune.v, C62). *)
Inductive re :=
| RCls (p : byte -> bool)
| RStar (p : byte -> bool)         (* greedy *)
| ROpt (p : byte -> bool)          (* greedy *)
| RBol
| REol
| RCat (a b : re)
| RGroup (n : nat) (r : re).

(* a position of a match: the byte before, the text after, the text matched so far, the
   groups closed so far *)
Record pos := mkPos { prev : option byte; rest : bytes; taken : bytes; caps : list (nat * bytes) }.

Definition advance (c : byte) (r : bytes) (s : pos) : pos := mkPos (Some c) r (taken s ++ [c]) (caps s).

(* class*: all the ways, the longest first *)
Fixpoint star (p : byte -> bool) (s : bytes) (x : pos) : list pos :=
  match s with
  | c :: r => if p c then star p r (advance c r x) ++ [x] else [x]
  | [] => [x]
  end.

Definition nl : byte := "010"%byte.
Definition is_nl (b : byte) : bool := Byte.eqb b nl.

(* all the ways to match, in the order of preference of the leftmost-first semantics *)
Fixpoint rmatch (r : re) (x : pos) : list pos :=
  match r with
  | RCls p => match rest x with c :: r => if p c then [advance c r x] else [] | [] => [] end
  | RStar p => star p (rest x) x
  | ROpt p => match rest x with c :: r => if p c then [advance c r x; x] else [x] | [] => [x] end
  | RBol => match prev x with None => [x] | Some c => if is_nl c then [x] else [] end
  | REol => match rest x with [] => [x] | c :: _ => if is_nl c then [x] else [] end
  | RCat a b => flat_map (rmatch b) (rmatch a x)
  | RGroup n r => map (fun y => mkPos (prev y) (rest y) (taken y)
                                  ((n, skipn (List.length (taken x)) (taken y)) :: caps y)) (rmatch r x)
  end.

(* the leftmost match at or after the current place: the text skipped, and the match *)
Fixpoint find (r : re) (before : option byte) (s : bytes) : option (bytes * pos) :=
  match rmatch r (mkPos before s [] []) with
  | y :: _ => Some ([], y)
  | [] =>
      match s with
      | [] => None
      | c :: s' => match find r (Some c) s' with Some (w, y) => Some (c :: w, y) | None => None end
      end
  end.

(* the text of a group, "" if it took no part *)
Fixpoint group (n : nat) (l : list (nat * bytes)) : bytes :=
  match l with
  | [] => []
  | (k, w) :: l => if Nat.eqb k n then w else group n l
  end.

(* Replacing the successive matches (FindAllSubmatchIndex(_, -1), snake2camel.go:20-32, and
   Regexp.ReplaceAllLiteral), with the index where the last one ends, 0 if there is none;
   i is the index of s in the whole text.  Go treats empty matches specially; the two
   expressions have none (lemmas find_step_* in PropsTools.v), so the model does not; RuneTools.v has
   the loops as they are. *)
Fixpoint replace_all (fuel : nat) (r : re) (repl : list (nat * bytes) -> bytes)
    (before : option byte) (s : bytes) (i last : Z) : res (bytes * Z) :=
  match fuel with
  | O => OutOfFuel
  | S fuel =>
      match find r before s with
      | None => Ret (s, last)
      | Some (w, y) =>
          let e := i + zlen w + zlen (taken y) in
          do k <- replace_all fuel r repl (prev y) (rest y) e e;
          Ret (w ++ repl (caps y) ++ fst k, snd k)
      end
  end.

(* ---- tools/snake2camel/snake2camel.go --------------------------------------------------- *)
Definition between (a b : byte) (c : byte) : bool :=
  N.leb (Byte.to_N a) (Byte.to_N c) && N.leb (Byte.to_N c) (Byte.to_N b).
Definition dot (c : byte) : bool := negb (is_nl c).
Definition re_az := between "a" "z".
Definition re_09 := between "0" "9".
Definition re_alnum (c : byte) : bool := between "a" "z" c || between "A" "Z" c || between "0" "9" c.

(* snake2camel.go:38, written here with blanks so as not to end the comment:
   ( .* )( [a-z]+[0-9]* )_([a-zA-Z0-9])( .* ) *)
Definition snake_re : re :=
  RCat (RGroup 1 (RStar dot))
 (RCat (RGroup 2 (RCat (RCls re_az) (RCat (RStar re_az) (RStar re_09))))
 (RCat (RCls (fun c => Byte.eqb c "_"))
 (RCat (RGroup 3 (RCls re_alnum))
       (RGroup 4 (RStar dot))))).

(* strings.ToUpper on ASCII bytes; group 3 is one alphanumeric *)
Definition upper_byte (c : byte) : byte :=
  if between "a" "z" c then match Byte.of_N (Byte.to_N c - 32) with Some b => b | None => c end else c.
Definition snake_repl (g : list (nat * bytes)) : bytes :=
  group 1 g ++ group 2 g ++ map upper_byte (group 3 g) ++ group 4 g.

(* snake2camel.go:16-35 *)
Definition replaceAllStringSubmatchFunc (r : re) (str : bytes) (repl : list (nat * bytes) -> bytes) : res (bytes * Z) :=
  replace_all (S (List.length str)) r repl None str 0 0.

(* snake2camel.go:42-46: the loop runs until a pass ends with last = 0 *)
Fixpoint snake_loop (fuel : nat) (str : bytes) : res bytes :=
  match fuel with
  | O => OutOfFuel
  | S fuel =>
      do k <- replaceAllStringSubmatchFunc snake_re str snake_repl;
      if Z.eqb (snd k) 0 then Ret (fst k) else snake_loop fuel (fst k)
  end.

(* snake2camel.go:37-49 *)
Definition snake2camel (content : bytes) : res bytes := snake_loop (S (List.length content)) content.

(* ---- tools/removecomments/removecomments.go ---------------------------------------------- *)
(* \s *)
Definition re_space (c : byte) : bool :=
  Byte.eqb c "009" || is_nl c || Byte.eqb c "012" || Byte.eqb c "013" || Byte.eqb c " ".
Definition re_lit (w : string) (k : re) : re :=
  fold_right (fun b k => RCat (RCls (Byte.eqb b)) k) k (B w).

(* removecomments.go:23 `(?m)^\s*//line.*$\r?\n?` *)
Definition comment_re : re :=
  RCat RBol (RCat (RStar re_space) (re_lit "//line"
    (RCat (RStar dot) (RCat REol (RCat (ROpt (Byte.eqb "013")) (ROpt is_nl)))))).

(* removecomments.go:25-27 *)
Definition removeComments (src : bytes) : res bytes :=
  do k <- replace_all (S (List.length src)) comment_re (fun _ => []) None src 0 0; Ret (fst k).

(* The remaining functions of the two files (main, snake2camelFile, removeCommentsFromFile,
   exitWithError) read and write the file: ToolsIO.v. *)

(* the expectations of snake2camel_test.go and removecomments_test.go *)
Definition txt (l : list string) : bytes :=
  match map B l with [] => [] | a :: r => a ++ flat_map (fun w => nl :: w) r end.
Example snake2camel_test1 : snake2camel (B "const start int = 1") = Ret (B "const start int = 1").
Proof. vm_compute. reflexivity. Qed.
Example snake2camel_test2 : snake2camel (txt ["const en_urn int = 5"; " const en_scim int = 44"; " const en_fail int = 81"; " const en_main int = 1"]%string)
  = Ret (txt ["const enUrn int = 5"; " const enScim int = 44"; " const enFail int = 81"; " const enMain int = 1"]%string).
Proof. vm_compute. reflexivity. Qed.
Example snake2camel_test3 : snake2camel (txt ["if (m.p) == (m.pe) {"; "  goto _test_eof"; "}"; "switch m.cs {"; "case 1:"; "  goto st_case_1"; "}"]%string)
  = Ret (txt ["if (m.p) == (m.pe) {"; "  goto _testEof"; "}"; "switch m.cs {"; "case 1:"; "  goto stCase1"; "}"]%string).
Proof. vm_compute. reflexivity. Qed.
Example removecomments_test : removeComments (txt ["//line this should be deleted"; ""; "This is a test file"; "";
    "it would contain go code"; ""; "// and comments"; "    // and comments after spaces"; "  // and comments after tabs";
    "//line but not this comment"; "    //line or this one after spaces"; "  //line or this one after tabs"; ""; "and that is all"; "//line this should be deleted"]%string)
  = Ret (txt [""; "This is a test file"; ""; "it would contain go code"; ""; "// and comments"; "    // and comments after spaces";
    "  // and comments after tabs"; ""; "and that is all"; ""]%string).
Proof. vm_compute. reflexivity. Qed.
