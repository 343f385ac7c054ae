(* The tokens of Go source text: identifiers, decimal integers, interpreted string
   literals, operators; comments to the end of the line; automatic semicolons.
   (The Go Programming Language Specification, "Lexical elements".)  What is not known
   (other literals) becomes TBad, which no parser below accepts.  A general comment is read as
   operators and what is in it; the files have none. *)
From Coq Require Import ZArith List String Bool Init.Byte.
From Coq Require Import Strings.Byte.
Import ListNotations.
Local Open Scope bool_scope.

Inductive tok := TId (s : string) | TInt (z : Z) | TStr (s : string) | TOp (s : string) | TBad.

Definition in_rng (lo hi : N) (b : byte) : bool := N.leb lo (Byte.to_N b) && N.leb (Byte.to_N b) hi.
Definition digit (b : byte) : bool := in_rng 48 57 b.
Definition letter (b : byte) : bool := in_rng 97 122 b || in_rng 65 90 b || in_rng 95 95 b.
Definition mem (x : string) (l : list string) : bool := existsb (String.eqb x) l.

Definition keywords : list string :=
  ["break"; "case"; "chan"; "const"; "continue"; "default"; "defer"; "else"; "fallthrough"; "for"; "func";
   "go"; "goto"; "if"; "import"; "interface"; "map"; "package"; "range"; "return"; "select"; "struct";
   "switch"; "type"; "var"]%string.
(* a newline after such a token is a semicolon *)
Definition ends (t : tok) : bool :=
  match t with
  | TId s => negb (mem s keywords) || mem s ["break"; "continue"; "fallthrough"; "return"]%string
  | TInt _ | TStr _ => true
  | TOp s => mem s ["++"; "--"; ")"; "]"; "}"]%string
  | TBad => false
  end.

(* the operators, longest first *)
Definition ops3 : list string := ["..."]%string.
Definition ops2 : list string := [":="; "=="; "!="; "<="; ">="; "&&"; "||"; "++"; "--"; "+="; "-="]%string.
Definition ops1 : list string := ["+"; "-"; "*"; "/"; "%"; "&"; "<"; ">"; "="; "!"; "("; ")"; "["; "]"; "{"; "}"; ","; ";"; "."; ":"]%string.

Inductive mode :=
| MStart
| MSkip (n : nat)          (* n more bytes of an operator *)
| MId (acc : list byte)    (* accumulated in reverse *)
| MNum (acc : Z)
| MStr (acc : list byte)
| MEsc (acc : list byte)   (* after a backslash *)
| MLine.                   (* in a comment *)

Definition str (acc : list byte) : string := string_of_list_byte (rev acc).

(* a byte where a new token may begin; next: the bytes after it; last: a newline here is a
   semicolon.  Result: tokens, mode, the new value of last. *)
Definition begin (last : bool) (c : byte) (next : list byte) : list tok * mode * bool :=
  if in_rng 10 10 c then (if last then [TOp ";"] else [], MStart, false)
  else if in_rng 32 32 c || in_rng 9 9 c || in_rng 13 13 c then ([], MStart, last)
  else if letter c then ([], MId [c], last)
  else if digit c then ([], MNum (Z.of_N (Byte.to_N c) - 48), last)
  else if in_rng 34 34 c then ([], MStr [], last)
  else
    let s3 := string_of_list_byte (firstn 3 (c :: next)) in
    let s2 := string_of_list_byte (firstn 2 (c :: next)) in
    let s1 := string_of_list_byte [c] in
    if String.eqb s2 "//" then ([], MLine, last)
    else if mem s3 ops3 then ([TOp s3], MSkip 2, ends (TOp s3))
    else if mem s2 ops2 then ([TOp s2], MSkip 1, ends (TOp s2))
    else if mem s1 ops1 then ([TOp s1], MStart, ends (TOp s1))
    else ([TBad], MStart, false).

(* the token ends here; c belongs to what follows *)
Definition finish (t : tok) (c : byte) (next : list byte) : list tok * mode * bool :=
  let '(o, m, l) := begin (ends t) c next in (t :: o, m, l).

Definition lex1 (m : mode) (last : bool) (c : byte) (next : list byte) : list tok * mode * bool :=
  match m with
  | MStart => begin last c next
  | MSkip (S (S n)) => ([], MSkip (S n), last)
  | MSkip _ => ([], MStart, last)
  | MId acc => if letter c || digit c then ([], MId (c :: acc), last) else finish (TId (str acc)) c next
  | MNum acc => if digit c then ([], MNum (10 * acc + (Z.of_N (Byte.to_N c) - 48)), last)
                else if letter c || in_rng 46 46 c then ([TBad], MStart, false) else finish (TInt acc) c next
  | MStr acc => if in_rng 34 34 c then ([TStr (str acc)], MStart, true)
                else if in_rng 92 92 c then ([], MEsc acc, last)
                else if in_rng 10 10 c then ([TBad], MStart, false)
                else ([], MStr (c :: acc), last)
  | MEsc acc => if in_rng 34 34 c || in_rng 92 92 c then ([], MStr (c :: acc), last)
                else if in_rng 110 110 c then ([], MStr (x0a :: acc), last)
                else if in_rng 116 116 c then ([], MStr (x09 :: acc), last)
                else ([TBad], MStart, false)
  | MLine => if in_rng 10 10 c then begin last c next else ([], MLine, last)
  end.

Fixpoint lex (m : mode) (last : bool) (s : list byte) : list tok :=
  match s with
  | [] => match m with MStart | MLine | MSkip _ => [] | MId acc => [TId (str acc)] | MNum acc => [TInt acc] | _ => [TBad] end
  | c :: s' => let '(o, m', l') := lex1 m last c s' in o ++ lex m' l' s'
  end.

Definition tokens (s : list byte) : list tok := lex MStart false s.
