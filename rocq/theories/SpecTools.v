(* Independent specification of the two source-rewriting tools, in terms of lines and of one
   reading of the text from left to right. *)
From Verif Require Import GoBase Spec.

Definition newline : byte := "010"%byte.
Definition uscore : byte := "_"%byte.

(* ---- snake2camel ------------------------------------------------------------------------ *)
(* an underscore the tool is meant to convert: after a lower-case letter and digits, before an
   alphanumeric *)
Definition snake (w : bytes) : Prop :=
  exists x a ds c y, w = x ++ a :: ds ++ uscore :: c :: y /\
    lower a = true /\ forallb digit ds = true /\ alnum c = true.

Definition capital (c : byte) : byte :=
  if lower c then match Byte.of_N (Byte.to_N c - 32) with Some b => b | None => c end else c.

(* the text read from left to right; open: the last letter read was, in the source, a
   lower-case one and only digits came after it *)
Fixpoint camel (open : bool) (w : bytes) : bytes :=
  match w with
  | [] => []
  | c :: r =>
      if Byte.eqb c uscore && open then
        match r with
        | d :: r' => if alnum d then capital d :: camel (lower d || digit d) r' else c :: camel false r
        | [] => [c]
        end
      else c :: camel (lower c || (digit c && open)) r
  end.

(* a text up to underscores and the case of letters *)
Definition bare (s : bytes) : bytes := lowers (filter (fun c => negb (Byte.eqb c uscore)) s).

(* ---- removecomments ---------------------------------------------------------------------- *)
Definition ws (b : byte) : bool := one_of " " b || Byte.eqb b "009" || Byte.eqb b newline || Byte.eqb b "012" || Byte.eqb b "013".

(* the lines of a text, each with the newline that ends it *)
Fixpoint lines (s : bytes) : list bytes :=
  match s with
  | [] => []
  | c :: r =>
      if Byte.eqb c newline then [c] :: lines r
      else match lines r with [] => [[c]] | l :: ls => (c :: l) :: ls end
  end.

Definition blank (l : bytes) : Prop := forallb ws l = true.
(* a line whose first characters after white space are "//line" *)
Definition directive (l : bytes) : Prop := exists w x, l = w ++ B "//line" ++ x /\ forallb ws w = true.

(* the lines that remain: a directive goes, together with the blank lines just before it;
   every other line stays *)
Inductive cleaned : list bytes -> list bytes -> Prop :=
| cleaned_nil : cleaned [] []
| cleaned_drop bs d ls ls' : Forall blank bs -> directive d -> cleaned ls ls' -> cleaned (bs ++ d :: ls) ls'
| cleaned_keep l ls ls' :
    (forall bs d r, l :: ls = bs ++ d :: r -> Forall blank bs -> ~ directive d) ->
    cleaned ls ls' -> cleaned (l :: ls) (l :: ls').
