(* Reading a ragel file: the Go text around the machine, and the statements of %%{ .. }%%
   (Ragel Guide, version 6: 2.1-2.5 statements and literals, chapter 2 operators and their
   precedence, chapter 3 embeddings).

   Known are: machine, alphtype; action x { .. }; x = e; x := e; comments from # to the end of
   the line; names, the built-in classes any, alnum, digit, lower, upper; 'text'; [class] with
   ranges and the escapes \n \r \t (before any other byte \ stands for that byte); e e, <:,
   :>>, |, -, *, +, ?, {n}, {0,n}, parentheses; > and % with the name of an action; err, to, eof
   after @ $ or % as the guide has them, with (name) or { code }.  Everything else is refused.
   Simplifications: { opens a repetition if a digit follows, else code, which ends at the
   matching } (strings and comments of the code are not looked at); the code is Go, in which
   fhold and fgoto x stand as statements. *)
From Verif Require Import GoBase GoAst GoLex GoParse.
From Verif Require MachineSyntax Machine RagelSem RagelRl.
Import RagelSem.
Local Open Scope string_scope.
Local Open Scope list_scope.

(* ---- the two parts of the file ------------------------------------------------------------- *)
Fixpoint lines_from (acc s : bytes) : list bytes :=
  match s with
  | [] => match acc with [] => [] | _ => [rev acc] end
  | c :: s => if Byte.eqb c x0a then rev (c :: acc) :: lines_from [] s else lines_from (c :: acc) s
  end.
Definition lines_of (s : bytes) : list bytes := lines_from [] s.
Fixpoint blanks (s : bytes) : bytes :=
  match s with c :: r => if in_rng 32 32 c || in_rng 9 9 c then blanks r else s | [] => [] end.
Fixpoint starts (p s : bytes) : bool :=
  match p, s with [], _ => true | a :: p, b :: s => Byte.eqb a b && starts p s | _, _ => false end.
(* outside: Go, and lines %% for ragel; inside: the machine *)
Fixpoint split_rl (inside : bool) (ls : list bytes) : bytes * bytes * list bytes :=
  match ls with
  | [] => ([], [], [])
  | l :: r =>
      let t := blanks l in
      if inside then
        if starts (B "}%%") t then split_rl false r
        else let '(g, m, d) := split_rl true r in (g, l ++ m, d)
      else if starts (B "%%{") t then split_rl true r
      else let '(g, m, d) := split_rl false r in
        if starts (B "%%") t then (g, m, t :: d) else (l ++ g, m, d)
  end.
Definition go_part (s : bytes) : bytes := fst (fst (split_rl false (lines_of s))).
Definition machine_part (s : bytes) : bytes := snd (fst (split_rl false (lines_of s))).
Definition directives (s : bytes) : list bytes := snd (split_rl false (lines_of s)).

(* ---- tokens of the machine ------------------------------------------------------------------- *)
Inductive rtok :=
| KId (s : string) | KNum (n : nat)
| KLit (s : bytes)                     (* 'text' *)
| KCls (l : list (byte * byte))        (* [class] *)
| KCode (s : bytes)                    (* { code } *)
| KOp (s : string) | KBad.

Definition rops3 : list string := [":>>"].
Definition rops2 : list string := [":="; "<:"; ":>"; "--"; "->"; "**"; "=>"; "<>"; ".."; "|*"].
Definition rops1 : list string := ["="; ";"; "|"; "-"; "*"; "+"; "?"; "("; ")"; "{"; "}"; ","; ">"; "%"; "@"; "$"].

Inductive rmode :=
| LStart | LSkip (n : nat) | LId (acc : list byte) | LNum (n : nat) | LLit (acc : list byte) | LComment
| LCls (acc : list byte)               (* the bytes of a class, reversed; the reader of ranges follows *)
| LClsEsc (acc : list byte)
| LCode (depth : nat) (acc : list byte).

(* the ranges of a class *)
Definition esc (c : byte) : byte :=
  if Byte.eqb c "n" then x0a else if Byte.eqb c "r" then x0d else if Byte.eqb c "t" then x09 else c.
Fixpoint class_of (fuel : nat) (s : bytes) : option (list (byte * byte)) :=
  match fuel with O => None | S fuel =>
    let one (s : bytes) : option (byte * bytes) :=
      match s with
      | [] => None
      | c :: r => if Byte.eqb c "\" then match r with d :: r => Some (esc d, r) | [] => None end else Some (c, r)
      end in
    match s with
    | [] => Some []
    | _ =>
        get (a, r) <- one s;
        match r with
        | d :: r' =>
            if Byte.eqb d "-" then get (b, r) <- one r'; get l <- class_of fuel r; Some ((a, b) :: l)
            else get l <- class_of fuel r; Some ((a, a) :: l)
        | [] => Some [(a, a)]
        end
    end
  end.
(* a class that begins with ^ or - is not known *)
Definition class_tok (acc : list byte) : rtok :=
  let s := rev acc in
  if starts (B "^") s || starts (B "-") s then KBad
  else match class_of (S (List.length s)) s with Some (x :: l) => KCls (x :: l) | _ => KBad end.

Definition rbegin (c : byte) (next : bytes) : list rtok * rmode :=
  if in_rng 32 32 c || in_rng 9 9 c || in_rng 10 10 c || in_rng 13 13 c then ([], LStart)
  else if letter c then ([], LId [c])
  else if digit c then ([], LNum (N.to_nat (Byte.to_N c - 48)))
  else if Byte.eqb c "#" then ([], LComment)
  else if Byte.eqb c "'" then ([], LLit [])
  else if Byte.eqb c "[" then ([], LCls [])
  else if Byte.eqb c "{" then
    if match next with d :: _ => digit d || Byte.eqb d "," | [] => false end then ([KOp "{"], LStart) else ([], LCode 0 [])
  else
    let s3 := string_of_list_byte (firstn 3 (c :: next)) in
    let s2 := string_of_list_byte (firstn 2 (c :: next)) in
    let s1 := string_of_list_byte [c] in
    if mem s3 rops3 then ([KOp s3], LSkip 2)
    else if mem s2 rops2 then ([KOp s2], LSkip 1)
    else if mem s1 rops1 then ([KOp s1], LStart) else ([KBad], LStart).
Definition rfinish (t : rtok) (c : byte) (next : bytes) : list rtok * rmode :=
  let '(o, m) := rbegin c next in (t :: o, m).
Definition rlex1 (m : rmode) (c : byte) (next : bytes) : list rtok * rmode :=
  match m with
  | LStart => rbegin c next
  | LSkip (S (S n)) => ([], LSkip (S n))
  | LSkip _ => ([], LStart)
  | LId acc => if letter c || digit c then ([], LId (c :: acc)) else rfinish (KId (str acc)) c next
  | LNum n => if digit c then ([], LNum (10 * n + N.to_nat (Byte.to_N c - 48))) else rfinish (KNum n) c next
  | LLit acc => if Byte.eqb c "'" then ([KLit (rev acc)], LStart)
                else if Byte.eqb c "\" then ([KBad], LStart) else ([], LLit (c :: acc))
  | LComment => if Byte.eqb c x0a then ([], LStart) else ([], LComment)
  | LCls acc => if Byte.eqb c "]" then ([class_tok acc], LStart)
                else if Byte.eqb c "\" then ([], LClsEsc (c :: acc)) else ([], LCls (c :: acc))
  | LClsEsc acc => ([], LCls (c :: acc))
  | LCode d acc => if Byte.eqb c "{" then ([], LCode (S d) (c :: acc))
                   else if Byte.eqb c "}" then
                     match d with O => ([KCode (rev acc)], LStart) | S d => ([], LCode d (c :: acc)) end
                   else ([], LCode d (c :: acc))
  end.
Fixpoint rlex (m : rmode) (s : bytes) : list rtok :=
  match s with
  | [] => match m with LStart | LComment | LSkip _ => [] | LId acc => [KId (str acc)] | LNum n => [KNum n] | _ => [KBad] end
  | c :: s => let '(o, m) := rlex1 m c s in o ++ rlex m s
  end.

(* ---- the code of an action ---------------------------------------------------------------- *)
(* fgoto x is read as goto x *)
Definition code_of (n : nat) (s : bytes) : option (list stm) :=
  let ts := map (fun t => match t with TId x => if String.eqb x "fgoto" then TId "goto" else t | _ => t end) (tokens s) in
  get (l, r) <- p_stmts n (ts ++ [TOp "}"]);
  match r with [TOp x] => if String.eqb x "}" then Some l else None | _ => None end.

(* ---- expressions ------------------------------------------------------------------------------ *)
Section Read.
  (* the actions, by name or by code; the expressions defined above *)
  Context {A : Type} (named : string -> option A) (inline : list stm -> option A).
  Context (depth : nat).
  Definition is_rop (s : string) (t : list rtok) : bool := match t with KOp x :: _ => String.eqb x s | _ => false end.
  Definition rop (s : string) (t : list rtok) : option (list rtok) := if is_rop s t then Some (tl t) else None.

  Definition range (l : list (byte * byte)) : rx A := RByte (RagelRl.within l).
  Fixpoint text (l : bytes) : rx A :=
    match l with
    | [] => RByte (fun _ => false)
    | [b] => RByte (fun n => N.eqb (Byte.to_N b) n)
    | b :: r => RCat (RByte (fun n => N.eqb (Byte.to_N b) n)) (text r)
    end.
  Definition builtins : list (string * list (byte * byte)) :=
    [("any", [(x00, xff)]); ("digit", [("0", "9")]%byte); ("lower", [("a", "z")]%byte); ("upper", [("A", "Z")]%byte);
     ("alnum", [("0", "9"); ("a", "z"); ("A", "Z")]%byte)].
  Fixpoint assoc {T} (x : string) (l : list (string * T)) : option T :=
    match l with [] => None | (y, v) :: r => if String.eqb x y then Some v else assoc x r end.

  (* what follows @err and the like *)
  Definition action_ref (t : list rtok) : option (A * list rtok) :=
    match t with
    | KOp o :: KId x :: t => if String.eqb o "(" then get a <- named x; get t <- rop ")" t; Some (a, t) else None
    | KCode s :: t => get l <- code_of depth s; get a <- inline l; Some (a, t)
    | _ => None
    end.
  Definition kinds : list (string * string * embed) :=
    [("@", "err", ErrNonFinal); ("$", "err", ErrAll); ("%", "err", ErrFinal); ("%", "to", ToFinal); ("%", "eof", EofFinal)].
  Definition kind_of (o x : string) : option embed :=
    option_map snd (find (fun k => String.eqb o (fst (fst k)) && String.eqb x (snd (fst k))) kinds).
  Fixpoint embeds (n : nat) (t : list rtok) : option (list (embed * A) * list rtok) :=
    match n with O => None | S n =>
      match t with
      | KOp o :: r =>
          if mem o [">"; "%"; "@"; "$"] then
            match r with
            | KId x :: r =>
                get (k, a, r) <-
                  (if mem x ["err"; "lerr"; "to"; "from"; "eof"] then get k <- kind_of o x; get (a, r) <- action_ref r; Some (k, a, r)
                   else get a <- named x;
                        if String.eqb o ">" then Some (Enter, a, r) else if String.eqb o "%" then Some (Leave, a, r) else None);
                get (l, r) <- embeds n r; Some ((k, a) :: l, r)
            | _ => None
            end
          else Some ([], t)
      | _ => Some ([], t)
      end
    end.
  Fixpoint repeats (n : nat) (e : rx A) (t : list rtok) : option (rx A * list rtok) :=
    match n with O => None | S n =>
      match t with
      | KOp o :: r =>
          if String.eqb o "*" then repeats n (RStar e) r
          else if String.eqb o "+" then repeats n (RPlus e) r
          else if String.eqb o "?" then repeats n (ROpt e) r
          else if String.eqb o "{" then
            match r with
            | KNum i :: KOp p :: r =>
                if String.eqb p "}" then match i with O => None | _ => repeats n (RTimes i e) r end
                else match i, r with
                     | O, KNum j :: r => if String.eqb p "," then get r <- rop "}" r; repeats n (RUpTo j e) r else None
                     | _, _ => None
                     end
            | _ => None
            end
          else Some (e, t)
      | _ => Some (e, t)
      end
    end.

  Section Expr.
  Context (defs : list (string * rx A)).
  (* from the lowest: | and -; the concatenations; embeddings; repetitions; the rest *)
  Fixpoint p_union (n : nat) (t : list rtok) {struct n} : option (rx A * list rtok) :=
    match n with O => None | S n => get (e, t) <- p_concat n t; p_union_more n e t end
  with p_union_more (n : nat) (e : rx A) (t : list rtok) {struct n} : option (rx A * list rtok) :=
    match n with O => None | S n =>
      if is_rop "|" t then get (f, t) <- p_concat n (tl t); p_union_more n (ROr e f) t
      else if is_rop "-" t then get (f, t) <- p_concat n (tl t); p_union_more n (RMinus e f) t
      else Some (e, t)
    end
  with p_concat (n : nat) (t : list rtok) {struct n} : option (rx A * list rtok) :=
    match n with O => None | S n => get (e, t) <- p_embed n t; p_concat_more n e t end
  with p_concat_more (n : nat) (e : rx A) (t : list rtok) {struct n} : option (rx A * list rtok) :=
    match n with O => None | S n =>
      if is_rop "<:" t then get (f, t) <- p_embed n (tl t); p_concat_more n (RLeftGuard e f) t
      else if is_rop ":>>" t then get (f, t) <- p_embed n (tl t); p_concat_more n (RFinishGuard e f) t
      else if match t with KId _ :: _ | KLit _ :: _ | KCls _ :: _ => true | _ => is_rop "(" t end
      then get (f, t) <- p_embed n t; p_concat_more n (RCat e f) t
      else Some (e, t)
    end
  with p_embed (n : nat) (t : list rtok) {struct n} : option (rx A * list rtok) :=
    match n with O => None | S n =>
      get (e, t) <- p_atom n t; get (e, t) <- repeats n e t; get (l, t) <- embeds n t;
      Some (match l with [] => e | _ => RWith e l end, t)
    end
  with p_atom (n : nat) (t : list rtok) {struct n} : option (rx A * list rtok) :=
    match n with O => None | S n =>
      match t with
      | KId x :: t =>
          match assoc x defs with
          | Some e => Some (e, t)
          | None => get l <- assoc x builtins; Some (range l, t)
          end
      | KLit (b :: s) :: t => Some (text (b :: s), t)
      | KCls l :: t => Some (range l, t)
      | KOp o :: t => if String.eqb o "(" then get (e, t) <- p_union n t; get t <- rop ")" t; Some (e, t) else None
      | _ => None
      end
    end.
  End Expr.

  (* ---- statements ------------------------------------------------------------------------------ *)
  Record spec := mkSpec {
    sp_name : string;
    sp_actions : list (string * list stm);
    sp_defs : list (string * rx A);           (* x = e, the last one first *)
    sp_insts : list (string * rx A)           (* x := e, in order *)
  }.
  Fixpoint p_spec (n : nat) (t : list rtok) (s : spec) {struct n} : option spec :=
    match n with O => None | S n =>
      match t with
      | [] => Some (mkSpec (sp_name s) (rev (sp_actions s)) (sp_defs s) (rev (sp_insts s)))
      | KId x :: KId y :: KOp o :: t =>
          if String.eqb o ";" then
            if String.eqb x "machine" then p_spec n t (mkSpec y (sp_actions s) (sp_defs s) (sp_insts s))
            else if String.eqb x "alphtype" && String.eqb y "uint8" then p_spec n t s
            else None
          else None
      | KId x :: KId y :: KCode c :: t =>
          if String.eqb x "action" then
            match assoc y (sp_actions s) with
            | Some _ => None     (* twice *)
            | None => get l <- code_of depth c; p_spec n t (mkSpec (sp_name s) ((y, l) :: sp_actions s) (sp_defs s) (sp_insts s))
            end
          else None
      | KId x :: KOp o :: t =>
          match assoc x (sp_defs s) with
          | Some _ => None
          | None =>
              get (e, t) <- p_union (sp_defs s) n t; get t <- rop ";" t;
              if String.eqb o "=" then p_spec n t (mkSpec (sp_name s) (sp_actions s) ((x, e) :: sp_defs s) (sp_insts s))
              else if String.eqb o ":=" then
                p_spec n t (mkSpec (sp_name s) (sp_actions s) ((x, e) :: sp_defs s) ((x, e) :: sp_insts s))
              else None
          end
      | _ => None
      end
    end.
  Definition read_rl (s : bytes) : option spec := p_spec depth (rlex LStart (machine_part s)) (mkSpec "" [] [] []).
End Read.
Arguments sp_name {A}. Arguments sp_actions {A}. Arguments sp_defs {A}. Arguments sp_insts {A}. Arguments mkSpec {A}.

(* ---- what ragel writes for fhold and fgoto --------------------------------------------------- *)
(* Ragel Guide, 3.7: fhold is p--; fgoto x sets the state and jumps to where a new state has been
   entered.  entry: the numbers of the instantiated machines *)
Section Expand.
  Context (entry : string -> option Z).
  Definition m_ (f : string) : expr := ESel (EId "m") f.
  Fixpoint expand (s : stm) : list stm :=
    match s with
    | SExpr (EId "fhold") => [SIncDec "--" (m_ "p")]
    | SGoto x => match entry x with Some k => [SAssign "=" [m_ "cs"] [EInt k]; SGoto "_again"] | None => [SGoto x] end
    | SIf i c t e => [SIf i c (flat_map expand t) (flat_map expand e)]
    | SRange k v e b => [SRange k v e (flat_map expand b)]
    | SBlock b => [SBlock (flat_map expand b)]
    | _ => [s]
    end.
End Expand.
