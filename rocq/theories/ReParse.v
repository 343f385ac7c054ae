(* Reading the regular expressions of the two tools from their text: the syntax of package
   regexp (RE2) as far as the two use it.  What is not listed is refused:
     (?m) in front      ^ $ .      [a-z0-9]      \s \t \n \r \f      ASCII characters
     x* x+ x? behind one character or class      ( .. ) counted from 1 in the order they open
   The repetitions are the greedy ones; a mark behind a mark (x*?) is refused. *)
From Verif Require Import GoBase GoLex Tools RuneTools RlParse.
Local Open Scope list_scope.
Notation "'get' p <- e ; k" := (match e with Some p => k | None => None end) (at level 200, p pattern, e at level 100, k at level 200).

(* ---- the raw strings of a Go file ---------------------------------------------------------- *)
(* what stands between back quotes; comments and interpreted strings are passed over.  None:
   a string that does not end.  Rune literals and general comments are not known (the two
   files have none). *)
Inductive where_ := Code | Comment | Quoted | Escaped | Raw (acc : bytes).
Fixpoint raws_from (w : where_) (s : bytes) : option (list bytes) :=
  match s with
  | [] => match w with Code | Comment => Some [] | _ => None end
  | c :: r =>
      match w with
      | Code =>
          if Byte.eqb c x60 then raws_from (Raw []) r
          else if Byte.eqb c x22 then raws_from Quoted r
          else if starts (B "//") s then raws_from Comment r
          else raws_from Code r
      | Comment => raws_from (if Byte.eqb c x0a then Code else Comment) r
      | Quoted => raws_from (if Byte.eqb c x22 then Code else if Byte.eqb c x5c then Escaped else Quoted) r
      | Escaped => raws_from Quoted r
      | Raw acc => if Byte.eqb c x60 then get l <- raws_from Code r; Some (rev acc :: l) else raws_from (Raw (c :: acc)) r
      end
  end.
Definition raws (s : bytes) : option (list bytes) := raws_from Code s.

(* ---- expressions ------------------------------------------------------------------------------ *)
Definition is_in (c : byte) (l : string) : bool := existsb (Byte.eqb c) (B l).
Definition ranges := list (N * N).
Definition rune_in (l : ranges) (c : N) : bool := existsb (fun '(a, b) => in_range a b c) l.
(* \s is [\t\n\f\r ] *)
Definition escape (c : byte) : option ranges :=
  if Byte.eqb c "s" then Some [(9, 10); (12, 13); (32, 32)]%N
  else if Byte.eqb c "t" then Some [(9, 9)]%N else if Byte.eqb c "n" then Some [(10, 10)]%N
  else if Byte.eqb c "r" then Some [(13, 13)]%N else if Byte.eqb c "f" then Some [(12, 12)]%N else None.
Definition ascii (c : byte) : bool := (Byte.to_N c <? 128)%N.
(* behind "[": letters, digits and ranges of them up to "]", at least one *)
Fixpoint p_class (acc : ranges) (s : bytes) : option (ranges * bytes) :=
  match s with
  | c :: r =>
      if Byte.eqb c "]" then match acc with [] => None | _ => Some (acc, r) end
      else if re_alnum c then
        match r with
        | d :: e :: r' =>
            if Byte.eqb d "-" then
              if re_alnum e && (Byte.to_N c <=? Byte.to_N e)%N then p_class (acc ++ [(Byte.to_N c, Byte.to_N e)]) r' else None
            else p_class (acc ++ [(Byte.to_N c, Byte.to_N c)]) r
        | _ => p_class (acc ++ [(Byte.to_N c, Byte.to_N c)]) r
        end
      else None
  | [] => None
  end.
(* a character or class, and what follows *)
Definition p_one (s : bytes) : option ((N -> bool) * bytes) :=
  match s with
  | [] => None
  | c :: r =>
      if Byte.eqb c "." then Some (u_dot, r)
      else if Byte.eqb c "[" then get (l, r) <- p_class [] r; Some (rune_in l, r)
      else if Byte.eqb c "\" then match r with d :: r => get l <- escape d; Some (rune_in l, r) | [] => None end
      else if is_in c "()]{}*+?|^$" || negb (ascii c) then None
      else Some (rune_in [(Byte.to_N c, Byte.to_N c)], r)
  end.
Definition no_mark (s : bytes) : option bytes :=
  match s with c :: _ => if is_in c "*+?{" then None else Some s | [] => Some s end.
(* with its mark *)
Definition p_item (s : bytes) : option (list ure * bytes) :=
  get (p, r) <- p_one s;
  match r with
  | c :: r' =>
      if Byte.eqb c "*" then get r <- no_mark r'; Some ([UStar p], r)
      else if Byte.eqb c "+" then get r <- no_mark r'; Some ([UCls p; UStar p], r)
      else if Byte.eqb c "?" then get r <- no_mark r'; Some ([UOpt p], r)
      else get r <- no_mark r; Some ([UCls p], r)
  | [] => Some ([UCls p], [])
  end.
Fixpoint cat (l : list ure) : option ure :=
  match l with [] => None | [a] => Some a | a :: l => get b <- cat l; Some (UCat a b) end.
(* a sequence up to the end or ")"; k: the number of the next group *)
Fixpoint p_seq (n : nat) (many : bool) (k : nat) (s : bytes) : option (list ure * nat * bytes) :=
  match n with
  | O => None
  | S n =>
      match s with
      | [] => Some ([], k, [])
      | c :: r =>
          if Byte.eqb c ")" then Some ([], k, s)
          else
            get (a, k, r) <-
              (if Byte.eqb c "(" then
                 get (l, k', r) <- p_seq n many (S k) r; get e <- cat l;
                 match r with c :: r => if Byte.eqb c ")" then get r <- no_mark r; Some ([UGroup k e], k', r) else None | [] => None end
               else if Byte.eqb c "^" then if many then get r <- no_mark r; Some ([UBol], k, r) else None
               else if Byte.eqb c "$" then if many then get r <- no_mark r; Some ([UEol], k, r) else None
               else get (a, r) <- p_item s; Some (a, k, r));
            get (l, k, r) <- p_seq n many k r; Some (a ++ l, k, r)
      end
  end.
Definition read_re (s : bytes) : option ure :=
  let many := starts (B "(?m)") s in
  get (l, _, r) <- p_seq (S (List.length s)) many 1 (if many then skipn 4 s else s);
  match r with [] => cat l | _ => None end.

(* ---- the tools with any expression ------------------------------------------------------------- *)
(* snake2camel.go:37-49 as in RuneTools.v, with the expression r in the place of the one of
   line 38 *)
Fixpoint loop_with (r : ure) (fuel : nat) (str : bytes) : res bytes :=
  match fuel with
  | O => OutOfFuel
  | S fuel =>
      do k <- go_replaceAllStringSubmatchFunc r str snake_repl;
      if Nat.eqb (snd k) 0 then Ret (fst k) else loop_with r fuel (fst k)
  end.
Definition snake2camel_with (r : ure) (content : bytes) : res bytes := loop_with r (S (List.length content)) content.
(* removecomments.go:25-27, with the expression r in the place of the one of line 23 *)
Definition removeComments_with (r : ure) (src : bytes) : res bytes := replaceAll (List.length src + 2) r src 0 0.
