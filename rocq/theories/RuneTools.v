(* The two tools once more, with package regexp as it works on text: it reads runes, not
   bytes, starts matches at rune boundaries, and has its own rules for empty matches.
   Tools.v leaves all three out; C62 proves that this makes no difference.  The functions of
   package regexp and unicode/utf8 are not in /repo: what is written here is the
   documented behaviour and the loops of their source (Go 1.18 and later), and belongs to
   the trusted base. *)
From Verif Require Import GoBase Json Tools.
Local Open Scope N_scope.

(* ---- unicode/utf8 ------------------------------------------------------------------------ *)
(* RuneError, U+FFFD *)
Definition RuneError : N := 65533.
(* DecodeRune: the rune at the head of s and its width; (RuneError, 0) for the empty text,
   (RuneError, 1) when the head starts no well-formed sequence *)
Definition DecodeRune (s : bytes) : N * nat :=
  match s with
  | [] => (RuneError, 0%nat)
  | a :: r =>
      if Byte.to_N a <? 128 then (Byte.to_N a, 1%nat)
      else match utf8_len s, map (fun b => Byte.to_N b mod 64) r with
           | 2%nat, y :: _ => (Byte.to_N a mod 32 * 64 + y, 2%nat)
           | 3%nat, y :: z :: _ => ((Byte.to_N a mod 16 * 64 + y) * 64 + z, 3%nat)
           | 4%nat, y :: z :: t :: _ => (((Byte.to_N a mod 8 * 64 + y) * 64 + z) * 64 + t, 4%nat)
           | _, _ => (RuneError, 1%nat)
           end
  end.

(* ---- package regexp ------------------------------------------------------------------------ *)
(* the syntax of Tools.re with classes of runes *)
Inductive ure :=
| UCls (p : N -> bool)
| UStar (p : N -> bool)
| UOpt (p : N -> bool)
| UBol
| UEol
| UCat (a b : ure)
| UGroup (n : nat) (r : ure).

(* k bytes further *)
Fixpoint skip (k : nat) (x : pos) : pos :=
  match k, rest x with
  | S k, c :: r => skip k (advance c r x)
  | _, _ => x
  end.
(* past one rune of the class, if there is one *)
Definition one (p : N -> bool) (x : pos) : list pos :=
  let (r, k) := DecodeRune (rest x) in
  if Nat.eqb k 0 then [] else if p r then [skip k x] else [].
(* class*: all the ways, the longest first; n is above the number of runes left *)
Fixpoint ustar (n : nat) (p : N -> bool) (x : pos) : list pos :=
  match n with
  | O => [x]
  | S n => flat_map (ustar n p) (one p x) ++ [x]
  end.

(* All the ways to match, in the order of preference.  (?m)^ and (?m)$ ask for the rune
   before and the rune after; one of them is a newline exactly if the byte is, so prev
   stays a byte. *)
Fixpoint umatch (r : ure) (x : pos) : list pos :=
  match r with
  | UCls p => one p x
  | UStar p => ustar (List.length (rest x)) p x
  | UOpt p => one p x ++ [x]
  | UBol => match prev x with None => [x] | Some c => if is_nl c then [x] else [] end
  | UEol => match DecodeRune (rest x) with
            | (_, O) => [x]
            | (c, _) => if c =? 10 then [x] else []
            end
  | UCat a b => flat_map (umatch b) (umatch a x)
  | UGroup n r => map (fun y => mkPos (prev y) (rest y) (taken y)
                                  ((n, skipn (List.length (taken x)) (taken y)) :: caps y)) (umatch r x)
  end.

(* the leftmost match at or after the current place; the next place to try is one rune on *)
Fixpoint ufind (fuel : nat) (r : ure) (before : option byte) (s : bytes) : option (bytes * pos) :=
  match fuel with
  | O => None
  | S fuel =>
      match umatch r (mkPos before s [] []) with
      | y :: _ => Some ([], y)
      | [] =>
          match DecodeRune s with
          | (_, O) => None
          | (_, k) =>
              match ufind fuel r (prev (skip k (mkPos before s [] []))) (skipn k s) with
              | Some (w, y) => Some (firstn k s ++ w, y)
              | None => None
              end
          end
      end
  end.

(* Regexp.doExecute on the text b from index at: where the match begins and ends, its groups *)
Definition doExecute (r : ure) (b : bytes) (at_ : nat) : option (nat * nat * list (nat * bytes)) :=
  let s := skipn at_ b in
  match ufind (S (List.length s)) r (prev (skip at_ (mkPos None b [] []))) s with
  | Some (w, y) => Some ((at_ + List.length w)%nat, (at_ + List.length w + List.length (taken y))%nat, caps y)
  | None => None
  end.

(* Regexp.allMatches with n = len(b)+1: after an empty match one rune is skipped, and an
   empty match where the one before ended does not count.  prevEnd is None for -1. *)
Fixpoint allMatches (fuel : nat) (r : ure) (b : bytes) (at_ : nat) (prevEnd : option nat)
    : res (list (nat * nat * list (nat * bytes))) :=
  match fuel with
  | O => OutOfFuel
  | S fuel =>
      if Nat.ltb (List.length b) at_ then Ret []
      else match doExecute r b at_ with
      | None => Ret []
      | Some (i, j, g) =>
          let empty := Nat.eqb j at_ in
          let accept := negb (empty && match prevEnd with Some e => Nat.eqb i e | None => false end) in
          let next := if empty then
                        match snd (DecodeRune (skipn at_ b)) with
                        | O => S (List.length b)
                        | k => (at_ + k)%nat
                        end
                      else j in
          do l <- allMatches fuel r b next (Some j);
          Ret (if accept then (i, j, g) :: l else l)
      end
  end.

(* b[i:j], i <= j <= len(b) *)
Definition cut (b : bytes) (i j : nat) : bytes := firstn (j - i) (skipn i b).

(* Regexp.replaceAll, as used by ReplaceAllLiteral with an empty replacement *)
Fixpoint replaceAll (fuel : nat) (r : ure) (b : bytes) (lastMatchEnd searchPos : nat) : res bytes :=
  match fuel with
  | O => OutOfFuel
  | S fuel =>
      if Nat.ltb (List.length b) searchPos then Ret (skipn lastMatchEnd b)
      else match doExecute r b searchPos with
      | None => Ret (skipn lastMatchEnd b)
      | Some (i, j, _) =>
          let width := snd (DecodeRune (skipn searchPos b)) in
          let next := if Nat.ltb j (searchPos + width) then (searchPos + width)%nat
                      else if Nat.ltb j (searchPos + 1) then (searchPos + 1)%nat else j in
          do t <- replaceAll fuel r b j next;
          Ret (cut b lastMatchEnd i ++ t)
      end
  end.

(* ---- tools/snake2camel/snake2camel.go --------------------------------------------------- *)
Definition in_range (lo hi : N) (c : N) : bool := (lo <=? c) && (c <=? hi).
Definition u_dot (c : N) : bool := negb (c =? 10).
Definition u_az := in_range 97 122.
Definition u_09 := in_range 48 57.
Definition u_alnum (c : N) : bool := in_range 97 122 c || in_range 65 90 c || in_range 48 57 c.
Definition is_rune (a : byte) (c : N) : bool := c =? Byte.to_N a.

(* snake2camel.go:38 *)
Definition u_snake : ure :=
  UCat (UGroup 1 (UStar u_dot))
 (UCat (UGroup 2 (UCat (UCls u_az) (UCat (UStar u_az) (UStar u_09))))
 (UCat (UCls (is_rune "_"))
 (UCat (UGroup 3 (UCls u_alnum))
       (UGroup 4 (UStar u_dot))))).

(* snake2camel.go:16-35: the loop over the matches, result and lastIndex *)
Fixpoint submatches (b : bytes) (repl : list (nat * bytes) -> bytes) (lastIndex : nat)
    (l : list (nat * nat * list (nat * bytes))) : bytes * nat :=
  match l with
  | [] => (skipn lastIndex b, lastIndex)
  | (i, j, g) :: l => let (t, e) := submatches b repl j l in (cut b lastIndex i ++ repl g ++ t, e)
  end.
Definition go_replaceAllStringSubmatchFunc (r : ure) (b : bytes) (repl : list (nat * bytes) -> bytes) : res (bytes * nat) :=
  do l <- allMatches (List.length b + 2) r b 0 None;
  Ret (submatches b repl 0 l).

(* snake2camel.go:37-49 *)
Fixpoint go_snake_loop (fuel : nat) (str : bytes) : res bytes :=
  match fuel with
  | O => OutOfFuel
  | S fuel =>
      do k <- go_replaceAllStringSubmatchFunc u_snake str snake_repl;
      if Nat.eqb (snd k) 0 then Ret (fst k) else go_snake_loop fuel (fst k)
  end.
Definition go_snake2camel (content : bytes) : res bytes := go_snake_loop (S (List.length content)) content.

(* ---- tools/removecomments/removecomments.go ---------------------------------------------- *)
(* \s: tab, newline, form feed, carriage return, blank *)
Definition u_space (c : N) : bool := (c =? 9) || (c =? 10) || (c =? 12) || (c =? 13) || (c =? 32).
Definition u_lit (w : string) (k : ure) : ure := fold_right (fun b k => UCat (UCls (is_rune b)) k) k (B w).
(* removecomments.go:23 `(?m)^\s*//line.*$\r?\n?` *)
Definition u_comment : ure :=
  UCat UBol (UCat (UStar u_space) (u_lit "//line"
    (UCat (UStar u_dot) (UCat UEol (UCat (UOpt (is_rune "013")) (UOpt (is_rune "010"))))))).
(* removecomments.go:25-27 *)
Definition go_removeComments (src : bytes) : res bytes :=
  replaceAll (List.length src + 2) u_comment src 0 0.

Example go_snake_runes : go_snake2camel (B "é_ü a_é st_case_1 €_x ö1_y a_b") = Ret (B "é_ü a_é stCase1 €_x ö1_y aB").
Proof. vm_compute. reflexivity. Qed.
Example go_snake_bad : go_snake2camel ([xff; xc3] ++ B "a_b" ++ [xe2; x82] ++ B "c_d")
  = Ret ([xff; xc3] ++ B "aB" ++ [xe2; x82] ++ B "cD").
Proof. vm_compute. reflexivity. Qed.
Example go_remove_runes : go_removeComments (txt ["é"; "	//line ü.rl:1"; "€ //line"; "//line"]%string) = Ret (txt ["é"; "€ //line"; ""]%string).
Proof. vm_compute. reflexivity. Qed.
