(* Model of the JSON methods: urn.go:95-113, urn8141.go:14-31, scim.go:20-39, and of the
   part of encoding/json they use (json.Marshal of a string, json.Unmarshal into a
   *string).  encoding/json is not in /repo: its documented behaviour (Go 1.18 and
   later) is modelled here and belongs to the trusted base. *)
From Verif Require Import GoBase MachineSyntax MachineTables Machine Errors Urn.
Local Open Scope N_scope.

Definition rng (lo hi : N) (b : byte) : bool := (lo <=? Byte.to_N b) && (Byte.to_N b <=? hi).

(* ---- UTF-8 ------------------------------------------------------------------------ *)
(* unicode/utf8 DecodeRune: length of the well-formed sequence at the head of s, 0 when
   the head is an ASCII byte or starts no well-formed sequence (RuneError, size 1) *)
Definition utf8_len (s : bytes) : nat :=
  let tl := rng 128 191 in
  match s with
  | a :: b :: r =>
      if rng 194 223 a && tl b then 2%nat
      else match r with
      | c :: r =>
          if (rng 224 224 a && rng 160 191 b || rng 237 237 a && rng 128 159 b ||
              (rng 225 236 a || rng 238 239 a) && tl b) && tl c then 3%nat
          else match r with
          | d :: _ =>
              if (rng 240 240 a && rng 144 191 b || rng 241 243 a && tl b || rng 244 244 a && rng 128 143 b)
                 && tl c && tl d then 4%nat else 0%nat
          | [] => 0%nat
          end
      | [] => 0%nat
      end
  | _ => 0%nat
  end.

Definition nb (n : N) : byte := match Byte.of_N n with Some b => b | None => x00 end.
(* utf8.EncodeRune for a code point below 0x110000 that is no surrogate *)
Definition utf8_enc (n : N) : bytes :=
  if n <? 128 then [nb n]
  else if n <? 2048 then [nb (192 + n / 64); nb (128 + n mod 64)]
  else if n <? 65536 then [nb (224 + n / 4096); nb (128 + n / 64 mod 64); nb (128 + n mod 64)]
  else [nb (240 + n / 262144); nb (128 + n / 4096 mod 64); nb (128 + n / 64 mod 64); nb (128 + n mod 64)].
(* U+FFFD *)
Definition repl : bytes := [xef; xbf; xbd].

(* ---- json.Marshal of a string ------------------------------------------------------ *)
Definition hexd (n : N) : byte := if n <? 10 then nb (48 + n) else nb (87 + n).
(* one ASCII byte, with HTML escaping.  newer: Go 1.22 and later write backspace and
   form feed as \b and \f, earlier versions as \u0008 and \u000c *)
Definition jenc1 (newer : bool) (b : byte) : bytes :=
  let n := Byte.to_N b in
  if (n =? 34) || (n =? 92) then ["\"%byte; b]
  else if n =? 10 then B "\n"
  else if n =? 13 then B "\r"
  else if n =? 9 then B "\t"
  else if newer && (n =? 8) then B "\b"
  else if newer && (n =? 12) then B "\f"
  else if (n <? 32) || (n =? 60) || (n =? 62) || (n =? 38) then B "\u00" ++ [hexd (n / 16); hexd (n mod 16)]
  else [b].
Fixpoint jenc (newer : bool) (fuel : nat) (s : bytes) : bytes :=
  match fuel with
  | O => []
  | S fuel =>
      match s with
      | [] => []
      | b :: r =>
          if Byte.to_N b <? 128 then jenc1 newer b ++ jenc newer fuel r
          else match utf8_len s with
               | O => (B "\u" ++ B "fffd") ++ jenc newer fuel r
               | n => (if bytes_eqb (firstn n s) [xe2; x80; xa8] then B "\u" ++ B "2028"
                       else if bytes_eqb (firstn n s) [xe2; x80; xa9] then B "\u" ++ B "2029"
                       else firstn n s) ++ jenc newer fuel (skipn n s)
               end
      end
  end.
(* json.Marshal(s); never fails on a string *)
Definition json_Marshal (newer : bool) (s : bytes) : bytes :=
  ["034"%byte] ++ jenc newer (List.length s) s ++ ["034"%byte].

(* ---- json.Unmarshal into a *string -------------------------------------------------- *)
Definition hexv (b : byte) : option N :=
  let n := Byte.to_N b in
  if rng 48 57 b then Some (n - 48)
  else if rng 65 70 b then Some (n - 55)
  else if rng 97 102 b then Some (n - 87)
  else None.
(* getu4: the four hexadecimal digits after \u *)
Definition hex4 (s : bytes) : option (N * bytes) :=
  match s with
  | a :: b :: c :: d :: r =>
      match hexv a, hexv b, hexv c, hexv d with
      | Some a, Some b, Some c, Some d => Some (((a * 16 + b) * 16 + c) * 16 + d, r)
      | _, _, _, _ => None
      end
  | _ => None
  end.
(* what follows \u: the bytes denoted and the rest *)
Definition junicode (s : bytes) : option (bytes * bytes) :=
  match hex4 s with
  | None => None
  | Some (n, r) =>
      if (n <? 55296) || (57343 <? n) then Some (utf8_enc n, r)
      else
        let lone := Some (repl, r) in
        match r with
        | x :: y :: r' =>
            if Byte.eqb x "\" && Byte.eqb y "u" then
              match hex4 r' with
              | Some (n', r2) =>
                  if (n <? 56320) && (56320 <=? n') && (n' <=? 57343)
                  then Some (utf8_enc (65536 + (n - 55296) * 1024 + (n' - 56320)), r2)
                  else lone
              | None => lone
              end
            else lone
        | _ => lone
        end
  end.
Definition jescape (e : byte) : option byte :=
  if Byte.eqb e "034" then Some "034"%byte
  else if Byte.eqb e "\" then Some "\"%byte
  else if Byte.eqb e "/" then Some "/"%byte
  else if Byte.eqb e "b" then Some "008"%byte
  else if Byte.eqb e "f" then Some "012"%byte
  else if Byte.eqb e "n" then Some "010"%byte
  else if Byte.eqb e "r" then Some "013"%byte
  else if Byte.eqb e "t" then Some "009"%byte
  else None.
Definition ocat (w : bytes) (k : option (bytes * bytes)) : option (bytes * bytes) :=
  match k with Some (v, r) => Some (w ++ v, r) | None => None end.
(* body of a string literal, after the opening quote: the string denoted and what
   follows the closing quote; None: malformed.  scanner.go stateInString..stateInStringEscU123
   and decode.go unquoteBytes in one pass *)
Fixpoint jdec (fuel : nat) (s : bytes) : option (bytes * bytes) :=
  match fuel with
  | O => None
  | S fuel =>
      match s with
      | [] => None
      | c :: r =>
          if Byte.eqb c "034" then Some ([], r)
          else if Byte.eqb c "\" then
            match r with
            | [] => None
            | e :: r =>
                if Byte.eqb e "u" then
                  match junicode r with Some (w, r) => ocat w (jdec fuel r) | None => None end
                else match jescape e with Some d => ocat [d] (jdec fuel r) | None => None end
            end
          else if Byte.to_N c <? 32 then None
          else if Byte.to_N c <? 128 then ocat [c] (jdec fuel r)
          else match utf8_len s with
               | O => ocat repl (jdec fuel r)
               | n => ocat (firstn n s) (jdec fuel (skipn n s))
               end
      end
  end.
Definition jspace (b : byte) : bool :=
  Byte.eqb b " " || Byte.eqb b "009" || Byte.eqb b "010" || Byte.eqb b "013".
Fixpoint jtrim (s : bytes) : bytes :=
  match s with
  | c :: r => if jspace c then jtrim r else s
  | [] => []
  end.
(* json.Unmarshal(b, &str) with str = "": the value of str afterwards, None on an error.
   null leaves str alone.  Everything else that is valid JSON (true, false, numbers,
   arrays, objects) is an UnmarshalTypeError, everything that is not valid JSON a
   SyntaxError; both are None here, so these values need no grammar. *)
Definition json_Unmarshal (b : bytes) : option bytes :=
  match jtrim b with
  | c :: r =>
      if Byte.eqb c "034" then
        match jdec (S (List.length r)) r with
        | Some (w, rest) => match jtrim rest with [] => Some w | _ => None end
        | None => None
        end
      else if bytes_eqb (firstn 4 (c :: r)) (B "null") then
        match jtrim (skipn 4 (c :: r)) with [] => Some [] | _ => None end
      else None
  | [] => None
  end.

(* ---- the methods ---------------------------------------------------------------------- *)
(* error results: the one of encoding/json, or fmt.Errorf of a constant and str *)
Inductive jerr := JJson | JInvalid (format : string) (str : bytes).

(* urn.go:96-98 *)
Definition URN_MarshalJSON (newer : bool) (u : URN) : bytes := json_Marshal newer (URN_String u).

(* urn.go:101-113; the receiver afterwards and the error.  *value with a nil value panics *)
Definition URN_UnmarshalJSON (u : URN) (b : bytes) : res (URN * option jerr) :=
  match json_Unmarshal b with
  | None => Ret (u, Some JJson)
  | Some str =>
      do r <- Parse str [];
      let '(_, value, ok) := r in
      if negb ok then Ret (u, Some (JInvalid "invalid URN: %s" str))
      else match value with
           | None => Panic
           | Some value => Ret (value, None)
           end
  end.

(* urn8141.go:10-12 type URN8141 struct { *URN }; None is the nil pointer *)
Definition URN8141 := option URN.
(* the promoted String method of *URN; panics on the nil pointer *)
Definition URN8141_String (u : URN8141) : res bytes :=
  match u with None => Panic | Some u => Ret (URN_String u) end.
(* urn8141.go:14-16 *)
Definition URN8141_MarshalJSON (newer : bool) (u : URN8141) : res bytes :=
  do s <- URN8141_String u; Ret (json_Marshal newer s).
(* urn8141.go:18-30 *)
Definition URN8141_UnmarshalJSON (u : URN8141) (b : bytes) : res (URN8141 * option jerr) :=
  match json_Unmarshal b with
  | None => Ret (u, Some JJson)
  | Some str =>
      do r <- Parse str [PRFC8141Only];
      let '(_, value, ok) := r in
      if negb ok then Ret (u, Some (JInvalid "invalid URN per RFC 8141: %s" str))
      else Ret (value, None)
  end.

(* scim.go:20-22 *)
Definition SCIM_MarshalJSON (newer : bool) (s : SCIM) : bytes := json_Marshal newer (SCIM_String s).
(* scim.go:24-39; value.RFC() and *value.SCIM() panic on nil *)
Definition SCIM_UnmarshalJSON (s : SCIM) (b : bytes) : res (SCIM * option jerr) :=
  match json_Unmarshal b with
  | None => Ret (s, Some JJson)
  | Some str =>
      do r <- Parse str [PRFC7643Only];
      let '(_, value, ok) := r in
      if negb ok then Ret (s, Some (JInvalid "invalid SCIM URN: %s" str))
      else match value with
           | None => Panic
           | Some value =>
               if negb (RFC value =? KRFC7643)%Z then Ret (s, Some (JInvalid "invalid SCIM URN: %s" str))
               else match URN_SCIM value with None => Panic | Some s' => Ret (s', None) end
           end
  end.

(* err.Error() of the errors made in urn.go:107, urn8141.go:24, scim.go:31,34; None: the
   error is encoding/json's own *)
Definition jerr_Error (e : jerr) : option bytes :=
  match e with
  | JJson => None
  | JInvalid f str => Some (sprintf_s f str)
  end.
