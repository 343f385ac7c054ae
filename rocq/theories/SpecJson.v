(* JSON string literals, RFC 8259 section 7, and UTF-8, RFC 3629, independent of the
   decoder of Json.v: which text denotes which string.  Two rules are Go's own, because
   a Go string is any sequence of bytes: a byte that belongs to no UTF-8 sequence and an
   escaped surrogate without its partner stand for U+FFFD. *)
From Verif Require Import GoBase.
Local Open Scope N_scope.

(* Unicode scalar values *)
Definition surrogate (n : N) : Prop := 55296 <= n <= 57343.
Definition scalar (n : N) : Prop := n <= 1114111 /\ ~ surrogate n.

(* continuation byte with value x *)
Definition cont (b : byte) (x : N) : Prop := Byte.to_N b = 128 + x /\ x < 64.
(* v is the UTF-8 form of the scalar value n (RFC 3629 section 3; shortest form only) *)
Definition utf8 (n : N) (v : bytes) : Prop :=
  scalar n /\
  ((exists a, v = [a] /\ n < 128 /\ Byte.to_N a = n) \/
   (exists a b x y, v = [a; b] /\ 128 <= n < 2048 /\ Byte.to_N a = 192 + x /\ cont b y /\ n = x * 64 + y) \/
   (exists a b c x y z, v = [a; b; c] /\ 2048 <= n < 65536 /\ Byte.to_N a = 224 + x /\ cont b y /\ cont c z /\
      n = (x * 64 + y) * 64 + z) \/
   (exists a b c d x y z t, v = [a; b; c; d] /\ 65536 <= n /\ Byte.to_N a = 240 + x /\ cont b y /\ cont c z /\ cont d t /\
      n = ((x * 64 + y) * 64 + z) * 64 + t)).

(* four hexadecimal digits *)
Definition digit (b : byte) (n : N) : Prop :=
  (Byte.to_N b = 48 + n /\ n < 10) \/ (Byte.to_N b = 55 + n /\ 10 <= n < 16) \/ (Byte.to_N b = 87 + n /\ 10 <= n < 16).
Definition four (h : bytes) (n : N) : Prop :=
  exists a b c d x y z t, h = [a; b; c; d] /\ digit a x /\ digit b y /\ digit c z /\ digit d t /\
    n = ((x * 16 + y) * 16 + z) * 16 + t.

(* the two-character escapes *)
Definition short (e d : byte) : Prop :=
  (e = x22 /\ d = x22) \/ (e = "\"%byte /\ d = "\"%byte) \/ (e = "/"%byte /\ d = "/"%byte) \/ (e = "b"%byte /\ d = x08) \/
  (e = "f"%byte /\ d = x0c) \/ (e = "n"%byte /\ d = x0a) \/ (e = "r"%byte /\ d = x0d) \/ (e = "t"%byte /\ d = x09).
Definition u_escape (h : bytes) : bytes := "\"%byte :: "u"%byte :: h.
(* U+FFFD *)
Definition replacement : bytes := [xef; xbf; xbd].
(* a high surrogate and the escape of a low one *)
Definition pair_after (n : N) (t : bytes) : Prop :=
  55296 <= n <= 56319 /\ exists h m z, t = u_escape h ++ z /\ four h m /\ 56320 <= m <= 57343.

(* body t w: the text t between two quotation marks denotes the string w *)
Inductive body : bytes -> bytes -> Prop :=
| body_nil : body [] []
| body_ascii c t w : 32 <= Byte.to_N c < 128 -> c <> x22 -> c <> "\"%byte -> body t w -> body (c :: t) (c :: w)
| body_utf8 n v t w : utf8 n v -> 128 <= n -> body t w -> body (v ++ t) (v ++ w)
| body_bad c t w : 128 <= Byte.to_N c -> (forall n v z, utf8 n v -> c :: t <> v ++ z) ->
    body t w -> body (c :: t) (replacement ++ w)
| body_short e d t w : short e d -> body t w -> body ("\"%byte :: e :: t) (d :: w)
| body_u n h v t w : four h n -> utf8 n v -> body t w -> body (u_escape h ++ t) (v ++ w)
| body_pair n m h h' v t w : four h n -> 55296 <= n <= 56319 -> four h' m -> 56320 <= m <= 57343 ->
    utf8 (65536 + (n - 55296) * 1024 + (m - 56320)) v -> body t w -> body (u_escape h ++ u_escape h' ++ t) (v ++ w)
| body_lone n h t w : four h n -> surrogate n -> ~ pair_after n t -> body t w -> body (u_escape h ++ t) (replacement ++ w).

(* insignificant white space, section 2 *)
Definition white (s : bytes) : Prop := Forall (fun c => c = " "%byte \/ c = x09 \/ c = x0a \/ c = x0d) s.

(* a document that is a string denoting w, or null *)
Definition string_doc (b w : bytes) : Prop :=
  exists l t r, b = l ++ [x22] ++ t ++ [x22] ++ r /\ white l /\ white r /\ body t w.
Definition null_doc (b : bytes) : Prop :=
  exists l r, b = l ++ B "null" ++ r /\ white l /\ white r.

(* s with every byte outside its UTF-8 sequences replaced *)
Inductive clean : bytes -> bytes -> Prop :=
| clean_nil : clean [] []
| clean_utf8 n v s w : utf8 n v -> clean s w -> clean (v ++ s) (v ++ w)
| clean_bad c s w : (forall n v z, utf8 n v -> c :: s <> v ++ z) -> clean s w -> clean (c :: s) (replacement ++ w).
(* s is UTF-8 throughout *)
Inductive utf8_text : bytes -> Prop :=
| text_nil : utf8_text []
| text_cons n v s : utf8 n v -> utf8_text s -> utf8_text (v ++ s).
