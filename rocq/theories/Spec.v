(* Independent specification: the grammars of the three parsing modes, the
   percent-escape normal form and lexical equivalence, as predicates on byte strings.
   No state number, table or model function occurs here; the only imports are byte
   strings and literals. *)
From Coq Require Import NArith List Bool Init.Byte Strings.Byte Strings.String.
From Verif Require Import GoBase.
Import ListNotations.

(* ---- character classes ---------------------------------------------------- *)
Definition in_range (lo hi : byte) (b : byte) : bool :=
  N.leb (Byte.to_N lo) (Byte.to_N b) && N.leb (Byte.to_N b) (Byte.to_N hi).
Definition one_of (s : string) (b : byte) : bool := existsb (Byte.eqb b) (B s).

Definition digit := in_range "0" "9".
Definition upper := in_range "A" "Z".
Definition lower := in_range "a" "z".
Definition alnum (b : byte) : bool := digit b || upper b || lower b.
Definition hexdig (b : byte) : bool := digit b || in_range "A" "F" b || in_range "a" "f" b.
(* RFC 2141 <let-num-hyp> *)
Definition nid_char (b : byte) : bool := alnum b || Byte.eqb b "-".
(* RFC 2141 <trans> without "%" *)
Definition sss (b : byte) : bool := alnum b || one_of "()+,-.:=@;$_!*'" b.
(* RFC 3986 pchar without "%" *)
Definition pchar (b : byte) : bool := sss b || one_of "~&" b.
Definition pchar_slash (b : byte) : bool := pchar b || Byte.eqb b "/".
Definition frag_char (b : byte) : bool := pchar b || one_of "/?" b.

(* ---- lower-casing ---------------------------------------------------------- *)
Definition low (b : byte) : byte :=
  if upper b then match Byte.of_N (Byte.to_N b + 32) with Some c => c | None => b end else b.
Definition lowers (s : bytes) : bytes := map low s.

(* ---- escaped strings -------------------------------------------------------- *)
(* A sequence of plain characters of class [cls] and percent escapes: "%" followed
   by two characters of class [esc]. *)
Inductive escaped (esc cls : byte -> bool) : bytes -> Prop :=
| esc_nil : escaped esc cls []
| esc_plain c w : cls c = true -> escaped esc cls w -> escaped esc cls (c :: w)
| esc_pct a b w : esc a = true -> esc b = true -> escaped esc cls w ->
                  escaped esc cls ("%"%byte :: a :: b :: w).

(* Lower-case exactly the two characters after each "%". *)
Fixpoint norm_pct (w : bytes) : bytes :=
  match w with
  | [] => []
  | c :: r =>
      if Byte.eqb c "%" then
        match r with
        | a :: b :: r' => c :: low a :: low b :: norm_pct r'
        | _ => w
        end
      else c :: norm_pct r
  end.

Definition head_in (cls : byte -> bool) (w : bytes) : Prop :=
  exists c r, w = c :: r /\ cls c = true.
Definition colon : bytes := [":"%byte].

(* ---- prefix ------------------------------------------------------------------ *)
(* "urn" in any case *)
Definition urn_word (w : bytes) : Prop := lowers w = B "urn".

(* ---- RFC 2141 ---------------------------------------------------------------- *)
Definition nid2141 (w : bytes) : Prop :=
  (1 <= List.length w <= 32)%nat /\ head_in alnum w /\ forallb nid_char w = true /\ ~ urn_word w.

(* NSS over an escape class: the RFC says hexdig, the code says alnum. *)
Definition nss2141 (esc : byte -> bool) (w : bytes) : Prop :=
  w <> [] /\ escaped esc sss w.

(* s is  prefix ":" nid ":" nss *)
Definition urn2141 (esc : byte -> bool) (s prefix nid nss : bytes) : Prop :=
  s = prefix ++ colon ++ nid ++ colon ++ nss /\
  urn_word prefix /\ nid2141 nid /\ nss2141 esc nss.

(* The inputs the code refuses although the grammar admits them: the NID begins with
   u or U and the byte at offset 7 is a colon. *)
Definition u_lookahead (s : bytes) : Prop :=
  exists c, nth_error s 4 = Some c /\ low c = "u"%byte /\ nth_error s 7 = Some ":"%byte.

(* ---- RFC 7643 (SCIM) ---------------------------------------------------------- *)
Definition scim_nid : bytes := B "ietf:params:scim".
Definition scim_type (t : bytes) : Prop := t = B "schemas" \/ t = B "api" \/ t = B "param".
Definition scim_name (w : bytes) : Prop := w <> [] /\ forallb alnum w = true.
Definition scim_other (w : bytes) : Prop := w <> [] /\ escaped alnum sss w.
(* the optional last part, with its colon; [] when absent *)
Definition scim_tail (other : bytes) : bytes :=
  match other with [] => [] | _ => colon ++ other end.
Definition scim_ss (t name other : bytes) : bytes := t ++ colon ++ name ++ scim_tail other.

Definition urnscim (s prefix t name other : bytes) : Prop :=
  s = prefix ++ colon ++ scim_nid ++ colon ++ scim_ss t name other /\
  urn_word prefix /\ scim_type t /\ scim_name name /\ (other = [] \/ scim_other other).

(* ---- RFC 8141 ------------------------------------------------------------------ *)
Definition informal (w : bytes) : Prop :=
  exists u c r, w = u ++ "-"%byte :: c :: r /\ urn_word u /\
                (c = "0"%byte \/ upper c = true \/ lower c = true).
Definition nid8141 (w : bytes) : Prop :=
  (2 <= List.length w <= 32)%nat /\ forallb nid_char w = true /\
  head_in alnum w /\ (exists c r, w = r ++ [c] /\ alnum c = true) /\ ~ informal w.
Definition nss8141 (w : bytes) : Prop :=
  escaped alnum pchar_slash w /\ exists c r, w = c :: r /\ c <> "/"%byte.
Definition component (w : bytes) : Prop :=
  escaped alnum frag_char w /\ exists c r, w = c :: r /\ c <> "/"%byte /\ c <> "?"%byte.
Definition fragment (w : bytes) : Prop := escaped alnum frag_char w.

(* inside an r-component, "?+" only occurs before "/", and "?=" only before "/", "?"
   or the end of the component (any other "?=" starts the q-component) *)
Definition r_component (w : bytes) : Prop :=
  component w /\
  (forall x y, w = x ++ B "?+" ++ y -> exists y', y = "/"%byte :: y') /\
  (forall x y, w = x ++ B "?=" ++ y -> y = [] \/ (exists y', y = "/"%byte :: y') \/ (exists y', y = "?"%byte :: y')).
(* inside a q-component, "?=" only occurs before "/" *)
Definition q_component (w : bytes) : Prop :=
  component w /\
  (forall x y, w = x ++ B "?=" ++ y -> exists y', y = "/"%byte :: y').

(* optional parts: None when absent *)
Definition opt_part (intro : bytes) (w : option bytes) : bytes :=
  match w with None => [] | Some w => intro ++ w end.
Definition opt_ok (P : bytes -> Prop) (w : option bytes) : Prop :=
  match w with None => True | Some w => P w end.
Definition opt_val (w : option bytes) : bytes :=
  match w with None => [] | Some w => w end.

Definition tail8141 (r q f : option bytes) : bytes :=
  opt_part (B "?+") r ++ opt_part (B "?=") q ++ opt_part (B "#") f.

Definition urn8141 (s prefix nid nss : bytes) (r q f : option bytes) : Prop :=
  s = prefix ++ colon ++ nid ++ colon ++ nss ++ tail8141 r q f /\
  urn_word prefix /\ nid8141 nid /\ nss8141 nss /\
  opt_ok r_component r /\ opt_ok q_component q /\ opt_ok fragment f.

(* The prefix the code reports: "urn" as written at the start of the NID when the NID
   begins with "urn-" (in any case), the prefix of the text otherwise. *)
Definition urn_dash (nid w : bytes) : Prop := urn_word w /\ exists r, nid = w ++ "-"%byte :: r.
Definition shown_prefix (prefix nid out : bytes) : Prop :=
  urn_dash nid out \/ ((forall w, ~ urn_dash nid w) /\ out = prefix).

(* The inputs RFC 8141 mode rejects without reporting an error: after a complete
   prefix:NID:NSS a "?" that opens no component, or an illegal character in the
   fragment that does not directly follow a percent escape. *)
Definition silent8141 (s : bytes) : Prop :=
  (exists prefix nid nss t,
     s = prefix ++ colon ++ nid ++ colon ++ nss ++ "?"%byte :: t /\
     urn_word prefix /\ nid8141 nid /\ nss8141 nss /\
     (forall c r, t = c :: r -> c <> "+"%byte /\ c <> "="%byte)) \/
  (exists s0 prefix nid nss r q g c h,
     urn8141 s0 prefix nid nss r q None /\ s = s0 ++ "#"%byte :: g ++ c :: h /\
     fragment g /\ frag_char c = false /\ c <> "%"%byte /\
     (forall g' a b, g <> g' ++ ["%"%byte; a; b])).

(* ---- lexical equivalence ---------------------------------------------------------- *)
(* Two assigned names are lexically equivalent when they agree after lower-casing the
   prefix, the NID and the percent escapes of the NSS (RFC 2141 section 5, RFC 8141
   section 3.1). *)
Definition lex_equiv (nid1 nss1 nid2 nss2 : bytes) : Prop :=
  lowers nid1 = lowers nid2 /\ norm_pct nss1 = norm_pct nss2.

(* ---- vocabulary of the property statements -------------------------------------- *)
(* an empty prefix is shown as "urn" *)
Definition or_urn (prefix : bytes) : bytes := match prefix with [] => B "urn" | c :: r => c :: r end.
(* the text String() must produce *)
Definition string_text (prefix nid nss r q f : bytes) : bytes :=
  prefix ++ colon ++ nid ++ colon ++ nss ++
  (match r with [] => [] | _ => B "?+" ++ r end) ++
  (match q with [] => [] | _ => B "?=" ++ q end) ++
  (match f with [] => [] | _ => B "#" ++ f end).
(* optional fragment without the empty one *)
Definition nonempty_opt (f : option bytes) : option bytes :=
  match f with Some [] => None | _ => f end.
(* byte i of w is one of the two bytes after a percent sign *)
Definition after_pct (w : bytes) (i : nat) : Prop :=
  (exists j, i = S j /\ nth_error w j = Some "%"%byte) \/ (exists j, i = S (S j) /\ nth_error w j = Some "%"%byte).
(* every percent sign is followed by two alphanumerics *)
Definition pct_ok (s : bytes) : Prop :=
  forall x y, s = x ++ "%"%byte :: y -> exists a b y', y = a :: b :: y' /\ alnum a = true /\ alnum b = true.
Definition url_char (b : byte) : bool := alnum b || one_of "()+,-.:=@;$_!*'%/?#~&" b.
(* no upper-case letter among the two bytes after a percent sign *)
Definition no_upper_escape (w : bytes) : Prop :=
  forall i c, nth_error w i = Some c -> after_pct w i -> upper c = false.
(* the same for the part of a text before its first "?" or "#" *)
Definition plain_escapes (s : bytes) : Prop :=
  forall h t, s = h ++ t -> ~ In "?"%byte h -> ~ In "#"%byte h -> no_upper_escape h.
