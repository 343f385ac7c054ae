(* The grammars of the RFCs themselves, rule by rule in their own vocabulary.
   Literal strings of ABNF are case-insensitive (RFC 5234 section 2.3), so "urn" is. *)
From Coq Require Import NArith List Bool Init.Byte Strings.Byte Strings.String.
From Verif Require Import GoBase RegLang.
Import ListNotations.
Local Open Scope lang_scope.

(* ---- RFC 2141 section 2 ------------------------------------------------------------ *)
Definition r2_upper : lang := range "A" "Z".
Definition r2_lower : lang := range "a" "z".
Definition r2_number : lang := range "0" "9".
Definition r2_let_num : lang := r2_upper ||| r2_lower ||| r2_number.
Definition r2_let_num_hyp : lang := r2_upper ||| r2_lower ||| r2_number ||| lit "-".
(* <NID> ::= <let-num> [ 1,31<let-num-hyp> ] *)
Definition r2_NID : lang := r2_let_num ;; opt (rep 1 31 r2_let_num_hyp).
Definition r2_hex : lang := r2_number ||| range "A" "F" ||| range "a" "f".
Definition r2_other : lang :=
  lit "(" ||| lit ")" ||| lit "+" ||| lit "," ||| lit "-" ||| lit "." ||| lit ":" ||| lit "=" |||
  lit "@" ||| lit ";" ||| lit "$" ||| lit "_" ||| lit "!" ||| lit "*" ||| lit "'".
Definition r2_reserved : lang := lit "%" ||| lit "/" ||| lit "?" ||| lit "#".
Definition r2_trans : lang := r2_upper ||| r2_lower ||| r2_number ||| r2_other ||| r2_reserved.
Definition r2_URN_chars : lang := r2_trans ||| lit "%" ;; r2_hex ;; r2_hex.
(* <NSS> ::= 1*<URN chars> *)
Definition r2_NSS : lang := plus r2_URN_chars.
(* the leading "urn:" in any case *)
Definition r2_urn : lang := chars "uU" ;; chars "rR" ;; chars "nN".
Definition r2_URN : lang := r2_urn ;; lit ":" ;; r2_NID ;; lit ":" ;; r2_NSS.

(* section 2.3.2: "/", "?", "#" and a bare "%" are reserved and SHOULD NOT be used; section
   2.1: the NID "urn" is reserved and MUST NOT be used *)
Definition r2_NSS_strict : lang :=
  plus (r2_upper ||| r2_lower ||| r2_number ||| r2_other ||| lit "%" ;; r2_hex ;; r2_hex).
Definition r2_NID_strict : lang := r2_NID --- r2_urn.
Definition r2_URN_strict : lang := r2_urn ;; lit ":" ;; r2_NID_strict ;; lit ":" ;; r2_NSS_strict.

(* ---- RFC 7643 section 10.2.1: urn:ietf:params:scim:{type}:{name}{:other} ------------- *)
(* name and other are strings of RFC 2141 NSS characters; the colon separates *)
Definition r7_type : lang := lit "schemas" ||| lit "api" ||| lit "param".
Definition r7_URN : lang :=
  r2_urn ;; lit ":ietf:params:scim:" ;; r7_type ;; lit ":" ;; r2_NSS_strict.
(* those whose name is alphanumeric *)
Definition r7_URN_alnum : lang :=
  r2_urn ;; lit ":ietf:params:scim:" ;; r7_type ;; lit ":" ;; plus r2_let_num ;; opt (lit ":" ;; r2_NSS_strict).

(* ---- RFC 8141 section 2, with RFC 3986 appendix A ------------------------------------ *)
Definition r8_ALPHA : lang := range "A" "Z" ||| range "a" "z".
Definition r8_DIGIT : lang := range "0" "9".
Definition r8_HEXDIG : lang := r8_DIGIT ||| range "A" "F" ||| range "a" "f".
Definition r8_alphanum : lang := r8_ALPHA ||| r8_DIGIT.
Definition r8_unreserved : lang := r8_ALPHA ||| r8_DIGIT ||| lit "-" ||| lit "." ||| lit "_" ||| lit "~".
Definition r8_sub_delims : lang :=
  lit "!" ||| lit "$" ||| lit "&" ||| lit "'" ||| lit "(" ||| lit ")" ||| lit "*" ||| lit "+" ||| lit "," ||| lit ";" ||| lit "=".
Definition r8_pct_encoded : lang := lit "%" ;; r8_HEXDIG ;; r8_HEXDIG.
Definition r8_pchar : lang := r8_unreserved ||| r8_pct_encoded ||| r8_sub_delims ||| lit ":" ||| lit "@".
(* NID = (alphanum) 0*30(ldh) (alphanum);  ldh = alphanum / "-" *)
Definition r8_ldh : lang := r8_alphanum ||| lit "-".
Definition r8_NID : lang := r8_alphanum ;; rep 0 30 r8_ldh ;; r8_alphanum.
Definition r8_NSS : lang := r8_pchar ;; star (r8_pchar ||| lit "/").
Definition r8_assigned_name : lang := chars "uU" ;; chars "rR" ;; chars "nN" ;; lit ":" ;; r8_NID ;; lit ":" ;; r8_NSS.
Definition r8_r_component : lang := r8_pchar ;; star (r8_pchar ||| lit "/" ||| lit "?").
Definition r8_q_component : lang := r8_pchar ;; star (r8_pchar ||| lit "/" ||| lit "?").
(* rq-components = [ "?+" r-component ] [ "?=" q-component ] *)
Definition r8_rq_components : lang := opt (lit "?+" ;; r8_r_component) ;; opt (lit "?=" ;; r8_q_component).
(* f-component = fragment of RFC 3986 *)
Definition r8_f_component : lang := star (r8_pchar ||| lit "/" ||| lit "?").
(* namestring = assigned-name [ rq-components ] [ "#" f-component ] *)
Definition r8_namestring : lang := r8_assigned_name ;; opt r8_rq_components ;; opt (lit "#" ;; r8_f_component).

(* ---- conditions under which the code and the RFCs agree -------------------------------- *)
(* every percent sign is followed by two hexadecimal digits *)
Definition hex_ok (s : bytes) : Prop :=
  forall x y, s = x ++ "%"%byte :: y -> exists a b y', y = a :: b :: y' /\ r8_HEXDIG [a] /\ r8_HEXDIG [b].
(* the part of s before the first "#" contains k at most once *)
Definition once (k : string) (s : bytes) : Prop :=
  forall x y z, s = x ++ B k ++ y ++ B k ++ z -> In "#"%byte (x ++ y).
(* the NID starts with "urn-" and a letter or "0" *)
Definition informal_name (s : bytes) : Prop :=
  exists p u c t, s = p ++ ":"%byte :: u ++ "-"%byte :: c :: t /\ r2_urn p /\ r2_urn u /\ (r8_ALPHA [c] \/ c = "0"%byte).
