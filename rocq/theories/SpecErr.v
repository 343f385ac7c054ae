(* Independent specification of the errors: which error, at which column, for which
   text.  Only texts, character classes and the names of the error constants occur. *)
From Verif Require Import GoBase MachineSyntax Machine Spec.
Local Open Scope Z_scope.

(* x is a proper beginning of one of the words and the next byte of the text, if any,
   continues none of them; the text is x ++ y *)
Definition stuck (words : list bytes) (x y : bytes) : Prop :=
  (exists w v, In w words /\ w = x ++ v /\ v <> []) /\
  (forall c y' w v, y = c :: y' -> In w words -> w <> x ++ c :: v).

(* y is at its end, or its first byte has the property *)
Definition stops (P : byte -> Prop) (y : bytes) : Prop :=
  y = [] \/ exists c y', y = c :: y' /\ P c.
Definition at_char (P : byte -> Prop) (y : bytes) : Prop :=
  exists c y', y = c :: y' /\ P c.

(* x is a beginning of a NID and the text cannot go on after it *)
Definition nid_stuck (x y : bytes) : Prop :=
  (x = [] /\ stops (fun c => alnum c = false) y) \/
  (head_in alnum x /\ forallb nid_char x = true /\ (List.length x <= 32)%nat /\
   stops (fun c => c <> ":"%byte /\ (nid_char c = false \/ List.length x = 32%nat)) y).

(* the ways an escaped string can go wrong *)
Inductive escstop := Missing | Illegal | AfterEsc | BadEsc | CutEsc.
Definition ends_esc (x : bytes) : Prop := exists w a b, x = w ++ ["%"%byte; a; b].
(* x = a good escaped string, then "%" or "%" and one good character *)
Definition half_esc (cls : byte -> bool) (x : bytes) : Prop :=
  exists w t, x = w ++ "%"%byte :: t /\ escaped alnum cls w /\ (t = [] \/ exists a, t = [a] /\ alnum a = true).
Definition esc_stuck (cls : byte -> bool) (why : escstop) (x y : bytes) : Prop :=
  match why with
  | Missing => x = [] /\ y = []
  | Illegal => escaped alnum cls x /\ ~ ends_esc x /\ at_char (fun c => c <> "%"%byte /\ cls c = false) y
  | AfterEsc => escaped alnum cls x /\ ends_esc x /\ at_char (fun c => c <> "%"%byte /\ cls c = false) y
  | BadEsc => half_esc cls x /\ at_char (fun c => alnum c = false) y
  | CutEsc => half_esc cls x /\ y = []
  end.

Definition prefix_err (s : bytes) (e : perr) : Prop :=
  exists x y, s = x ++ y /\ stuck [B "urn:"] (lowers x) (lowers y) /\ e = mkErr ErrPrefix (zlen x).

(* errors of RFC 2141 mode *)
Definition err2141 (s : bytes) (e : perr) : Prop :=
  prefix_err s e \/
  (exists p r, s = p ++ colon ++ r /\ urn_word p /\ u_lookahead s /\ e = mkErr ErrNoUrnWithinID 7) \/
  (exists p x y, s = p ++ colon ++ x ++ y /\ urn_word p /\ ~ u_lookahead s /\ nid_stuck x y /\
     e = mkErr ErrIdentifier (4 + zlen x)) \/
  (exists p nid x y why, s = p ++ colon ++ nid ++ colon ++ x ++ y /\ urn_word p /\ ~ u_lookahead s /\ nid2141 nid /\
     esc_stuck sss why x y /\
     e = mkErr (match why with Missing | Illegal => ErrSpecificString | _ => ErrHex end) (5 + zlen nid + zlen x)).

(* errors of SCIM mode *)
Definition errscim (s : bytes) (e : perr) : Prop :=
  prefix_err s e \/
  (exists p x y, s = p ++ colon ++ x ++ y /\ urn_word p /\ stuck [scim_nid ++ colon] x y /\
     e = mkErr ErrSCIMNamespace (4 + zlen x)) \/
  (exists p x y, s = p ++ colon ++ scim_nid ++ colon ++ x ++ y /\ urn_word p /\
     stuck [B "schemas:"; B "api:"; B "param:"] x y /\
     e = mkErr ErrSCIMType (21 + zlen x)) \/
  (exists p t x y, s = p ++ colon ++ scim_nid ++ colon ++ t ++ colon ++ x ++ y /\ urn_word p /\ scim_type t /\
     forallb alnum x = true /\
     ((x = [] /\ stops (fun c => alnum c = false) y) \/ (x <> [] /\ at_char (fun c => alnum c = false /\ c <> ":"%byte) y)) /\
     e = mkErr ErrSCIMName (22 + zlen t + zlen x)) \/
  (exists p t name x y why,
     s = p ++ colon ++ scim_nid ++ colon ++ t ++ colon ++ name ++ colon ++ x ++ y /\ urn_word p /\ scim_type t /\
     scim_name name /\ esc_stuck sss why x y /\
     e = match why with
         | Missing | CutEsc => mkErr ErrSCIMOtherIncomplete (22 + zlen t + zlen name + zlen x)
         | _ => mkErr ErrSCIMOther (23 + zlen t + zlen name + zlen x)
         end).
