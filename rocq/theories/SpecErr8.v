(* Independent specification of the errors of RFC 8141 mode.  One principle for every
   part: the walk over a part gets as far as the text can still be the beginning of such
   a part; the error is reported there, unless the part ended properly before. *)
From Verif Require Import GoBase MachineSyntax Machine Spec SpecErr.
Local Open Scope Z_scope.

(* x is the longest beginning of x ++ y that can be completed to a text in P *)
Definition extends (P : bytes -> Prop) (x : bytes) : Prop := exists v, P (x ++ v).
Definition furthest (P : bytes -> Prop) (x y : bytes) : Prop :=
  extends P x /\ forall c y', y = c :: y' -> ~ extends P (x ++ [c]).
(* the text does not begin with a part in P after which [follow] holds *)
Definition unfinished (P follow : bytes -> Prop) (s : bytes) : Prop :=
  forall w z, s = w ++ z -> P w -> ~ follow z.

(* one of the last three bytes is a percent sign: inside an escape, or right after one *)
Definition in_esc (x : bytes) : Prop :=
  exists w t, x = w ++ "%"%byte :: t /\ (List.length t <= 2)%nat.
(* x ends in w, and the text stops after x or goes on with a character that could be
   part of a component, "%", "?" or "#" *)
Definition restart (w x y : bytes) : Prop :=
  (exists v, x = v ++ w) /\ stops (fun c => pchar c = true \/ c = "%"%byte \/ c = "?"%byte \/ c = "#"%byte) y.
(* the first of two cases that applies *)
Definition first_of (A B : Prop) (kA kB kC k : errconst) : Prop :=
  (A /\ k = kA) \/ (~ A /\ B /\ k = kB) \/ (~ A /\ ~ B /\ k = kC).

(* what ends a part *)
Definition then_colon : bytes -> Prop := at_char (fun c => c = ":"%byte).
Definition then_mark : bytes -> Prop := stops (fun c => c = "?"%byte \/ c = "#"%byte).
Definition then_hash : bytes -> Prop := stops (fun c => c = "#"%byte).
(* a "?=" that opens a q-component after an r-component *)
Definition opens_q (t : bytes) : Prop := at_char (fun c => pchar c = true \/ c = "%"%byte) t.
Definition then_q (z : bytes) : Prop := then_hash z \/ exists t, z = B "?=" ++ t /\ opens_q t.

(* "urn-" in front of "0" or a letter *)
Definition informal_here (x y : bytes) : Prop :=
  (exists u, urn_word u /\ x = u ++ B "-") /\ at_char (fun c => c = "0"%byte \/ upper c = true \/ lower c = true) y.

(* errors of RFC 8141 mode *)
Definition err8141 (s : bytes) (e : perr) : Prop :=
  prefix_err s e \/
  (* NID *)
  (exists p x y, s = p ++ colon ++ x ++ y /\ urn_word p /\
     furthest nid8141 x y /\ unfinished nid8141 then_colon (x ++ y) /\
     ((informal_here x y /\ e = mkErr Err8141InformalID 7) \/
      (~ informal_here x y /\ e = mkErr Err8141Identifier (4 + zlen x)))) \/
  (* NSS *)
  (exists p nid x y k, s = p ++ colon ++ nid ++ colon ++ x ++ y /\ urn_word p /\ nid8141 nid /\
     furthest nss8141 x y /\ unfinished nss8141 then_mark (x ++ y) /\
     first_of (in_esc x) False ErrHex ErrHex Err8141SpecificString k /\
     e = mkErr k (5 + zlen nid + zlen x)) \/
  (* r-component; a second "?+" at its very start is read before it is reported *)
  (exists p nid nss x y k, s = p ++ colon ++ nid ++ colon ++ nss ++ B "?+" ++ x ++ y /\
     urn_word p /\ nid8141 nid /\ nss8141 nss /\
     furthest (fun w => r_component w \/ w = B "?+") x y /\ unfinished r_component then_q (x ++ y) /\
     first_of (in_esc x) (restart (B "?+") x y) ErrHex Err8141RComponentStart Err8141MalformedRComp k /\
     e = mkErr k (5 + zlen nid + zlen nss + 2 + zlen x)) \/
  (* q-component; the same with "?=" *)
  (exists p nid nss r x y k, s = p ++ colon ++ nid ++ colon ++ nss ++ opt_part (B "?+") r ++ B "?=" ++ x ++ y /\
     urn_word p /\ nid8141 nid /\ nss8141 nss /\ opt_ok r_component r /\ (r = None \/ opens_q (x ++ y)) /\
     furthest (fun w => q_component w \/ w = B "?=") x y /\ unfinished q_component then_hash (x ++ y) /\
     first_of (in_esc x) (restart (B "?=") x y) ErrHex Err8141QComponentStart Err8141MalformedQComp k /\
     e = mkErr k (5 + zlen nid + zlen nss + zlen (opt_part (B "?+") r) + 2 + zlen x)) \/
  (* fragment: only broken percent escapes and what follows an escape are reported *)
  (exists s0 p nid nss r q x y, urn8141 s0 p nid nss r q None /\ s = s0 ++ "#"%byte :: x ++ y /\
     furthest fragment x y /\ ~ (fragment x /\ y = []) /\ in_esc x /\
     e = mkErr ErrHex (zlen s0 + 1 + zlen x)).
