(* What a parsing mode outside the three documented ones means, in terms of the text and
   of the answer of the mode that was set before. *)
From Verif Require Import GoBase MachineSyntax Machine Urn Spec SpecErr Api.
Local Open Scope Z_scope.

(* x is the last of the three documented modes that was set on the machine; other modes
   may have been set after it, and texts parsed *)
Inductive since (x : Z) : machine -> Prop :=
| since_set m : reachable m -> three x -> since x (machine_WithParsingMode x m)
| since_odd m y : since x m -> ~ three y -> since x (machine_WithParsingMode y m)
| since_parse m s m' uo eo : since x m -> machine_Parse m s = Ret (m', uo, eo) -> since x m'.
(* none of the three was ever set *)
Inductive never : machine -> Prop :=
| never_zero : never zero_machine
| never_odd m y : never m -> ~ three y -> never (machine_WithParsingMode y m)
| never_parse m s m' uo eo : never m -> machine_Parse m s = Ret (m', uo, eo) -> never m'.

(* two URN values no function of the package tells apart *)
Definition scim_parts (o : option SCIM) : option (Z * bytes * bytes) :=
  match o with Some s => Some (s_Type s, s_Name s, s_Other s) | None => None end.
Definition alike (u v : URN) : Prop :=
  u_ID u = u_ID v /\ u_SS u = u_SS v /\ URN_String u = URN_String v /\
  (forall uni, URN_String (Normalize uni u) = URN_String (Normalize uni v)) /\
  (forall uni x, Equal uni u x = Equal uni v x) /\ (forall uni x, Equal uni x (Some u) = Equal uni x (Some v)) /\
  RFC u = RFC v /\ IsSCIM u = IsSCIM v /\ scim_parts (URN_SCIM u) = scim_parts (URN_SCIM v) /\
  RComponent u = RComponent v /\ QComponent u = QComponent v /\ FComponent u = FComponent v.
Definition alike_opt (u v : option URN) : Prop :=
  match u, v with Some u, Some v => alike u v | None, None => True | _, _ => False end.

(* a text whose prefix is well formed and that the look-ahead of machine.go refuses *)
Definition looks_ahead (s : bytes) : Prop :=
  exists p r, s = p ++ colon ++ r /\ urn_word p /\ u_lookahead s.

(* x is the text before the reported column.  The first mark of the text opens a
   q-component: *)
Definition q_only (x : bytes) : Prop := exists a b, x = a ++ B "?=" ++ b /\ ~ In "?"%byte a.
(* a q-component and at least one character or complete escape of it were read: *)
Definition q_begun (x : bytes) : Prop :=
  exists a b, x = a ++ B "?=" ++ b /\
    (at_char (fun c => pchar c = true) b \/ exists c d t, b = "%"%byte :: c :: d :: t).

(* what is reported instead of a percent-escape error in the text after x *)
Definition instead (x : bytes) (k : option errconst) : Prop :=
  (In "#"%byte x /\ k = None) \/
  (~ In "#"%byte x /\ ~ In "?"%byte x /\ k = Some Err8141SpecificString) \/
  (~ In "#"%byte x /\ In "?"%byte x /\ (q_only x \/ q_begun x) /\ k = Some Err8141MalformedQComp) \/
  (~ In "#"%byte x /\ In "?"%byte x /\ ~ q_only x /\ ~ q_begun x /\ k = Some Err8141MalformedRComp).

(* the error e of RFC 8141 mode and what is reported in its place *)
Definition replaced (s : bytes) (e : perr) (eo : option perr) : Prop :=
  (e_kind e <> ErrHex /\ eo = Some e) \/
  (e_kind e = ErrHex /\ exists x y k, s = x ++ y /\ zlen x = e_col e /\ instead x k /\
     eo = match k with Some k => Some (mkErr k (e_col e)) | None => None end).
