(* What the heap theorems (C48-C51) speak of: which calls panic, which objects a call may
   write, which client programs are restricted and how. *)
From Verif Require Import GoBase MachineSyntax MachineTables Machine Urn Json Heap Api Spec.
Local Open Scope Z_scope.

(* b is a JSON string whose text RFC 2141 / SCIM / RFC 8141 parsing answers without an error *)
Definition json_of (good : bytes -> Prop) (b : bytes) : Prop := exists w, json_Unmarshal b = Some w /\ good w.
Definition fine (mode : Z) (w : bytes) : Prop := exists u, parsed mode w u.

(* the calls that dereference nil *)
Definition nil_call (o : op) (h : heap) : Prop :=
  match o with
  | Parses _ _ | NewMachines _ | NewURNs _ _ | NewSCIMs _ _ _ | NewURN8141s _ => False
  | MParses p _ | MModes p _ | MErrors p
  | Strings p | Normalizes p | IsSCIMs p | SCIMs p | RFCs p | FComponents p | QComponents p | RComponents p
  | Marshals p | SStrings p | SMarshals p | GetURNs p
  | SetIDs p _ | SetSSs p _ | SetSCIMs p _ _ _ | SetURNs p _ => p = None
  (* nil.Equal(nil) is false *)
  | Equals p q => p = None /\ q <> None
  | CopyURNs p q | CopySCIMs p q => p = None \/ q = None
  (* an error is returned before the receiver is touched *)
  | Unmarshals p b => p = None /\ json_of (fine PRFC2141Only) b
  | SUnmarshals p b => p = None /\ json_of (fine PRFC7643Only) b
  | EUnmarshals p b => p = None /\ json_of (fun w => fine PRFC8141Only w \/ silent8141 w) b
  (* the embedded pointer too *)
  | EStrings e | EMarshals e => e = None \/ deref (h_8141s h) e = Some None
  end.

(* the object of each kind that a call may overwrite *)
Definition writes_urn (o : op) : ptr :=
  match o with Unmarshals p _ | SetIDs p _ | SetSSs p _ | CopyURNs p _ => p | _ => None end.
Definition writes_scim (o : op) : ptr :=
  match o with SUnmarshals t _ | SetSCIMs t _ _ _ | CopySCIMs t _ => t | _ => None end.
Definition writes_8141 (o : op) : ptr :=
  match o with EUnmarshals e _ | SetURNs e _ => e | _ => None end.
Definition writes_machine (o : op) : ptr :=
  match o with MParses m _ | MModes m _ => m | _ => None end.

(* calls that only look *)
Definition looks (o : op) : Prop :=
  match o with
  | MErrors _ | Strings _ | Equals _ _ | IsSCIMs _ | SCIMs _ | RFCs _ | FComponents _ | QComponents _
  | RComponents _ | Marshals _ | SStrings _ | SMarshals _ | EStrings _ | EMarshals _ | GetURNs _ => True
  | _ => False
  end.

(* any client *)
Definition any (o : op) (h : heap) : Prop := True.
(* never copies a URN struct *)
Definition no_copy (o : op) (h : heap) : Prop := match o with CopyURNs _ _ => False | _ => True end.
(* never stores a nil *URN in a URN8141 *)
Definition no_nil (o : op) (h : heap) : Prop :=
  match o with
  | NewURN8141s p | SetURNs _ p => p <> None
  | EUnmarshals _ b => ~ json_of silent8141 b
  | _ => True
  end.
(* assigns to no field of a URN and to no SCIM that a URN holds *)
Definition plain (o : op) (h : heap) : Prop :=
  match o with
  | SetIDs _ _ | SetSSs _ _ => False
  | _ => forall t c, writes_scim o = Some t -> List.In c (h_urns h) -> c_scim c <> Some t
  end.

(* values the package makes: literals, what Parse returns, and normalised ones of these *)
Inductive made (uni : bytes -> bytes) : URN -> Prop :=
| made_literal id ss : made uni (handbuilt id ss)
| made_parsed mode s u : parsed mode s u -> made uni u
| made_normal u : made uni u -> made uni (Normalize uni u).

(* the URN behind a pointer *)
Definition urn_at (h : heap) (p : nat) : option URN := option_map (view h) (nth_error (h_urns h) p).

(* after a call p is an object that was not there before, holding u, and so is its SCIM *)
Definition fresh_urn (h h' : heap) (p : nat) (u : URN) : Prop :=
  nth_error (h_urns h) p = None /\ urn_at h' p = Some u /\
  forall c t, nth_error (h_urns h') p = Some c -> c_scim c = Some t -> nth_error (h_scims h) t = None.

(* what a call that only looks answers, from the values behind its pointers *)
Definition answer (uni : bytes -> bytes) (newer : bool) (h : heap) (o : op) (x : out) : Prop :=
  let the p (k : URN -> Prop) := exists a u, p = Some a /\ urn_at h a = Some u /\ k u in
  match o with
  | Strings p => the p (fun u => x = AText (URN_String u))
  | Equals p q => (q = None /\ x = ABool false) \/
      the p (fun u => the q (fun v => x = ABool (Equal uni u (Some v))))
  | IsSCIMs p => the p (fun u => x = ABool (IsSCIM u))
  | SCIMs p => the p (fun u => exists t, x = ASCIM t /\ deref (h_scims h) t = URN_SCIM u)
  | RFCs p => the p (fun u => x = AnInt (RFC u))
  | FComponents p => the p (fun u => x = AText (FComponent u))
  | QComponents p => the p (fun u => x = AText (QComponent u))
  | RComponents p => the p (fun u => x = AText (RComponent u))
  | Marshals p => the p (fun u => x = AText (URN_MarshalJSON newer u))
  | SStrings t => exists s, deref (h_scims h) t = Some s /\ x = AText (SCIM_String s)
  | SMarshals t => exists s, deref (h_scims h) t = Some s /\ x = AText (SCIM_MarshalJSON newer s)
  | EStrings e => exists p, deref (h_8141s h) e = Some p /\ the p (fun u => x = AText (URN_String u))
  | EMarshals e => exists p, deref (h_8141s h) e = Some p /\ the p (fun u => x = AText (URN_MarshalJSON newer u))
  | GetURNs e => exists p, deref (h_8141s h) e = Some p /\ x = AURN p true
  | _ => True
  end.

(* a history with its answers: the calls from h to h', the last one first *)
Inductive history (uni : bytes -> bytes) (newer : bool) (h : heap) : heap -> list (op * out) -> Prop :=
| history_none : history uni newer h h []
| history_more h1 l o h2 x : history uni newer h h1 l -> valid o h1 -> exec uni newer o h1 = Ret (h2, x) ->
    history uni newer h h2 ((o, x) :: l).
Definition ptr_eqb (p q : ptr) : bool :=
  match p, q with Some a, Some b => Nat.eqb a b | None, None => true | _, _ => false end.
(* the error the last m.Parse of a history answered, none since m was made *)
Fixpoint last_error (m : ptr) (l : list (op * out)) : option perr :=
  match l with
  | [] => None
  | (NewMachines _, AMachine k) :: l => if ptr_eqb k m then None else last_error m l
  | (MParses k _, AURNerr _ e) :: l => if ptr_eqb k m then e else last_error m l
  | _ :: l => last_error m l
  end.
(* the modes given to m, when it was made (RFC2141Only if none) and by m.WithParsingMode *)
Fixpoint modes (m : ptr) (l : list (op * out)) : list Z :=
  match l with
  | [] => []
  | (NewMachines options, AMachine k) :: l =>
      if ptr_eqb k m then match options with [] => [PRFC2141Only] | _ => options end else modes m l
  | (MModes k x, _) :: l => if ptr_eqb k m then modes m l ++ [x] else modes m l
  | _ :: l => modes m l
  end.

(* what literals, assignments and mode changes leave behind *)
Definition effect (h : heap) (o : op) (h' : heap) (x : out) : Prop :=
  match o with
  | NewURNs id ss => exists p, x = AURN (Some p) true /\ fresh_urn h h' p (handbuilt id ss)
  | SetIDs p s => exists a u, p = Some a /\ urn_at h a = Some u /\ urn_at h' a = Some (uset_ID s u)
  | SetSSs p s => exists a u, p = Some a /\ urn_at h a = Some u /\ urn_at h' a = Some (uset_SS s u)
  | CopyURNs p q => exists a b, p = Some a /\ q = Some b /\ urn_at h' a = urn_at h b /\ urn_at h b <> None
  | NewSCIMs ty name other => exists t, x = ASCIM (Some t) /\ nth_error (h_scims h) t = None /\
      nth_error (h_scims h') t = Some (mkSCIM ty name other 0)
  | SetSCIMs t ty name other => exists a s, t = Some a /\ nth_error (h_scims h) a = Some s /\
      nth_error (h_scims h') a = Some (mkSCIM ty name other (s_pos s))
  | CopySCIMs t t' => exists a b, t = Some a /\ t' = Some b /\ nth_error (h_scims h') a = nth_error (h_scims h) b /\ nth_error (h_scims h) b <> None
  | NewURN8141s p => exists e, x = AURN8141 (Some e) /\ nth_error (h_8141s h) e = None /\ nth_error (h_8141s h') e = Some p
  | SetURNs e p => exists a, e = Some a /\ nth_error (h_8141s h') a = Some p
  | NewMachines options => exists m, x = AMachine (Some m) /\ nth_error (h_machines h) m = None /\
      nth_error (h_machines h') m = Some (NewMachine options)
  | MModes m y => exists a k, m = Some a /\ nth_error (h_machines h) a = Some k /\
      nth_error (h_machines h') a = Some (machine_WithParsingMode y k)
  | _ => True
  end.
