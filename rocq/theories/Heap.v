(* Programs that hold pointers: the exported API over a heap of *URN, *SCIM, *URN8141 and
   Machine objects, with the aliasing Go gives them.  The value models (Urn.v, Json.v,
   Machine.v) say what each call computes; this file says which objects it reads, writes,
   creates and shares. *)
From Verif Require Import GoBase MachineSyntax MachineTables Machine Urn Json.
Local Open Scope Z_scope.
Local Open Scope list_scope.

(* a pointer: nil, or the number of an object of its kind *)
Definition ptr := option nat.

(* urn.go:18-31 type URN, as it lies in memory: the field scim is a pointer.  The field
   u_scim of the value is not used here and kept None. *)
Record cell := mkCell { c_urn : URN; c_scim : ptr }.

(* the objects of a program, in the order they were made; none is freed while it is held.
   urn8141.go:10-12: a URN8141 is one *URN.  machine.go:91-107: a Machine is a *machine.
   Simplifications: byte slices are values (C03: Parse leaves the caller's slice as it was
   when it returns; overlapping calls are C35, C47); the array behind the field tolower,
   which copies of a URN share, is a value, since no code reads it after Parse. *)
Record heap := mkHeap {
  h_urns : list cell;
  h_scims : list SCIM;
  h_8141s : list ptr;
  h_machines : list machine
}.
Definition empty_heap : heap := mkHeap [] [] [] [].

(* the object behind a pointer; nil has none.  (Neither has a number not handed out yet:
   no Go program holds such a pointer, see [valid].) *)
Definition deref {A} (l : list A) (p : ptr) : option A :=
  match p with None => None | Some a => nth_error l a end.

(* a URN object read through its scim pointer *)
Definition view (h : heap) (c : cell) : URN := uset_scim (deref (h_scims h) (c_scim c)) (c_urn c).

Fixpoint update {A} (n : nat) (x : A) (l : list A) : list A :=
  match l, n with
  | [], _ => []
  | _ :: l, O => x :: l
  | y :: l, S n => y :: update n x l
  end.

(* machine.go:146-148, 4378: &URN{...} with a fresh &SCIM{} in RFC 7643 mode: the new objects
   and the struct that points to them *)
Definition new_cell (h : heap) (u : URN) : heap * cell :=
  match u_scim u with
  | None => (h, mkCell (uset_scim None u) None)
  | Some s => (mkHeap (h_urns h) (h_scims h ++ [s]) (h_8141s h) (h_machines h),
               mkCell (uset_scim None u) (Some (List.length (h_scims h))))
  end.
Definition new_urn (h : heap) (u : option URN) : heap * ptr :=
  match u with
  | None => (h, None)
  | Some u =>
      let (h, c) := new_cell h u in
      (mkHeap (h_urns h ++ [c]) (h_scims h) (h_8141s h) (h_machines h), Some (List.length (h_urns h)))
  end.

Definition put_urn (h : heap) (a : nat) (c : cell) : heap :=
  mkHeap (update a c (h_urns h)) (h_scims h) (h_8141s h) (h_machines h).
Definition put_scim (h : heap) (a : nat) (s : SCIM) : heap :=
  mkHeap (h_urns h) (update a s (h_scims h)) (h_8141s h) (h_machines h).
Definition put_8141 (h : heap) (a : nat) (p : ptr) : heap :=
  mkHeap (h_urns h) (h_scims h) (update a p (h_8141s h)) (h_machines h).
Definition put_machine (h : heap) (a : nat) (m : machine) : heap :=
  mkHeap (h_urns h) (h_scims h) (h_8141s h) (update a m (h_machines h)).

(* what a client can do: call anything exported, build literals, assign exported fields,
   copy structs.  p, q : *URN, t, t' : *SCIM, e : *URN8141, m : Machine. *)
Inductive op :=
| Parses (s : bytes) (options : list Z)              (* Parse(s, WithParsingMode(..)...) *)
| NewMachines (options : list Z)                     (* NewMachine(..) *)
| MParses (m : ptr) (s : bytes) | MModes (m : ptr) (x : Z) | MErrors (m : ptr)
| Strings (p : ptr) | Normalizes (p : ptr) | Equals (p q : ptr)
| IsSCIMs (p : ptr) | SCIMs (p : ptr) | RFCs (p : ptr)
| FComponents (p : ptr) | QComponents (p : ptr) | RComponents (p : ptr)
| Marshals (p : ptr) | Unmarshals (p : ptr) (b : bytes)
| SStrings (t : ptr) | SMarshals (t : ptr) | SUnmarshals (t : ptr) (b : bytes)
| EStrings (e : ptr) | EMarshals (e : ptr) | EUnmarshals (e : ptr) (b : bytes)
| NewURNs (id ss : bytes)                            (* &URN{ID: id, SS: ss} *)
| SetIDs (p : ptr) (s : bytes) | SetSSs (p : ptr) (s : bytes)
| CopyURNs (p q : ptr)                               (* *p = *q *)
| NewSCIMs (ty : Z) (name other : bytes)             (* &SCIM{Type: .., Name: .., Other: ..} *)
| SetSCIMs (t : ptr) (ty : Z) (name other : bytes)   (* t.Type, t.Name, t.Other = .. *)
| CopySCIMs (t t' : ptr)                             (* *t = *t' *)
| NewURN8141s (p : ptr)                              (* &URN8141{p} *)
| GetURNs (e : ptr)                                  (* e.URN; the other promoted methods go through it *)
| SetURNs (e : ptr) (p : ptr).                       (* e.URN = p *)

(* what comes back *)
Inductive out :=
| Nothing
| AURN (p : ptr) (ok : bool) | AMachine (m : ptr) | AURNerr (p : ptr) (err : option perr)
| AnError (err : option perr) | AJerr (err : option jerr)
| AText (s : bytes) | ABool (b : bool) | AnInt (n : Z) | ASCIM (t : ptr) | AURN8141 (e : ptr).

(* reading through a pointer panics on nil *)
Definition on {A B} (l : list A) (p : ptr) (k : nat -> A -> res B) : res B :=
  match p with
  | None => Panic
  | Some a => match nth_error l a with None => Panic | Some x => k a x end
  end.

Definition exec (uni : bytes -> bytes) (newer : bool) (o : op) (h : heap) : res (heap * out) :=
  let pure x := Ret (h, x) in
  match o with
  (* urn.go:86-93 *)
  | Parses s options =>
      do r <- Parse s options;
      let '(_, u, ok) := r in
      let (h, p) := new_urn h u in Ret (h, AURN p ok)
  (* machine.go:110-126 *)
  | NewMachines options =>
      Ret (mkHeap (h_urns h) (h_scims h) (h_8141s h) (h_machines h ++ [NewMachine options]),
           AMachine (Some (List.length (h_machines h))))
  (* machine.go:138-5033 *)
  | MParses m s =>
      on (h_machines h) m (fun a m =>
        do r <- machine_Parse m s;
        let '(m', u, err) := r in
        let (h, p) := new_urn (put_machine h a m') u in Ret (h, AURNerr p err))
  (* machine.go:5035-5046 *)
  | MModes m x => on (h_machines h) m (fun a m => Ret (put_machine h a (machine_WithParsingMode x m), Nothing))
  (* machine.go:129-131 *)
  | MErrors m => on (h_machines h) m (fun _ m => pure (AnError (machine_Error m)))
  (* urn.go:64-83 *)
  | Strings p => on (h_urns h) p (fun _ c => pure (AText (URN_String (view h c))))
  (* urn.go:36-45 *)
  | Normalizes p => on (h_urns h) p (fun _ c =>
      let (h, p) := new_urn h (Some (Normalize uni (view h c))) in Ret (h, AURN p true))
  (* urn.go:48-56: x == nil is tested before the receiver is read *)
  | Equals p q =>
      match q with
      | None => pure (ABool false)
      | Some _ => on (h_urns h) p (fun _ c => on (h_urns h) q (fun _ d =>
          pure (ABool (Equal uni (view h c) (Some (view h d))))))
      end
  (* urn.go:115-141; SCIM returns the pointer the struct holds *)
  | IsSCIMs p => on (h_urns h) p (fun _ c => pure (ABool (IsSCIM (view h c))))
  | SCIMs p => on (h_urns h) p (fun _ c =>
      pure (ASCIM (if negb (u_kind (c_urn c) =? KRFC7643) then None else c_scim c)))
  | RFCs p => on (h_urns h) p (fun _ c => pure (AnInt (RFC (view h c))))
  | FComponents p => on (h_urns h) p (fun _ c => pure (AText (FComponent (view h c))))
  | QComponents p => on (h_urns h) p (fun _ c => pure (AText (QComponent (view h c))))
  | RComponents p => on (h_urns h) p (fun _ c => pure (AText (RComponent (view h c))))
  (* urn.go:96-98: a value receiver, copied from *p *)
  | Marshals p => on (h_urns h) p (fun _ c => pure (AText (URN_MarshalJSON newer (view h c))))
  (* urn.go:101-113: the receiver is touched by *u = *value only *)
  | Unmarshals p b =>
      match json_Unmarshal b with
      | None => pure (AJerr (Some JJson))
      | Some str =>
          do r <- Parse str [];
          let '(_, value, ok) := r in
          if negb ok then pure (AJerr (Some (JInvalid "invalid URN: %s" str)))
          else match value with
               | None => Panic
               | Some value => on (h_urns h) p (fun a _ =>
                   let (h, c) := new_cell h value in Ret (put_urn h a c, AJerr None))
               end
      end
  (* scim.go:41-48, 20-22, 24-39 *)
  | SStrings t => on (h_scims h) t (fun _ s => pure (AText (SCIM_String s)))
  | SMarshals t => on (h_scims h) t (fun _ s => pure (AText (SCIM_MarshalJSON newer s)))
  | SUnmarshals t b =>
      match json_Unmarshal b with
      | None => pure (AJerr (Some JJson))
      | Some str =>
          do r <- Parse str [PRFC7643Only];
          let '(_, value, ok) := r in
          if negb ok then pure (AJerr (Some (JInvalid "invalid SCIM URN: %s" str)))
          else match value with
               | None => Panic
               | Some value =>
                   if negb (RFC value =? KRFC7643) then pure (AJerr (Some (JInvalid "invalid SCIM URN: %s" str)))
                   else match URN_SCIM value with
                        | None => Panic
                        | Some s => on (h_scims h) t (fun a _ => Ret (put_scim h a s, AJerr None))
                        end
               end
      end
  (* urn8141.go:10-16: the methods of the embedded *URN, through the struct *)
  | EStrings e => on (h_8141s h) e (fun _ p => on (h_urns h) p (fun _ c => pure (AText (URN_String (view h c)))))
  | EMarshals e => on (h_8141s h) e (fun _ p => on (h_urns h) p (fun _ c => pure (AText (URN_MarshalJSON newer (view h c)))))
  (* urn8141.go:18-30: *u = URN8141{value}, value may be nil *)
  | EUnmarshals e b =>
      match json_Unmarshal b with
      | None => pure (AJerr (Some JJson))
      | Some str =>
          do r <- Parse str [PRFC8141Only];
          let '(_, value, ok) := r in
          if negb ok then pure (AJerr (Some (JInvalid "invalid URN per RFC 8141: %s" str)))
          else on (h_8141s h) e (fun a _ =>
                 let (h, p) := new_urn h value in Ret (put_8141 h a p, AJerr None))
      end
  (* literals, exported fields (urn.go:20-21, scim.go:12-15) and struct assignment *)
  | NewURNs id ss =>
      let (h, p) := new_urn h (Some (mkURN [] id ss [] KNONE None [] [] [] false false [])) in Ret (h, AURN p true)
  | SetIDs p s => on (h_urns h) p (fun a c =>
      Ret (put_urn h a (mkCell (uset_ID s (c_urn c)) (c_scim c)), Nothing))
  | SetSSs p s => on (h_urns h) p (fun a c =>
      Ret (put_urn h a (mkCell (uset_SS s (c_urn c)) (c_scim c)), Nothing))
  | CopyURNs p q => on (h_urns h) p (fun a _ => on (h_urns h) q (fun _ d => Ret (put_urn h a d, Nothing)))
  | NewSCIMs ty name other =>
      Ret (mkHeap (h_urns h) (h_scims h ++ [mkSCIM ty name other 0]) (h_8141s h) (h_machines h),
           ASCIM (Some (List.length (h_scims h))))
  | SetSCIMs t ty name other => on (h_scims h) t (fun a s => Ret (put_scim h a (mkSCIM ty name other (s_pos s)), Nothing))
  | CopySCIMs t t' => on (h_scims h) t (fun a _ => on (h_scims h) t' (fun _ s => Ret (put_scim h a s, Nothing)))
  | NewURN8141s p =>
      Ret (mkHeap (h_urns h) (h_scims h) (h_8141s h ++ [p]) (h_machines h), AURN8141 (Some (List.length (h_8141s h))))
  | GetURNs e => on (h_8141s h) e (fun _ p => pure (AURN p true))
  | SetURNs e p => on (h_8141s h) e (fun a _ => Ret (put_8141 h a p, Nothing))
  end.

(* the pointers a client passes are nil or were handed out *)
Definition held {A} (l : list A) (p : ptr) : Prop := match p with None => True | Some a => (a < List.length l)%nat end.
Definition valid (o : op) (h : heap) : Prop :=
  match o with
  | Parses _ _ | NewMachines _ | NewURNs _ _ | NewSCIMs _ _ _ => True
  | MParses m _ | MModes m _ | MErrors m => held (h_machines h) m
  | Strings p | Normalizes p | IsSCIMs p | SCIMs p | RFCs p | FComponents p | QComponents p | RComponents p
  | Marshals p | Unmarshals p _ | SetIDs p _ | SetSSs p _ | NewURN8141s p => held (h_urns h) p
  | Equals p q | CopyURNs p q => held (h_urns h) p /\ held (h_urns h) q
  | SStrings t | SMarshals t | SUnmarshals t _ | SetSCIMs t _ _ _ => held (h_scims h) t
  | CopySCIMs t t' => held (h_scims h) t /\ held (h_scims h) t'
  | EStrings e | EMarshals e | EUnmarshals e _ | GetURNs e => held (h_8141s h) e
  | SetURNs e p => held (h_8141s h) e /\ held (h_urns h) p
  end.

(* h' is what the heap h becomes by some calls, each satisfying [may] when it is made.  A call
   that panics leaves the heap as it was (the client may recover). *)
Inductive runs (uni : bytes -> bytes) (newer : bool) (may : op -> heap -> Prop) : heap -> heap -> Prop :=
| runs_none h : runs uni newer may h h
| runs_more h o h1 x h2 : valid o h -> may o h -> exec uni newer o h = Ret (h1, x) ->
    runs uni newer may h1 h2 -> runs uni newer may h h2.

(* a straight-line program: what the calls answer, in order *)
Fixpoint program (uni : bytes -> bytes) (newer : bool) (l : list op) (h : heap) : res (heap * list out) :=
  match l with
  | [] => Ret (h, [])
  | o :: l =>
      do r <- exec uni newer o h;
      let '(h, x) := r in
      do r <- program uni newer l h;
      let '(h, xs) := r in Ret (h, x :: xs)
  end.
