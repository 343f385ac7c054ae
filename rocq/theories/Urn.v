(* Model of urn.go, scim.go (without JSON) and options.go. *)
From Verif Require Import GoBase MachineSyntax MachineTables Machine.
Local Open Scope Z_scope.

(* strings.ToLower on one ASCII byte *)
Definition is_upper (b : byte) : bool :=
  let n := Byte.to_N b in N.leb 65 n && N.leb n 90.
Definition is_ascii (b : byte) : bool := N.ltb (Byte.to_N b) 128.
Definition lower_byte (b : byte) : byte := if is_upper b then byte_add b 32 else b.

(* strings.ToLower.  For a string of ASCII bytes it maps A-Z to a-z.  For other
   strings Go maps runes through the Unicode tables; that part is the parameter
   [uni] (any function), so theorems hold whatever the tables contain. *)
Definition ToLower (uni : bytes -> bytes) (s : bytes) : bytes :=
  if forallb is_ascii s then map lower_byte s else uni s.

(* urn.go:36-45 func (u *URN) Normalize *)
Definition Normalize (uni : bytes -> bytes) (u : URN) : URN :=
  mkURN (B "urn") (ToLower uni (u_ID u)) (u_norm u) [] KNONE None [] [] [] false false [].

(* urn.go:48-56 func (u *URN) Equal; None is the nil *URN argument *)
Definition Equal (uni : bytes -> bytes) (u : URN) (x : option URN) : bool :=
  match x with
  | None => false
  | Some x =>
      let nu := Normalize uni u in
      let nx := Normalize uni x in
      bytes_eqb (u_prefix nu) (u_prefix nx) &&
      bytes_eqb (u_ID nu) (u_ID nx) &&
      bytes_eqb (u_SS nu) (u_SS nx)
  end.

Definition is_empty (s : bytes) : bool := match s with [] => true | _ => false end.

(* urn.go:64-83 func (u *URN) String *)
Definition URN_String (u : URN) : bytes :=
  let res := [] in
  if negb (is_empty (u_ID u)) && negb (is_empty (u_SS u)) then
    let res := if is_empty (u_prefix u) then res ++ B "urn" else res in
    let res := res ++ (u_prefix u ++ B ":" ++ u_ID u ++ B ":" ++ u_SS u) in
    let res := if negb (is_empty (u_r u)) then res ++ (B "?+" ++ u_r u) else res in
    let res := if negb (is_empty (u_q u)) then res ++ (B "?=" ++ u_q u) else res in
    let res := if negb (is_empty (u_f u)) then res ++ (B "#" ++ u_f u) else res in
    res
  else res.

(* urn.go:86-93 func Parse(u []byte, options ...Option) ( *URN, bool).  The first
   component is the caller's slice after the call. *)
Definition Parse (u : bytes) (options : list Z) : res (bytes * option URN * bool) :=
  do r <- machine_Parse (NewMachine options) u;
  let '(m', urn, err) := r in
  match err with
  | Some _ => Ret (m_data m', None, false)
  | None => Ret (m_data m', urn, true)
  end.

(* urn.go:115-117 *)
Definition IsSCIM (u : URN) : bool := u_kind u =? KRFC7643.
(* urn.go:119-125 *)
Definition URN_SCIM (u : URN) : option SCIM :=
  if negb (u_kind u =? KRFC7643) then None else u_scim u.
(* urn.go:127-129 *)
Definition RFC (u : URN) : Z := u_kind u.
(* urn.go:131-133 *)
Definition FComponent (u : URN) : bytes := u_f u.
(* urn.go:135-137 *)
Definition QComponent (u : URN) : bytes := u_q u.
(* urn.go:139-141 *)
Definition RComponent (u : URN) : bytes := u_r u.

(* scim.go:41-48 func (s *SCIM) String *)
Definition SCIM_String (s : SCIM) : bytes :=
  let ret := B "urn:ietf:params:scim:" ++ Type_String (s_Type s) ++ B ":" ++ s_Name s in
  if negb (is_empty (s_Other s)) then ret ++ (B ":" ++ s_Other s) else ret.
