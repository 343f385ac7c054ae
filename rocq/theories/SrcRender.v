(* The Go text of the statements the model of Parse is made of (MachineSyntax.v), and what
   the objects of the model look like in a Go heap. *)
From Verif Require Import GoBase MachineSyntax MachineTables Machine.
From Verif Require Import GoAst GoSem.
Import ListNotations.
Local Open Scope string_scope.
Local Open Scope list_scope.

(* ---- names ------------------------------------------------------------------------------- *)
(* machine.go:10-26 *)
Definition err_name (e : errconst) : string :=
  match e with
  | ErrPrefix => "errPrefix" | ErrIdentifier => "errIdentifier" | ErrSpecificString => "errSpecificString"
  | ErrNoUrnWithinID => "errNoUrnWithinID" | ErrHex => "errHex" | ErrSCIMNamespace => "errSCIMNamespace"
  | ErrSCIMType => "errSCIMType" | ErrSCIMName => "errSCIMName" | ErrSCIMOther => "errSCIMOther"
  | ErrSCIMOtherIncomplete => "errSCIMOtherIncomplete" | Err8141InformalID => "err8141InformalID"
  | Err8141SpecificString => "err8141SpecificString" | Err8141Identifier => "err8141Identifier"
  | Err8141RComponentStart => "err8141RComponentStart" | Err8141QComponentStart => "err8141QComponentStart"
  | Err8141MalformedRComp => "err8141MalformedRComp" | Err8141MalformedQComp => "err8141MalformedQComp"
  end.
Definition all_errs : list errconst :=
  [ErrPrefix; ErrIdentifier; ErrSpecificString; ErrNoUrnWithinID; ErrHex; ErrSCIMNamespace; ErrSCIMType; ErrSCIMName;
   ErrSCIMOther; ErrSCIMOtherIncomplete; Err8141InformalID; Err8141SpecificString; Err8141Identifier;
   Err8141RComponentStart; Err8141QComponentStart; Err8141MalformedRComp; Err8141MalformedQComp].
(* parsing_mode.go:5-10 *)
Definition mode_name (k : Z) : string :=
  if Z.eqb k 1 then "RFC2141Only" else if Z.eqb k 2 then "RFC7643Only" else if Z.eqb k 3 then "RFC8141Only" else "Default".
(* kind.go:5-10 *)
Definition kind_name (k : Z) : string :=
  if Z.eqb k 1 then "RFC2141" else if Z.eqb k 2 then "RFC7643" else if Z.eqb k 3 then "RFC8141" else "NONE".

(* ---- the text of conditions and statements -------------------------------------------------- *)
Definition M (f : string) : expr := ESel (EId "m") f.
Definition O (f : string) : expr := ESel (EId "output") f.
Definition S_ (f : string) : expr := ESel (O "scim") f.
Definition text_ : expr := ECall (EId "string") [ECall (ESel (EId "m") "text") [] false] false.
Definition set_ (l r : expr) : stm := SAssign "=" [l] [r].
Definition plus (e : expr) (k : Z) : expr :=
  if Z.eqb k 0 then e else if Z.ltb k 0 then EBin "-" e (EInt (- k)) else EBin "+" e (EInt k).
Definition errorf (e : errconst) (x : expr) : expr := ECall (ESel (EId "fmt") "Errorf") [EId (err_name e); x] false.

Fixpoint text_cond (c : cond) : expr :=
  match c with
  | CModeEq k => EBin "==" (M "parsingMode") (EId (mode_name k))
  | CPEqPe => EBin "==" (M "p") (M "pe")
  | CRStart => O "rStart"
  | CQStart => O "qStart"
  | CPosLtPe _ => EBin "<" (EId "pos") (M "pe")
  | CDataAtEq _ c => EBin "==" (EIdx (M "data") (EId "pos")) (EInt (Z.of_N c))
  | CPrefixEmpty => EBin "==" (O "prefix") (EStr "")
  | CNot (CModeEq k) => EBin "!=" (M "parsingMode") (EId (mode_name k))
  | CNot CPrefixEmpty => EBin "!=" (O "prefix") (EStr "")
  | CNot c => EUn "!" (text_cond c)
  | CAnd a b => EBin "&&" (text_cond a) (text_cond b)
  | COr a b => EBin "||" (text_cond a) (text_cond b)
  end.

Fixpoint text_of (s : stmt) : stm :=
  match s with
  | SMark => set_ (M "pb") (M "p")
  | STolower => set_ (O "tolower") (ECall (EId "append") [O "tolower"; EBin "-" (M "p") (M "pb")] false)
  | SSetPrefix => set_ (O "prefix") text_
  | SSetID => set_ (O "ID") text_
  | SSetSS => set_ (O "SS") text_
  | SSetNorm => set_ (O "norm") text_
  | SForTolower d =>
      let at_ := EIdx (M "data") (EBin "+" (M "pb") (EId "i")) in
      SRange "_" "i" (O "tolower") [set_ at_ (plus at_ d)]
  | SSetErr e k => set_ (M "err") (errorf e (plus (M "p") k))
  | SDecP => SIncDec "--" (M "p")
  | SSetCS n => set_ (M "cs") (EInt (Z.of_N n))
  | SGotoAgain => SGoto "_again"
  (* the look-ahead of machine.go:4363: its position is a variable *)
  | MachineSyntax.SIf (CAnd (CAnd (CPosLtPe k as c1) (CDataAtEq k' c as c2)) (CNot CPrefixEmpty as c3))
                      [SSetErr e j; SDecP; SSetCS n; SGotoAgain] [] =>
      if Z.eqb k k' && Z.eqb k j then
        SIf [SDefine ["pos"] [plus (M "p") k]] (EBin "&&" (EBin "&&" (text_cond c1) (text_cond c2)) (text_cond c3))
          [set_ (M "err") (errorf e (EId "pos")); SIncDec "--" (M "p"); set_ (M "cs") (EInt (Z.of_N n)); SGoto "_again"] []
      else SBlock []
  | MachineSyntax.SIf c t e => SIf [] (text_cond c) (map text_of t) (map text_of e)
  | SSetKind k => set_ (O "kind") (EId (kind_name k))
  | SNewSCIM => set_ (O "scim") (EUn "&" (ELit (TyName "SCIM") []))
  | SScimType => set_ (S_ "Type") (ECall (ESel (EId "scimschema") "TypeFromString") [text_] false)
  | SScimPos => set_ (S_ "pos") (M "p")
  | SScimName => set_ (S_ "Name") (ECall (EId "string") [ESlc (M "data") (S_ "pos") (M "p")] false)
  | SScimOther => set_ (S_ "Other") (ECall (EId "string") [ESlc (M "data") (S_ "pos") (M "p")] false)
  | SSetR => set_ (O "rComponent") text_
  | SSetQ => set_ (O "qComponent") text_
  | SSetF => set_ (O "fComponent") text_
  | SSetRStart => set_ (O "rStart") (EId "true")
  | SSetQStart => set_ (O "qStart") (EId "true")
  end.

(* a decimal number *)
Fixpoint dec_ (n : nat) (k : N) : string :=
  match n with
  | 0%nat => ""
  | S n => (if N.ltb k 10 then "" else dec_ n (N.div k 10)) ++ String (Ascii.ascii_of_N (48 + N.modulo k 10)) ""
  end.
Definition label_name (l : label) : string :=
  match l with
  | LEnter => "" | LResume => "_resume" | LTr n => "tr" ++ dec_ 3 n | LF n => "f" ++ dec_ 3 n
  | LAgain => "_again" | LTestEof => "_testEof" | LOut => "_out"
  end.

(* ---- objects --------------------------------------------------------------------------------- *)
Definition vint (z : Z) : val := VInt "" z.
Definition verr (e : option perr) : val :=
  match e with None => VNil "" | Some e => VErr (B (err_format (e_kind e))) [vint (e_col e)] end.
(* machine.go:99-107; data: the slice m.data *)
Definition mfields (data : val) (m : machine) : list (string * val) :=
  [("data", data); ("cs", vint (Z.of_N (m_cs m))); ("p", vint (m_p m)); ("pe", vint (m_pe m)); ("eof", vint (m_eof m));
   ("pb", vint (m_pb m)); ("err", verr (m_err m)); ("startParsingAt", vint (Z.of_N (m_startParsingAt m)));
   ("parsingMode", VInt "ParsingMode" (m_parsingMode m)); ("parsingModeSet", VBool (m_parsingModeSet m))].
Definition mval (data : val) (m : machine) : val := VStruct "machine" (mfields data m).
(* scim.go:12-17 *)
Definition sval (s : SCIM) : val :=
  VStruct "SCIM" [("Type", VInt "scimschema.Type" (s_Type s)); ("Name", VStr (s_Name s)); ("Other", VStr (s_Other s)); ("pos", vint (s_pos s))].
(* urn.go:18-31; scim: the pointer, low: the slice tolower *)
Definition ufields (scim low : val) (u : URN) : list (string * val) :=
  [("prefix", VStr (u_prefix u)); ("ID", VStr (u_ID u)); ("SS", VStr (u_SS u)); ("norm", VStr (u_norm u));
   ("kind", VInt "Kind" (u_kind u)); ("scim", scim); ("rComponent", VStr (u_r u)); ("qComponent", VStr (u_q u));
   ("fComponent", VStr (u_f u)); ("rStart", VBool (u_rStart u)); ("qStart", VBool (u_qStart u)); ("tolower", low)].
Definition uval (scim low : val) (u : URN) : val := VStruct "URN" (ufields scim low u).

(* v is a *SCIM for s in h *)
Definition is_scim (h : heap) (v : val) (s : option SCIM) : Prop :=
  match s with
  | None => v = VNil "SCIM"
  | Some s => exists l, v = VPtr l /\ get h l = Some (Cell (sval s))
  end.
(* v is the []int w in h *)
Definition is_ints (h : heap) (v : val) (w : list Z) : Prop :=
  exists l, v = VSlice l 0 (List.length w) /\ get h l = Some (Arr "int" (map vint w)).
(* v is the []byte w in h, a part of a larger array perhaps *)
Definition is_bytes (h : heap) (v : val) (w : bytes) : Prop :=
  exists l a b, v = VSlice l (List.length a) (List.length w) /\ get h l = Some (Arr "byte" (a ++ map VByte w ++ b)).
