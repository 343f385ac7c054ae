(* What Go programs do: an interpreter for the syntax of GoAst.v, after The Go Programming
   Language Specification.  Nothing in here is particular to this package.
   Simplifications:
   - int is Z (C60 has ints of every width), untyped constants are ints;
   - append always makes a new array, and a slice ends at the end of its array or before
     (C60 has spare capacity);
   - a program that a Go compiler would refuse is GStuck here, if it gets that far;
   - package variables are read only: an assignment to one is GStuck;
   - goroutines, channels, maps, defer, break and continue are not here. *)
From Coq Require Import ZArith List String Bool.
From Verif Require Import GoBase GoAst.
Import ListNotations.
Local Open Scope string_scope.
Local Open Scope list_scope.

Inductive gres (A : Type) := GRet (a : A) | GPanic | GFuel | GStuck.
Arguments GRet {A} a. Arguments GPanic {A}. Arguments GFuel {A}. Arguments GStuck {A}.
Definition gbind {A C} (r : gres A) (k : A -> gres C) : gres C :=
  match r with GRet a => k a | GPanic => GPanic | GFuel => GFuel | GStuck => GStuck end.
Notation "'let!' x := r 'in' k" := (gbind r (fun x => k)) (at level 200, x pattern, r at level 100, k at level 200).

(* ---- values, variables, objects ------------------------------------------------------ *)
Definition loc := nat.
Inductive val :=
| VInt (t : string) (z : Z)          (* t: the name of a defined type, "" for int *)
| VByte (b : byte)
| VBool (b : bool)
| VStr (s : bytes)
| VNil (t : string)                  (* t: the nil *t, "" for any other nil *)
| VPtr (l : loc)
| VSlice (l : loc) (off len : nat)
| VStruct (t : string) (fs : list (string * val))
| VErr (fmt : bytes) (args : list val)      (* an error made by fmt.Errorf *)
| VFun (env : list (string * loc)) (pre : string) (ps : list (string * ty * bool)) (body : list stm)
| VTuple (vs : list val).            (* several results of a call *)

(* a variable (which may be a struct), or the array behind slices; t: element type *)
Inductive obj := Cell (v : val) | Arr (t : string) (vs : list val).
Definition heap := list obj.
Definition env := list (string * loc).

Definition get (h : heap) (l : loc) : option obj := nth_error h l.
Definition set (h : heap) (l : loc) (o : obj) : heap := set_nth l o h.

Fixpoint find {A} (x : string) (l : list (string * A)) : option A :=
  match l with [] => None | (y, a) :: l => if String.eqb y x then Some a else find x l end.
Fixpoint put {A} (x : string) (a : A) (l : list (string * A)) : list (string * A) :=
  match l with [] => [] | (y, b) :: l => if String.eqb y x then (y, a) :: l else (y, b) :: put x a l end.

(* a function: the package it is in ("" or "pkg."), its receiver and parameters, results *)
Record func := mkFunc { f_pre : string; f_recv : option ty; f_params : list (string * ty * bool); f_results : list ty; f_body : list stm }.
Record prog := mkProg { p_types : list (string * ty); p_globals : list (string * val); p_funcs : list (string * func) }.
Definition packages : list string := ["fmt"; "strings"; "json"; "scimschema"].

(* ---- types --------------------------------------------------------------------------- *)
(* the zero value of a type written in package pre *)
Fixpoint zero (n : nat) (P : prog) (pre : string) (t : ty) : val :=
  match n with O => VNil "" | S n =>
    match t with
    | TyName x =>
        if String.eqb x "int" then VInt "" 0 else if String.eqb x "string" then VStr []
        else if String.eqb x "bool" then VBool false else if String.eqb x "byte" then VByte x00
        else match find (pre ++ x) (p_types P) with
             | Some (TyStruct fs) => VStruct (pre ++ x) (map (fun '(f, t, _) => (f, zero n P pre t)) fs)
             | Some (TyName "int") => VInt (pre ++ x) 0
             | _ => VNil ""
             end
    | TyPtr (TyName x) => VNil (pre ++ x)
    | _ => VNil ""
    end
  end.
(* a value where type t is wanted: nil and constants get their type *)
Definition coerce (P : prog) (pre : string) (t : ty) (v : val) : val :=
  match v, t with
  | VNil _, TyPtr (TyName x) => VNil (pre ++ x)
  | VInt _ z, TyName x => match find (pre ++ x) (p_types P) with Some (TyName "int") => VInt (pre ++ x) z | _ => v end
  | _, _ => v
  end.
Fixpoint coerces (P : prog) (pre : string) (ts : list ty) (vs : list val) : list val :=
  match ts, vs with t :: ts, v :: vs => coerce P pre t v :: coerces P pre ts vs | _, _ => vs end.
Definition elem_name (t : ty) : string := match t with TyName x => x | _ => "" end.

(* ---- operators ------------------------------------------------------------------------ *)
Definition byte_z (b : byte) : Z := Z.of_N (Byte.to_N b).
Definition is_nil (v : val) : option bool :=
  match v with VNil _ => Some true | VPtr _ | VSlice _ _ _ | VErr _ _ | VFun _ _ _ _ => Some false | _ => None end.
Definition val_eq (a b : val) : option bool :=
  match a, b with
  | VInt _ x, VInt _ y => Some (Z.eqb x y)
  | VByte x, VInt _ y => Some (Z.eqb (byte_z x) y)
  | VByte x, VByte y => Some (Byte.eqb x y)
  | VBool x, VBool y => Some (Bool.eqb x y)
  | VStr x, VStr y => Some (bytes_eqb x y)
  | VPtr x, VPtr y => Some (Nat.eqb x y)
  | v, VNil _ => is_nil v
  | _, _ => None
  end.
Definition num (v : val) : option Z := match v with VInt _ z => Some z | VByte b => Some (byte_z b) | _ => None end.
Definition cmp (op : string) : option (Z -> Z -> bool) :=
  if String.eqb op "<" then Some Z.ltb else if String.eqb op "<=" then Some Z.leb
  else if String.eqb op ">" then Some Z.gtb else if String.eqb op ">=" then Some Z.geb else None.
Definition binop (op : string) (a b : val) : gres val :=
  if String.eqb op "==" then match val_eq a b with Some r => GRet (VBool r) | None => GStuck end
  else if String.eqb op "!=" then match val_eq a b with Some r => GRet (VBool (negb r)) | None => GStuck end
  else match cmp op with
  | Some f => match num a, num b with
              | Some x, Some y => GRet (VBool (f x y))
              | _, _ => GStuck
              end
  | None =>
    if String.eqb op "+" then
      match a, b with
      | VInt t x, VInt _ y => GRet (VInt t (x + y))
      | VByte x, VInt _ y => GRet (VByte (byte_add x y))
      | VStr x, VStr y => GRet (VStr (x ++ y))
      | _, _ => GStuck
      end
    else if String.eqb op "-" then
      match a, b with
      | VInt t x, VInt _ y => GRet (VInt t (x - y))
      | VByte x, VInt _ y => GRet (VByte (byte_add x (- y)))
      | _, _ => GStuck
      end
    else GStuck
  end.

(* the elements of a slice *)
Definition window (h : heap) (l : loc) (off len : nat) : option (string * list val) :=
  match get h l with
  | Some (Arr t vs) => if Nat.leb (off + len) (List.length vs) then Some (t, firstn len (skipn off vs)) else None
  | _ => None
  end.
Fixpoint as_bytes (vs : list val) : option bytes :=
  match vs with
  | [] => Some []
  | VByte b :: vs => match as_bytes vs with Some s => Some (b :: s) | None => None end
  | _ => None
  end.
Definition as_list (v : val) : list val := match v with VTuple vs => vs | v => [v] end.
Definition in_bounds (z : Z) (len : nat) : bool := Z.leb 0 z && Z.ltb z (Z.of_nat len).

(* ---- built-in functions ------------------------------------------------------------------ *)
Definition builtin (f : string) (args : list val) (h : heap) : option (gres (heap * val)) :=
  if String.eqb f "len" then Some
    match args with
    | [VSlice _ _ n] => GRet (h, VInt "" (Z.of_nat n))
    | [VStr s] => GRet (h, VInt "" (zlen s))
    | [VNil _] => GRet (h, VInt "" 0)
    | _ => GStuck
    end
  else if String.eqb f "append" then Some
    match args with
    | [VSlice l off n; v] =>
        match window h l off n with
        | Some (t, vs) => GRet (h ++ [Arr t (vs ++ [v])], VSlice (List.length h) 0 (S n))
        | None => GStuck
        end
    | _ => GStuck
    end
  else if String.eqb f "string" then Some
    match args with
    | [VSlice l off n] =>
        match window h l off n with
        | Some (_, vs) => match as_bytes vs with Some s => GRet (h, VStr s) | None => GStuck end
        | None => GStuck
        end
    | [VStr s] => GRet (h, VStr s)
    | [VNil _] => GRet (h, VStr [])
    | _ => GStuck
    end
  else None.

(* ---- expressions -------------------------------------------------------------------------- *)
Inductive callee := CKey (f : string) | CClo (e : env) (pre : string) (ps : list (string * ty * bool)) (body : list stm).

Section Eval.
Variable P : prog.
Variable pre : string.
(* calling a function of the program: arguments; true when the last one is a slice for "..." *)
Variable call : callee -> list val -> bool -> heap -> gres (heap * val).
(* calling a function of another package *)
Variable ext : string -> list val -> heap -> gres (heap * val).

Definition global (x : string) : gres val :=
  match find x (p_globals P) with Some v => GRet v | None => GStuck end.

(* the value of a name *)
Definition ident_val (x : string) (e : env) (h : heap) : gres val :=
  match find x e with
  | Some l => match get h l with Some (Cell v) => GRet v | _ => GStuck end
  | None =>
      if String.eqb x "true" then GRet (VBool true) else if String.eqb x "false" then GRet (VBool false)
      else if String.eqb x "nil" then GRet (VNil "") else global (pre ++ x)
  end.

(* v.f *)
Definition field (v : val) (f : string) (h : heap) : gres val :=
  match v with
  | VPtr l => match get h l with
              | Some (Cell (VStruct _ fs)) => match find f fs with Some v => GRet v | None => GStuck end
              | _ => GStuck
              end
  | VStruct _ fs => match find f fs with Some v => GRet v | None => GStuck end
  | VNil _ => GPanic
  | _ => GStuck
  end.

(* s[i] *)
Definition elem (v i : val) (h : heap) : gres val :=
  match v, i with
  | VSlice l off n, VInt _ z =>
      if in_bounds z n then
        match get h l with
        | Some (Arr _ vs) => match nth_error vs (off + Z.to_nat z) with Some v => GRet v | None => GStuck end
        | _ => GStuck
        end
      else GPanic
  | VNil _, VInt _ _ => GPanic
  | _, _ => GStuck
  end.

(* s[i:j] *)
Definition subslice (v i j : val) : gres val :=
  match v, i, j with
  | VSlice l off n, VInt _ a, VInt _ b =>
      if Z.leb 0 a && Z.leb a b && Z.leb b (Z.of_nat n)
      then GRet (VSlice l (off + Z.to_nat a) (Z.to_nat (b - a))) else GPanic
  | VNil t, VInt _ a, VInt _ b => if Z.eqb a 0 && Z.eqb b 0 then GRet (VNil t) else GPanic
  | _, _, _ => GStuck
  end.

(* the type whose methods v has, v itself or what it points to *)
Definition type_of (v : val) (h : heap) : gres string :=
  match v with
  | VInt t _ => GRet t
  | VStruct t _ => GRet t
  | VNil t => if String.eqb t "" then GPanic else GRet t
  | VPtr l => match get h l with Some (Cell (VStruct t _)) => GRet t | _ => GStuck end
  | _ => GStuck
  end.
Definition embedded (t : string) : option string :=
  match find t (p_types P) with
  | Some (TyStruct fs) => match List.find (fun '(_, _, b) => b) fs with Some (f, _, _) => Some f | None => None end
  | _ => None
  end.
(* v.f(args): v with the address it has, if any; when the type of v has no method f, the
   one of its embedded field is meant *)
Fixpoint method (n : nat) (v : val) (addr : option loc) (f : string) (args : list val) (sp : bool) (h : heap) : gres (heap * val) :=
  match n with O => GStuck | S n =>
    let! t := type_of v h in
    match find (t ++ "." ++ f) (p_funcs P) with
    | Some d =>
        match f_recv d, v, addr with
        | Some (TyPtr _), VStruct _ _, Some l => call (CKey (t ++ "." ++ f)) (VPtr l :: args) sp h
        | Some (TyPtr _), VPtr _, _ | Some (TyPtr _), VNil _, _ => call (CKey (t ++ "." ++ f)) (v :: args) sp h
        | Some (TyName _), VPtr l, _ => match get h l with Some (Cell w) => call (CKey (t ++ "." ++ f)) (w :: args) sp h | _ => GStuck end
        | Some (TyName _), VNil _, _ => GPanic
        | Some (TyName _), _, _ => call (CKey (t ++ "." ++ f)) (v :: args) sp h
        | _, _, _ => GStuck
        end
    | None =>
        match embedded t with
        | Some g => let! w := field v g h in method n w None f args sp h
        | None => GStuck
        end
    end
  end.

(* an element of a []byte given by a constant is a byte *)
Definition as_elem (t : ty) (v : val) : val :=
  match t, v with TyName "byte", VInt _ z => VByte (byte_add x00 z) | _, _ => v end.
(* T{..} *)
Fixpoint fill (fs : list (string * val)) (vs : list (string * val)) (i : nat) : list (string * val) :=
  match vs with
  | [] => fs
  | (k, v) :: vs =>
      let key := if String.eqb k "" then match nth_error fs i with Some (x, _) => x | None => "" end else k in
      fill (put key v fs) vs (S i)
  end.
Definition literal (t : ty) (vs : list (string * val)) (h : heap) : gres (heap * val) :=
  match t with
  | TyName x => match zero 4 P pre t with VStruct s fs => GRet (h, VStruct s (fill fs vs 0)) | _ => GStuck end
  | TySlice t => GRet (h ++ [Arr (elem_name t) (map (fun x => as_elem t (snd x)) vs)], VSlice (List.length h) 0 (List.length vs))
  | _ => GStuck
  end.

Definition is_pkg (x : string) (e : env) : bool :=
  existsb (String.eqb x) packages && match find x e with Some _ => false | None => true end.

Fixpoint eval (x : expr) (e : env) (h : heap) {struct x} : gres (heap * val) :=
  let evals := fix evals (l : list expr) (h : heap) : gres (heap * list val) :=
    match l with
    | [] => GRet (h, [])
    | x :: l => let! (h, v) := eval x e h in let! (h, vs) := evals l h in GRet (h, v :: vs)
    end in
  match x with
  | EId y => let! v := ident_val y e h in GRet (h, v)
  | EInt z => GRet (h, VInt "" z)
  | EStr s => GRet (h, VStr (B s))
  | ESel (EId y) f =>
      if is_pkg y e then let! v := global (y ++ "." ++ f) in GRet (h, v)
      else let! v := ident_val y e h in let! w := field v f h in GRet (h, w)
  | ESel a f => let! (h, v) := eval a e h in let! w := field v f h in GRet (h, w)
  | EIdx a i => let! (h, v) := eval a e h in let! (h, i) := eval i e h in let! w := elem v i h in GRet (h, w)
  | ESlc a i j =>
      let! (h, v) := eval a e h in let! (h, i) := eval i e h in let! (h, j) := eval j e h in
      let! w := subslice v i j in GRet (h, w)
  | EBin op a b =>
      let! (h, v) := eval a e h in
      if String.eqb op "&&" then
        match v with VBool true => eval b e h | VBool false => GRet (h, v) | _ => GStuck end
      else if String.eqb op "||" then
        match v with VBool true => GRet (h, v) | VBool false => eval b e h | _ => GStuck end
      else let! (h, w) := eval b e h in let! r := binop op v w in GRet (h, r)
  | EUn op (EId y) =>
      if String.eqb op "&" then match find y e with Some l => GRet (h, VPtr l) | None => GStuck end
      else let! v := ident_val y e h in
        if String.eqb op "!" then match v with VBool b => GRet (h, VBool (negb b)) | _ => GStuck end
        else if String.eqb op "*" then
          match v with
          | VPtr l => match get h l with Some (Cell w) => GRet (h, w) | _ => GStuck end
          | VNil _ => GPanic
          | _ => GStuck
          end
        else GStuck
  | EUn op a =>
      let! (h, v) := eval a e h in
      if String.eqb op "&" then
        match a with ELit _ _ => GRet (h ++ [Cell v], VPtr (List.length h)) | _ => GStuck end
      else if String.eqb op "!" then match v with VBool b => GRet (h, VBool (negb b)) | _ => GStuck end
      else if String.eqb op "*" then
        match v with
        | VPtr l => match get h l with Some (Cell w) => GRet (h, w) | _ => GStuck end
        | VNil _ => GPanic
        | _ => GStuck
        end
      else GStuck
  | ELit t fs =>
      let! (h, vs) := (fix elems (l : list (string * expr)) (h : heap) : gres (heap * list (string * val)) :=
        match l with
        | [] => GRet (h, [])
        | (k, x) :: l => let! (h, v) := eval x e h in let! (h, vs) := elems l h in GRet (h, (k, v) :: vs)
        end) fs h in
      literal t vs h
  | EConv t a =>
      let! (h, v) := eval a e h in
      match t, v with
      | TySlice (TyName "byte"), VStr s => GRet (h ++ [Arr "byte" (map VByte s)], VSlice (List.length h) 0 (List.length s))
      | _, _ => GStuck
      end
  | EFunc ps body => GRet (h, VFun e pre ps body)
  | ECall (EId f) args sp =>
      let! (h, vs) := evals args h in
      match find f e with
      | Some _ =>
          let! v := ident_val f e h in
          match v with
          | VFun e' pre' ps body => call (CClo e' pre' ps body) vs sp h
          | VNil _ => GPanic
          | _ => GStuck
          end
      | None => match builtin f vs h with Some r => r | None => call (CKey (pre ++ f)) vs sp h end
      end
  | ECall (ESel (EId y) f) args sp =>
      if is_pkg y e then
        let! (h, vs) := evals args h in
        match find (y ++ "." ++ f) (p_funcs P) with
        | Some _ => call (CKey (y ++ "." ++ f)) vs sp h
        | None => ext (y ++ "." ++ f) vs h
        end
      else
        let! v := ident_val y e h in let! (h, vs) := evals args h in
        method 3 v (find y e) f vs sp h
  | ECall (ESel a f) args sp =>
      let! (h, v) := eval a e h in let! (h, vs) := evals args h in method 3 v None f vs sp h
  | ECall _ _ _ => GStuck
  end.
Fixpoint evals (l : list expr) (e : env) (h : heap) : gres (heap * list val) :=
  match l with
  | [] => GRet (h, [])
  | x :: l => let! (h, v) := eval x e h in let! (h, vs) := evals l e h in GRet (h, v :: vs)
  end.

(* ---- assignment ---------------------------------------------------------------------------- *)
Inductive place := PVar (l : loc) | PNil | PField (v : val) (f : string) | PElem (v i : val).
(* the operands of the left-hand side; a nil pointer is noticed when it is written to *)
Definition place_of (x : expr) (e : env) (h : heap) : gres (heap * place) :=
  match x with
  | EId y => match find y e with Some l => GRet (h, PVar l) | None => GStuck end
  | ESel a f => let! (h, v) := eval a e h in GRet (h, PField v f)
  | EIdx a i => let! (h, v) := eval a e h in let! (h, i) := eval i e h in GRet (h, PElem v i)
  | EUn "*" a => let! (h, v) := eval a e h in match v with VPtr l => GRet (h, PVar l) | VNil _ => GRet (h, PNil) | _ => GStuck end
  | _ => GStuck
  end.
Fixpoint places (l : list expr) (e : env) (h : heap) : gres (heap * list place) :=
  match l with
  | [] => GRet (h, [])
  | x :: l => let! (h, p) := place_of x e h in let! (h, ps) := places l e h in GRet (h, p :: ps)
  end.
Definition store (p : place) (v : val) (h : heap) : gres heap :=
  match p with
  | PVar l => match get h l with Some (Cell _) => GRet (set h l (Cell v)) | _ => GStuck end
  | PNil => GPanic
  | PField (VPtr l) f =>
      match get h l with Some (Cell (VStruct t fs)) => GRet (set h l (Cell (VStruct t (put f v fs)))) | _ => GStuck end
  | PField (VNil _) _ => GPanic
  | PElem (VSlice l off n) (VInt _ z) =>
      if in_bounds z n then
        match get h l with Some (Arr t vs) => GRet (set h l (Arr t (set_nth (off + Z.to_nat z) v vs))) | _ => GStuck end
      else GPanic
  | PElem (VNil _) (VInt _ _) => GPanic
  | _ => GStuck
  end.
Fixpoint stores (ps : list place) (vs : list val) (h : heap) : gres heap :=
  match ps, vs with
  | [], [] => GRet h
  | p :: ps, v :: vs => let! h := store p v h in stores ps vs h
  | _, _ => GStuck
  end.
(* the values of a list of expressions, or of one call with several results *)
Definition rhs (es : list expr) (e : env) (h : heap) : gres (heap * list val) :=
  match es with
  | [x] => let! (h, v) := eval x e h in GRet (h, as_list v)
  | _ => evals es e h
  end.
(* a new variable *)
Definition declare (x : string) (v : val) (e : env) (h : heap) : env * heap := ((x, List.length h) :: e, h ++ [Cell v]).
Fixpoint declares (xs : list string) (vs : list val) (e : env) (h : heap) : gres (env * heap) :=
  match xs, vs with
  | [], [] => GRet (e, h)
  | x :: xs, v :: vs => let '(e, h) := if String.eqb x "_" then (e, h) else declare x v e h in declares xs vs e h
  | _, _ => GStuck
  end.

(* ---- statements ---------------------------------------------------------------------------- *)
Inductive ctl := CNorm | CGoto (l : string) | CRet (vs : list val).
Definition sem := env -> heap -> gres (env * heap * ctl).

Fixpoint seq (fs : list (option string * sem)) (e : env) (h : heap) : gres (env * heap * ctl) :=
  match fs with
  | [] => GRet (e, h, CNorm)
  | (_, f) :: fs =>
      let! (e, h, c) := f e h in
      match c with CNorm => seq fs e h | _ => GRet (e, h, c) end
  end.
(* the statements after a label *)
Fixpoint after {A} (l : string) (fs : list (option string * A)) : option (list (option string * A)) :=
  match fs with
  | [] => None
  | (Some x, _) :: fs => if String.eqb x l then Some fs else after l fs
  | _ :: fs => after l fs
  end.
(* the statements cur of a block all; a goto to a label of the block goes on there.  n bounds
   the number of such jumps. *)
Fixpoint jumps (n : nat) (all cur : list (option string * sem)) (e : env) (h : heap) : gres (env * heap * ctl) :=
  let! (e, h, c) := seq cur e h in
  match c with
  | CGoto l =>
      match after l all with
      | Some cur' => match n with O => GFuel | S n => jumps n all cur' e h end
      | None => GRet (e, h, c)
      end
  | _ => GRet (e, h, c)
  end.
Definition block (n : nat) (fs : list (option string * sem)) : sem :=
  fun e h => let! (_, h, c) := jumps n fs fs e h in GRet (e, h, c).

(* for _, v := range: k elements from the i-th on; the body is f *)
Fixpoint range (k i : nat) (x y : string) (s : val) (f : sem) (e : env) (h : heap) : gres (heap * ctl) :=
  match k with
  | O => GRet (h, CNorm)
  | S k =>
      let! v := elem s (VInt "" (Z.of_nat i)) h in
      let! (e', h) := declares [x; y] [VInt "" (Z.of_nat i); v] e h in
      let! (_, h, c) := f e' h in
      match c with CNorm => range k (S i) x y s f e h | _ => GRet (h, c) end
  end.

Definition label_of (s : stm) : option string := match s with SLabel l => Some l | _ => None end.

Variable n : nat.
Fixpoint exec (s : stm) : sem :=
  let body l := block n (map (fun s => (label_of s, exec s)) l) in
  match s with
  | SAssign op l r => fun e h =>
      let! (h, ps) := places l e h in
      let! (h, vs) := rhs r e h in
      if String.eqb op "=" then let! h := stores ps vs h in GRet (e, h, CNorm)
      else match op, l, vs with
      | "+=", [x], [v] => let! (h, old) := eval x e h in let! w := binop "+" old v in let! h := stores ps [w] h in GRet (e, h, CNorm)
      | _, _, _ => GStuck
      end
  | SDefine xs r => fun e h => let! (h, vs) := rhs r e h in let! (e, h) := declares xs vs e h in GRet (e, h, CNorm)
  | SVar x t => fun e h => let '(e, h) := declare x (zero 4 P pre t) e h in GRet (e, h, CNorm)
  | SIncDec op x => fun e h =>
      let! (h, p) := place_of x e h in let! (h, v) := eval x e h in
      let! w := binop (if String.eqb op "++" then "+" else "-") v (VInt "" 1) in
      let! h := store p w h in GRet (e, h, CNorm)
  | SExpr x => fun e h => let! (h, _) := eval x e h in GRet (e, h, CNorm)
  | SIf i c t f =>
      let i := map (fun s => (label_of s, exec s)) i in
      let t := body t in let f := body f in
      fun e h =>
        let! (e', h, k) := seq i e h in
        match k with
        | CNorm =>
            let! (h, v) := eval c e' h in
            match v with
            | VBool b => let! (_, h, k) := (if b then t else f) e' h in GRet (e, h, k)
            | _ => GStuck
            end
        | _ => GStuck
        end
  | SSwitch tag cs => fun e h =>
      let! (h, v) := (match tag with [] => GRet (h, VBool true) | [x] => eval x e h | _ => GStuck end) in
      let default := fix default (cs : list (list expr * list stm)) (h : heap) : gres (env * heap * ctl) :=
        match cs with
        | [] => GRet (e, h, CNorm)
        | ([], b) :: _ => body b e h
        | _ :: cs => default cs h
        end in
      (* the first case that is equal to the tag *)
      (fix cases (l : list (list expr * list stm)) (h : heap) : gres (env * heap * ctl) :=
        match l with
        | [] => default cs h
        | (xs, b) :: l =>
            let! (h, hit) := (fix hits (xs : list expr) (h : heap) : gres (heap * bool) :=
              match xs with
              | [] => GRet (h, false)
              | x :: xs => let! (h, w) := eval x e h in
                  match val_eq v w with Some true => GRet (h, true) | Some false => hits xs h | None => GStuck end
              end) xs h in
            if hit then body b e h else cases l h
        end) cs h
  | SRange x y s b =>
      let b := body b in
      fun e h =>
        let! (h, v) := eval s e h in
        let! len := (match v with VSlice _ _ k => GRet k | VNil _ => GRet O | _ => GStuck end) in
        let! (h, c) := range len 0 x y v b e h in GRet (e, h, c)
  | SGoto l => fun e h => GRet (e, h, CGoto l)
  | SLabel _ => fun e h => GRet (e, h, CNorm)
  | SReturn es => fun e h => let! (h, vs) := rhs es e h in GRet (e, h, CRet vs)
  | SBlock l => body l
  end.
Definition body (l : list stm) : sem := block n (map (fun s => (label_of s, exec s)) l).
End Eval.

(* ---- calls ---------------------------------------------------------------------------------- *)
(* the parameters as variables; those for ...T become a slice *)
Fixpoint bind_params (P : prog) (pre : string) (ps : list (string * ty * bool)) (vs : list val) (spread : bool) (e : env) (h : heap)
  : gres (env * heap) :=
  match ps, vs with
  | [], [] => GRet (e, h)
  | [(x, t, true)], _ =>
      if spread then match vs with [v] => GRet (declare x v e h) | _ => GStuck end
      else match vs with
      | [] => GRet (declare x (VNil "") e h)
      | _ => GRet (declare x (VSlice (List.length h) 0 (List.length vs)) e (h ++ [Arr (elem_name t) vs]))
      end
  | (x, t, false) :: ps, v :: vs => let '(e, h) := declare x (coerce P pre t v) e h in bind_params P pre ps vs spread e h
  | _, _ => GStuck
  end.
Definition tuple (vs : list val) : val := match vs with [v] => v | _ => VTuple vs end.

(* d bounds the depth of calls, n the jumps inside a block *)
Fixpoint call (P : prog) (ext : string -> list val -> heap -> gres (heap * val)) (n d : nat)
  (f : callee) (args : list val) (spread : bool) (h : heap) : gres (heap * val) :=
  match d with O => GFuel | S d =>
    let run pre e ps results b :=
      let! (e, h) := bind_params P pre ps args spread e h in
      let! (_, h, c) := body P pre (call P ext n d) ext n b e h in
      match c with
      | CRet vs => GRet (h, tuple (coerces P pre results vs))
      | CNorm => GRet (h, VTuple [])
      | CGoto _ => GStuck
      end in
    match f with
    | CKey k => match find k (p_funcs P) with
                | Some d => run (f_pre d) [] (f_params d) (f_results d) (f_body d)
                | None => GStuck
                end
    | CClo e pre ps b => run pre e ps [] b
    end
  end.

(* ---- loading a program ------------------------------------------------------------------------ *)
(* the declarations of a file of package pre; constants and variables in the order given *)
Definition typed (P : prog) (pre : string) (t : option ty) (v : val) : val :=
  match t, v with
  | Some (TyName x), VInt _ z => if String.eqb x "int" then v else VInt (pre ++ x) z
  | _, _ => v
  end.
Definition load1 (pre : string) (d : decl) (P : prog) (h : heap) : gres (prog * heap) :=
  let nocall := fun (_ : callee) (_ : list val) (_ : bool) (_ : heap) => @GStuck (heap * val) in
  let noext := fun (_ : string) (_ : list val) (_ : heap) => @GStuck (heap * val) in
  match d with
  | DConst x t e i =>
      let! (h, v) := eval (mkProg (p_types P) (((pre ++ "iota")%string, VInt "" i) :: p_globals P) (p_funcs P)) pre nocall noext e [] h in
      GRet (mkProg (p_types P) (p_globals P ++ [((pre ++ x)%string, typed P pre t v)]) (p_funcs P), h)
  | DVar x t e =>
      let! (h, v) := eval P pre nocall noext e [] h in
      GRet (mkProg (p_types P) (p_globals P ++ [((pre ++ x)%string, v)]) (p_funcs P), h)
  | DType x t => GRet (mkProg (p_types P ++ [((pre ++ x)%string, t)]) (p_globals P) (p_funcs P), h)
  | DFunc recv x ps rs b =>
      let '(key, r, ps) := match recv with
        | Some (y, t) => ((pre ++ match t with TyPtr (TyName z) | TyName z => z | _ => "" end ++ "." ++ x)%string, Some t, (y, t, false) :: ps)
        | None => ((pre ++ x)%string, None, ps)
        end in
      GRet (mkProg (p_types P) (p_globals P) (p_funcs P ++ [(key, mkFunc pre r ps rs b)]), h)
  end.
Fixpoint load (pre : string) (ds : list decl) (P : prog) (h : heap) : gres (prog * heap) :=
  match ds with
  | [] => GRet (P, h)
  | d :: ds => let! (P, h) := load1 pre d P h in load pre ds P h
  end.
