(* A recursive-descent parser for the part of Go the package is written in (The Go
   Programming Language Specification).  It returns None for what it does not know.
   The number n bounds the depth of the recursion only. *)
From Coq Require Import ZArith List String Bool.
From Verif Require Import GoAst GoLex.
Import ListNotations.
Local Open Scope string_scope.

Notation "'get' p <- e ; k" := (match e with Some p => k | None => None end) (at level 200, p pattern, e at level 100, k at level 200).

Definition is_op (s : string) (t : list tok) : bool := match t with TOp x :: _ => String.eqb x s | _ => false end.
Definition is_kw (s : string) (t : list tok) : bool := match t with TId x :: _ => String.eqb x s | _ => false end.
Definition op (s : string) (t : list tok) : option (list tok) := if is_op s t then Some (tl t) else None.
Definition kw (s : string) (t : list tok) : option (list tok) := if is_kw s t then Some (tl t) else None.
Definition ident (t : list tok) : option (string * list tok) :=
  match t with TId x :: r => if mem x keywords then None else Some (x, r) | _ => None end.

Definition prec (t : list tok) : nat :=
  match t with
  | TOp x :: _ =>
      if mem x ["||"] then 1 else if mem x ["&&"] then 2
      else if mem x ["=="; "!="; "<"; "<="; ">"; ">="] then 3
      else if mem x ["+"; "-"] then 4 else if mem x ["*"; "/"; "%"; "&"] then 5 else 0
  | _ => 0
  end.

(* skip to the bracket that closes the d-th one open *)
Fixpoint skip (d : nat) (t : list tok) : option (list tok) :=
  match t with
  | [] => None
  | TOp x :: r =>
      if mem x ["("; "["; "{"] then skip (S d) r
      else if mem x [")"; "]"; "}"] then match d with O => Some r | S d' => skip d' r end
      else skip d r
  | _ :: r => skip d r
  end.

Fixpoint p_type (n : nat) (t : list tok) {struct n} : option (ty * list tok) :=
  match n with O => None | S n =>
    if is_op "*" t then get (a, r) <- p_type n (tl t); Some (TyPtr a, r)
    else if is_op "[" t then get r <- op "]" (tl t); get (a, r) <- p_type n r; Some (TySlice a, r)
    else if is_kw "interface" t then get r <- op "{" (tl t); get r <- skip 0 r; Some (TyOther, r)
    else if is_kw "func" t then get r <- op "(" (tl t); get r <- skip 0 r; Some (TyOther, r)
    else if is_kw "struct" t then get r <- op "{" (tl t); get (fs, r) <- p_fields n [] r; Some (TyStruct fs, r)
    else get (x, r) <- ident t;
      if is_op "." r then get (y, r) <- ident (tl r); Some (TyName (x ++ "." ++ y), r) else Some (TyName x, r)
  end
(* the fields of a struct up to "}"; xs: the names seen before the type *)
with p_fields (n : nat) (xs : list string) (t : list tok) {struct n} : option (list (string * ty * bool) * list tok) :=
  match n with O => None | S n =>
    if is_op ";" t then p_fields n [] (tl t)
    else if is_op "}" t then Some ([], tl t)
    else if is_op "*" t then
      get (x, r) <- ident (tl t); get (fs, r) <- p_fields n [] r; Some ((x, TyPtr (TyName x), true) :: fs, r)
    else get (x, r) <- ident t;
      if is_op "," r then p_fields n (xs ++ [x]) (tl r)
      else get (a, r) <- p_type n r; get (fs, r) <- p_fields n [] r;
        Some ((map (fun y => (y, a, false)) (xs ++ [x]) ++ fs)%list, r)
  end.

(* p T, p ...T up to ")" *)
Fixpoint p_params (n : nat) (t : list tok) {struct n} : option (list (string * ty * bool) * list tok) :=
  match n with O => None | S n =>
    if is_op ")" t then Some ([], tl t)
    else if is_op "," t then p_params n (tl t)
    else get (x, r) <- ident t;
      let v := is_op "..." r in
      get (a, r) <- p_type n (if v then tl r else r); get (ps, r) <- p_params n r; Some ((x, a, v) :: ps, r)
  end.
(* types up to ")" *)
Fixpoint p_types (n : nat) (t : list tok) {struct n} : option (list ty * list tok) :=
  match n with O => None | S n =>
    if is_op ")" t then Some ([], tl t)
    else if is_op "," t then p_types n (tl t)
    else get (a, r) <- p_type n t; get (l, r) <- p_types n r; Some (a :: l, r)
  end.
(* the result of a function, before "{" *)
Definition p_results (n : nat) (t : list tok) : option (list ty * list tok) :=
  if is_op "{" t then Some ([], t)
  else if is_op "(" t then p_types n (tl t)
  else get (a, r) <- p_type n t; Some ([a], r).

Definition names (es : list expr) : option (list string) :=
  fold_right (fun e a => match e, a with EId x, Some l => Some (x :: l) | _, _ => None end) (Some []) es.

(* lit: a composite literal T{..} may stand here (not in the head of if, switch, for) *)
Fixpoint p_expr (n : nat) (lit : bool) (min : nat) (t : list tok) {struct n} : option (expr * list tok) :=
  match n with O => None | S n => get (a, r) <- p_unary n lit t; p_bin n lit min a r end
with p_bin (n : nat) (lit : bool) (min : nat) (a : expr) (t : list tok) {struct n} : option (expr * list tok) :=
  match n with O => None | S n =>
    match prec t, t with
    | S p, TOp o :: r =>
        if Nat.leb min (S p) then get (b, r) <- p_expr n lit (S (S p)) r; p_bin n lit min (EBin o a b) r
        else Some (a, t)
    | _, _ => Some (a, t)
    end
  end
with p_unary (n : nat) (lit : bool) (t : list tok) {struct n} : option (expr * list tok) :=
  match n with O => None | S n =>
    match t with
    | TOp o :: r =>
        if mem o ["!"; "&"; "*"; "-"] then get (a, r) <- p_unary n lit r; Some (EUn o a, r)
        else if String.eqb o "(" then
          get (a, r) <- p_expr n true 1 r; get r <- op ")" r; p_post n lit a r
        else if String.eqb o "[" then
          get (a, r) <- p_type n t;
          if is_op "{" r then get (fs, r) <- p_elems n (tl r); p_post n lit (ELit a fs) r
          else get r <- op "(" r; get (e, r) <- p_expr n true 1 r; get r <- op ")" r; p_post n lit (EConv a e) r
        else None
    | TInt z :: r => p_post n lit (EInt z) r
    | TStr s :: r => p_post n lit (EStr s) r
    | TId x :: r =>
        if String.eqb x "func" then
          get r <- op "(" r; get (ps, r) <- p_params n r; get (_, r) <- p_results n r;
          get (b, r) <- p_block n r; p_post n lit (EFunc ps b) r
        else if mem x keywords then None
        else if lit && is_op "{" r then get (fs, r) <- p_elems n (tl r); p_post n lit (ELit (TyName x) fs) r
        else p_post n lit (EId x) r
    | _ => None
    end
  end
with p_post (n : nat) (lit : bool) (a : expr) (t : list tok) {struct n} : option (expr * list tok) :=
  match n with O => None | S n =>
    if is_op "." t then get (x, r) <- ident (tl t); p_post n lit (ESel a x) r
    else if is_op "[" t then
      get (i, r) <- p_expr n true 1 (tl t);
      if is_op ":" r then get (j, r) <- p_expr n true 1 (tl r); get r <- op "]" r; p_post n lit (ESlc a i j) r
      else get r <- op "]" r; p_post n lit (EIdx a i) r
    else if is_op "(" t then get (es, sp, r) <- p_args n (tl t); p_post n lit (ECall a es sp) r
    else Some (a, t)
  end
(* e, e up to ")" *)
with p_args (n : nat) (t : list tok) {struct n} : option (list expr * bool * list tok) :=
  match n with O => None | S n =>
    if is_op ")" t then Some ([], false, tl t)
    else if is_op "," t then p_args n (tl t)
    else get (e, r) <- p_expr n true 1 t;
      if is_op "..." r then get r <- op ")" (tl r); Some ([e], true, r)
      else get (es, sp, r) <- p_args n r; Some (e :: es, sp, r)
  end
(* the elements of a composite literal up to "}" *)
with p_elems (n : nat) (t : list tok) {struct n} : option (list (string * expr) * list tok) :=
  match n with O => None | S n =>
    if is_op "}" t then Some ([], tl t)
    else if is_op "," t then p_elems n (tl t)
    else match t with
    | TId x :: TOp ":" :: r => get (e, r) <- p_expr n true 1 r; get (l, r) <- p_elems n r; Some ((x, e) :: l, r)
    | _ => get (e, r) <- p_expr n true 1 t; get (l, r) <- p_elems n r; Some (("", e) :: l, r)
    end
  end
(* e, e *)
with p_exprs (n : nat) (lit : bool) (t : list tok) {struct n} : option (list expr * list tok) :=
  match n with O => None | S n =>
    get (e, r) <- p_expr n lit 1 t;
    if is_op "," r then get (l, r) <- p_exprs n lit (tl r); Some (e :: l, r) else Some ([e], r)
  end
with p_simple (n : nat) (lit : bool) (t : list tok) {struct n} : option (stm * list tok) :=
  match n with O => None | S n =>
    get (l, r) <- p_exprs n lit t;
    match r with
    | TOp o :: r' =>
        if mem o ["="; "+="; "-="] then get (e, r) <- p_exprs n lit r'; Some (SAssign o l e, r)
        else if String.eqb o ":=" then get xs <- names l; get (e, r) <- p_exprs n lit r'; Some (SDefine xs e, r)
        else match l with
        | [e] => if mem o ["++"; "--"] then Some (SIncDec o e, r') else Some (SExpr e, r)
        | _ => None
        end
    | _ => None
    end
  end
with p_block (n : nat) (t : list tok) {struct n} : option (list stm * list tok) :=
  match n with O => None | S n =>
    get r <- op "{" t; get (l, r) <- p_stmts n r; get r <- op "}" r; Some (l, r)
  end
(* statements up to "}", case or default *)
with p_stmts (n : nat) (t : list tok) {struct n} : option (list stm * list tok) :=
  match n with O => None | S n =>
    if is_op "}" t || is_kw "case" t || is_kw "default" t then Some ([], t)
    else if is_op ";" t then p_stmts n (tl t)
    else match t with
    | TId x :: TOp ":" :: r => if mem x keywords then None else get (l, r) <- p_stmts n r; Some (SLabel x :: l, r)
    | _ =>
      get (s, r) <- p_stmt n t;
      if is_op ";" r then get (l, r) <- p_stmts n (tl r); Some (s :: l, r)
      else if is_op "}" r then Some ([s], r) else None
    end
  end
with p_stmt (n : nat) (t : list tok) {struct n} : option (stm * list tok) :=
  match n with O => None | S n =>
    if is_op "{" t then get (l, r) <- p_block n t; Some (SBlock l, r)
    else if is_kw "if" t then p_if n (tl t)
    else if is_kw "switch" t then
      let t := tl t in
      if is_op "{" t then get (cs, r) <- p_cases n (tl t); Some (SSwitch [] cs, r)
      else get (e, r) <- p_expr n false 1 t; get r <- op "{" r; get (cs, r) <- p_cases n r; Some (SSwitch [e] cs, r)
    else if is_kw "for" t then
      get (k, r) <- ident (tl t); get r <- op "," r; get (v, r) <- ident r; get r <- op ":=" r; get r <- kw "range" r;
      get (e, r) <- p_expr n false 1 r; get (b, r) <- p_block n r; Some (SRange k v e b, r)
    else if is_kw "goto" t then get (x, r) <- ident (tl t); Some (SGoto x, r)
    else if is_kw "var" t then get (x, r) <- ident (tl t); get (a, r) <- p_type n r; Some (SVar x a, r)
    else if is_kw "return" t then
      if is_op ";" (tl t) || is_op "}" (tl t) then Some (SReturn [], tl t)
      else get (es, r) <- p_exprs n true (tl t); Some (SReturn es, r)
    else p_simple n true t
  end
with p_if (n : nat) (t : list tok) {struct n} : option (stm * list tok) :=
  match n with O => None | S n =>
    get (s, r) <- p_simple n false t;
    get (i, c, r) <- (if is_op ";" r then get (c, r) <- p_expr n false 1 (tl r); Some ([s], c, r)
                      else match s with SExpr c => Some ([], c, r) | _ => None end);
    get (a, r) <- p_block n r;
    if is_kw "else" r then
      if is_kw "if" (tl r) then get (b, r) <- p_if n (tl (tl r)); Some (SIf i c a [b], r)
      else get (b, r) <- p_block n (tl r); Some (SIf i c a b, r)
    else Some (SIf i c a [], r)
  end
(* the cases of a switch up to and with "}" *)
with p_cases (n : nat) (t : list tok) {struct n} : option (list (list expr * list stm) * list tok) :=
  match n with O => None | S n =>
    if is_op "}" t then Some ([], tl t)
    else
      get (es, r) <- (if is_kw "default" t then Some ([], tl t) else get r <- kw "case" t; p_exprs n true r);
      get r <- op ":" r; get (b, r) <- p_stmts n r; get (cs, r) <- p_cases n r; Some ((es, b) :: cs, r)
  end.

(* ---- declarations ------------------------------------------------------------------- *)
(* x T = e; when nothing follows the name, those of the line above *)
Definition p_spec (n : nat) (t : list tok) : option (string * option ty * option expr * list tok) :=
  get (x, r) <- ident t;
  if is_op ";" r || is_op ")" r then Some (x, None, None, r)
  else get (a, r) <- (if is_op "=" r then Some (None, r) else get (a, r) <- p_type n r; Some (Some a, r));
    get r <- op "=" r; get (e, r) <- p_expr n true 1 r; Some (x, a, Some e, r).
(* the lines of const ( .. ) or var ( .. ) up to ")" *)
Fixpoint p_group (n : nat) (mk : string -> option ty -> expr -> Z -> decl) (i : Z) (above : option (option ty * expr))
  (t : list tok) {struct n} : option (list decl * list tok) :=
  match n with O => None | S n =>
    if is_op ";" t then p_group n mk i above (tl t)
    else if is_op ")" t then Some ([], tl t)
    else
      get (x, a, e, r) <- p_spec n t;
      get (a, e) <- match e with Some e => Some (a, e) | None => above end;
      get (l, r) <- p_group n mk (i + 1) (Some (a, e)) r; Some (mk x a e i :: l, r)
  end.
Definition p_cv (n : nat) (mk : string -> option ty -> expr -> Z -> decl) (t : list tok) : option (list decl * list tok) :=
  if is_op "(" t then p_group n mk 0 None (tl t)
  else get (x, a, e, r) <- p_spec n t; get e <- e; Some ([mk x a e 0%Z], r).

Definition p_func (n : nat) (t : list tok) : option (decl * list tok) :=
  get (recv, r) <- (if is_op "(" t then get (ps, r) <- p_params n (tl t);
                      match ps with [(x, a, false)] => Some (Some (x, a), r) | _ => None end else Some (None, t));
  get (x, r) <- ident r; get r <- op "(" r; get (ps, r) <- p_params n r; get (rs, r) <- p_results n r;
  get (b, r) <- p_block n r; Some (DFunc recv x ps rs b, r).

Fixpoint p_decls (n : nat) (t : list tok) {struct n} : option (list decl) :=
  match n with O => None | S n =>
    match t with
    | [] => Some []
    | _ =>
      if is_op ";" t then p_decls n (tl t)
      else if is_kw "import" t then
        get r <- (if is_op "(" (tl t) then skip 0 (tl (tl t)) else match tl t with TStr _ :: r => Some r | _ => None end); p_decls n r
      else if is_kw "const" t then get (d, r) <- p_cv n DConst (tl t); get l <- p_decls n r; Some (d ++ l)%list
      else if is_kw "var" t then get (d, r) <- p_cv n (fun x a e _ => DVar x a e) (tl t); get l <- p_decls n r; Some (d ++ l)%list
      else if is_kw "type" t then get (x, r) <- ident (tl t); get (a, r) <- p_type n r; get l <- p_decls n r; Some (DType x a :: l)
      else if is_kw "func" t then get (d, r) <- p_func n (tl t); get l <- p_decls n r; Some (d :: l)
      else None
    end
  end.

(* a source file: package clause, imports, declarations *)
Definition parse_file (n : nat) (s : list Init.Byte.byte) : option (string * list decl) :=
  get r <- kw "package" (tokens s); get (x, r) <- ident r; get l <- p_decls n r; Some (x, l).
