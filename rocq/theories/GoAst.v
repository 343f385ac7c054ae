(* Abstract syntax of the part of Go that the package is written in.  One constructor per
   form of the Go specification; nothing in here is particular to this package. *)
From Coq Require Export ZArith List String.
Export ListNotations.

Inductive ty :=
| TyName (x : string)                                  (* T, pkg.T *)
| TyPtr (t : ty)                                       (* *T *)
| TySlice (t : ty)                                     (* []T *)
| TyStruct (fs : list (string * ty * bool))            (* struct { f T }; true: embedded *)
| TyOther.                                             (* interface { .. }, func( .. ) *)

Inductive expr :=
| EId (x : string)
| EInt (z : Z)
| EStr (s : string)
| ESel (e : expr) (f : string)                         (* e.f *)
| EIdx (e i : expr)                                    (* e[i] *)
| ESlc (e lo hi : expr)                                (* e[lo:hi] *)
| ECall (f : expr) (args : list expr) (spread : bool)  (* f(args), f(args...) *)
| EBin (op : string) (a b : expr)
| EUn (op : string) (a : expr)                         (* !a  *a  &a *)
| ELit (t : ty) (fs : list (string * expr))            (* T{f: e}, T{e}: key "" *)
| EConv (t : ty) (e : expr)                            (* []T(e) *)
| EFunc (ps : list (string * ty * bool)) (body : list stm)   (* func(p T) { body }; true: p ...T *)
with stm :=
| SAssign (op : string) (l r : list expr)              (* l = r, l += r *)
| SDefine (xs : list string) (r : list expr)           (* xs := r *)
| SVar (x : string) (t : ty)                           (* var x T *)
| SIncDec (op : string) (e : expr)                     (* e++ *)
| SExpr (e : expr)
| SIf (init : list stm) (c : expr) (t e : list stm)
| SSwitch (tag : list expr) (cs : list (list expr * list stm))  (* no tag: []; default: [] *)
| SRange (k v : string) (e : expr) (body : list stm)   (* for k, v := range e { body } *)
| SGoto (l : string)
| SLabel (l : string)                                  (* l: -- the statement follows *)
| SReturn (es : list expr)
| SBlock (l : list stm).

Inductive decl :=
| DConst (x : string) (t : option ty) (e : expr) (iota : Z)  (* an omitted expression is the one above *)
| DVar (x : string) (t : option ty) (e : expr)
| DType (x : string) (t : ty)
| DFunc (recv : option (string * ty)) (x : string) (ps : list (string * ty * bool)) (results : list ty) (body : list stm).
