(* Each operation of Heap.v, run from the text of the package. *)
From Coq Require Import Lia.
From Verif Require Import GoAst.
From Verif Require Import GoBase MachineSyntax MachineTables Machine Urn Json.
From Verif Require GoPackage.
From Verif Require Heap.
From Verif Require Import GoSem SrcRender SrcSim SrcSim2 SrcFacts SrcSim4 SrcSim5 Api PropsSrc SrcApi SrcApi2 SrcApi3 SrcApi4 SrcApi5 SrcHeap.
Import ListNotations.
Local Open Scope string_scope.
Local Open Scope list_scope.

Section Ops.
Variable uni : bytes -> bytes.
Variable newer : bool.
Variable n d : nat.
Let ext := GoPackage.ext uni newer.
Let C := call package ext n.

(* f(args), v.f(args) *)
Definition fun_call (f : string) (args : list val) (h : heap) : gres (heap * val) := call package (GoPackage.ext uni newer) n d (CKey f) args false h.
Definition meth_call (v : val) (f : string) (args : list val) (h : heap) : gres (heap * val) :=
  method package (call package (GoPackage.ext uni newer) n d) 3 v None f args false h.
(* &T{..}; v.f = w; *v = w; *v *)
Definition new_struct (t : string) (fs : list (string * val)) (h : heap) : gres (heap * val) :=
  let! (h, v) := literal package "" (TyName t) fs h in GRet (h ++ [Cell v], VPtr (List.length h)).
Definition assigns (ps : list place) (vs : list val) (h : heap) : gres (heap * val) := let! h := stores ps vs h in GRet (h, VTuple []).
Definition star (v : val) : place := match v with VPtr l => PVar l | _ => PNil end.
Definition load (v : val) (h : heap) : gres val :=
  match v with VPtr l => match get h l with Some (Cell w) => GRet w | _ => GStuck end | VNil _ => GPanic | _ => GStuck end.

Definition at_ (L : list loc) (p : Heap.ptr) : list loc := match p with None => [] | Some a => match nth_error L a with Some l => [l] | None => [] end end.

(* calls r h o W g: in the heap h, with the objects of Heap.v at r, the Go program g is the
   operation o; W: the objects of h it may write to.  Byte slices and options are whatever the
   client has made of them. *)
Inductive calls (r : locs) (h : heap) : Heap.op -> list loc -> gres (heap * val) -> Prop :=
| go_Parse s ks dv vs : input h dv s -> Forall2 (is_opt h) vs ks -> calls r h (Heap.Parses s ks) [] (fun_call "Parse" (dv :: vs) h)
| go_New ks vs : Forall2 (is_opt h) vs ks -> calls r h (Heap.NewMachines ks) [] (fun_call "NewMachine" vs h)
| go_MParse m s dv : input h dv s -> calls r h (Heap.MParses m s) (at_ (l_m r) m) (meth_call (pv "" (l_m r) m) "Parse" [dv] h)
| go_MMode m x : calls r h (Heap.MModes m x) (at_ (l_m r) m) (meth_call (pv "" (l_m r) m) "WithParsingMode" [VInt "ParsingMode" x] h)
| go_MError m : calls r h (Heap.MErrors m) [] (meth_call (pv "" (l_m r) m) "Error" [] h)
| go_String p : calls r h (Heap.Strings p) [] (meth_call (pv "URN" (l_u r) p) "String" [] h)
| go_Normalize p : calls r h (Heap.Normalizes p) [] (meth_call (pv "URN" (l_u r) p) "Normalize" [] h)
| go_Equal p q : calls r h (Heap.Equals p q) [] (meth_call (pv "URN" (l_u r) p) "Equal" [pv "URN" (l_u r) q] h)
| go_IsSCIM p : calls r h (Heap.IsSCIMs p) [] (meth_call (pv "URN" (l_u r) p) "IsSCIM" [] h)
| go_SCIM p : calls r h (Heap.SCIMs p) [] (meth_call (pv "URN" (l_u r) p) "SCIM" [] h)
| go_RFC p : calls r h (Heap.RFCs p) [] (meth_call (pv "URN" (l_u r) p) "RFC" [] h)
| go_F p : calls r h (Heap.FComponents p) [] (meth_call (pv "URN" (l_u r) p) "FComponent" [] h)
| go_Q p : calls r h (Heap.QComponents p) [] (meth_call (pv "URN" (l_u r) p) "QComponent" [] h)
| go_R p : calls r h (Heap.RComponents p) [] (meth_call (pv "URN" (l_u r) p) "RComponent" [] h)
| go_Marshal p : calls r h (Heap.Marshals p) [] (meth_call (pv "URN" (l_u r) p) "MarshalJSON" [] h)
| go_Unmarshal p b dv : data_at h dv b -> calls r h (Heap.Unmarshals p b) (at_ (l_u r) p) (meth_call (pv "URN" (l_u r) p) "UnmarshalJSON" [dv] h)
| go_SString t : calls r h (Heap.SStrings t) [] (meth_call (pv "SCIM" (l_s r) t) "String" [] h)
| go_SMarshal t : calls r h (Heap.SMarshals t) [] (meth_call (pv "SCIM" (l_s r) t) "MarshalJSON" [] h)
| go_SUnmarshal t b dv : data_at h dv b -> calls r h (Heap.SUnmarshals t b) (at_ (l_s r) t) (meth_call (pv "SCIM" (l_s r) t) "UnmarshalJSON" [dv] h)
| go_EString e : calls r h (Heap.EStrings e) [] (meth_call (pv "URN8141" (l_e r) e) "String" [] h)
| go_EMarshal e : calls r h (Heap.EMarshals e) [] (meth_call (pv "URN8141" (l_e r) e) "MarshalJSON" [] h)
| go_EUnmarshal e b dv : data_at h dv b -> calls r h (Heap.EUnmarshals e b) (at_ (l_e r) e) (meth_call (pv "URN8141" (l_e r) e) "UnmarshalJSON" [dv] h)
(* the client's own statements *)
| go_NewURN id ss : calls r h (Heap.NewURNs id ss) [] (new_struct "URN" [("ID", VStr id); ("SS", VStr ss)] h)
| go_SetID p s : calls r h (Heap.SetIDs p s) (at_ (l_u r) p) (assigns [PField (pv "URN" (l_u r) p) "ID"] [VStr s] h)
| go_SetSS p s : calls r h (Heap.SetSSs p s) (at_ (l_u r) p) (assigns [PField (pv "URN" (l_u r) p) "SS"] [VStr s] h)
| go_CopyURN p q : calls r h (Heap.CopyURNs p q) (at_ (l_u r) p)
    (let! w := load (pv "URN" (l_u r) q) h in assigns [star (pv "URN" (l_u r) p)] [w] h)
| go_NewSCIM ty name other : calls r h (Heap.NewSCIMs ty name other) []
    (new_struct "SCIM" [("Type", VInt "scimschema.Type" ty); ("Name", VStr name); ("Other", VStr other)] h)
| go_SetSCIM t ty name other : calls r h (Heap.SetSCIMs t ty name other) (at_ (l_s r) t)
    (assigns [PField (pv "SCIM" (l_s r) t) "Type"; PField (pv "SCIM" (l_s r) t) "Name"; PField (pv "SCIM" (l_s r) t) "Other"]
       [VInt "scimschema.Type" ty; VStr name; VStr other] h)
| go_CopySCIM t t' : calls r h (Heap.CopySCIMs t t') (at_ (l_s r) t)
    (let! w := load (pv "SCIM" (l_s r) t') h in assigns [star (pv "SCIM" (l_s r) t)] [w] h)
| go_NewURN8141 p : calls r h (Heap.NewURN8141s p) [] (new_struct "URN8141" [("URN", pv "URN" (l_u r) p)] h)
| go_GetURN e : calls r h (Heap.GetURNs e) [] (let! v := field (pv "URN8141" (l_e r) e) "URN" h in GRet (h, v))
| go_SetURN e p : calls r h (Heap.SetURNs e p) (at_ (l_e r) e) (assigns [PField (pv "URN8141" (l_e r) e) "URN"] [pv "URN" (l_u r) p] h).

(* the value v, in the heap h, is the answer x to o *)
Definition vjerr (e : option jerr) : val :=
  match e with None => VNil "" | Some JJson => GoPackage.json_error | Some (JInvalid f str) => VErr (B f) [VStr str] end.
Definition is_marshal (o : Heap.op) : bool := match o with Heap.Marshals _ | Heap.SMarshals _ | Heap.EMarshals _ => true | _ => false end.
Definition shows (r : locs) (h : heap) (o : Heap.op) (x : Heap.out) (v : val) : Prop :=
  match x with
  | Heap.Nothing => v = VTuple []
  | Heap.AURN p ok => v = match o with Heap.Parses _ _ => VTuple [pv "URN" (l_u r) p; VBool ok] | _ => pv "URN" (l_u r) p end
  | Heap.AMachine m => v = pv "" (l_m r) m
  | Heap.AURNerr p e => v = VTuple [pv "URN" (l_u r) p; verr e]
  | Heap.AnError e => v = verr e
  | Heap.AJerr e => v = vjerr e
  | Heap.AText s => if is_marshal o then exists w, v = VTuple [w; VNil ""] /\ is_bytes h w s else v = VStr s
  | Heap.ABool b => v = VBool b
  | Heap.AnInt k => v = VInt "Kind" k
  | Heap.ASCIM t => v = pv "SCIM" (l_s r) t
  | Heap.AURN8141 e => v = pv "URN8141" (l_e r) e
  end.
Definition meets (r : locs) (h : heap) (o : Heap.op) (W : list loc) (m : res (Heap.heap * Heap.out)) (g : gres (heap * val)) : Prop :=
  match m with
  | Ret (H', x) => exists h' v r', g = GRet (h', v) /\ rel r' H' h' /\ grows r r' /\ kept h h' W /\ shows r' h' o x v
  | Panic => g = GPanic
  | OutOfFuel => False
  end.
(* the jumps of Parse, for the text it is given *)
Definition needs (o : Heap.op) : nat :=
  let of s := 4 * List.length s + 16 in
  match o with
  | Heap.Parses s _ | Heap.MParses _ s => of s
  | Heap.Unmarshals _ b | Heap.SUnmarshals _ b | Heap.EUnmarshals _ b => match json_Unmarshal b with Some s => of s | None => 0 end
  | _ => 0
  end.

(* ---- dispatch ------------------------------------------------------------------------------------ *)
Lemma meth_ptr K l t fs f b x args h : get h l = Some (Cell (VStruct t fs)) -> find (t ++ "." ++ f)%string (p_funcs package) = Some b -> f_recv b = Some (TyPtr x) ->
  method package K 3 (VPtr l) None f args false h = K (CKey (t ++ "." ++ f)%string) (VPtr l :: args) false h.
Proof. intros G F R. cbn [method type_of]. rewrite G. cbn [gbind]. rewrite F, R. reflexivity. Qed.
Lemma meth_nil K t f b x args h : String.eqb t "" = false -> find (t ++ "." ++ f)%string (p_funcs package) = Some b -> f_recv b = Some (TyPtr x) ->
  method package K 3 (VNil t) None f args false h = K (CKey (t ++ "." ++ f)%string) (VNil t :: args) false h.
Proof. intros N F R. cbn [method type_of]. rewrite N. cbn [gbind]. rewrite F, R. reflexivity. Qed.
Lemma meth_val K l t fs f b x args h : get h l = Some (Cell (VStruct t fs)) -> find (t ++ "." ++ f)%string (p_funcs package) = Some b -> f_recv b = Some (TyName x) ->
  method package K 3 (VPtr l) None f args false h = K (CKey (t ++ "." ++ f)%string) (VStruct t fs :: args) false h.
Proof. intros G F R. cbn [method type_of]. rewrite G. cbn [gbind]. rewrite F, R. reflexivity. Qed.
Lemma meth_val_nil K t f b x args h : String.eqb t "" = false -> find (t ++ "." ++ f)%string (p_funcs package) = Some b -> f_recv b = Some (TyName x) ->
  method package K 3 (VNil t) None f args false h = GPanic.
Proof. intros N F R. cbn [method type_of]. rewrite N. cbn [gbind]. rewrite F, R. reflexivity. Qed.

(* ---- reading a related heap --------------------------------------------------------------------------- *)
Lemma at_urn r H h a c : rel r H h -> nth_error (Heap.h_urns H) a = Some c -> exists l lv, nth_error (l_u r) a = Some l /\ pv "URN" (l_u r) (Some a) = VPtr l /\
  get h l = Some (Cell (uval (pv "SCIM" (l_s r) (Heap.c_scim c)) lv (Heap.view H c))) /\ Heap.held (Heap.h_scims H) (Heap.c_scim c).
Proof.
  intros (_ & U & _) N. destruct (each_at _ _ _ _ _ U N) as (l & Q & HD & lv & G). exists l, lv. split; [exact Q|]. split; [cbn; rewrite Q; reflexivity|]. split; [exact G|exact HD].
Qed.
Lemma at_scim r H h a s : rel r H h -> nth_error (Heap.h_scims H) a = Some s -> exists l, nth_error (l_s r) a = Some l /\ pv "SCIM" (l_s r) (Some a) = VPtr l /\ get h l = Some (Cell (sval s)).
Proof.
  intros (_ & _ & U & _) N. destruct (each_at _ _ _ _ _ U N) as (l & Q & G). exists l. split; [exact Q|]. split; [cbn; rewrite Q; reflexivity|exact G].
Qed.
Lemma at_8141 r H h a p : rel r H h -> nth_error (Heap.h_8141s H) a = Some p -> exists l, nth_error (l_e r) a = Some l /\ pv "URN8141" (l_e r) (Some a) = VPtr l /\
  get h l = Some (Cell (val8141 (pv "URN" (l_u r) p))) /\ Heap.held (Heap.h_urns H) p.
Proof.
  intros (_ & _ & _ & U & _) N. destruct (each_at _ _ _ _ _ U N) as (l & Q & HD & G). exists l. split; [exact Q|]. split; [cbn; rewrite Q; reflexivity|]. split; [exact G|exact HD].
Qed.
Lemma at_machine r H h a m : rel r H h -> nth_error (Heap.h_machines H) a = Some m -> exists l dv, nth_error (l_m r) a = Some l /\ pv "" (l_m r) (Some a) = VPtr l /\
  get h l = Some (Cell (mval dv m)) /\ reachable m.
Proof.
  intros (_ & _ & _ & _ & U) N. destruct (each_at _ _ _ _ _ U N) as (l & Q & HD & dv & G). exists l, dv. split; [exact Q|]. split; [cbn; rewrite Q; reflexivity|]. split; [exact G|exact HD].
Qed.
Lemma held_nth {A} (X : list A) a : Heap.held X (Some a) -> exists x, nth_error X a = Some x.
Proof. cbn. intros L. destruct (nth_error X a) as [x|] eqn:Q; [eauto|]. apply nth_error_None in Q. lia. Qed.
(* a call that only adds objects *)
Lemma meets_pure r h o W H x h' v : rel r H h -> extends h h' -> shows r h' o x v -> meets r h o W (Ret (H, x)) (GRet (h', v)).
Proof.
  intros R X S. exists h', v, r. split; [reflexivity|]. split; [eapply rel_ext; eassumption|]. split; [apply grows_refl|]. split; [apply kept_ext, X|exact S].
Qed.
Lemma meets_says r h o W H x v g : rel r H h -> says h g v -> (forall h', shows r h' o x v) -> meets r h o W (Ret (H, x)) g.
Proof. intros R (k & ->) S. eapply meets_pure; [exact R|apply ext_app|apply S]. Qed.
End Ops.
