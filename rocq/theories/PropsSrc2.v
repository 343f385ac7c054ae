(* Every operation of Heap.v as the text of the package does it; programs of them. *)
From Coq Require Import Lia.
From Verif Require Import GoAst.
From Verif Require Import GoBase MachineSyntax MachineTables Machine Urn Json.
From Verif Require GoPackage.
From Verif Require Heap.
From Verif Require Import GoSem SrcRender SrcSim SrcSim5 Api PropsSrc SrcApi SrcApi3 SrcApi4 SrcApi5 SrcHeap SrcHeap2 SrcHeap3 SrcHeap4.
Import ListNotations.
Local Open Scope string_scope.
Local Open Scope list_scope.

Theorem operations : forall uni newer n d r H h o W g, rel r H h -> Heap.valid o H -> needs o <= n -> 6 <= d ->
  calls uni newer n d r h o W g -> meets r h o W (Heap.exec uni newer o H) g.
Proof.
  intros uni newer n d r H h o W g R V F L CA. do 6 (destruct d as [|d]; [lia|]). exact (step_all uni newer n d o r H h W g R V F CA).
Qed.

Lemma start : rel no_locs Heap.empty_heap GoPackage.package_heap.
Proof.
  split; [split; vm_compute; reflexivity|].
  assert (E : forall A (P : loc -> A -> Prop), each P [] []).
  { intros A P. split; [constructor|]. split; [reflexivity|]. intros [|a] l x Q; discriminate Q. }
  repeat (split; [apply E|]). apply E.
Qed.

(* between two calls a client makes new objects and writes to arrays of its own *)
Definition client (h h' : heap) : Prop := cells h h' /\ vars h'.
(* the operations l, made one after the other *)
Fixpoint answers (uni : bytes -> bytes) (newer : bool) (n d : nat) (l : list Heap.op) (H : Heap.heap) (r : locs) (h : heap) : Prop :=
  match l with
  | [] => True
  | o :: l => forall h1 W g, client h h1 -> calls uni newer n d r h1 o W g ->
      match Heap.exec uni newer o H with
      | Ret (H', x) => exists h2 v r2, g = GRet (h2, v) /\ grows r r2 /\ kept h1 h2 W /\ shows r2 h2 o x v /\ answers uni newer n d l H' r2 h2
      | Panic => g = GPanic
      | OutOfFuel => False
      end
  end.
(* each pointer of the program is nil or holds an object when it is used *)
Fixpoint holds (uni : bytes -> bytes) (newer : bool) (l : list Heap.op) (H : Heap.heap) : Prop :=
  match l with
  | [] => True
  | o :: l => Heap.valid o H /\ match Heap.exec uni newer o H with Ret (H', _) => holds uni newer l H' | _ => True end
  end.
Theorem programs : forall uni newer n d l, Forall (fun o => needs o <= n) l -> 6 <= d -> holds uni newer l Heap.empty_heap ->
  answers uni newer n d l Heap.empty_heap no_locs GoPackage.package_heap.
Proof.
  intros uni newer n d l F L. pose proof start as S. revert S. generalize Heap.empty_heap, no_locs, GoPackage.package_heap.
  induction F as [|o l N _ IH]; intros H r h R V; [exact I|]. destruct V as (V & VS). intros h1 W g (CE & CV) CA.
  assert (R1 : rel r H h1) by (eapply rel_cells; eassumption).
  pose proof (operations uni newer n d r H h1 o W g R1 V N L CA) as M. unfold meets in M.
  destruct (Heap.exec uni newer o H) as [(H', x)| |]; [|exact M|exact M].
  destruct M as (h2 & v & r2 & -> & R2 & GR & K & SH). exists h2, v, r2. repeat split; auto; try apply GR.
Qed.

(* there is such a call for every operation, in every state: the client can make its arguments *)
Lemma make_opts ks : forall h, exists h' vs, extends h h' /\ Forall2 (is_opt h') vs ks.
Proof.
  induction ks as [|k ks IH]; intros h; [exists h, []; split; [apply ext_refl|constructor]|].
  destruct (IH (h ++ [Cell (VInt "ParsingMode" k)])) as (h' & vs & X & F). exists h', (opt_fun (List.length h) :: vs).
  split; [eapply ext_trans; [apply ext_app|exact X]|]. constructor; [|exact F]. exists (List.length h). split; [reflexivity|]. apply X, get_last.
Qed.
Lemma make_data h w : vars h -> exists h' dv, extends h h' /\ input h' dv w.
Proof.
  intros (_ & V1). assert (L2 : 1 < List.length h) by (unfold get in V1; apply nth_error_Some; congruence).
  exists (h ++ [Arr "byte" (map VByte w)]), (VSlice (List.length h) 0 (List.length w)). split; [apply ext_app|]. split; [|cbn; lia].
  right. exists (List.length h), [], []. split; [reflexivity|]. cbn [app]. rewrite app_nil_r. apply get_last.
Qed.
Theorem callable : forall uni newer n d r h o, vars h -> exists h1 W g, client h h1 /\ calls uni newer n d r h1 o W g.
Proof.
  intros uni newer n d r h o V.
  assert (NOW : forall W g, calls uni newer n d r h o W g -> exists h1 W g, client h h1 /\ calls uni newer n d r h1 o W g).
  { intros W g K. exists h, W, g. split; [split; [apply cells_ext, ext_refl|exact V]|exact K]. }
  assert (CL : forall h1, extends h h1 -> client h h1) by (intros h1 X; split; [apply cells_ext, X|eapply vars_ext; eassumption]).
  destruct o; try (eapply NOW; constructor; fail).
  - destruct (make_data h s V) as (h1 & dv & X1 & I1). destruct (make_opts options h1) as (h2 & vs & X2 & F).
    eexists h2, _, _. split; [apply CL; eapply ext_trans; eassumption|]. apply go_Parse with (dv := dv); [|exact F].
    destruct I1 as (D & A). split; [eapply data_ext; eassumption|exact A].
  - destruct (make_opts options h) as (h2 & vs & X2 & F). eexists h2, _, _. split; [apply CL, X2|]. apply go_New with (vs := vs), F.
  - destruct (make_data h s V) as (h1 & dv & X1 & I1). eexists h1, _, _. split; [apply CL, X1|]. eapply go_MParse, I1.
  - destruct (make_data h b V) as (h1 & dv & X1 & I1 & _). eexists h1, _, _. split; [apply CL, X1|]. eapply go_Unmarshal, I1.
  - destruct (make_data h b V) as (h1 & dv & X1 & I1 & _). eexists h1, _, _. split; [apply CL, X1|]. eapply go_SUnmarshal, I1.
  - destruct (make_data h b V) as (h1 & dv & X1 & I1 & _). eexists h1, _, _. split; [apply CL, X1|]. eapply go_EUnmarshal, I1.
Qed.
