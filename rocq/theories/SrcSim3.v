(* The switches of Parse over text: what a switch does, and an evaluator for the statements
   that only read m.data[m.p]. *)
From Coq Require Import Lia.
From Verif Require Import GoAst.
From Verif Require Import GoBase MachineSyntax MachineTables Machine.
From Verif Require Import GoSem SrcRender SrcSim SrcSim2.
Import ListNotations.
Local Open Scope string_scope.
Local Open Scope list_scope.

(* ---- what a switch over constants selects --------------------------------------------------- *)
Fixpoint pick (z : Z) (cs : list (list expr * list stm)) : option (option (list stm)) :=
  match cs with
  | [] => Some None
  | ([EInt k], b) :: cs => if Z.eqb z k then Some (Some b) else pick z cs
  | _ => None
  end.
Fixpoint ints (cs : list (list expr * list stm)) : bool :=
  match cs with
  | [] => true
  | ([EInt k], b) :: cs => ints cs
  | _ => false
  end.

(* ---- statements that read m.data[m.p] and jump -------------------------------------------------- *)
Fixpoint aeval (b : byte) (x : expr) : option val :=
  match x with
  | EInt z => Some (VInt "" z)
  | EIdx (ESel (EId "m") "data") (ESel (EId "m") "p") => Some (VByte b)
  | EBin op x y =>
      match aeval b x with
      | Some v =>
          if String.eqb op "&&" then
            match v with
            | VBool true => aeval b y
            | VBool false => Some (VBool false)
            | _ => None
            end
          else if String.eqb op "||" then None
          else match aeval b y with
          | Some w => match binop op v w with GRet r => Some r | _ => None end
          | None => None
          end
      | None => None
      end
  | _ => None
  end.
(* what a statement does: Some None: it ends, Some (Some l): goto l *)
Definition act := option (option string).
Definition is_label (s : stm) : bool := match s with SLabel _ => true | _ => false end.
Fixpoint ago (f : stm -> act) (l : list stm) : act :=
  match l with
  | [] => Some None
  | s :: l => match f s with Some None => ago f l | r => r end
  end.
Definition abody (f : stm -> act) (l : list stm) : act := if existsb is_label l then None else ago f l.
Fixpoint adefault (f : stm -> act) (cs : list (list expr * list stm)) : act :=
  match cs with
  | [] => Some None
  | ([], l) :: _ => abody f l
  | _ :: cs => adefault f cs
  end.
Fixpoint acases (f : stm -> act) (b : byte) (v : val) (all cs : list (list expr * list stm)) : act :=
  match cs with
  | [] => adefault f all
  | ([], _) :: cs => acases f b v all cs
  | ([x], l) :: cs =>
      match aeval b x with
      | Some w => match val_eq v w with Some true => abody f l | Some false => acases f b v all cs | None => None end
      | None => None
      end
  | _ => None
  end.
Fixpoint astm (k : nat) (b : byte) (s : stm) : act :=
  match k with
  | 0 => None
  | S k =>
      match s with
      | SGoto l => Some (Some l)
      | GoAst.SIf [] c t e => match aeval b c with Some (VBool r) => abody (astm k b) (if r then t else e) | _ => None end
      | SSwitch [] cs => acases (astm k b) b (VBool true) cs cs
      | SSwitch [x] cs => match aeval b x with Some v => acases (astm k b) b v cs cs | None => None end
      | _ => None
      end
  end.
Definition actl (a : option string) : GoSem.ctl := match a with Some l => CGoto l | None => CNorm end.
Lemma no_labels l b : existsb is_label b = false -> after_label l b = None.
Proof.
  induction b as [|s b IH]; [reflexivity|]. cbn [existsb]. intros H. apply orb_false_elim in H. destruct H as (H1 & H2).
  destruct s; try discriminate; exact (IH H2).
Qed.

Section Switch.
Variable P : prog.
Variable pre : string.
Variable C : callee -> list val -> bool -> heap -> gres (heap * val).
Variable ext : string -> list val -> heap -> gres (heap * val).
Variable n : nat.
Let ex := exec P pre C ext n.
Let ev := eval P pre C ext.
Let bod (l : list stm) : sem := block n (map (fun s => (label_of s, ex s)) l).

Fixpoint sw_default (cs : list (list expr * list stm)) (e : env) (h : heap) : gres (env * heap * GoSem.ctl) :=
  match cs with
  | [] => GRet (e, h, CNorm)
  | ([], b) :: _ => bod b e h
  | _ :: cs => sw_default cs e h
  end.
Fixpoint sw_hits (v : val) (xs : list expr) (e : env) (h : heap) : gres (heap * bool) :=
  match xs with
  | [] => GRet (h, false)
  | x :: xs => let! (h, w) := ev x e h in
      match val_eq v w with Some true => GRet (h, true) | Some false => sw_hits v xs e h | None => GStuck end
  end.
Fixpoint sw_cases (v : val) (all l : list (list expr * list stm)) (e : env) (h : heap) : gres (env * heap * GoSem.ctl) :=
  match l with
  | [] => sw_default all e h
  | (xs, b) :: l => let! (h, hit) := sw_hits v xs e h in if hit then bod b e h else sw_cases v all l e h
  end.
Lemma ex_switch tag cs e h : ex (SSwitch tag cs) e h =
  let! (h, v) := (match tag with [] => GRet (h, VBool true) | [x] => ev x e h | _ => GStuck end) in sw_cases v cs cs e h.
Proof.
  unfold ex. cbn [exec]. fold ex. fold ev.
  destruct (match tag with [] => GRet (h, VBool true) | [x] => ev x e h | _ => GStuck end) as [(h1, v)| | |]; [|reflexivity..].
  cbn [gbind]. generalize cs at 2 4 as l. intros l. revert h1. induction l as [|(xs, b) l IH]; intros h1.
  - cbn [sw_cases]. induction cs as [|([|x xs], b) cs IHc]; [reflexivity| |].
    + reflexivity.
    + cbn [sw_default]. exact IHc.
  - cbn [sw_cases].
    assert (Q : forall xs h, (fix hits (xs : list expr) (h : heap) : gres (heap * bool) :=
              match xs with
              | [] => GRet (h, false)
              | x :: xs => let! (h, w) := eval P pre C ext x e h in
                  match val_eq v w with Some true => GRet (h, true) | Some false => hits xs h | None => GStuck end
              end) xs h = sw_hits v xs e h).
    { induction xs0 as [|x xs0 IHx]; intros h2; [reflexivity|]. cbn [sw_hits]. unfold ev.
      destruct (eval P pre C ext x e h2) as [(h3, w)| | |]; [|reflexivity..]. cbn [gbind].
      destruct (val_eq v w) as [[|]|]; [reflexivity|apply IHx|reflexivity]. }
    rewrite Q. destruct (sw_hits v xs e h1) as [(h2, [|])| | |]; [|exact (IH h2)|reflexivity..]. reflexivity.
Qed.

(* over integer constants *)
Lemma ints_default cs e h : ints cs = true -> sw_default cs e h = GRet (e, h, CNorm).
Proof.
  induction cs as [|(xs, b) cs IH]; [reflexivity|]. intros H. cbn [ints] in H.
  destruct xs as [|[|z1| | | | | | | | | |] [|]]; try discriminate. exact (IH H).
Qed.
Lemma pick_ok x cs e h v z r : ev x e h = GRet (h, v) -> (forall k, val_eq v (VInt "" k) = Some (Z.eqb z k)) -> ints cs = true -> pick z cs = Some r ->
  ex (SSwitch [x] cs) e h = match r with Some b => bod b e h | None => GRet (e, h, CNorm) end.
Proof.
  intros X V I Q. rewrite ex_switch, X. cbn [gbind].
  assert (D : forall all l, sw_default all e h = GRet (e, h, CNorm) -> pick z l = Some r ->
    sw_cases v all l e h = match r with Some b => bod b e h | None => GRet (e, h, CNorm) end).
  { clear Q I. intros all l D. induction l as [|(xs, b) l IH]; intros Q.
    - inversion Q. subst r. exact D.
    - cbn [pick] in Q. destruct xs as [|[|z1| | | | | | | | | |] [|]]; try discriminate. cbn [sw_cases sw_hits]. unfold ev. cbn [eval gbind].
      rewrite V. destruct (Z.eqb z z1); [inversion Q; subst r; reflexivity|]. cbn [gbind]. exact (IH Q). }
  exact (D cs cs (ints_default cs e h I) Q).
Qed.

(* the evaluator *)
Variable e : env.
Variable h : heap.
Variable b : byte.
Hypothesis Hb : ev (EIdx (M "data") (M "p")) e h = GRet (h, VByte b).
Lemma aeval_ok x : forall v, aeval b x = Some v -> ev x e h = GRet (h, v).
Proof.
  assert (D : forall x y v, aeval b (EIdx x y) = Some v -> ev (EIdx x y) e h = GRet (h, v)).
  { intros x0 y v Q. cbn [aeval] in Q. destruct x0; try discriminate. destruct x0; try discriminate.
    repeat match type of Q with
    | match ?s with EmptyString => _ | String _ _ => _ end = _ => destruct s as [|[[] [] [] [] [] [] [] []] ?]; try discriminate
    | match ?s with EId _ => _ | _ => _ end = _ => destruct s; try discriminate
    end. inversion Q. subst v. exact Hb. }
  induction x as [| | | |x _ y _| | |op x IHx y IHy| | | |]; intros v Q; try discriminate.
  - inversion Q. reflexivity.
  - exact (D _ _ _ Q).
  - cbn [aeval] in Q. destruct (aeval b x) as [w|]; try discriminate. unfold ev in *. cbn [eval]. rewrite (IHx w eq_refl). cbn [gbind].
    destruct (String.eqb op "&&").
    + destruct w as [| |[|]| | | | | | | |]; try discriminate; [exact (IHy v Q)|]. inversion Q. reflexivity.
    + destruct (String.eqb op "||"); try discriminate. destruct (aeval b y) as [w'|]; try discriminate. rewrite (IHy w' eq_refl). cbn [gbind].
      destruct (binop op w w'); try discriminate. inversion Q. reflexivity.
Qed.
Lemma abody_ok (f : stm -> act) : (forall s a, f s = Some a -> ex s e h = GRet (e, h, actl a)) ->
  forall l a, abody f l = Some a -> bod l e h = GRet (e, h, actl a).
Proof.
  intros F l a Q. unfold abody in Q. destruct (existsb is_label l) eqn:N; try discriminate. apply block_ok with (e' := e).
  - clear N. induction l as [|s l IH]; cbn [ago] in Q; [inversion Q; reflexivity|]. cbn [map seq].
    destruct (f s) as [[x|]|] eqn:S; try discriminate; rewrite (F _ _ S); cbn [gbind actl].
    + inversion Q. reflexivity.
    + exact (IH Q).
  - intros x _. exact (no_labels x l N).
Qed.
Lemma astm_ok : forall k s a, astm k b s = Some a -> ex s e h = GRet (e, h, actl a).
Proof.
  induction k as [|k IH]; intros s a Q; try discriminate.
  assert (D : forall cs a, adefault (astm k b) cs = Some a -> sw_default cs e h = GRet (e, h, actl a)).
  { induction cs as [|([|x xs], l) cs IHc]; intros a0 Q0; cbn [adefault] in Q0; [inversion Q0; reflexivity| |exact (IHc _ Q0)].
    exact (abody_ok _ IH _ _ Q0). }
  assert (K : forall v all cs a, acases (astm k b) b v all cs = Some a -> sw_cases v all cs e h = GRet (e, h, actl a)).
  { intros v all. induction cs as [|([|x [|]], l) cs IHc]; intros a0 Q0; cbn [acases] in Q0; try discriminate.
    - exact (D _ _ Q0).
    - exact (IHc _ Q0).
    - destruct (aeval b x) as [w|] eqn:A; try discriminate. cbn [sw_cases sw_hits]. rewrite (aeval_ok _ _ A). cbn [gbind].
      destruct (val_eq v w) as [[|]|]; try discriminate; cbn [gbind]; [exact (abody_ok _ IH _ _ Q0)|exact (IHc _ Q0)]. }
  destruct s as [| | | | |i c t f|[|x [|]] cs| |l| | |]; try discriminate; cbn [astm] in Q.
  - destruct i; try discriminate. destruct (aeval b c) as [[| |r| | | | | | | |]|] eqn:A; try discriminate.
    pose proof (abody_ok _ IH _ _ Q) as W. unfold ex. cbn [exec map seq gbind]. pose proof (aeval_ok _ _ A) as X. unfold ev in X. rewrite X.
    cbn [gbind]. unfold bod, ex in W. destruct r; rewrite W; reflexivity.
  - rewrite ex_switch. cbn [gbind]. exact (K _ _ _ _ Q).
  - destruct (aeval b x) as [v|] eqn:A; try discriminate. rewrite ex_switch, (aeval_ok _ _ A). cbn [gbind]. exact (K _ _ _ _ Q).
  - inversion Q. reflexivity.
Qed.
End Switch.
