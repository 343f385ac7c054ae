(* The exact number of bytes moved by a call of Parse that accepts: an invariant of the runs. *)
From Coq Require Import Lia.
From Verif Require Import GoBase MachineSyntax MachineTables Machine Spec Exec Cost Conc ConcBase ConcInv PropsCost PropsCostExact SpecCost.
Local Open Scope Z_scope.

(* ---- scanning escapes ---------------------------------------------------------------------- *)
(* place in an escape (0: outside, 1, 2: behind % and behind one more byte), and the number of
   upper-case letters met inside escapes *)
Definition nexte (e : nat) (b : byte) : nat :=
  match e with 0%nat => if Byte.eqb b "%" then 1%nat else 0%nat | 1%nat => 2%nat | _ => 0%nat end.
Definition hit (e : nat) (b : byte) : bool := match e with 0%nat => false | _ => upper b end.
Definition scst (x : nat * Z) (b : byte) : nat * Z := (nexte (fst x) b, snd x + if hit (fst x) b then 1 else 0).
Definition sc (w : bytes) : nat * Z := fold_left scst w (0%nat, 0).
Lemma sc_snoc w b : sc (w ++ [b]) = (nexte (fst (sc w)) b, snd (sc w) + if hit (fst (sc w)) b then 1 else 0).
Proof. unfold sc. rewrite fold_left_app. reflexivity. Qed.
Lemma sc_one b : sc [b] = (nexte 0 b, 0).
Proof. reflexivity. Qed.

Lemma marks_snoc w b k : marks k (w ++ [b]) = marks k w + (if Byte.eqb b "?" then k + zlen w else 0).
Proof.
  revert k. induction w as [|c w IH]; intros k; cbn [app marks].
  - change (zlen (@nil byte)) with 0. destruct (Byte.eqb b "?"); lia.
  - rewrite IH. rewrite zlen_cons. destruct (Byte.eqb b "?"), (Byte.eqb c "?"); lia.
Qed.

(* ---- the beginning of the NID ------------------------------------------------------------------ *)
Definition kd (z : bool) (n : bytes) : Z := if z then (if dashed n then 3 else 0) else 0.
(* o letters of urn- have been read so far (1, 2, 3); 0: nothing that follows makes a difference *)
Definition nidw (o : nat) (w : bytes) : Prop :=
  match o with
  | 0%nat => forall x, dashed (w ++ x) = dashed w
  | _ => lowers w = firstn o (B "urn-")
  end.
Definition urnc (o : nat) : byte := nth o (B "urn-") x00.
Lemma nidw_one b : Byte.eqb (low b) "u" = false -> nidw 0 [b] /\ dashed [b] = false.
Proof.
  intros H.
  assert (K : forall x, dashed (b :: x) = false).
  { intros x. unfold dashed. cbn [firstn lowers map bytes_eqb B]. change (B "urn-") with ["u"; "r"; "n"; "-"]%byte.
    cbn [bytes_eqb]. unfold beqb. rewrite H. reflexivity. }
  split; [intros x; cbn [app]; rewrite !K; reflexivity|apply K].
Qed.
Lemma nidw_next o w b : nidw o w -> (0 < o <= 3)%nat ->
  (Byte.eqb (low b) (urnc o) = true -> (o <> 3%nat /\ nidw (S o) (w ++ [b])) \/ (o = 3%nat /\ dashed (w ++ [b]) = true /\ nidw 0 (w ++ [b]))) /\
  (Byte.eqb (low b) (urnc o) = false -> nidw 0 (w ++ [b]) /\ dashed (w ++ [b]) = false) /\ dashed w = false.
Proof.
  intros H Ho.
  assert (Hl : List.length w = o).
  { destruct o as [|o]; [lia|]. cbn [nidw] in H. apply (f_equal (@List.length byte)) in H. unfold lowers in H. rewrite map_length, firstn_length in H. cbn in H. lia. }
  assert (Hw : lowers w = firstn o (B "urn-")) by (destruct o; [lia|exact H]).
  assert (D : forall x, dashed (w ++ x) = bytes_eqb (firstn o (B "urn-") ++ lowers (firstn (4 - o) x)) (B "urn-")).
  { intros x. unfold dashed. rewrite firstn_app, Hl. rewrite firstn_all2 by lia. unfold lowers in *. rewrite map_app, Hw. reflexivity. }
  split; [|split].
  - intros Hb. apply Byte.byte_dec_bl in Hb. destruct (Nat.eq_dec o 3) as [->|H3].
    + right. split; [reflexivity|]. split.
      * rewrite D. cbn [Nat.sub firstn lowers map]. rewrite Hb. reflexivity.
      * intros x. rewrite <- app_assoc, !D. reflexivity.
    + left. split; [exact H3|]. cbn [nidw]. unfold lowers in *. rewrite map_app, Hw. cbn [map]. rewrite Hb.
      destruct o as [|[|[|o]]]; try lia; reflexivity.
  - intros Hb. assert (E : forall x, dashed ((w ++ [b]) ++ x) = false).
    { intros x. rewrite <- app_assoc, D. cbn [app]. destruct o as [|[|[|[|o]]]]; try lia; cbn [Nat.sub firstn lowers map app];
      cbv [urnc nth B list_byte_of_string string_of_list_byte] in Hb; change (B "urn-") with ["u"; "r"; "n"; "-"]%byte; cbn [firstn app bytes_eqb];
      cbn [beqb] in Hb |- *; unfold beqb; cbn in Hb |- *; rewrite Hb; reflexivity. }
    split; [intros x; rewrite E; specialize (E []); rewrite app_nil_r in E; rewrite E; reflexivity|].
    specialize (E []). rewrite app_nil_r in E. exact E.
  - rewrite <- (app_nil_r w). rewrite D. destruct o as [|[|[|[|o]]]]; try lia; reflexivity.
Qed.
Lemma nidw_0 w b : nidw 0 w -> nidw 0 (w ++ [b]) /\ dashed (w ++ [b]) = dashed w.
Proof. intros H. split; [intros x; rewrite <- app_assoc, !H; reflexivity|apply H]. Qed.

(* ---- the cost ------------------------------------------------------------------------------------- *)
Definition kc (w : bytes) : Z := zlen w + snd (sc w).
Definition kscim (s : option SCIM) : Z :=
  match s with None => 0 | Some s => zlen (Type_String (s_Type s)) + zlen (s_Name s) + zlen (s_Other s) end.
(* as a function of the URN that is returned; z: the RFC 8141 grammar *)
Definition K (z : bool) (u : URN) : Z :=
  3 + kd z (u_ID u) + zlen (u_ID u) + 2 * zlen (u_SS u) + 3 * snd (sc (u_SS u)) + kscim (u_scim u) +
  (kc (u_r u) + marks 0 (u_r u)) + kc (u_q u) + kc (u_f u).

(* ---- phases ----------------------------------------------------------------------------------------- *)
Inductive phase :=
| PDead | PStart | PU (k : Z) | PB | PI | PN (o : nat) | PC | PS (e : nat)
| PT0 | PT | PM0 | PM | PO0 | PO (e : nat)
| PD | PR0 | PR (e t : nat) | PX | PZ | PQ0 | PQ (e : nat) | PY | PF0 | PF (e : nat).
Definition ph (cs : N) : phase :=
  let is := existsb (N.eqb cs) in
  (if is [1; 44; 83] then PStart
   else if is [2; 45; 84] then PU 1 else if is [3; 46; 85] then PU 2 else if is [4; 47; 86] then PU 3
   else if is [5; 48; 87] then PB
   else if btw 6 37 cs || btw 41 43 cs || btw 49 64 cs then PI
   else if is [38; 120] then PC
   else if is [39; 123] then PS 1 else if is [40; 124] then PS 2 else if is [172; 173; 177; 181] then PS 0
   else if is [65] then PT0 else if btw 66 68 cs || btw 73 82 cs then PT
   else if is [69] then PM0 else if is [174] then PM
   else if is [70] then PO0 else if is [71] then PO 1 else if is [72] then PO 2 else if is [175; 176] then PO 0
   else if is [167] then PN 1 else if is [168] then PN 2 else if is [169] then PN 3
   else if btw 88 119 cs || btw 137 166 cs || is [170; 171] then PN 0
   else if is [125] then PD else if is [126] then PR0
   else if is [127] then PR 1 0 else if is [128] then PR 2 0 else if is [182; 183; 185] then PR 0 0
   else if is [184] then PR 0 1 else if is [186] then PR 0 2
   else if is [133; 191] then PX else if is [134] then PZ
   else if is [135] then PQ0 else if is [129; 131] then PQ 1 else if is [130; 132] then PQ 2
   else if btw 187 190 cs then PQ 0 else if is [136; 192] then PY
   else if is [178] then PF0 else if is [121] then PF 1 else if is [122] then PF 2
   else if is [179; 180] then PF 0 else PDead)%N.
Definition zc (cs : N) : bool := btw 83 171 cs || btw 177 192 cs.
(* the beginning of the SCIM type that has been read *)
Definition wtab (cs : N) : list bytes :=
  map B (match cs with
  | 66 => ["a"] | 67 => ["ap"] | 68 => ["api"; "param"; "schemas"]
  | 73 => ["p"] | 74 => ["pa"] | 75 => ["par"] | 76 => ["para"]
  | 77 => ["s"] | 78 => ["sc"] | 79 => ["sch"] | 80 => ["sche"] | 81 => ["schem"] | 82 => ["schema"]
  | _ => [] end%N)%string.
Definition inw (w : bytes) (l : list bytes) : bool := existsb (bytes_eqb w) l.

Definition fo9 (fo : option N) (e : nat) (b : byte) : bool :=
  match fo with None => negb (hit e b) | Some 9%N => hit e b | _ => false end.
Definition scan_ok (fo : option N) (e e' : nat) (b : byte) : bool := fo9 fo e b && Nat.eqb e' (nexte e b).
Definition isu (c b : byte) : bool := Byte.eqb (low b) c.
Definition edge (cs : N) (b : byte) (cs' : N) (h : phase) (fo : option N) (h' : phase) : bool :=
  match h, fo, h' with
  | PStart, Some 1%N, PU k => k =? 1
  | PU k, None, PU k' => k' =? k + 1
  | PU k, Some 2%N, PB => k =? 3
  | PB, Some 4%N, PI | PB, Some 1%N, PI => true
  | PB, Some 4%N, PN 0 => negb (isu "u" b)
  | PB, Some 1%N, PN 1 => isu "u" b
  | PI, None, PI | PI, Some 6%N, PC | PI, Some 12%N, PT0 => negb (zc cs)
  | PN 0, None, PN 0 => zc cs
  | PN 3, Some 2%N, PN 0 => zc cs && isu (urnc 3) b
  | PN o, None, PN o' => zc cs && (Nat.leb 1 o && Nat.leb o 3) && (if isu (urnc o) b then Nat.eqb o' (S o) && Nat.ltb o 3 else Nat.eqb o' 0)
  | PN _, Some 6%N, PC => zc cs
  | PC, Some 4%N, PS e' => Nat.eqb e' (nexte 0 b)
  | PS 0, Some 38%N, PD | PS 0, Some 38%N, PF0 => true
  | PS e, fo, PS e' => scan_ok fo e e' b
  | PT0, Some 4%N, PT => inw [b] (wtab cs')
  | PT, None, PT => forallb (fun w => inw (w ++ [b]) (wtab cs')) (wtab cs)
  | PT, Some 14%N, PM0 => forallb (fun w => (zlen (Type_String (TypeFromString w)) =? zlen w) && (Nat.eqb (fst (sc (w ++ [b]))) 0 && (snd (sc (w ++ [b])) =? 0))) (wtab cs)
  | PM0, Some 16%N, PM | PM, None, PM | PM, Some 35%N, PO0 => Nat.eqb (nexte 0 b) 0
  | PO0, Some 18%N, PO e' => Nat.eqb e' (nexte 0 b)
  | PO e, fo, PO e' => scan_ok fo e e' b
  | PD, None, PR0 | PD, None, PQ0 => true
  | PR0, Some 26%N, PR e' 0 => Nat.eqb e' (nexte 0 b) && negb (Byte.eqb b "?")
  | PR0, Some 26%N, PX => true
  | PR _ _, Some 44%N, _ | PR _ _, Some 45%N, _ | PX, Some 44%N, _ | PX, Some 45%N, _ => true
  | PR 0 _, Some 42%N, PR 0 1 => Byte.eqb b "?"
  | PR 0 _, Some 42%N, PF0 => true
  | PR 0 2, Some 31%N, PQ e' => Nat.eqb e' (nexte 0 b)
  | PR e t, fo, PR e' t' => scan_ok fo e e' b && negb (Byte.eqb b "?") && (Nat.eqb t' 0 || Nat.eqb t' 2 && Nat.eqb t 1 && Byte.eqb b "=")
  | PX, None, PX => true
  | PZ, _, _ => true
  | PQ0, Some 31%N, PQ e' => Nat.eqb e' (nexte 0 b)
  | PQ0, Some 31%N, PY => true
  | PQ _, Some 50%N, _ | PQ _, Some 51%N, _ | PY, Some 50%N, _ | PY, Some 51%N, _ => true
  | PQ 0, Some 48%N, PF0 => true
  | PQ e, fo, PQ e' => scan_ok fo e e' b
  | PY, None, PY => true
  | PF0, Some 4%N, PF e' => Nat.eqb e' (nexte 0 b)
  | PF e, fo, PF e' => scan_ok fo e e' b
  | _, _, _ => false
  end.
(* the same as a relation *)
Inductive Edge (cs : N) (b : byte) (cs' : N) : phase -> option N -> phase -> Prop :=
| E_start : Edge cs b cs' PStart (Some 1%N) (PU 1)
| E_u k : Edge cs b cs' (PU k) None (PU (k + 1))
| E_prefix : Edge cs b cs' (PU 3) (Some 2%N) PB
| E_i f : f = 1%N \/ f = 4%N -> Edge cs b cs' PB (Some f) PI
| E_n0 : isu "u" b = false -> Edge cs b cs' PB (Some 4%N) (PN 0)
| E_n1 : isu "u" b = true -> Edge cs b cs' PB (Some 1%N) (PN 1)
| E_ii : Edge cs b cs' PI None PI
| E_ic : zc cs = false -> Edge cs b cs' PI (Some 6%N) PC
| E_it : zc cs = false -> Edge cs b cs' PI (Some 12%N) PT0
| E_nn0 : Edge cs b cs' (PN 0) None (PN 0)
| E_nnd : isu (urnc 3) b = true -> Edge cs b cs' (PN 3) (Some 2%N) (PN 0)
| E_nnx o : (0 < o < 3)%nat -> isu (urnc o) b = true -> Edge cs b cs' (PN o) None (PN (S o))
| E_nny o : (0 < o <= 3)%nat -> isu (urnc o) b = false -> Edge cs b cs' (PN o) None (PN 0)
| E_nc o : zc cs = true -> Edge cs b cs' (PN o) (Some 6%N) PC
| E_cs : Edge cs b cs' PC (Some 4%N) (PS (nexte 0 b))
| E_sd h : h = PD \/ h = PF0 -> Edge cs b cs' (PS 0) (Some 38%N) h
| E_ss fo e e' : scan_ok fo e e' b = true -> Edge cs b cs' (PS e) fo (PS e')
| E_t0 : inw [b] (wtab cs') = true -> Edge cs b cs' PT0 (Some 4%N) PT
| E_tt : forallb (fun w => inw (w ++ [b]) (wtab cs')) (wtab cs) = true -> Edge cs b cs' PT None PT
| E_tm : forallb (fun w => (zlen (Type_String (TypeFromString w)) =? zlen w) && (Nat.eqb (fst (sc (w ++ [b]))) 0 && (snd (sc (w ++ [b])) =? 0))) (wtab cs) = true ->
    Edge cs b cs' PT (Some 14%N) PM0
| E_m0 : nexte 0 b = 0%nat -> Edge cs b cs' PM0 (Some 16%N) PM
| E_mm : nexte 0 b = 0%nat -> Edge cs b cs' PM None PM
| E_mo : nexte 0 b = 0%nat -> Edge cs b cs' PM (Some 35%N) PO0
| E_o0 : Edge cs b cs' PO0 (Some 18%N) (PO (nexte 0 b))
| E_oo fo e e' : scan_ok fo e e' b = true -> Edge cs b cs' (PO e) fo (PO e')
| E_dr : Edge cs b cs' PD None PR0
| E_dq : Edge cs b cs' PD None PQ0
| E_r0 : Byte.eqb b "?" = false -> Edge cs b cs' PR0 (Some 26%N) (PR (nexte 0 b) 0)
| E_rx : Edge cs b cs' PR0 (Some 26%N) PX
| E_rr e t f h : f = 44%N \/ f = 45%N -> Edge cs b cs' (PR e t) (Some f) h
| E_xr f h : f = 44%N \/ f = 45%N -> Edge cs b cs' PX (Some f) h
| E_rm t : Byte.eqb b "?" = true -> Edge cs b cs' (PR 0 t) (Some 42%N) (PR 0 1)
| E_rf t : Edge cs b cs' (PR 0 t) (Some 42%N) PF0
| E_rq : Edge cs b cs' (PR 0 2) (Some 31%N) (PQ (nexte 0 b))
| E_r fo e t e' t' : scan_ok fo e e' b = true -> Byte.eqb b "?" = false ->
    t' = 0%nat \/ t' = 2%nat /\ t = 1%nat /\ Byte.eqb b "=" = true -> Edge cs b cs' (PR e t) fo (PR e' t')
| E_xx : Edge cs b cs' PX None PX
| E_z fo h : Edge cs b cs' PZ fo h
| E_q0 : Edge cs b cs' PQ0 (Some 31%N) (PQ (nexte 0 b))
| E_qy : Edge cs b cs' PQ0 (Some 31%N) PY
| E_qq e f h : f = 50%N \/ f = 51%N -> Edge cs b cs' (PQ e) (Some f) h
| E_yq f h : f = 50%N \/ f = 51%N -> Edge cs b cs' PY (Some f) h
| E_qf : Edge cs b cs' (PQ 0) (Some 48%N) PF0
| E_q fo e e' : scan_ok fo e e' b = true -> Edge cs b cs' (PQ e) fo (PQ e')
| E_yy : Edge cs b cs' PY None PY
| E_f0 : Edge cs b cs' PF0 (Some 4%N) (PF (nexte 0 b))
| E_f fo e e' : scan_ok fo e e' b = true -> Edge cs b cs' (PF e) fo (PF e').
Lemma edge_rel cs b cs' h fo h' : edge cs b cs' h fo h' = true -> Edge cs b cs' h fo h'.
Proof.
  unfold edge. intros H. destruct h;
  repeat match type of H with
  | context [match ?x with _ => _ end] => is_var x; first [constr_eq x cs; fail 1 | constr_eq x b; fail 1 | constr_eq x cs'; fail 1 | destruct x; try discriminate H]
  end;
  repeat match goal with
  | H : _ && _ = true |- _ => apply andb_prop in H; destruct H
  | H : negb _ = true |- _ => apply negb_true_iff in H
  | H : Nat.eqb _ _ = true |- _ => apply Nat.eqb_eq in H
  | H : (_ =? _) = true |- _ => apply Z.eqb_eq in H
  end; subst; try (constructor; solve [auto | assumption]).
  all: try discriminate.
  all: try (apply E_r; [assumption..|];
    match goal with H : _ || _ = true |- _ => apply orb_prop in H; destruct H as [H|H]; [left; apply Nat.eqb_eq; exact H|right] end;
    repeat match goal with H : _ && _ = true |- _ => apply andb_prop in H; destruct H end; repeat split; try assumption; apply Nat.eqb_eq; assumption).
  all: match goal with H : (if isu ?c ?b then _ else _) = true |- _ => destruct (isu c b) eqn:Eu end;
    repeat match goal with
    | H : _ && _ = true |- _ => apply andb_prop in H; destruct H
    | H : Nat.eqb _ _ = true |- _ => apply Nat.eqb_eq in H
    | H : Nat.leb _ _ = true |- _ => apply Nat.leb_le in H
    | H : Nat.ltb _ _ = true |- _ => apply Nat.ltb_lt in H
    end; subst; try lia; try (apply E_nnx; [lia|exact Eu]); apply E_nny; [lia|exact Eu].
Qed.
Definition edge_at (cs : N) (b : byte) : bool :=
  dead cs || match delta cs b with
  | None => true
  | Some (cs', fo) => dead cs' || (Bool.eqb (zc cs) (zc cs') && edge cs b cs' (ph cs) fo (ph cs'))
  end.
Lemma edges_at : forallb (fun cs => forallb (edge_at cs) all_bytes) states = true.
Proof. vm_compute. reflexivity. Qed.
Lemma edge_fact2 cs b cs' fo : (cs <= 193)%N -> dead cs = false -> delta cs b = Some (cs', fo) -> dead cs' = false ->
  zc cs' = zc cs /\ Edge cs b cs' (ph cs) fo (ph cs').
Proof.
  intros Hcs Hd He Hd'. pose proof edges_at as Q. rewrite forallb_forall in Q. specialize (Q cs (in_states cs Hcs)).
  rewrite forallb_forall in Q. specialize (Q b (all_bytes_all b)). unfold edge_at in Q. rewrite Hd, He, Hd' in Q. cbn [orb] in Q.
  apply andb_prop in Q. destruct Q as [Q1 Q2]. apply eqb_prop in Q1. split; [auto|]. apply edge_rel. exact Q2.
Qed.
