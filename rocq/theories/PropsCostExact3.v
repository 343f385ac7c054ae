(* The exact number of bytes moved by a call of Parse that accepts: the invariant is kept. *)
From Coq Require Import Lia.
From Verif Require Import GoBase MachineSyntax MachineTables Machine Spec Exec Cost Conc ConcBase ConcInv PropsCost PropsCostExact PropsCostExact2 SpecCost PropsB.
Local Open Scope Z_scope.

Section Exact.
Variables (start : N) (mode : Z) (mset : bool).
Notation cfg := (cfg start mode mset).
Notation Acc := (Acc start mode mset).

(* w is the text since the mark *)
Definition mark (pre : bytes) (pb : Z) (w : bytes) : Prop := exists pre0, pre = pre0 ++ w /\ pb = zlen pre0.
Lemma mark_text pre pb w rest cs : mark pre pb w -> text (cfg (pre ++ rest) cs (zlen pre) pb) = Ret w.
Proof.
  intros (p0 & -> & ->). unfold text. cbn [Exec.cfg m_data m_pb m_p]. rewrite <- app_assoc, zlen_app. apply slice_mid.
Qed.
Lemma mark_len pre pb w : mark pre pb w -> zlen pre - pb = zlen w.
Proof. intros (p0 & -> & ->). rewrite zlen_app. lia. Qed.
Lemma mark_snoc pre pb w b : mark pre pb w -> mark (pre ++ [b]) pb (w ++ [b]).
Proof. intros (p0 & -> & ->). exists p0. rewrite app_assoc. auto. Qed.
Lemma mark_new pre b : mark (pre ++ [b]) (zlen pre) [b].
Proof. exists pre. auto. Qed.
Lemma mark_slice pre pb v n rest : mark pre pb (v ++ n) -> slice (pre ++ rest) (zlen pre - zlen n) (zlen pre) = Ret n.
Proof.
  intros (p0 & -> & _). replace (((p0 ++ v ++ n) ++ rest)) with ((p0 ++ v) ++ n ++ rest) by (rewrite <- !app_assoc; reflexivity).
  replace (zlen (p0 ++ v ++ n) - zlen n) with (zlen (p0 ++ v)) by zl.
  replace (zlen (p0 ++ v ++ n)) with (zlen (p0 ++ v) + zlen n) by zl. apply slice_mid.
Qed.

(* ---- blocks ------------------------------------------------------------------------------------ *)
Notation C d cs p pb := (Exec.cfg start mode mset d cs p pb).
Lemma x_none d cs p pb u m' u' : exec_opt None (C d cs p pb, u) = Ret ((m', u'), Again) ->
  m' = C d cs p pb /\ u' = u /\ fcost None (C d cs p pb, u) = 0.
Proof. intros [= <- <-]. auto. Qed.
Lemma x_f1 d cs p pb u m' u' : exec_opt (Some 1%N) (C d cs p pb, u) = Ret ((m', u'), Again) -> dead (m_cs m') = false ->
  m' = C d cs p p /\ u' = u /\ fcost (Some 1%N) (C d cs p pb, u) = 0.
Proof.
  intros H Hd. cbn [exec_opt f_block] in H. cbn [fcost f_block block_cost].
  cbn [exec_block exec_stmt bind] in H. cbn [stmt_cost exec_stmt].
  destruct (eval_cond (CNot (CModeEq PRFC8141Only)) (set_pb (m_p (C d cs p pb)) (C d cs p pb), u)) as [b| |]; cbn [bind] in H |- *; try discriminate H.
  destruct b.
  - cbn [exec_stmt bind stmt_cost] in H |- *.
    destruct (eval_cond (CAnd (CAnd (CPosLtPe 3) (CDataAtEq 3 58)) (CNot CPrefixEmpty)) (set_pb (m_p (C d cs p pb)) (C d cs p pb), u)) as [b| |]; cbn [bind] in H |- *; try discriminate H.
    destruct b; injection H as <- <-; [discriminate Hd|]. repeat split.
  - injection H as <- <-. repeat split.
Qed.
Lemma x_f4 d cs p pb u m' u' : exec_opt (Some 4%N) (C d cs p pb, u) = Ret ((m', u'), Again) ->
  m' = C d cs p p /\ u' = u /\ fcost (Some 4%N) (C d cs p pb, u) = 0.
Proof. intros [= <- <-]. repeat split. Qed.
Lemma x_f9 d cs p pb u m' u' : exec_opt (Some 9%N) (C d cs p pb, u) = Ret ((m', u'), Again) ->
  m' = C d cs p pb /\ u' = uset_tolower (u_tolower u ++ [p - pb]) u /\ fcost (Some 9%N) (C d cs p pb, u) = 1.
Proof. intros [= <- <-]. repeat split. Qed.

Section Text.
Variables (d : bytes) (cs : N) (p pb : Z) (w : bytes).
Hypothesis Hw : text (C d cs p pb) = Ret w.
Ltac go H := cbn [exec_opt f_block exec_block exec_stmt] in H; rewrite Hw in H; cbn [bind] in H; injection H as <- <-;
  split; [reflexivity|split; [reflexivity|]]; cbn [fcost f_block block_cost stmt_cost exec_stmt]; rewrite Hw; cbn [bind block_cost stmt_cost exec_stmt Exec.cfg m_p m_pb]; lia.
Lemma x_f2 u m' u' : exec_opt (Some 2%N) (C d cs p pb, u) = Ret ((m', u'), Again) ->
  m' = C d cs p pb /\ u' = uset_prefix w u /\ fcost (Some 2%N) (C d cs p pb, u) = p - pb.
Proof. intros H. go H. Qed.
Lemma x_f6 u m' u' : exec_opt (Some 6%N) (C d cs p pb, u) = Ret ((m', u'), Again) ->
  m' = C d cs p pb /\ u' = uset_ID w u /\ fcost (Some 6%N) (C d cs p pb, u) = p - pb.
Proof. intros H. go H. Qed.
Lemma x_f12 u m' u' : exec_opt (Some 12%N) (C d cs p pb, u) = Ret ((m', u'), Again) ->
  m' = C d cs p pb /\ u' = uset_scim (Some zeroSCIM) (uset_ID w u) /\ fcost (Some 12%N) (C d cs p pb, u) = p - pb.
Proof. intros H. go H. Qed.
Lemma x_f42 u m' u' : exec_opt (Some 42%N) (C d cs p pb, u) = Ret ((m', u'), Again) ->
  m' = C d cs p pb /\ u' = uset_r w u /\ fcost (Some 42%N) (C d cs p pb, u) = p - pb.
Proof. intros H. go H. Qed.
Lemma x_f48 u m' u' : exec_opt (Some 48%N) (C d cs p pb, u) = Ret ((m', u'), Again) ->
  m' = C d cs p pb /\ u' = uset_q w u /\ fcost (Some 48%N) (C d cs p pb, u) = p - pb.
Proof. intros H. go H. Qed.
Lemma x_f14 u s m' u' : u_scim u = Some s -> exec_opt (Some 14%N) (C d cs p pb, u) = Ret ((m', u'), Again) ->
  m' = C d cs p pb /\ u' = uset_scim (Some (mkSCIM (TypeFromString w) (s_Name s) (s_Other s) (s_pos s))) u /\
  fcost (Some 14%N) (C d cs p pb, u) = p - pb.
Proof.
  intros Hs H. cbn [exec_opt f_block exec_block exec_stmt] in H. rewrite Hw in H. cbn [bind] in H. rewrite Hs in H. cbn [bind] in H. injection H as <- <-.
  split; [reflexivity|split; [reflexivity|]]; cbn [fcost f_block block_cost stmt_cost exec_stmt]; rewrite Hw; cbn [bind]; rewrite Hs.
  cbn [block_cost stmt_cost exec_stmt Exec.cfg m_p m_pb]. lia.
Qed.
(* SS and norm *)
Definition nssw : list stmt := [SSetSS; SForTolower 32; SSetNorm; SForTolower (-32)].
Lemma x_nss k u y ct : exec_block (nssw ++ k) (C d cs p pb, u) = Ret (y, ct) ->
  exists x, exec_block k (C d cs p pb, uset_norm x (uset_SS w u)) = Ret (y, ct) /\
    block_cost (nssw ++ k) (C d cs p pb, u) = 2 * (p - pb) + 2 * zlen (u_tolower u) + block_cost k (C d cs p pb, uset_norm x (uset_SS w u)).
Proof.
  intros H. unfold nssw in *. cbn [app exec_block exec_stmt block_cost stmt_cost] in *. rewrite Hw in *. cbn [bind] in *.
  destruct (for_tolower 32 (u_tolower (uset_SS w u)) (m_pb (C d cs p pb)) (m_data (C d cs p pb))) as [d1| |] eqn:E1; cbn [bind] in *; try discriminate H.
  destruct (text (set_data d1 (C d cs p pb))) as [x| |] eqn:Ex; cbn [bind] in *; try discriminate H.
  cbn [m_pb m_data set_data u_tolower uset_norm uset_SS] in *.
  destruct (for_tolower (-32) (u_tolower u) (m_pb (C d cs p pb)) d1) as [d2| |] eqn:E2; cbn [bind] in *; try discriminate H.
  pose proof (for_undo _ _ _ _ _ E1 E2) as Hd. subst d2.
  exists x. split; [exact H|].
  change (set_data (m_data (C d cs p pb)) (set_data d1 (C d cs p pb))) with (C d cs p pb).
  cbn [set_data Exec.cfg m_p m_pb m_data]. lia.
Qed.
End Text.
Lemma x_f26 d cs p pb u m' u' : exec_opt (Some 26%N) (C d cs p pb, u) = Ret ((m', u'), Again) -> dead (m_cs m') = false ->
  m' = C d cs p p /\ u' = uset_rStart true u /\ fcost (Some 26%N) (C d cs p pb, u) = 0.
Proof.
  intros H Hd. cbn [exec_opt f_block exec_block exec_stmt eval_cond bind] in H. cbn [fcost f_block block_cost stmt_cost exec_stmt eval_cond bind].
  destruct (u_rStart u); injection H as <- <-; [discriminate Hd|]. repeat split.
Qed.
Lemma x_f31 d cs p pb u m' u' : exec_opt (Some 31%N) (C d cs p pb, u) = Ret ((m', u'), Again) -> dead (m_cs m') = false ->
  m' = C d cs p p /\ u' = uset_qStart true u /\ fcost (Some 31%N) (C d cs p pb, u) = 0.
Proof.
  intros H Hd. cbn [exec_opt f_block exec_block exec_stmt eval_cond bind] in H. cbn [fcost f_block block_cost stmt_cost exec_stmt eval_cond bind].
  destruct (u_qStart u); injection H as <- <-; [discriminate Hd|]. repeat split.
Qed.
(* a second start of a component *)
Lemma x_again f d cs p pb u m' u' : exec_opt (Some f) (C d cs p pb, u) = Ret ((m', u'), Again) ->
  (f = 44%N \/ f = 45%N) /\ u_rStart u = true \/ (f = 50%N \/ f = 51%N) /\ u_qStart u = true -> dead (m_cs m') = true.
Proof.
  intros H [[[->| ->] Hr]|[[->| ->] Hr]]; cbn [exec_opt f_block exec_block exec_stmt eval_cond bind] in H; rewrite Hr in H; injection H as <- <-; reflexivity.
Qed.
Lemma x_pos f d cs p pb u s m' u' : f = 16%N \/ f = 18%N -> u_scim u = Some s -> exec_opt (Some f) (C d cs p pb, u) = Ret ((m', u'), Again) ->
  m' = C d cs p pb /\ u' = uset_scim (Some (mkSCIM (s_Type s) (s_Name s) (s_Other s) p)) u /\ fcost (Some f) (C d cs p pb, u) = 0.
Proof.
  intros [->| ->] Hs H; cbn [exec_opt f_block exec_block exec_stmt] in H; rewrite Hs in H; injection H as <- <-;
  (split; [reflexivity|split; [reflexivity|]]; cbn [fcost f_block block_cost stmt_cost exec_stmt]; rewrite Hs; reflexivity).
Qed.
Lemma x_f35 d cs p pb u s n m' u' : u_scim u = Some s -> slice d (s_pos s) p = Ret n ->
  exec_opt (Some 35%N) (C d cs p pb, u) = Ret ((m', u'), Again) ->
  m' = C d cs p pb /\ u' = uset_scim (Some (mkSCIM (s_Type s) n (s_Other s) (s_pos s))) u /\ fcost (Some 35%N) (C d cs p pb, u) = p - s_pos s.
Proof.
  intros Hs Hn H. cbn [exec_opt f_block exec_block exec_stmt] in H. rewrite Hs in H. cbn [Exec.cfg m_data m_p] in H. rewrite Hn in H. injection H as <- <-.
  split; [reflexivity|split; [reflexivity|]]. cbn [fcost f_block block_cost stmt_cost exec_stmt]. rewrite Hs. cbn [Exec.cfg m_data m_p]. rewrite Hn.
  cbn [bind block_cost stmt_cost exec_stmt]. lia.
Qed.

(* ---- the invariant -------------------------------------------------------------------------------- *)
Variable z : bool.
Definition uid (p n : bytes) : URN := uset_ID n (uset_prefix p zeroURN).
Definition Inv (cs : N) (pre : bytes) (pb : Z) (u : URN) (a : Z) : Prop :=
  z = zc cs /\
  match ph cs with
  | PDead => True
  | PStart => pre = [] /\ u = zeroURN /\ a = 0
  | PU k => mark pre pb pre /\ zlen pre = k /\ u = zeroURN /\ a = 0
  | PB => exists p, u = uset_prefix p zeroURN /\ a = 3
  | PI => exists p w, mark pre pb w /\ u = uset_prefix p zeroURN /\ a = 3
  | PN o => exists p w, mark pre pb w /\ u = uset_prefix p zeroURN /\ a = 3 + kd true w /\ nidw o w
  | PC => exists p n, u = uid p n /\ a = 3 + kd z n + zlen n
  | PS e => exists p n T w, mark pre pb w /\ u = uset_tolower T (uid p n) /\ a = 3 + kd z n + zlen n + zlen T /\ sc w = (e, zlen T)
  | PT0 => exists p n, u = uset_scim (Some zeroSCIM) (uid p n) /\ a = 3 + kd z n + zlen n
  | PT => exists p n w, mark pre pb w /\ List.In w (wtab cs) /\ u = uset_scim (Some zeroSCIM) (uid p n) /\ a = 3 + kd z n + zlen n
  | PM0 => exists p n t w, mark pre pb w /\ u = uset_scim (Some (mkSCIM t [] [] 0)) (uid p n) /\
      a = 3 + kd z n + zlen n + zlen (Type_String t) /\ sc w = (0%nat, 0)
  | PM => exists p n t v x, mark pre pb (v ++ x) /\ u = uset_scim (Some (mkSCIM t [] [] (zlen pre - zlen x))) (uid p n) /\
      a = 3 + kd z n + zlen n + zlen (Type_String t) /\ sc (v ++ x) = (0%nat, 0)
  | PO0 => exists p n t x k w, mark pre pb w /\ u = uset_scim (Some (mkSCIM t x [] k)) (uid p n) /\
      a = 3 + kd z n + zlen n + zlen (Type_String t) + zlen x /\ sc w = (0%nat, 0)
  | PO e => exists p n t x v o T, mark pre pb (v ++ o) /\ u = uset_tolower T (uset_scim (Some (mkSCIM t x [] (zlen pre - zlen o))) (uid p n)) /\
      a = 3 + kd z n + zlen n + zlen (Type_String t) + zlen x + zlen T /\ sc (v ++ o) = (e, zlen T)
  | PD | PR0 => u_r u = [] /\ u_q u = [] /\ u_f u = [] /\ a = K z u
  | PR e t => exists w, mark pre pb w /\ u_rStart u = true /\ u_q u = [] /\ u_f u = [] /\
      a = K z (uset_r [] u) + marks 0 w + snd (sc w) /\ fst (sc w) = e /\
      (t = 1%nat -> w = u_r u ++ B "?") /\ (t = 2%nat -> w = u_r u ++ B "?=")
  | PX => u_rStart u = true
  | PY => u_qStart u = true
  | PZ => False
  | PQ0 => u_q u = [] /\ u_f u = [] /\ a = K z u
  | PQ e => exists w, mark pre pb w /\ u_qStart u = true /\ u_q u = [] /\ u_f u = [] /\ a = K z u + snd (sc w) /\ fst (sc w) = e
  | PF0 => u_f u = [] /\ a = K z u
  | PF e => exists w, mark pre pb w /\ u_f u = [] /\ a = K z u + snd (sc w) /\ fst (sc w) = e
  end.

Lemma K_r u w : K z (uset_r w u) = K z (uset_r [] u) + (kc w + marks 0 w).
Proof. unfold K, kc. cbn [uset_r u_ID u_SS u_scim u_r u_q u_f]. change (zlen (@nil byte)) with 0. cbn [sc fold_left snd marks]. lia. Qed.
Lemma K_r0 u : u_r u = [] -> K z (uset_r [] u) = K z u.
Proof. intros H. destruct u. cbn in H. subst. reflexivity. Qed.
Lemma K_q u w : u_q u = [] -> K z (uset_q w u) = K z u + kc w.
Proof. intros H. unfold K, kc. cbn [uset_q u_ID u_SS u_scim u_r u_q u_f]. rewrite H. change (zlen (@nil byte)) with 0. cbn [sc fold_left snd]. lia. Qed.
Lemma K_f u w : u_f u = [] -> K z (uset_f w u) = K z u + kc w.
Proof. intros H. unfold K, kc. cbn [uset_f u_ID u_SS u_scim u_r u_q u_f]. rewrite H. change (zlen (@nil byte)) with 0. cbn [sc fold_left snd]. lia. Qed.

Lemma scan_step fo e e' b w : scan_ok fo e e' b = true -> fst (sc w) = e ->
  (fo = None /\ sc (w ++ [b]) = (e', snd (sc w))) \/ (fo = Some 9%N /\ sc (w ++ [b]) = (e', snd (sc w) + 1)).
Proof.
  intros H He. unfold scan_ok in H. apply andb_prop in H. destruct H as [H1 H2]. apply Nat.eqb_eq in H2. subst e'.
  rewrite sc_snoc, He. unfold fo9 in H1. destruct fo as [f|].
  - right. destruct (hit e b); [|repeat match type of H1 with context [match ?x with _ => _ end] => is_var x; destruct x end; discriminate H1].
    repeat match type of H1 with context [match ?x with _ => _ end] => is_var x; destruct x end; try discriminate H1. auto.
  - left. destruct (hit e b); [discriminate H1|]. rewrite Z.add_0_r. auto.
Qed.

Lemma scan_full fo e e' b w n : scan_ok fo e e' b = true -> sc w = (e, n) ->
  (fo = None /\ sc (w ++ [b]) = (e', n)) \/ (fo = Some 9%N /\ sc (w ++ [b]) = (e', n + 1)).
Proof. intros H E. pose proof (scan_step fo e e' b w H) as Q. rewrite E in Q. exact (Q eq_refl). Qed.
Lemma inw_in w l : inw w l = true -> List.In w l.
Proof.
  unfold inw. rewrite existsb_exists. intros (x & Hx & E). apply PropsB.bytes_eqb_eq in E. subst. exact Hx.
Qed.
Lemma sc_zero w b : sc w = (0%nat, 0) -> nexte 0 b = 0%nat -> sc (w ++ [b]) = (0%nat, 0).
Proof. intros H Hb. rewrite sc_snoc, H. cbn [fst snd hit]. rewrite Hb. reflexivity. Qed.

Lemma inv_step cs pre b rest pb u a cs' fo m' u' : (0 < cs <= 193)%N -> dead cs = false -> Inv cs pre pb u a ->
  delta cs b = Some (cs', fo) -> dead cs' = false ->
  exec_opt fo (cfg (pre ++ b :: rest) cs' (zlen pre) pb, u) = Ret ((m', u'), Again) -> dead (m_cs m') = false ->
  exists pb', m' = cfg (pre ++ b :: rest) cs' (zlen pre) pb' /\
    Inv cs' (pre ++ [b]) pb' u' (a + fcost fo (cfg (pre ++ b :: rest) cs' (zlen pre) pb, u)).
Proof.
  intros Hcs Hdc [Hz Hi] Hd Hd' Hx Hm. destruct (edge_fact2 cs b cs' fo ltac:(lia) Hdc Hd Hd') as [Hzz He].
  assert (Hz' : z = zc cs') by congruence. unfold Inv.
  assert (HL : zlen (pre ++ [b]) = zlen pre + 1) by zl.
  set (x0 := (C (pre ++ b :: rest) cs' (zlen pre) pb, u)) in *.
  assert (N0 : fo = None -> m' = C (pre ++ b :: rest) cs' (zlen pre) pb /\ u' = u /\ fcost fo x0 = 0).
  { intros ->. apply x_none. exact Hx. }
  assert (N9 : fo = Some 9%N -> m' = C (pre ++ b :: rest) cs' (zlen pre) pb /\ u' = uset_tolower (u_tolower u ++ [zlen pre - pb]) u /\ fcost fo x0 = 1).
  { intros ->. apply x_f9. exact Hx. }
  assert (HT : forall T : list Z, zlen (T ++ [zlen pre - pb]) = zlen T + 1) by (intros T; zl).
  destruct He.
  - (* E_start *) destruct Hi as (-> & -> & ->). destruct (x_f1 _ _ _ _ _ _ _ Hx Hm) as (-> & -> & E).
    eexists; split; [reflexivity|]. split; [exact Hz'|]. split; [exists []; auto|]. split; [reflexivity|]. split; [reflexivity|unfold x0; lia].
  - (* E_u *) destruct Hi as (Hk & Hl & -> & ->). destruct (N0 eq_refl) as (-> & -> & E).
    eexists; split; [reflexivity|]. split; [exact Hz'|]. split; [apply mark_snoc; exact Hk|]. split; [lia|]. split; [reflexivity|lia].
  - (* E_prefix *) destruct Hi as (Hk & Hl & -> & ->). destruct (x_f2 _ _ _ _ _ (mark_text _ _ _ (b :: rest) cs' Hk) _ _ _ Hx) as (-> & -> & E).
    eexists; split; [reflexivity|]. split; [exact Hz'|]. eexists. split; [reflexivity|]. pose proof (mark_len _ _ _ Hk). unfold x0. lia.
  - (* E_i *) destruct Hi as (p & -> & ->).
    assert (Q : m' = C (pre ++ b :: rest) cs' (zlen pre) (zlen pre) /\ u' = uset_prefix p zeroURN /\ fcost (Some f) x0 = 0).
    { destruct H as [->| ->]; [exact (x_f1 _ _ _ _ _ _ _ Hx Hm)|exact (x_f4 _ _ _ _ _ _ _ Hx)]. }
    destruct Q as (-> & -> & E). eexists; split; [reflexivity|]. split; [exact Hz'|]. exists p, [b]. split; [apply mark_new|]. split; [reflexivity|lia].
  - (* E_n0 *) destruct Hi as (p & -> & ->). destruct (x_f4 _ _ _ _ _ _ _ Hx) as (-> & -> & E).
    eexists; split; [reflexivity|]. split; [exact Hz'|]. destruct (nidw_one b H) as [Q1 Q2]. exists p, [b]. split; [apply mark_new|]. split; [reflexivity|].
    unfold kd. rewrite Q2. split; [unfold x0; lia|exact Q1].
  - (* E_n1 *) destruct Hi as (p & -> & ->). destruct (x_f1 _ _ _ _ _ _ _ Hx Hm) as (-> & -> & E).
    eexists; split; [reflexivity|]. split; [exact Hz'|]. exists p, [b]. split; [apply mark_new|]. split; [reflexivity|].
    assert (Q : nidw 1 [b]) by (cbn [nidw lowers map]; apply Byte.byte_dec_bl in H; rewrite H; reflexivity).
    destruct (nidw_next 1 [b] b Q ltac:(lia)) as (_ & _ & Q2). unfold kd. rewrite Q2. split; [unfold x0; lia|exact Q].
  - (* E_ii *) destruct Hi as (p & w & Hk & -> & ->). destruct (N0 eq_refl) as (-> & -> & E).
    eexists; split; [reflexivity|]. split; [exact Hz'|]. exists p, (w ++ [b]). split; [apply mark_snoc; exact Hk|]. split; [reflexivity|lia].
  - (* E_ic *) destruct Hi as (p & w & Hk & -> & ->). destruct (x_f6 _ _ _ _ _ (mark_text _ _ _ (b :: rest) cs' Hk) _ _ _ Hx) as (-> & -> & E).
    eexists; split; [reflexivity|]. split; [exact Hz'|]. exists p, w. split; [reflexivity|]. pose proof (mark_len _ _ _ Hk).
    replace z with false by congruence. cbn [kd]. unfold x0. lia.
  - (* E_it *) destruct Hi as (p & w & Hk & -> & ->). destruct (x_f12 _ _ _ _ _ (mark_text _ _ _ (b :: rest) cs' Hk) _ _ _ Hx) as (-> & -> & E).
    eexists; split; [reflexivity|]. split; [exact Hz'|]. exists p, w. split; [reflexivity|]. pose proof (mark_len _ _ _ Hk).
    replace z with false by congruence. cbn [kd]. unfold x0. lia.
  - (* E_nn0 *) destruct Hi as (p & w & Hk & -> & -> & Hn). destruct (N0 eq_refl) as (-> & -> & E).
    eexists; split; [reflexivity|]. split; [exact Hz'|]. exists p, (w ++ [b]). split; [apply mark_snoc; exact Hk|]. split; [reflexivity|].
    destruct (nidw_0 w b Hn) as [Q1 Q2]. unfold kd. rewrite Q2. split; [lia|exact Q1].
  - (* E_nnd *) destruct Hi as (p & w & Hk & -> & -> & Hn). destruct (x_f2 _ _ _ _ _ (mark_text _ _ _ (b :: rest) cs' Hk) _ _ _ Hx) as (-> & -> & E).
    eexists; split; [reflexivity|]. split; [exact Hz'|]. exists w, (w ++ [b]). split; [apply mark_snoc; exact Hk|]. split; [reflexivity|].
    destruct (nidw_next 3 w b Hn ltac:(lia)) as (Q1 & _ & Q3). destruct (Q1 H) as [[Q _]|(_ & Q2 & Q4)]; [congruence|].
    unfold kd. rewrite Q2, Q3. split; [|exact Q4]. pose proof (mark_len _ _ _ Hk).
    assert (zlen w = 3) by (cbn [nidw] in Hn; apply (f_equal (@List.length byte)) in Hn; unfold lowers in Hn; rewrite map_length in Hn; cbn in Hn; unfold zlen; lia).
    unfold x0. lia.
  - (* E_nnx *) destruct Hi as (p & w & Hk & -> & -> & Hn). destruct (N0 eq_refl) as (-> & -> & E).
    eexists; split; [reflexivity|]. split; [exact Hz'|]. exists p, (w ++ [b]). split; [apply mark_snoc; exact Hk|]. split; [reflexivity|].
    destruct (nidw_next o w b Hn ltac:(lia)) as (Q1 & _ & Q3). destruct (Q1 H0) as [[_ Q]|(Q & _)]; [|lia].
    destruct (nidw_next (S o) (w ++ [b]) b Q ltac:(lia)) as (_ & _ & Q4). unfold kd. rewrite Q3, Q4. split; [lia|exact Q].
  - (* E_nny *) destruct Hi as (p & w & Hk & -> & -> & Hn). destruct (N0 eq_refl) as (-> & -> & E).
    eexists; split; [reflexivity|]. split; [exact Hz'|]. exists p, (w ++ [b]). split; [apply mark_snoc; exact Hk|]. split; [reflexivity|].
    destruct (nidw_next o w b Hn ltac:(lia)) as (_ & Q1 & Q3). destruct (Q1 H0) as [Q Q4]. unfold kd. rewrite Q3, Q4. split; [lia|exact Q].
  - (* E_nc *) destruct Hi as (p & w & Hk & -> & -> & Hn). destruct (x_f6 _ _ _ _ _ (mark_text _ _ _ (b :: rest) cs' Hk) _ _ _ Hx) as (-> & -> & E).
    eexists; split; [reflexivity|]. split; [exact Hz'|]. exists p, w. split; [reflexivity|]. pose proof (mark_len _ _ _ Hk).
    replace z with true by congruence. unfold x0. lia.
  - (* E_cs *) destruct Hi as (p & n & -> & ->). destruct (x_f4 _ _ _ _ _ _ _ Hx) as (-> & -> & E).
    eexists; split; [reflexivity|]. split; [exact Hz'|]. exists p, n, [], [b]. split; [apply mark_new|]. split; [reflexivity|].
    change (zlen (@nil Z)) with 0. split; [unfold x0; lia|reflexivity].
  - (* E_sd *) destruct Hi as (p & n & T & w & Hk & -> & -> & Hs). cbn [exec_opt f_block] in Hx.
    change [SSetSS; SForTolower 32; SSetNorm; SForTolower (-32); SGotoAgain] with (nssw ++ [SGotoAgain]) in Hx.
    destruct (x_nss _ _ _ _ _ (mark_text _ _ _ (b :: rest) cs' Hk) _ _ _ _ Hx) as (x & Hx' & E). cbn [exec_block exec_stmt bind] in Hx'. injection Hx' as <- <-.
    eexists; split; [reflexivity|]. split; [exact Hz'|]. pose proof (mark_len _ _ _ Hk) as Hl.
    assert (Q : forall a' u', a' = 3 + kd z n + zlen n + zlen T + (2 * (zlen pre - pb) + 2 * zlen T + 0) -> u' = uset_norm x (uset_SS w (uset_tolower T (uid p n))) -> a' = K z u').
    { intros a' u1 -> ->. unfold K, kc. cbn [uid uset_norm uset_SS uset_tolower uset_ID uset_prefix zeroURN u_ID u_SS u_scim u_r u_q u_f]. rewrite Hs.
      change (zlen (@nil byte)) with 0. cbn [sc fold_left snd marks kscim]. lia. }
    assert (Q' : 3 + kd z n + zlen n + zlen T + fcost (Some 38%N) x0 = K z (uset_norm x (uset_SS w (uset_tolower T (uid p n))))).
    { apply Q; [|reflexivity]. cbn [fcost f_block]. change [SSetSS; SForTolower 32; SSetNorm; SForTolower (-32); SGotoAgain] with (nssw ++ [SGotoAgain]).
      unfold x0. rewrite E. cbn [block_cost stmt_cost exec_stmt uset_tolower u_tolower]. lia. }
    destruct H as [->| ->]; repeat split; exact Q'.
  - (* E_ss *) destruct Hi as (p & n & T & w & Hk & -> & -> & Hs).
    destruct (scan_full _ _ _ _ _ _ H Hs) as [[-> Q]|[-> Q]]; [destruct (N0 eq_refl) as (-> & -> & E)|destruct (N9 eq_refl) as (-> & -> & E)];
      (eexists; split; [reflexivity|]; split; [exact Hz'|]; eexists p, n, _, (w ++ [b]); split; [apply mark_snoc; exact Hk|]; split; [reflexivity|]).
    + split; [lia|exact Q].
    + cbn [uset_tolower u_tolower]. rewrite HT. split; [lia|exact Q].
  - (* E_t0 *) destruct Hi as (p & n & -> & ->). destruct (x_f4 _ _ _ _ _ _ _ Hx) as (-> & -> & E).
    eexists; split; [reflexivity|]. split; [exact Hz'|]. exists p, n, [b]. split; [apply mark_new|]. split; [apply inw_in; exact H|]. split; [reflexivity|unfold x0; lia].
  - (* E_tt *) destruct Hi as (p & n & w & Hk & Hin & -> & ->). destruct (N0 eq_refl) as (-> & -> & E).
    eexists; split; [reflexivity|]. split; [exact Hz'|]. exists p, n, (w ++ [b]). split; [apply mark_snoc; exact Hk|].
    rewrite forallb_forall in H. split; [apply inw_in, H; exact Hin|]. split; [reflexivity|lia].
  - (* E_tm *) destruct Hi as (p & n & w & Hk & Hin & -> & ->).
    destruct (x_f14 _ _ _ _ _ (mark_text _ _ _ (b :: rest) cs' Hk) (uset_scim (Some zeroSCIM) (uid p n)) zeroSCIM _ _ eq_refl Hx) as (-> & -> & E).
    rewrite forallb_forall in H. specialize (H w Hin). rewrite !andb_true_iff, !Z.eqb_eq, Nat.eqb_eq in H. destruct H as (H1 & H2 & H3).
    eexists; split; [reflexivity|]. split; [exact Hz'|]. exists p, n, (TypeFromString w), (w ++ [b]). split; [apply mark_snoc; exact Hk|]. split; [reflexivity|].
    pose proof (mark_len _ _ _ Hk). rewrite H1. split; [unfold x0; lia|]. rewrite (surjective_pairing (sc (w ++ [b]))), H2, H3. reflexivity.
  - (* E_m0 *) destruct Hi as (p & n & t & w & Hk & -> & -> & Hs).
    destruct (x_pos _ _ _ _ _ (uset_scim (Some (mkSCIM t [] [] 0)) (uid p n)) (mkSCIM t [] [] 0) _ _ (or_introl eq_refl) eq_refl Hx) as (-> & -> & E).
    eexists; split; [reflexivity|]. split; [exact Hz'|]. exists p, n, t, w, [b]. split; [apply mark_snoc; exact Hk|].
    replace (zlen (pre ++ [b]) - zlen [b]) with (zlen pre) by zl. split; [reflexivity|]. split; [unfold x0; lia|]. apply sc_zero; assumption.
  - (* E_mm *) destruct Hi as (p & n & t & v & x & Hk & -> & -> & Hs). destruct (N0 eq_refl) as (-> & -> & E).
    eexists; split; [reflexivity|]. split; [exact Hz'|]. exists p, n, t, v, (x ++ [b]). rewrite app_assoc. split; [apply mark_snoc; exact Hk|].
    replace (zlen (pre ++ [b]) - zlen (x ++ [b])) with (zlen pre - zlen x) by zl. split; [reflexivity|]. split; [lia|]. apply sc_zero; assumption.
  - (* E_mo *) destruct Hi as (p & n & t & v & x & Hk & -> & -> & Hs).
    destruct (x_f35 _ _ _ _ (uset_scim (Some (mkSCIM t [] [] (zlen pre - zlen x))) (uid p n)) (mkSCIM t [] [] (zlen pre - zlen x)) x _ _ eq_refl (mark_slice _ _ _ _ (b :: rest) Hk) Hx) as (-> & -> & E).
    eexists; split; [reflexivity|]. split; [exact Hz'|]. exists p, n, t, x, (zlen pre - zlen x), ((v ++ x) ++ [b]). split; [apply mark_snoc; exact Hk|].
    split; [reflexivity|]. cbn [s_pos] in E. split; [unfold x0; lia|]. apply sc_zero; assumption.
  - (* E_o0 *) destruct Hi as (p & n & t & x & k & w & Hk & -> & -> & Hs).
    destruct (x_pos _ _ _ _ _ (uset_scim (Some (mkSCIM t x [] k)) (uid p n)) (mkSCIM t x [] k) _ _ (or_intror eq_refl) eq_refl Hx) as (-> & -> & E).
    eexists; split; [reflexivity|]. split; [exact Hz'|]. exists p, n, t, x, w, [b], []. split; [apply mark_snoc; exact Hk|].
    replace (zlen (pre ++ [b]) - zlen [b]) with (zlen pre) by zl. split; [reflexivity|]. change (zlen (@nil Z)) with 0. split; [unfold x0; lia|].
    rewrite sc_snoc, Hs. reflexivity.
  - (* E_oo *) destruct Hi as (p & n & t & x & v & o & T & Hk & -> & -> & Hs).
    destruct (scan_full _ _ _ _ _ _ H Hs) as [[-> Q]|[-> Q]]; [destruct (N0 eq_refl) as (-> & -> & E)|destruct (N9 eq_refl) as (-> & -> & E)];
      (eexists; split; [reflexivity|]; split; [exact Hz'|]; eexists p, n, t, x, v, (o ++ [b]), _; rewrite app_assoc; split; [apply mark_snoc; exact Hk|];
       replace (zlen (pre ++ [b]) - zlen (o ++ [b])) with (zlen pre - zlen o) by zl; split; [reflexivity|]).
    + split; [lia|exact Q].
    + cbn [uset_tolower u_tolower]. rewrite HT. split; [lia|exact Q].
  - (* E_dr *) destruct (N0 eq_refl) as (-> & -> & E). eexists; split; [reflexivity|]. split; [exact Hz'|]. rewrite E, Z.add_0_r. exact Hi.
  - (* E_dq *) destruct (N0 eq_refl) as (-> & -> & E). eexists; split; [reflexivity|]. split; [exact Hz'|]. rewrite E, Z.add_0_r. exact (proj2 Hi).
  - (* E_r0 *) destruct Hi as (Hr & Hq & Hf & ->). destruct (x_f26 _ _ _ _ _ _ _ Hx Hm) as (-> & -> & E).
    eexists; split; [reflexivity|]. split; [exact Hz'|]. exists [b]. split; [apply mark_new|]. split; [reflexivity|]. split; [exact Hq|]. split; [exact Hf|].
    split; [|split; [reflexivity|split; discriminate]]. rewrite K_r0 by exact Hr. cbn [marks]. rewrite H. rewrite sc_one. cbn [snd].
    change (K z (uset_rStart true u)) with (K z u). unfold x0. lia.
  - (* E_rx *) destruct (x_f26 _ _ _ _ _ _ _ Hx Hm) as (-> & -> & E). eexists; split; [reflexivity|]. split; [exact Hz'|]. reflexivity.
  - (* E_rr *) destruct Hi as (w & _ & Hr & _). exfalso. rewrite (x_again _ _ _ _ _ _ _ _ Hx (or_introl (conj H Hr))) in Hm. discriminate Hm.
  - (* E_xr *) exfalso. rewrite (x_again _ _ _ _ _ _ _ _ Hx (or_introl (conj H Hi))) in Hm. discriminate Hm.
  - (* E_rm *) destruct Hi as (w & Hk & Hr & Hq & Hf & -> & He & _). destruct (x_f42 _ _ _ _ _ (mark_text _ _ _ (b :: rest) cs' Hk) _ _ _ Hx) as (-> & -> & E).
    eexists; split; [reflexivity|]. split; [exact Hz'|]. exists (w ++ [b]). split; [apply mark_snoc; exact Hk|]. split; [exact Hr|]. split; [exact Hq|]. split; [exact Hf|].
    rewrite marks_snoc, H, sc_snoc, He. cbn [fst snd hit]. pose proof (mark_len _ _ _ Hk). change (uset_r [] (uset_r w u)) with (uset_r [] u).
    apply Byte.byte_dec_bl in H. subst b. split; [unfold x0; lia|]. split; [reflexivity|]. split; [reflexivity|discriminate].
  - (* E_rf *) destruct Hi as (w & Hk & Hr & Hq & Hf & -> & He & _). destruct (x_f42 _ _ _ _ _ (mark_text _ _ _ (b :: rest) cs' Hk) _ _ _ Hx) as (-> & -> & E).
    eexists; split; [reflexivity|]. split; [exact Hz'|]. split; [exact Hf|]. rewrite (K_r u w). unfold kc. pose proof (mark_len _ _ _ Hk). unfold x0. lia.
  - (* E_rq *) destruct Hi as (w & Hk & Hr & Hq & Hf & -> & He & _ & Ht). destruct (x_f31 _ _ _ _ _ _ _ Hx Hm) as (-> & -> & E).
    eexists; split; [reflexivity|]. split; [exact Hz'|]. exists [b]. split; [apply mark_new|]. split; [reflexivity|]. split; [exact Hq|]. split; [exact Hf|].
    split; [|reflexivity]. change (K z (uset_qStart true u)) with (K z u). rewrite sc_one. cbn [snd]. fold x0 in E.
    assert (Ku : K z u = K z (uset_r [] u) + (kc (u_r u) + marks 0 (u_r u))) by (rewrite <- K_r; destruct u; reflexivity).
    rewrite E, Ku, (Ht eq_refl). unfold kc. change (B "?=") with (["?"] ++ ["="])%byte. rewrite app_assoc, !marks_snoc.
    cbn [Byte.eqb]. change (Byte.eqb "=" "?") with false. change (Byte.eqb "?" "?") with true. cbn iota.
    specialize (Ht eq_refl). rewrite Ht in He. change (B "?=") with (["?"] ++ ["="])%byte in He. rewrite app_assoc in He.
    rewrite sc_snoc in He |- *. rewrite sc_snoc in He |- *. cbn [fst snd] in He |- *.
    destruct (fst (sc (u_r u))) as [|[|e]]; cbn [nexte hit] in *; try discriminate He; cbn in He |- *; try discriminate He; lia.
  - (* E_r *) destruct Hi as (w & Hk & Hr & Hq & Hf & -> & He & Ht1 & _).
    assert (Ht2 : t' = 1%nat -> False) by (intros ->; destruct H1 as [H1|(H1 & _)]; discriminate H1).
    destruct (scan_step _ _ _ _ _ H He) as [[-> Q]|[-> Q]]; [destruct (N0 eq_refl) as (-> & -> & E)|destruct (N9 eq_refl) as (-> & -> & E)];
      (eexists; split; [reflexivity|]; split; [exact Hz'|]; exists (w ++ [b]); split; [apply mark_snoc; exact Hk|]; split; [exact Hr|]; split; [exact Hq|]; split; [exact Hf|];
       rewrite marks_snoc, H0, Q, E; cbn [fst snd];
       split; [match goal with |- context [uset_r [] (uset_tolower ?T u)] => change (K z (uset_r [] (uset_tolower T u))) with (K z (uset_r [] u)) | _ => idtac end; lia|];
       split; [reflexivity|]; split; [intros Q1; destruct (Ht2 Q1)|]; intros ->; destruct H1 as [H1|(_ & -> & Hb)]; [discriminate H1|];
       apply Byte.byte_dec_bl in Hb; subst b; rewrite (Ht1 eq_refl), <- app_assoc; reflexivity).
  - (* E_xx *) destruct (N0 eq_refl) as (-> & -> & E). eexists; split; [reflexivity|]. split; [exact Hz'|]. exact Hi.
  - (* E_z *) contradiction.
  - (* E_q0 *) destruct Hi as (Hq & Hf & ->). destruct (x_f31 _ _ _ _ _ _ _ Hx Hm) as (-> & -> & E).
    eexists; split; [reflexivity|]. split; [exact Hz'|]. exists [b]. split; [apply mark_new|]. split; [reflexivity|]. split; [exact Hq|]. split; [exact Hf|].
    split; [|reflexivity]. change (K z (uset_qStart true u)) with (K z u). rewrite sc_one. cbn [snd]. unfold x0. lia.
  - (* E_qy *) destruct (x_f31 _ _ _ _ _ _ _ Hx Hm) as (-> & -> & E). eexists; split; [reflexivity|]. split; [exact Hz'|]. reflexivity.
  - (* E_qq *) destruct Hi as (w & _ & Hr & _). exfalso. rewrite (x_again _ _ _ _ _ _ _ _ Hx (or_intror (conj H Hr))) in Hm. discriminate Hm.
  - (* E_yq *) exfalso. rewrite (x_again _ _ _ _ _ _ _ _ Hx (or_intror (conj H Hi))) in Hm. discriminate Hm.
  - (* E_qf *) destruct Hi as (w & Hk & Hr & Hq & Hf & -> & He). destruct (x_f48 _ _ _ _ _ (mark_text _ _ _ (b :: rest) cs' Hk) _ _ _ Hx) as (-> & -> & E).
    eexists; split; [reflexivity|]. split; [exact Hz'|]. split; [exact Hf|]. rewrite K_q by exact Hq. unfold kc. pose proof (mark_len _ _ _ Hk). unfold x0. lia.
  - (* E_q *) destruct Hi as (w & Hk & Hr & Hq & Hf & -> & He).
    destruct (scan_step _ _ _ _ _ H He) as [[-> Q]|[-> Q]]; [destruct (N0 eq_refl) as (-> & -> & E)|destruct (N9 eq_refl) as (-> & -> & E)];
      (eexists; split; [reflexivity|]; split; [exact Hz'|]; exists (w ++ [b]); split; [apply mark_snoc; exact Hk|]; split; [exact Hr|]; split; [exact Hq|]; split; [exact Hf|];
       rewrite Q, E; cbn [fst snd];
       split; [match goal with |- context [K z (uset_tolower ?T u)] => change (K z (uset_tolower T u)) with (K z u) | _ => idtac end; lia|reflexivity]).
  - (* E_yy *) destruct (N0 eq_refl) as (-> & -> & E). eexists; split; [reflexivity|]. split; [exact Hz'|]. exact Hi.
  - (* E_f0 *) destruct Hi as (Hf & ->). destruct (x_f4 _ _ _ _ _ _ _ Hx) as (-> & -> & E).
    eexists; split; [reflexivity|]. split; [exact Hz'|]. exists [b]. split; [apply mark_new|]. split; [exact Hf|]. split; [|reflexivity].
    rewrite sc_one. cbn [snd]. unfold x0. lia.
  - (* E_f *) destruct Hi as (w & Hk & Hf & -> & He).
    destruct (scan_step _ _ _ _ _ H He) as [[-> Q]|[-> Q]]; [destruct (N0 eq_refl) as (-> & -> & E)|destruct (N9 eq_refl) as (-> & -> & E)];
      (eexists; split; [reflexivity|]; split; [exact Hz'|]; exists (w ++ [b]); split; [apply mark_snoc; exact Hk|]; split; [exact Hf|];
       rewrite Q, E; cbn [fst snd];
       split; [match goal with |- context [K z (uset_tolower ?T u)] => change (K z (uset_tolower T u)) with (K z u) | _ => idtac end; lia|reflexivity]).
Qed.

(* ---- the end of the text --------------------------------------------------------------------------- *)
Definition finals : list N := [172; 173; 174; 175; 176; 177; 178; 179; 180; 181; 182; 183; 184; 185; 186; 187; 188; 189; 190; 191; 192]%N.
Lemma final_in cs : (cs <= 193)%N -> rejecting cs = false -> List.In cs finals.
Proof.
  intros Hc Hr. pose proof (in_states cs Hc) as Hi.
  assert (H : forallb (fun c => rejecting c || existsb (N.eqb c) finals) states = true) by (vm_compute; reflexivity).
  rewrite forallb_forall in H. specialize (H cs Hi). rewrite Hr in H. cbn [orb] in H. apply existsb_exists in H.
  destruct H as (x & Hx & E). apply N.eqb_eq in E. subst. exact Hx.
Qed.
Section End.
Variables (cs : N) (pre : bytes) (pb : Z).
Notation X u := (C pre cs (zlen pre) pb, u).
Lemma e_text w : mark pre pb w -> text (C pre cs (zlen pre) pb) = Ret w.
Proof. intros Hk. rewrite <- (app_nil_r pre) at 1. apply mark_text. exact Hk. Qed.
Lemma e_nss w u y k : mark pre pb w -> exec_block (nssw ++ [SSetKind k]) (X u) = Ret (y, Fall) ->
  exists x, snd y = uset_kind k (uset_norm x (uset_SS w u)) /\
    block_cost (nssw ++ [SSetKind k]) (X u) = 2 * zlen w + 2 * zlen (u_tolower u).
Proof.
  intros Hk Hx. destruct (x_nss _ _ _ _ _ (e_text w Hk) _ _ _ _ Hx) as (x & Hy & E). cbn [exec_block exec_stmt bind] in Hy. injection Hy as <-.
  exists x. split; [reflexivity|]. rewrite E. cbn [block_cost stmt_cost exec_stmt]. rewrite (mark_len _ _ _ Hk). lia.
Qed.
Lemma e_S k u y a : (exists p n T w, mark pre pb w /\ u = uset_tolower T (uid p n) /\ a = 3 + kd z n + zlen n + zlen T /\ sc w = (0%nat, zlen T)) ->
  exec_block (nssw ++ [SSetKind k]) (X u) = Ret (y, Fall) -> a + block_cost (nssw ++ [SSetKind k]) (X u) = K z (snd y).
Proof.
  intros (p & n & T & w & Hk & -> & -> & Hs) Hx. destruct (e_nss w _ _ _ Hk Hx) as (x & -> & ->).
  unfold K, kc. cbn [uid uset_kind uset_norm uset_SS uset_tolower uset_ID uset_prefix zeroURN u_tolower u_ID u_SS u_scim u_r u_q u_f]. rewrite Hs.
  change (zlen (@nil byte)) with 0. cbn [sc fold_left snd marks kscim]. lia.
Qed.
Lemma e_scim o k u y sm n0 : (o = SScimName \/ o = SScimOther) -> u_scim u = Some sm -> slice pre (s_pos sm) (zlen pre) = Ret n0 ->
  exec_block (o :: nssw ++ [SSetKind k]) (X u) = Ret (y, Fall) ->
  let sm' := match o with SScimName => mkSCIM (s_Type sm) n0 (s_Other sm) (s_pos sm) | _ => mkSCIM (s_Type sm) (s_Name sm) n0 (s_pos sm) end in
  exec_block (nssw ++ [SSetKind k]) (X (uset_scim (Some sm') u)) = Ret (y, Fall) /\
  block_cost (o :: nssw ++ [SSetKind k]) (X u) = zlen pre - s_pos sm + block_cost (nssw ++ [SSetKind k]) (X (uset_scim (Some sm') u)).
Proof.
  intros [->| ->] Hs Hn Hx; cbn zeta; cbn [exec_block exec_stmt] in Hx; cbn [block_cost]; cbn [stmt_cost exec_stmt];
  rewrite Hs in *; cbn [Exec.cfg m_data m_p] in Hx |- *; rewrite Hn in *; cbn [bind] in *; split; solve [exact Hx | reflexivity].
Qed.
Lemma e_M k u y a : (exists p n t v x, mark pre pb (v ++ x) /\ u = uset_scim (Some (mkSCIM t [] [] (zlen pre - zlen x))) (uid p n) /\
      a = 3 + kd z n + zlen n + zlen (Type_String t) /\ sc (v ++ x) = (0%nat, 0)) ->
  exec_block (SScimName :: nssw ++ [SSetKind k]) (X u) = Ret (y, Fall) -> a + block_cost (SScimName :: nssw ++ [SSetKind k]) (X u) = K z (snd y).
Proof.
  intros (p & n & t & v & x & Hk & -> & -> & Hs) Hx.
  assert (Hn : slice pre (zlen pre - zlen x) (zlen pre) = Ret x) by (rewrite <- (app_nil_r pre) at 1; apply (mark_slice pre pb v); exact Hk).
  destruct (e_scim _ _ (uset_scim (Some (mkSCIM t [] [] (zlen pre - zlen x))) (uid p n)) y (mkSCIM t [] [] (zlen pre - zlen x)) x (or_introl eq_refl) eq_refl Hn Hx) as [Hx' ->].
  destruct (e_nss _ _ _ _ Hk Hx') as (x' & -> & ->). cbn [s_Type s_Name s_Other s_pos].
  unfold K, kc. cbn [uid uset_scim uset_kind uset_norm uset_SS uset_tolower uset_ID uset_prefix zeroURN u_tolower u_ID u_SS u_scim u_r u_q u_f]. rewrite Hs.
  change (zlen (@nil byte)) with 0. change (zlen (@nil Z)) with 0. cbn [sc fold_left snd marks kscim s_Type s_Name s_Other]. change (zlen (@nil byte)) with 0. lia.
Qed.
Lemma e_O k u y a : (exists p n t x v o T, mark pre pb (v ++ o) /\ u = uset_tolower T (uset_scim (Some (mkSCIM t x [] (zlen pre - zlen o))) (uid p n)) /\
      a = 3 + kd z n + zlen n + zlen (Type_String t) + zlen x + zlen T /\ sc (v ++ o) = (0%nat, zlen T)) ->
  exec_block (SScimOther :: nssw ++ [SSetKind k]) (X u) = Ret (y, Fall) -> a + block_cost (SScimOther :: nssw ++ [SSetKind k]) (X u) = K z (snd y).
Proof.
  intros (p & n & t & x & v & o & T & Hk & -> & -> & Hs) Hx.
  assert (Hn : slice pre (zlen pre - zlen o) (zlen pre) = Ret o) by (rewrite <- (app_nil_r pre) at 1; apply (mark_slice pre pb v); exact Hk).
  destruct (e_scim _ _ (uset_tolower T (uset_scim (Some (mkSCIM t x [] (zlen pre - zlen o))) (uid p n))) y (mkSCIM t x [] (zlen pre - zlen o)) o (or_intror eq_refl) eq_refl Hn Hx) as [Hx' ->].
  destruct (e_nss _ _ _ _ Hk Hx') as (x' & -> & ->). cbn [s_Type s_Name s_Other s_pos].
  unfold K, kc. cbn [uid uset_scim uset_kind uset_norm uset_SS uset_tolower uset_ID uset_prefix zeroURN u_tolower u_ID u_SS u_scim u_r u_q u_f]. rewrite Hs.
  change (zlen (@nil byte)) with 0. cbn [sc fold_left snd marks kscim s_Type s_Name s_Other]. lia.
Qed.
Lemma e_F0 k u y a : u_f u = [] /\ a = K z u -> exec_block [SMark; SSetF; SSetKind k] (X u) = Ret (y, Fall) ->
  a + block_cost [SMark; SSetF; SSetKind k] (X u) = K z (snd y).
Proof.
  intros (Hf & ->) Hx.
  assert (Ht : text (set_pb (m_p (C pre cs (zlen pre) pb)) (C pre cs (zlen pre) pb)) = Ret []).
  { change (set_pb _ _) with (C pre cs (zlen pre) (zlen pre)). rewrite <- (app_nil_r pre) at 1. apply mark_text. exists pre. rewrite app_nil_r. auto. }
  cbn [exec_block exec_stmt bind] in Hx. rewrite Ht in Hx. cbn [bind] in Hx. injection Hx as <-.
  cbn [block_cost stmt_cost exec_stmt bind snd]. rewrite Ht. cbn [bind block_cost stmt_cost exec_stmt set_pb Exec.cfg m_p m_pb].
  change (K z (uset_kind k (uset_f [] u))) with (K z (uset_f [] u)). rewrite K_f by exact Hf. unfold kc. change (zlen (@nil byte)) with 0. cbn [sc fold_left snd]. lia.
Qed.
Ltac one Hk Hx := cbn [exec_block exec_stmt bind] in Hx; rewrite (e_text _ Hk) in Hx; cbn [bind] in Hx; injection Hx as <-;
  cbn [block_cost stmt_cost exec_stmt bind snd]; rewrite (e_text _ Hk); cbn [bind block_cost stmt_cost exec_stmt Exec.cfg m_p m_pb]; pose proof (mark_len _ _ _ Hk).
Lemma e_F k u y a : (exists w, mark pre pb w /\ u_f u = [] /\ a = K z u + snd (sc w) /\ fst (sc w) = 0%nat) ->
  exec_block [SSetF; SSetKind k] (X u) = Ret (y, Fall) -> a + block_cost [SSetF; SSetKind k] (X u) = K z (snd y).
Proof.
  intros (w & Hk & Hf & -> & _) Hx. one Hk Hx. change (K z (uset_kind k (uset_f w u))) with (K z (uset_f w u)). rewrite K_f by exact Hf. unfold kc. lia.
Qed.
Lemma e_Q k u y a : (exists w, mark pre pb w /\ u_qStart u = true /\ u_q u = [] /\ u_f u = [] /\ a = K z u + snd (sc w) /\ fst (sc w) = 0%nat) ->
  exec_block [SSetQ; SSetKind k] (X u) = Ret (y, Fall) -> a + block_cost [SSetQ; SSetKind k] (X u) = K z (snd y).
Proof.
  intros (w & Hk & _ & Hq & _ & -> & _) Hx. one Hk Hx. change (K z (uset_kind k (uset_q w u))) with (K z (uset_q w u)). rewrite K_q by exact Hq. unfold kc. lia.
Qed.
Lemma e_R k u y a (P Q : bytes -> Prop) : (exists w, mark pre pb w /\ u_rStart u = true /\ u_q u = [] /\ u_f u = [] /\
      a = K z (uset_r [] u) + marks 0 w + snd (sc w) /\ fst (sc w) = 0%nat /\ P w /\ Q w) ->
  exec_block [SSetR; SSetKind k] (X u) = Ret (y, Fall) -> a + block_cost [SSetR; SSetKind k] (X u) = K z (snd y).
Proof.
  intros (w & Hk & _ & _ & _ & -> & _) Hx. one Hk Hx. change (K z (uset_kind k (uset_r w u))) with (K z (uset_r w u)). rewrite (K_r u w). unfold kc. lia.
Qed.
End End.
Lemma e_rx l u m y : u_rStart u = true -> exec_block (SIf CRStart [SSetErr Err8141RComponentStart 0; SDecP; SSetCS 193; SGotoAgain] [] :: l) (m, u) = Ret (y, Fall) -> False.
Proof. intros H Hx. cbn [exec_block exec_stmt eval_cond bind] in Hx. rewrite H in Hx. discriminate Hx. Qed.
Lemma e_qx l u m y : u_qStart u = true -> exec_block (SIf CQStart [SSetErr Err8141QComponentStart 0; SDecP; SSetCS 193; SGotoAgain] [] :: l) (m, u) = Ret (y, Fall) -> False.
Proof. intros H Hx. cbn [exec_block exec_stmt eval_cond bind] in Hx. rewrite H in Hx. discriminate Hx. Qed.

Lemma inv_end cs pre pb u a y c : (cs <= 193)%N -> Inv cs pre pb u a -> Acc cs pre [] pb u y c -> a + c = K z (snd y).
Proof.
  intros Hcs [Hz Hi] Ha. destruct (acc_end _ _ _ _ _ _ _ _ _ Ha) as (Hr & e & He & Hb). clear Ha.
  pose proof (final_in cs Hcs Hr) as Hf. unfold finals in Hf.
  repeat (destruct Hf as [<-|Hf]; [vm_compute in He; injection He as <-; cbn [eof_block] in Hb|]); [..|destruct Hf].
  all: match type of Hi with context [ph ?c] => let p := eval vm_compute in (ph c) in change (ph c) with p in Hi; cbv beta iota in Hi end.
  all: destruct Hb as [Hx ->].
  all: first [ exact (e_S _ _ _ _ _ _ _ Hi Hx) | exact (e_M _ _ _ _ _ _ _ Hi Hx) | exact (e_O _ _ _ _ _ _ _ Hi Hx)
    | exact (e_F0 _ _ _ _ _ _ _ Hi Hx) | exact (e_F _ _ _ _ _ _ _ Hi Hx) | exact (e_Q _ _ _ _ _ _ _ Hi Hx) | eapply e_R; [exact Hi|exact Hx]
    | exfalso; apply e_rx in Hx; [exact Hx|exact Hi] | exfalso; apply e_qx in Hx; [exact Hx|exact Hi]
    | exfalso; destruct Hi as (w & _ & Hi & _); first [apply e_rx in Hx | apply e_qx in Hx]; [exact Hx|exact Hi] ].
Qed.

Lemma acc_inv rest : forall cs pre pb u a y c, (0 < cs <= 193)%N -> dead cs = false -> Inv cs pre pb u a ->
  Acc cs pre rest pb u y c -> a + c = K z (snd y).
Proof.
  induction rest as [|b rest IH]; intros cs pre pb u a y c Hcs Hd Hi Ha.
  - apply (inv_end cs pre pb u); auto. lia.
  - destruct (acc_byte _ _ _ _ _ _ _ _ _ _ _ Hcs Ha) as (cs' & fo & m' & u' & E & Hd' & Hc' & Hx & Hm & Hk).
    destruct (inv_step _ _ _ _ _ _ _ _ _ _ _ Hcs Hd Hi E Hd' Hx Hm) as (pb' & Em & Hi').
    destruct (Hk pb' Em) as (c' & -> & Ha').
    assert (0 < cs' <= 193)%N. { split; [|exact Hc']. destruct (N.eq_dec cs' 0) as [->|]; [discriminate Hd'|lia]. }
    rewrite <- (IH cs' (pre ++ [b]) pb' u' _ y c' H Hd' Hi' Ha'). lia.
Qed.
End Exact.
