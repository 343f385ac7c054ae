(* Symbolic execution of the goto program: one input byte, errors, end of input. *)
From Coq Require Import Lia.
From Verif Require Import GoBase MachineSyntax MachineTables Machine Spec Ref.
Local Open Scope Z_scope.

Definition all_bytes : list byte :=
  map (fun n => match Byte.of_N (N.of_nat n) with Some b => b | None => x00 end) (seq 0 256).
Lemma all_bytes_all b : In b all_bytes.
Proof.
  unfold all_bytes. apply in_map_iff. exists (N.to_nat (Byte.to_N b)). split.
  - rewrite N2Nat.id, Byte.of_to_N. reflexivity.
  - apply in_seq. pose proof (Byte.to_N_bounded b). lia.
Qed.

(* finite sweep over all 256 byte values *)
Lemma byte_sweep (f : byte -> bool) : forallb f all_bytes = true -> forall b, f b = true.
Proof. intros H b. rewrite forallb_forall in H. apply H, all_bytes_all. Qed.

(* ---- lengths, slices ------------------------------------------------------- *)
Lemma zlen_app {A} (a b : list A) : zlen (a ++ b) = zlen a + zlen b.
Proof. unfold zlen. rewrite app_length. lia. Qed.
Lemma zlen_cons {A} (x : A) (b : list A) : zlen (x :: b) = 1 + zlen b.
Proof. unfold zlen. cbn [List.length]. lia. Qed.
Lemma zlen_nil {A} : zlen (@nil A) = 0.
Proof. reflexivity. Qed.
Lemma zlen_nonneg {A} (a : list A) : 0 <= zlen a.
Proof. unfold zlen. lia. Qed.
Lemma zlen_to_nat {A} (a : list A) : Z.to_nat (zlen a) = List.length a.
Proof. unfold zlen. lia. Qed.

Global Hint Rewrite @zlen_app @zlen_cons @zlen_nil : zlen.
Ltac zl := autorewrite with zlen in *;
  repeat match goal with
  | |- context [zlen ?a] => lazymatch goal with H : 0 <= zlen a |- _ => fail | _ => pose proof (zlen_nonneg a) end
  end; try lia.

Lemma slice_mid {A} (a w c : list A) : slice (a ++ w ++ c) (zlen a) (zlen a + zlen w) = Ret w.
Proof.
  unfold slice.
  replace ((0 <=? zlen a) && (zlen a <=? zlen a + zlen w) && (zlen a + zlen w <=? zlen (a ++ w ++ c))) with true.
  2:{ symmetry. rewrite !andb_true_iff, !Z.leb_le. zl. }
  f_equal. rewrite zlen_to_nat.
  replace (zlen a + zlen w - zlen a) with (zlen w) by lia. rewrite zlen_to_nat.
  rewrite skipn_app, skipn_all, Nat.sub_diag. cbn [skipn app].
  rewrite firstn_app, Nat.sub_diag, firstn_all. cbn [firstn]. apply app_nil_r.
Qed.

Lemma index_mid {A} (a : list A) x c : index (a ++ x :: c) (zlen a) = Ret x.
Proof.
  unfold index.
  replace ((0 <=? zlen a) && (zlen a <? zlen (a ++ x :: c))) with true.
  2:{ symmetry. rewrite andb_true_iff, Z.leb_le, Z.ltb_lt. zl. }
  rewrite zlen_to_nat, nth_error_app2 by lia. rewrite Nat.sub_diag. reflexivity.
Qed.

(* ---- transitions ------------------------------------------------------------- *)
(* what happens on byte b in state cs: new state and f block *)
Definition delta (cs : N) (b : byte) : option (N * option N) :=
  match resume_switch cs (Byte.to_N b) with
  | TTr n => tr_block n
  | TOut => None
  end.

Definition exec_opt (fo : option N) (x : st) : res (st * ctl) :=
  match fo with
  | None => Ret (x, Again)
  | Some f => match f_block f with Some b => exec_block b x | None => Panic end
  end.

(* ---- run --------------------------------------------------------------------- *)
Lemma run_mono n k l x y : run n l x = Ret y -> run (n + k) l x = Ret y.
Proof.
  revert l x. induction n as [|n IH]; intros l x H.
  - destruct l; cbn in H; try discriminate. destruct k; exact H.
  - destruct l; cbn [run Nat.add] in *; try exact H;
    (destruct (step _ x) as [[l' x']| |]; cbn [bind] in *; try discriminate; apply IH; exact H).
Qed.

Lemma run_step n l x l' x' y :
  l <> LOut -> step l x = Ret (l', x') -> run n l' x' = Ret y -> run (S n) l x = Ret y.
Proof.
  intros Hl Hs Hr. destruct l; cbn [run]; try (rewrite Hs; exact Hr). contradiction.
Qed.

Lemma run_le n k l x y : (n <= k)%nat -> run n l x = Ret y -> run k l x = Ret y.
Proof. intros H Hr. replace k with (n + (k - n))%nat by lia. apply run_mono; exact Hr. Qed.

Section Run.
Variables (start : N) (mode : Z) (mset : bool).

(* a running machine: no error so far *)
Definition cfg (data : bytes) (cs : N) (p pb : Z) : machine :=
  mkMachine data cs p (zlen data) (zlen data) pb None start mode mset.
(* a machine with an error *)
Definition ecfg (data : bytes) (cs : N) (p pb : Z) (e : perr) : machine :=
  mkMachine data cs p (zlen data) (zlen data) pb (Some e) start mode mset.

Definition nextl (rest : bytes) : label := match rest with [] => LTestEof | _ => LResume end.

Definition rejecting (cs : N) : bool := N.ltb cs first_final || N.eqb cs en_fail.

(* final state (m, u) amounts to outcome o on buffer data *)
Definition fin (data : bytes) (y : st) (o : pout) : Prop :=
  let '(m, u) := y in
  m_data m = data /\ m_startParsingAt m = start /\ m_parsingMode m = mode /\
  m_parsingModeSet m = mset /\
  match o with
  | OUrn v => rejecting (m_cs m) = false /\ m_err m = None /\ pub_of u = v
  | OErr e => rejecting (m_cs m) = true /\ m_err m = Some e
  | ONil => rejecting (m_cs m) = true /\ m_err m = None
  end.

(* From state cs, having consumed pre with rest to go, Parse ends with outcome o. *)
Definition At (cs : N) (pre rest : bytes) (pb : Z) (u : URN) (o : pout) : Prop :=
  exists y, run (4 * List.length rest + 15) (nextl rest)
                (cfg (pre ++ rest) cs (zlen pre) pb, u) = Ret y
            /\ fin (pre ++ rest) y o.

Lemma index_tsa cs : (cs <= 193)%N -> cs <> 171%N ->
  exists a, index to_state_actions (Z.of_N cs) = Ret a /\ to_state_block a = None.
Proof.
  intros H1 H2.
  assert (K : forallb (fun n => N.eqb (N.of_nat n) 171 ||
     match index to_state_actions (Z.of_N (N.of_nat n)) with
     | Ret a => match to_state_block a with None => true | _ => false end
     | _ => false end) (seq 0 194) = true) by (vm_compute; reflexivity).
  rewrite forallb_forall in K. specialize (K (N.to_nat cs)).
  rewrite N2Nat.id in K.
  assert (Hin : In (N.to_nat cs) (seq 0 194)) by (apply in_seq; lia).
  specialize (K Hin). apply orb_prop in K. destruct K as [K|K].
  - apply N.eqb_eq in K. congruence.
  - destruct (index to_state_actions (Z.of_N cs)) as [a| |]; try discriminate.
    exists a. split; [reflexivity|]. destruct (to_state_block a); [discriminate|reflexivity].
Qed.

Lemma step_resume cs pre b rest pb err u :
  (0 < cs <= 193)%N ->
  step LResume (mkMachine (pre ++ b :: rest) cs (zlen pre) (zlen (pre ++ b :: rest)) (zlen (pre ++ b :: rest)) pb err start mode mset, u) =
  match resume_switch cs (Byte.to_N b) with
  | TOut => Ret (LOut, (mkMachine (pre ++ b :: rest) cs (zlen pre) (zlen (pre ++ b :: rest)) (zlen (pre ++ b :: rest)) pb err start mode mset, u))
  | TTr n => Ret (LTr n, (mkMachine (pre ++ b :: rest) cs (zlen pre) (zlen (pre ++ b :: rest)) (zlen (pre ++ b :: rest)) pb err start mode mset, u))
  end.
Proof.
  intros H. cbn [step m_cs m_data m_p].
  replace (N.eqb cs 0) with false by (symmetry; apply N.eqb_neq; lia).
  replace (N.ltb 193 cs) with false by (symmetry; apply N.ltb_ge; lia).
  rewrite index_mid. reflexivity.
Qed.

(* _resume, tr, f: up to _again *)
Lemma run_to_again n cs pre b rest pb err u cs' fo x' y :
  (0 < cs <= 193)%N ->
  delta cs b = Some (cs', fo) ->
  exec_opt fo (mkMachine (pre ++ b :: rest) cs' (zlen pre) (zlen (pre ++ b :: rest)) (zlen (pre ++ b :: rest)) pb err start mode mset, u) = Ret (x', Again) ->
  run n LAgain x' = Ret y ->
  run (3 + n) LResume (mkMachine (pre ++ b :: rest) cs (zlen pre) (zlen (pre ++ b :: rest)) (zlen (pre ++ b :: rest)) pb err start mode mset, u) = Ret y.
Proof.
  intros Hcs Hd Hx Hr. unfold delta in Hd.
  pose proof (step_resume cs pre b rest pb err u Hcs) as Hs.
  destruct (resume_switch cs (Byte.to_N b)) as [t|]; [|discriminate].
  change (3 + n)%nat with (S (2 + n)).
  eapply run_step; [discriminate | exact Hs |].
  destruct fo as [f|]; cbn [exec_opt] in Hx.
  - change (2 + n)%nat with (S (1 + n)).
    eapply run_step; [discriminate | cbn [step]; rewrite Hd; reflexivity |].
    unfold set_cs; cbn [m_data m_p m_pe m_eof m_pb m_err m_startParsingAt m_parsingMode m_parsingModeSet].
    change (1 + n)%nat with (S n).
    destruct (f_block f) as [blk|] eqn:Hf; [|discriminate].
    eapply run_step; [discriminate | cbn [step]; rewrite Hf; rewrite Hx; reflexivity | exact Hr].
  - inversion Hx; subst x'. replace (2 + n)%nat with (S n + 1)%nat by lia. apply run_mono.
    eapply run_step; [discriminate | cbn [step]; rewrite Hd; reflexivity | exact Hr].
Qed.

(* _again in an ordinary state: advance *)
Lemma run_again n cs pre b rest pb err u y :
  (0 < cs <= 193)%N -> cs <> 171%N ->
  run n (nextl rest) (mkMachine ((pre ++ [b]) ++ rest) cs (zlen (pre ++ [b])) (zlen ((pre ++ [b]) ++ rest)) (zlen ((pre ++ [b]) ++ rest)) pb err start mode mset, u) = Ret y ->
  run (S n) LAgain (mkMachine (pre ++ b :: rest) cs (zlen pre) (zlen (pre ++ b :: rest)) (zlen (pre ++ b :: rest)) pb err start mode mset, u) = Ret y.
Proof.
  intros Hcs H171 Hr. destruct (index_tsa cs) as [a [Ha Hb]]; [lia|assumption|].
  rewrite <- app_assoc in Hr. cbn [app] in Hr.
  eapply run_step; [discriminate | | exact Hr].
  cbn [step m_cs]. rewrite Ha. cbn [bind]. rewrite Hb.
  replace (N.eqb cs 0) with false by (symmetry; apply N.eqb_neq; lia).
  unfold set_p; cbn [m_p m_data m_cs m_pe m_eof m_pb m_err m_startParsingAt m_parsingMode m_parsingModeSet].
  replace (zlen (pre ++ [b])) with (zlen pre + 1) by zl.
  destruct rest as [|c rest]; cbn [nextl].
  - replace (zlen pre + 1 =? zlen (pre ++ [b])) with true by (symmetry; apply Z.eqb_eq; zl). reflexivity.
  - replace (zlen pre + 1 =? zlen (pre ++ b :: c :: rest)) with false by (symmetry; apply Z.eqb_neq; zl). reflexivity.
Qed.

(* one ordinary byte *)
Lemma At_byte cs pre b rest pb u cs' fo pb' u' o :
  (0 < cs <= 193)%N -> (0 < cs' <= 193)%N -> cs' <> 171%N ->
  delta cs b = Some (cs', fo) ->
  exec_opt fo (cfg (pre ++ b :: rest) cs' (zlen pre) pb, u)
    = Ret ((cfg (pre ++ b :: rest) cs' (zlen pre) pb', u'), Again) ->
  At cs' (pre ++ [b]) rest pb' u' o ->
  At cs pre (b :: rest) pb u o.
Proof.
  intros Hcs Hcs' H171 Hd Hx [y [Hr Hf]]. exists y. split.
  - replace (4 * List.length (b :: rest) + 15)%nat with (3 + (S (4 * List.length rest + 15)))%nat
      by (cbn [List.length]; lia).
    cbn [nextl]. unfold cfg in *.
    eapply run_to_again; [assumption | exact Hd | exact Hx |].
    apply run_again; [assumption|assumption|exact Hr].
  - rewrite <- app_assoc in Hf. exact Hf.
Qed.

(* ---- the fail state ------------------------------------------------------------ *)
Lemma delta_193 b : delta 193 b = if (Byte.eqb b x0a || Byte.eqb b x0d) then Some (0%N, None) else Some (193%N, None).
Proof. destruct b; reflexivity. Qed.

Lemma run_fail rest : forall pre pb e u,
  exists y, run (3 * List.length rest + 2) (nextl rest) (ecfg (pre ++ rest) 193 (zlen pre) pb e, u) = Ret y
            /\ fin (pre ++ rest) y (OErr e).
Proof.
  induction rest as [|b rest IH]; intros pre pb e u.
  - exists (ecfg (pre ++ []) 193 (zlen pre) pb e, u). split; [|cbn; auto 10].
    cbn [List.length Nat.mul Nat.add nextl]. eapply (run_step _ _ _ LOut); [discriminate| |reflexivity].
    cbn [step ecfg m_p m_eof m_cs].
    replace (zlen pre =? zlen (pre ++ [])) with true by (symmetry; apply Z.eqb_eq; zl).
    reflexivity.
  - pose proof (delta_193 b) as Hd.
    destruct (Byte.eqb b x0a || Byte.eqb b x0d).
    + exists (ecfg (pre ++ b :: rest) 0 (zlen pre) pb e, u). split; [|cbn; auto 10].
      cbn [nextl]. replace (3 * List.length (b :: rest) + 2)%nat with (3 + (3 * List.length rest + 2))%nat by (cbn [List.length]; lia).
      unfold ecfg. eapply run_to_again; [lia | exact Hd | reflexivity|].
      replace (3 * List.length rest + 2)%nat with (S (3 * List.length rest + 1)) by lia.
      eapply run_step; [discriminate | reflexivity | destruct (3 * List.length rest + 1)%nat; reflexivity].
    + destruct (IH (pre ++ [b]) pb e u) as [y [Hr Hf]]. exists y. split.
      * cbn [nextl]. unfold ecfg in *.
        replace (3 * List.length (b :: rest) + 2)%nat with (3 + (3 * List.length rest + 2))%nat by (cbn [List.length]; lia).
        (* the trNNN goto _again path costs 2 + 1 *)
        pose proof (step_resume 193 pre b rest pb (Some e) u ltac:(lia)) as Hs.
        unfold delta in Hd. destruct (resume_switch 193 (Byte.to_N b)) as [t|]; [|discriminate].
        change (3 + (3 * List.length rest + 2))%nat with (S (S (S (3 * List.length rest + 2)))).
        eapply run_step; [discriminate | exact Hs |].
        eapply run_step; [discriminate | cbn [step]; rewrite Hd; reflexivity |].
        unfold set_cs; cbn [m_data m_p m_pe m_eof m_pb m_err m_startParsingAt m_parsingMode m_parsingModeSet].
        apply run_again; [lia|discriminate|exact Hr].
      * rewrite <- app_assoc in Hf. exact Hf.
Qed.

(* goto _again with cs = fail and p held back *)
Lemma run_again_fail n pre rest pb e u y :
  run n (nextl rest) (ecfg (pre ++ rest) 193 (zlen pre) pb e, u) = Ret y ->
  run (S n) LAgain (ecfg (pre ++ rest) 193 (zlen pre - 1) pb e, u) = Ret y.
Proof.
  intros Hr. eapply run_step; [discriminate| |exact Hr].
  cbn [step ecfg m_cs]. cbn -[zlen Z.eqb Z.add Z.sub].
  unfold ecfg. replace (zlen pre - 1 + 1) with (zlen pre) by lia.
  destruct rest as [|c rest]; cbn [nextl].
  - replace (zlen pre =? zlen (pre ++ [])) with true by (symmetry; apply Z.eqb_eq; zl). reflexivity.
  - replace (zlen pre =? zlen (pre ++ c :: rest)) with false by (symmetry; apply Z.eqb_neq; zl). reflexivity.
Qed.

Lemma At_err cs pre b rest pb u cs' fo pb' u' e :
  (0 < cs <= 193)%N ->
  delta cs b = Some (cs', fo) ->
  exec_opt fo (cfg (pre ++ b :: rest) cs' (zlen pre) pb, u)
    = Ret ((ecfg (pre ++ b :: rest) 193 (zlen pre - 1) pb' e, u'), Again) ->
  At cs pre (b :: rest) pb u (OErr e).
Proof.
  intros Hcs Hd Hx. destruct (run_fail (b :: rest) pre pb' e u') as [y [Hr Hf]].
  exists y. split; [|exact Hf].
  replace (4 * List.length (b :: rest) + 15)%nat
    with (3 + (S (3 * List.length (b :: rest) + 2) + (List.length rest + 10)))%nat by (cbn [List.length]; lia).
  cbn [nextl]. eapply run_to_again; [exact Hcs | exact Hd | exact Hx |].
  apply run_mono. apply (run_again_fail _ pre (b :: rest)). exact Hr.
Qed.

(* transition into state 171: the to-state action fires *)
Lemma At_informal cs pre b rest pb u pb' u' fo :
  (0 < cs <= 193)%N ->
  delta cs b = Some (171%N, fo) ->
  exec_opt fo (cfg (pre ++ b :: rest) 171 (zlen pre) pb, u)
    = Ret ((cfg (pre ++ b :: rest) 171 (zlen pre) pb', u'), Again) ->
  At cs pre (b :: rest) pb u (OErr (mkErr Err8141InformalID (zlen pre - 1))).
Proof.
  intros Hcs Hd Hx. set (e := mkErr Err8141InformalID (zlen pre - 1)).
  destruct (run_fail (b :: rest) pre pb' e u') as [y [Hr Hf]].
  exists y. split; [|exact Hf].
  replace (4 * List.length (b :: rest) + 15)%nat
    with (3 + (S (S (3 * List.length (b :: rest) + 2)) + (List.length rest + 9)))%nat by (cbn [List.length]; lia).
  cbn [nextl]. eapply run_to_again; [exact Hcs | exact Hd | exact Hx |].
  apply run_mono. eapply run_step; [discriminate| |apply (run_again_fail _ pre (b :: rest)); exact Hr].
  cbn [step m_cs cfg].
  replace (index to_state_actions (Z.of_N 171)) with (Ret 33%N) by (vm_compute; reflexivity).
  cbn -[zlen Z.sub Z.add Z.eqb]. unfold cfg, ecfg, e, set_err, set_cs, set_p.
  cbn [m_data m_cs m_p m_pe m_eof m_pb m_err m_startParsingAt m_parsingMode m_parsingModeSet].
  rewrite Z.add_0_r. reflexivity.
Qed.

(* the FSM dies without an error *)
Lemma At_nil cs pre b rest pb u cs' fo pb' u' :
  (0 < cs <= 193)%N ->
  delta cs b = Some (cs', fo) ->
  exec_opt fo (cfg (pre ++ b :: rest) cs' (zlen pre) pb, u)
    = Ret ((cfg (pre ++ b :: rest) 0 (zlen pre) pb', u'), Again) ->
  At cs pre (b :: rest) pb u ONil.
Proof.
  intros Hcs Hd Hx. exists (cfg (pre ++ b :: rest) 0 (zlen pre) pb', u'). split; [|cbn; auto 10].
  replace (4 * List.length (b :: rest) + 15)%nat
    with (3 + (S (4 * List.length rest + 15)))%nat by (cbn [List.length]; lia).
  cbn [nextl]. eapply run_to_again; [exact Hcs | exact Hd | exact Hx |].
  eapply run_step; [discriminate | reflexivity | destruct (4 * List.length rest + 15)%nat; reflexivity].
Qed.

(* ---- end of input ---------------------------------------------------------------- *)
Definition eofact (cs : N) : option (list stmt) :=
  match index eof_actions (Z.of_N cs) with Ret a => eof_block a | _ => None end.

Lemma index_eof cs : (cs <= 193)%N -> exists a, index eof_actions (Z.of_N cs) = Ret a.
Proof.
  intros H1.
  assert (K : forallb (fun n =>
     match index eof_actions (Z.of_N (N.of_nat n)) with
     | Ret a => true | _ => false end) (seq 0 194) = true) by (vm_compute; reflexivity).
  rewrite forallb_forall in K. specialize (K (N.to_nat cs)).
  rewrite N2Nat.id in K.
  assert (Hin : In (N.to_nat cs) (seq 0 194)) by (apply in_seq; lia).
  specialize (K Hin). destruct (index eof_actions (Z.of_N cs)) as [a| |]; try discriminate. eauto.
Qed.

Lemma step_eof cs pre pb u :
  (cs <= 193)%N ->
  step LTestEof (cfg (pre ++ []) cs (zlen pre) pb, u) =
  match eofact cs with
  | Some b => do r <- exec_block b (cfg (pre ++ []) cs (zlen pre) pb, u);
              match r with (x', Again) => Ret (LAgain, x') | (x', Fall) => Ret (LOut, x') end
  | None => Ret (LOut, (cfg (pre ++ []) cs (zlen pre) pb, u))
  end.
Proof.
  intros H. destruct (index_eof cs H) as [a Ha]. unfold eofact. rewrite Ha.
  cbn [step cfg m_p m_eof m_cs].
  replace (zlen pre =? zlen (pre ++ [])) with true by (symmetry; apply Z.eqb_eq; zl).
  rewrite Ha. reflexivity.
Qed.

Lemma At_eof_ok cs blk pre pb u x o :
  (cs <= 193)%N -> eofact cs = Some blk ->
  exec_block blk (cfg (pre ++ []) cs (zlen pre) pb, u) = Ret (x, Fall) ->
  fin (pre ++ []) x o ->
  At cs pre [] pb u o.
Proof.
  intros Hcs He Hx Hf. exists x. split; [|exact Hf].
  cbn [List.length nextl]. change (4 * 0 + 15)%nat with (S 14).
  eapply run_step; [discriminate | rewrite (step_eof cs) by assumption; rewrite He, Hx; reflexivity | reflexivity].
Qed.

Lemma At_eof_err cs blk pre pb u u' pb' e :
  (cs <= 193)%N -> eofact cs = Some blk ->
  exec_block blk (cfg (pre ++ []) cs (zlen pre) pb, u) = Ret ((ecfg (pre ++ []) 193 (zlen pre - 1) pb' e, u'), Again) ->
  At cs pre [] pb u (OErr e).
Proof.
  intros Hcs He Hx. destruct (run_fail [] pre pb' e u') as [y [Hr Hf]].
  exists y. split; [|exact Hf]. cbn [List.length nextl].
  apply (run_le (S (S (3 * 0 + 2)))); [lia|].
  eapply run_step; [discriminate | rewrite (step_eof cs) by assumption; rewrite He, Hx; reflexivity |].
  apply (run_again_fail _ pre []). exact Hr.
Qed.

Lemma At_eof_nil cs pre pb u :
  (cs <= 193)%N -> eofact cs = None -> rejecting cs = true ->
  At cs pre [] pb u ONil.
Proof.
  intros Hcs He Hrej. exists (cfg (pre ++ []) cs (zlen pre) pb, u). split; [|cbn; auto 10].
  cbn [List.length nextl]. change (4 * 0 + 15)%nat with (S 14).
  eapply run_step; [discriminate | rewrite (step_eof cs) by assumption; rewrite He; reflexivity | reflexivity].
Qed.

End Run.
