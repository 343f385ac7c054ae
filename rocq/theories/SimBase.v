(* Tools for the simulation proofs: action blocks, normalisation in place, walks. *)
From Coq Require Import Lia.
From Verif Require Import GoBase MachineSyntax MachineTables Machine Spec Ref Exec.
Local Open Scope Z_scope.

(* ---- finite sweeps ----------------------------------------------------------- *)
Definition oneqb (a b : option N) : bool :=
  match a, b with Some x, Some y => N.eqb x y | None, None => true | _, _ => false end.
Definition deq (a b : option (N * option N)) : bool :=
  match a, b with
  | Some (x, f), Some (y, g) => N.eqb x y && oneqb f g
  | None, None => true
  | _, _ => false
  end.
Lemma deq_eq a b : deq a b = true -> a = b.
Proof.
  destruct a as [[x f]|], b as [[y g]|]; cbn; try discriminate; [|reflexivity].
  intros H. apply andb_prop in H. destruct H as [H1 H2]. apply N.eqb_eq in H1. subst y.
  destruct f, g; cbn in H2; try discriminate; [apply N.eqb_eq in H2; subst|]; reflexivity.
Qed.
Lemma delta_sweep cs f :
  forallb (fun b => deq (delta cs b) (f b)) all_bytes = true -> forall b, delta cs b = f b.
Proof. intros H b. apply deq_eq. revert b. apply byte_sweep. exact H. Qed.
Ltac dsweep :=
  match goal with |- forall b, delta ?cs b = @?f b => apply (delta_sweep cs f) end;
  vm_compute; reflexivity.

(* sweep over a range of states and all bytes *)
Lemma delta_sweep2 (lo len : nat) (f : N -> byte -> option (N * option N)) :
  forallb (fun n => forallb (fun b => deq (delta (N.of_nat n) b) (f (N.of_nat n) b)) all_bytes) (seq lo len) = true ->
  forall cs b, (N.of_nat lo <= cs < N.of_nat lo + N.of_nat len)%N -> delta cs b = f cs b.
Proof.
  intros H cs b Hr. rewrite forallb_forall in H. specialize (H (N.to_nat cs)).
  rewrite N2Nat.id in H. apply deq_eq.
  assert (Hin : In (N.to_nat cs) (seq lo len)) by (apply in_seq; lia).
  specialize (H Hin). rewrite forallb_forall in H. apply H, all_bytes_all.
Qed.

Lemma bsweep (f g : byte -> bool) :
  forallb (fun b => Bool.eqb (f b) (g b)) all_bytes = true -> forall b, f b = g b.
Proof. intros H b. apply Bool.eqb_prop. revert b. apply (byte_sweep _ H). Qed.

(* class implications *)
Lemma bsweep_imp (f g : byte -> bool) :
  forallb (fun b => implb (f b) (g b)) all_bytes = true -> forall b, f b = true -> g b = true.
Proof. intros H b Hf. pose proof (byte_sweep _ H b) as K. cbn beta in K. rewrite Hf in K. exact K. Qed.

(* ---- walks --------------------------------------------------------------------- *)
Definition wp (k : walk) (P : perr -> Prop) (Q : Prop) (R : bytes -> bytes -> Prop) : Prop :=
  match k with WErr e => P e | WNil => Q | WGo w r => R w r end.

Lemma wp_wcons c k P Q R : wp k P Q (fun w r => R (c :: w) r) -> wp (wcons c k) P Q R.
Proof. destruct k; cbn; auto. Qed.
Lemma wp_mono k P Q R (P' : perr -> Prop) (Q' : Prop) (R' : bytes -> bytes -> Prop) :
  wp k P Q R -> (forall e, P e -> P' e) -> (Q -> Q') -> (forall w r, R w r -> R' w r) -> wp k P' Q' R'.
Proof. destruct k; cbn; auto. Qed.

(* ---- in-place lower-casing -------------------------------------------------------- *)
(* offsets of the upper-case letters inside percent escapes *)
Fixpoint upos (k : Z) (w : bytes) : list Z :=
  match w with
  | [] => []
  | c :: r =>
      if is "%" c then
        match r with
        | a :: b :: r' => (if upper a then [k + 1] else []) ++ (if upper b then [k + 2] else []) ++ upos (k + 3) r'
        | _ => []
        end
      else upos (k + 1) r
  end.

Definition notpct (b : byte) : bool := negb (is "%" b).

Lemma escaped_app esc cls a b : escaped esc cls a -> escaped esc cls b -> escaped esc cls (a ++ b).
Proof. induction 1; cbn [app]; intros; [assumption|apply esc_plain; auto|apply esc_pct; auto]. Qed.
Lemma escaped_mono (esc cls esc' cls' : byte -> bool) w :
  (forall b, esc b = true -> esc' b = true) -> (forall b, cls b = true -> cls' b = true) ->
  escaped esc cls w -> escaped esc' cls' w.
Proof. intros H1 H2. induction 1; [apply esc_nil|apply esc_plain; auto|apply esc_pct; auto]. Qed.
Lemma escaped_all esc cls w : forallb cls w = true -> escaped esc cls w.
Proof.
  induction w as [|c w IH]; cbn; intros H; constructor; apply andb_prop in H; tauto.
Qed.

Lemma is_eq c b : is c b = true -> b = c.
Proof. unfold is. intros H. apply Byte.byte_dec_bl. exact H. Qed.
Lemma is_refl c : is c c = true.
Proof. unfold is. apply Byte.byte_dec_lb. reflexivity. Qed.

Lemma upos_app esc w v : escaped esc notpct w -> forall k, upos k (w ++ v) = upos k w ++ upos (k + zlen w) v.
Proof.
  induction 1 as [|c w Hc Hw IH|a b w Ha Hb Hw IH]; intros k; cbn [app upos].
  - rewrite zlen_nil, Z.add_0_r. reflexivity.
  - unfold notpct in Hc. apply negb_true_iff in Hc. rewrite Hc, IH, zlen_cons.
    do 2 f_equal. lia.
  - rewrite is_refl, IH, !zlen_cons. rewrite <- !app_assoc. do 4 f_equal. lia.
Qed.

Lemma norm_app esc w v : escaped esc notpct w -> norm_pct (w ++ v) = norm_pct w ++ norm_pct v.
Proof.
  induction 1 as [|c w Hc Hw IH|a b w Ha Hb Hw IH]; cbn [app norm_pct].
  - reflexivity.
  - unfold notpct, is in Hc. apply negb_true_iff in Hc. rewrite Hc, IH. reflexivity.
  - cbn. rewrite IH. reflexivity.
Qed.

Lemma low_up b : upper b = true -> byte_add b 32 = low b /\ byte_add (low b) (-32) = b.
Proof.
  intros H.
  assert (K : (Byte.eqb (byte_add b 32) (low b) && Byte.eqb (byte_add (low b) (-32)) b) = true).
  { revert b H. apply (bsweep_imp _ (fun b => Byte.eqb (byte_add b 32) (low b) && Byte.eqb (byte_add (low b) (-32)) b)).
    vm_compute; reflexivity. }
  apply andb_prop in K. destruct K as [K1 K2]. split; apply Byte.byte_dec_bl; assumption.
Qed.
Lemma low_notup b : upper b = false -> low b = b.
Proof. unfold low. intros ->. reflexivity. Qed.

Lemma update_mid {A} (a : list A) x y c : update (a ++ x :: c) (zlen a) y = Ret (a ++ y :: c).
Proof.
  unfold update.
  replace ((0 <=? zlen a) && (zlen a <? zlen (a ++ x :: c))) with true.
  2:{ symmetry. rewrite andb_true_iff, Z.leb_le, Z.ltb_lt. zl. }
  f_equal. rewrite zlen_to_nat. induction a as [|z a IH]; cbn; [reflexivity|]. f_equal. exact IH.
Qed.

Lemma ftl_one d i is pb a x c :
  pb + i = zlen a ->
  for_tolower d (i :: is) pb (a ++ x :: c) = for_tolower d is pb (a ++ byte_add x d :: c).
Proof.
  intros H. cbn [for_tolower]. rewrite H, index_mid. cbn [bind]. rewrite update_mid. reflexivity.
Qed.

Lemma ftl_down esc w : escaped esc notpct w -> forall k pb a rest more,
  pb + k = zlen a ->
  for_tolower 32 (upos k w ++ more) pb (a ++ w ++ rest) = for_tolower 32 more pb (a ++ norm_pct w ++ rest).
Proof.
  induction 1 as [|c w Hc Hw IH|x y w Ha Hb Hw IH]; intros k pb a rest more Hk.
  - reflexivity.
  - cbn [upos norm_pct app]. unfold notpct in Hc. apply negb_true_iff in Hc. unfold is in *. rewrite Hc.
    specialize (IH (k + 1) pb (a ++ [c]) rest more).
    rewrite <- !app_assoc in IH. cbn [app] in *. apply IH. zl.
  - cbn [upos norm_pct app]. rewrite is_refl. change (Byte.eqb "%" "%") with true. cbn match.
    transitivity (for_tolower 32 (upos (k + 3) w ++ more) pb (a ++ "%"%byte :: low x :: low y :: w ++ rest)).
    + transitivity (for_tolower 32 ((if upper y then [k + 2] else []) ++ upos (k + 3) w ++ more) pb
                      (a ++ "%"%byte :: low x :: y :: w ++ rest)).
      * rewrite <- !app_assoc. destruct (upper x) eqn:Ex; cbn [app].
        -- pose proof (ftl_one 32 (k + 1) ((if upper y then [k + 2] else []) ++ upos (k + 3) w ++ more) pb
              (a ++ ["%"%byte]) x (y :: w ++ rest)) as K.
           rewrite <- !app_assoc in K. cbn [app] in K. rewrite K by zl.
           destruct (low_up x Ex) as [-> _]. reflexivity.
        -- rewrite (low_notup x Ex). reflexivity.
      * destruct (upper y) eqn:Ey; cbn [app].
        -- pose proof (ftl_one 32 (k + 2) (upos (k + 3) w ++ more) pb
              (a ++ ["%"%byte; low x]) y (w ++ rest)) as K.
           rewrite <- !app_assoc in K. cbn [app] in K. rewrite K by zl.
           destruct (low_up y Ey) as [-> _]. reflexivity.
        -- rewrite (low_notup y Ey). reflexivity.
    + specialize (IH (k + 3) pb (a ++ ["%"%byte; low x; low y]) rest more).
      rewrite <- !app_assoc in IH. cbn [app] in *. apply IH. zl.
Qed.

Lemma ftl_up esc w : escaped esc notpct w -> forall k pb a rest more,
  pb + k = zlen a ->
  for_tolower (-32) (upos k w ++ more) pb (a ++ norm_pct w ++ rest) = for_tolower (-32) more pb (a ++ w ++ rest).
Proof.
  induction 1 as [|c w Hc Hw IH|x y w Ha Hb Hw IH]; intros k pb a rest more Hk.
  - reflexivity.
  - cbn [upos norm_pct app]. unfold notpct in Hc. apply negb_true_iff in Hc. unfold is in *. rewrite Hc.
    specialize (IH (k + 1) pb (a ++ [c]) rest more).
    rewrite <- !app_assoc in IH. cbn [app] in *. apply IH. zl.
  - cbn [upos norm_pct app]. rewrite is_refl. change (Byte.eqb "%" "%") with true. cbn match.
    transitivity (for_tolower (-32) (upos (k + 3) w ++ more) pb (a ++ "%"%byte :: x :: y :: norm_pct w ++ rest)).
    + transitivity (for_tolower (-32) ((if upper y then [k + 2] else []) ++ upos (k + 3) w ++ more) pb
                      (a ++ "%"%byte :: x :: low y :: norm_pct w ++ rest)).
      * rewrite <- !app_assoc. destruct (upper x) eqn:Ex; cbn [app].
        -- pose proof (ftl_one (-32) (k + 1) ((if upper y then [k + 2] else []) ++ upos (k + 3) w ++ more) pb
              (a ++ ["%"%byte]) (low x) (low y :: norm_pct w ++ rest)) as K.
           rewrite <- !app_assoc in K. cbn [app] in K. rewrite K by zl.
           destruct (low_up x Ex) as [_ ->]. reflexivity.
        -- rewrite (low_notup x Ex). reflexivity.
      * destruct (upper y) eqn:Ey; cbn [app].
        -- pose proof (ftl_one (-32) (k + 2) (upos (k + 3) w ++ more) pb
              (a ++ ["%"%byte; x]) (low y) (norm_pct w ++ rest)) as K.
           rewrite <- !app_assoc in K. cbn [app] in K. rewrite K by zl.
           destruct (low_up y Ey) as [_ ->]. reflexivity.
        -- rewrite (low_notup y Ey). reflexivity.
    + specialize (IH (k + 3) pb (a ++ ["%"%byte; x; y]) rest more).
      rewrite <- !app_assoc in IH. cbn [app] in *. apply IH. zl.
Qed.

Lemma norm_len w : zlen (norm_pct w) = zlen w.
Proof.
  enough (forall n w, (List.length w <= n)%nat -> List.length (norm_pct w) = List.length w) as H
    by (unfold zlen; rewrite (H (List.length w)); auto).
  clear w. induction n as [|n IH]; intros w Hn; destruct w as [|c w]; cbn [List.length] in *; try reflexivity; try lia.
  cbn [norm_pct]. destruct (Byte.eqb c "%").
  - destruct w as [|a [|b w]]; try reflexivity. cbn [List.length] in *. rewrite IH by lia. reflexivity.
  - cbn [List.length]. rewrite IH by lia. reflexivity.
Qed.

(* ---- action blocks ------------------------------------------------------------------ *)
Ltac xcbn := cbn -[Z.add Z.sub Z.eqb Z.ltb zlen slice index for_tolower norm_pct text];
  unfold cfg, ecfg, set_data, set_err, set_cs, set_p, set_pb,
    uset_prefix, uset_ID, uset_SS, uset_norm, uset_kind, uset_scim, uset_r, uset_q, uset_f,
    uset_rStart, uset_qStart, uset_tolower;
  cbn [m_data m_cs m_p m_pe m_eof m_pb m_err m_startParsingAt m_parsingMode m_parsingModeSet
       u_prefix u_ID u_SS u_norm u_kind u_scim u_r u_q u_f u_rStart u_qStart u_tolower].

Lemma exec_block_cons s l y : exec_block (s :: l) y =
  do r <- exec_stmt s y; match r with (y', Fall) => exec_block l y' | (y', Again) => Ret (y', Again) end.
Proof. reflexivity. Qed.

Section X.
Variables (start : N) (mode : Z) (mset : bool).
Notation cfg := (cfg start mode mset).
Notation ecfg := (ecfg start mode mset).

(* block b reports error e at the current position *)
Definition errs (b : list stmt) (e : errconst) : Prop :=
  forall d cs p pb u, exec_block b (cfg d cs p pb, u) = Ret ((ecfg d 193 (p - 1) pb (mkErr e p), u), Again).
Definition errf (f : N) (e : errconst) : Prop :=
  exists b, f_block f = Some b /\
  forall d cs p pb u, p <> zlen d ->
    exec_block b (cfg d cs p pb, u) = Ret ((ecfg d 193 (p - 1) pb (mkErr e p), u), Again).
Definition erre (cs : N) (e : errconst) : Prop :=
  (cs <= 193)%N /\ exists b, eofact cs = Some b /\ errs b e.

Lemma errs_plain e t : errs (SSetErr e 0 :: SDecP :: SSetCS 193 :: SGotoAgain :: t) e.
Proof. intros d cs p pb u. xcbn. rewrite Z.add_0_r. reflexivity. Qed.
Lemma errs_hx e t :
  errs (SIf (COr (CModeEq PRFC2141Only) (CModeEq PRFC8141Only)) [SSetErr ErrHex 0; SDecP; SSetCS 193; SGotoAgain] []
        :: SSetErr e 0 :: SDecP :: SSetCS 193 :: SGotoAgain :: t) (hx mode e).
Proof.
  intros d cs p pb u. unfold hx. xcbn.
  destruct (mode =? PRFC2141Only); [|destruct (mode =? PRFC8141Only)]; cbn; rewrite Z.add_0_r; reflexivity.
Qed.

Lemma At_errf cs pre b rest pb u cs' f e :
  (0 < cs <= 193)%N -> delta cs b = Some (cs', Some f) -> errf f e ->
  At start mode mset cs pre (b :: rest) pb u (OErr (mkErr e (zlen pre))).
Proof.
  intros Hcs Hd [blk [Hf He]]. eapply At_err; [exact Hcs | exact Hd |].
  cbn [exec_opt]. rewrite Hf. apply He. zl.
Qed.
Lemma At_erre cs pre pb u e :
  erre cs e -> At start mode mset cs pre [] pb u (OErr (mkErr e (zlen pre))).
Proof. intros [Hcs [blk [Hf He]]]. eapply At_eof_err; [exact Hcs | exact Hf | apply He]. Qed.

(* SMark; goto _again *)
Lemma x_mark d cs p pb u : exec_opt (Some 4%N) (cfg d cs p pb, u) = Ret ((cfg d cs p p, u), Again).
Proof. reflexivity. Qed.
(* tolower *)
Lemma x_tolower d cs p pb u :
  exec_opt (Some 9%N) (cfg d cs p pb, u) = Ret ((cfg d cs p pb, uset_tolower (u_tolower u ++ [p - pb]) u), Again).
Proof. reflexivity. Qed.

Lemma text_mid pre1 w rest cs pb p :
  pb = zlen pre1 -> p = zlen (pre1 ++ w) -> text (cfg (pre1 ++ w ++ rest) cs p pb) = Ret w.
Proof. intros -> ->. unfold text. cbn [m_data m_pb m_p Exec.cfg]. rewrite zlen_app. apply slice_mid. Qed.

Lemma text_mid' pre1 w rest cs pb p :
  pb = zlen pre1 -> p = zlen (pre1 ++ w) -> text (cfg ((pre1 ++ w) ++ rest) cs p pb) = Ret w.
Proof. rewrite <- app_assoc. apply text_mid. Qed.

(* set_nss: SS, norm, and the buffer restored *)
Lemma x_setnss esc pre1 w rest cs u t :
  escaped esc notpct w -> u_tolower u = upos 0 w ->
  exec_block (SSetSS :: SForTolower 32 :: SSetNorm :: SForTolower (-32) :: t)
    (cfg (pre1 ++ w ++ rest) cs (zlen (pre1 ++ w)) (zlen pre1), u)
  = exec_block t (cfg (pre1 ++ w ++ rest) cs (zlen (pre1 ++ w)) (zlen pre1),
                  uset_norm (norm_pct w) (uset_SS w u)).
Proof.
  intros He Ht. cbn [exec_block exec_stmt].
  rewrite (text_mid pre1 w rest) by reflexivity. cbn [bind].
  cbn [u_tolower uset_SS m_pb m_data Exec.cfg]. rewrite Ht.
  rewrite <- (app_nil_r (upos 0 w)), (ftl_down esc) by (auto; zl). cbn [for_tolower bind].
  unfold set_data, Exec.cfg. cbn [m_data m_cs m_p m_pe m_eof m_pb m_err m_startParsingAt m_parsingMode m_parsingModeSet].
  unfold text at 1. cbn [m_data m_pb m_p].
  assert (Hsl : slice (pre1 ++ norm_pct w ++ rest) (zlen pre1) (zlen (pre1 ++ w)) = Ret (norm_pct w)).
  { rewrite zlen_app, <- (norm_len w). apply slice_mid. }
  rewrite Hsl. cbn [bind u_tolower uset_norm uset_SS m_data m_cs m_p m_pe m_eof m_pb m_err m_startParsingAt m_parsingMode m_parsingModeSet].
  rewrite Ht, <- (app_nil_r (upos 0 w)), (ftl_up esc) by (auto; zl). cbn [for_tolower bind]. reflexivity.
Qed.
End X.
