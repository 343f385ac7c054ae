(* The goto program started at the RFC 8141 entry computes ref8141. *)
From Coq Require Import Lia.
From Verif Require Import GoBase MachineSyntax MachineTables Machine Spec Ref Exec SimBase SimPrefix SimEsc Sim2141 Sim8Nid.
Local Open Scope Z_scope.
Local Opaque Exec.At.

Lemma pchar_notpct b : pchar b = true -> notpct b = true.
Proof. revert b. apply bsweep_imp. vm_compute; reflexivity. Qed.

Section X.
Variables (start : N) (mode : Z) (mset : bool).
Notation cfg := (cfg start mode mset).
Notation ecfg := (ecfg start mode mset).
Notation At := (At start mode mset).
Notation errf := (errf start mode mset).
Notation erre := (erre start mode mset).
Notation stops := (stops start mode mset).

Lemma At_go cs cs' pre c rest pb u o :
  (0 < cs <= 193)%N -> (0 < cs' <= 193)%N -> cs' <> 171%N -> delta cs c = Some (cs', None) ->
  At cs' (pre ++ [c]) rest pb u o -> At cs pre (c :: rest) pb u o.
Proof. intros. eapply At_byte; eauto. reflexivity. Qed.

(* the percent escape of a walk *)
Lemma wp_hex (K : bytes -> walk) (X : Z -> walk) (oX : Z -> pout) h1 h2 sE fe c pos pre s1 pb u (P : perr -> Prop) (Q : Prop) (R : bytes -> bytes -> Prop) :
  (0 < h1 <= 193)%N -> (0 < h2 <= 193)%N -> (0 < sE <= 193)%N -> h2 <> 171%N -> sE <> 171%N ->
  (forall b, delta h1 b = hexdelta h1 h2 fe b) -> (forall b, delta h2 b = hexdelta h2 sE fe b) ->
  stops h1 oX oX -> stops h2 oX oX ->
  zlen pre = pos + 1 ->
  (forall p, At h1 pre s1 pb u (oX p) -> wp (X p) P Q R) ->
  (forall a b s3 t, s1 = a :: b :: s3 -> alnum a = true -> alnum b = true ->
     t = u_tolower u ++ dig pb (zlen pre) a ++ dig pb (zlen pre + 1) b ->
     (forall o, At sE (pre ++ [a; b]) s3 pb (uset_tolower t u) o -> At h1 pre s1 pb u o) ->
     wp (K s3) P Q (fun w r => R (c :: a :: b :: w) r)) ->
  wp (match s1 with
      | [] => X (pos + 1)
      | a :: s2 =>
          if alnum a then
            match s2 with
            | [] => X (pos + 2)
            | b :: s3 => if alnum b then wcons c (wcons a (wcons b (K s3))) else X (pos + 2)
            end
          else X (pos + 1)
      end) P Q R.
Proof.
  intros H1 H2 H3 H4 H5 Hd1 Hd2 Hs1 Hs2 Hp HX HK.
  pose proof (sim_hex2 start mode mset h1 h2 sE fe oX oX pre s1 pb u H1 H2 H3 H4 H5 Hd1 Hd2 Hs1 Hs2) as L.
  replace (pos + 1) with (zlen pre) by lia. replace (pos + 2) with (zlen pre + 1) by lia.
  destruct s1 as [|a s2]; [apply HX; exact L|].
  destruct (alnum a) eqn:Ha; [|apply HX; exact L].
  destruct s2 as [|b s3]; [apply HX; exact L|].
  destruct (alnum b) eqn:Hb; [|apply HX; exact L].
  do 3 apply wp_wcons. eapply HK; auto.
Qed.

Lemma stops_err h h' fe e : (0 < h <= 193)%N ->
  (forall b, delta h b = hexdelta h h' fe b) -> errf fe e -> erre h e ->
  stops h (fun p => OErr (mkErr e p)) (fun p => OErr (mkErr e p)).
Proof. intros H1 Hd Hf He. eapply stops_hexf; eauto. intros. apply At_erre. exact He. Qed.

(* ---- fragment --------------------------------------------------------------------- *)
Definition ohx (p : Z) : pout :=
  if (mode =? PRFC2141Only) || (mode =? PRFC8141Only) then OErr (mkErr ErrHex p) else ONil.

Lemma At_f23 cs pre c rest pb u : (0 < cs <= 193)%N -> delta cs c = Some (0%N, Some 23%N) ->
  At cs pre (c :: rest) pb u (ohx (zlen pre)).
Proof.
  intros Hcs Hd. unfold ohx.
  assert (Hx : exec_opt (Some 23%N) (cfg (pre ++ c :: rest) 0 (zlen pre) pb, u) =
    if (mode =? PRFC2141Only) || (mode =? PRFC8141Only) then
      Ret ((ecfg (pre ++ c :: rest) 193 (zlen pre - 1) pb (mkErr ErrHex (zlen pre)), u), Again)
    else Ret ((cfg (pre ++ c :: rest) 0 (zlen pre) pb, u), Again)).
  { unfold exec_opt. xcbn. destruct (mode =? PRFC2141Only); [|destruct (mode =? PRFC8141Only)]; cbn [orb]; xcbn; rewrite ?Z.add_0_r; reflexivity. }
  destruct ((mode =? PRFC2141Only) || (mode =? PRFC8141Only)).
  - eapply At_err; eauto.
  - eapply At_nil; eauto.
Qed.
Lemma At_e24 cs pre pb u : (cs = 121 \/ cs = 122)%N -> At cs pre [] pb u (ohx (zlen pre)).
Proof.
  intros Hcs. unfold ohx.
  assert (He : eofact cs = Some [SIf (COr (CModeEq PRFC2141Only) (CModeEq PRFC8141Only)) [SSetErr ErrHex 0; SDecP; SSetCS 193; SGotoAgain] []])
    by (destruct Hcs as [->| ->]; vm_compute; reflexivity).
  destruct ((mode =? PRFC2141Only) || (mode =? PRFC8141Only)) eqn:E.
  - eapply At_eof_err; [lia|exact He|]. xcbn.
    destruct (mode =? PRFC2141Only); [|destruct (mode =? PRFC8141Only)]; try discriminate; xcbn; rewrite ?Z.add_0_r; reflexivity.
  - eapply At_eof_ok; [lia|exact He| |].
    + xcbn. destruct (mode =? PRFC2141Only); [discriminate|destruct (mode =? PRFC8141Only)]; [discriminate|]. xcbn. reflexivity.
    + cbn. repeat (split; [reflexivity|]). split; [|split; reflexivity]. destruct Hcs as [->| ->]; reflexivity.
Qed.

Definition fstt (k : epos) : N := match k with EHex => 180%N | _ => 179%N end.
Definition res_f (v : bytes) (u : URN) : pout := OUrn (pub_of (uset_kind KRFC8141 (uset_f v u))).

Lemma stops_frag h h' : (h = 121 \/ h = 122)%N -> (forall b, delta h b = hexdelta h h' 23 b) -> stops h ohx ohx.
Proof.
  intros Hh Hd. split; [|intros; apply At_e24; exact Hh].
  intros pre b rest pb u Hb. apply At_f23; [lia|]. rewrite Hd. unfold hexdelta.
  rewrite Hb. destruct (upper b) eqn:E; [apply upper_alnum in E; congruence|reflexivity].
Qed.

Lemma D121 b : delta 121 b = hexdelta 121 122 23 b. Proof. revert b; dsweep. Qed.
Lemma D122 b : delta 122 b = hexdelta 122 180 23 b. Proof. revert b; dsweep. Qed.

Lemma wp_hxnil p (P : perr -> Prop) (Q : Prop) R : 
  (forall e, ohx p = OErr e -> P e) -> (ohx p = ONil -> Q) -> wp (hx_or_nil mode p) P Q R.
Proof.
  unfold ohx, hx_or_nil. destruct ((mode =? PRFC2141Only) || (mode =? PRFC8141Only)); cbn; auto.
Qed.

Lemma sim_fragl n : forall rest, (List.length rest <= n)%nat -> forall k pos pre1 w u,
  k <> EStart -> pos = zlen (pre1 ++ w) ->
  wp (ref_frag mode k pos rest)
     (fun er => At (fstt k) (pre1 ++ w) rest (zlen pre1) u (OErr er))
     (At (fstt k) (pre1 ++ w) rest (zlen pre1) u ONil)
     (fun w' _ => At (fstt k) (pre1 ++ w) rest (zlen pre1) u (res_f (w ++ w') u)).
Proof.
  assert (Heof : forall k pre1 w u, k <> EStart -> At (fstt k) (pre1 ++ w) [] (zlen pre1) u (res_f w u)).
  { intros k pre1 w u Hk. eapply At_eof_ok with (blk := [SSetF; SSetKind KRFC8141]).
    - destruct k; cbn; lia.
    - destruct k; [congruence| |]; vm_compute; reflexivity.
    - cbn [exec_block exec_stmt]. rewrite text_mid' by reflexivity. reflexivity.
    - cbn. repeat (split; [reflexivity|]). split; [|split; reflexivity]. destruct k; reflexivity. }
  induction n as [|n IH]; intros rest Hn k pos pre1 w u Hk ->.
  { destruct rest; [|cbn in Hn; lia]. cbn. rewrite app_nil_r. apply Heof. exact Hk. }
  destruct rest as [|c s1]. { cbn. rewrite app_nil_r. apply Heof. exact Hk. }
  cbn [List.length] in Hn.
  assert (Hl : (0 < fstt k <= 193)%N) by (destruct k; cbn; lia).
  assert (Hd : delta (fstt k) c = if is "%" c then Some (121%N, None) else if frag_char c then Some (179%N, None)
               else Some (0%N, match k with EHex => Some 23%N | _ => None end)).
  { destruct k; [congruence| |]; clear; revert c; cbn; dsweep. }
  cbn [ref_frag]. destruct (is "%" c) eqn:Epc.
  - eapply (wp_hex (fun s3 => ref_frag mode EHex (zlen (pre1 ++ w) + 3) s3) (hx_or_nil mode) ohx 121 122 180 23 c (zlen (pre1 ++ w)) (pre1 ++ w ++ [c]) s1 (zlen pre1) u);
      try lia; [exact D121|exact D122|eapply stops_frag; [auto|exact D121]|eapply stops_frag; [auto|exact D122]|zl| |].
    + intros p HA.
      assert (HA' : At (fstt k) (pre1 ++ w) (c :: s1) (zlen pre1) u (ohx p)).
      { eapply At_go; [exact Hl| | |exact Hd|rewrite <- app_assoc; exact HA]; lia. }
      apply wp_hxnil; [intros e E|intros E]; rewrite E in HA'; exact HA'.
    + intros a b s3 t -> Ha Hb _ HA.
      assert (Hstep : forall o, At 180 (pre1 ++ (w ++ [c; a; b])) s3 (zlen pre1) (uset_tolower t u) o ->
         At (fstt k) (pre1 ++ w) (c :: a :: b :: s3) (zlen pre1) u o).
      { intros o HA'. eapply At_go; [exact Hl| | |exact Hd|rewrite <- app_assoc; apply HA]; [lia|lia|].
        rewrite <- !app_assoc in *. exact HA'. }
      eapply wp_mono; [apply (IH s3) with (k := EHex) (pre1 := pre1) (w := w ++ [c; a; b]) (u := uset_tolower t u)| | |];
        [cbn [List.length] in Hn; lia|congruence|zl| | |]; cbn beta; auto.
      intros w' r HA'. apply Hstep in HA'. rewrite <- app_assoc in HA'. exact HA'.
  - destruct (frag_char c) eqn:Ef.
    + assert (Hstep : forall o, At 179 (pre1 ++ (w ++ [c])) s1 (zlen pre1) u o -> At (fstt k) (pre1 ++ w) (c :: s1) (zlen pre1) u o).
      { intros o HA'. eapply At_go; [exact Hl| | |exact Hd|rewrite <- app_assoc; apply HA']; lia. }
      apply wp_wcons. eapply wp_mono; [apply (IH s1) with (k := EPlain) (pre1 := pre1) (w := w ++ [c]) (u := u)| | |];
        [lia|congruence|zl| | |]; cbn beta; auto.
      intros w' r HA'. apply Hstep in HA'. rewrite <- app_assoc in HA'. exact HA'.
    + destruct k; [congruence| |].
      * cbn. eapply At_nil; [exact Hl|exact Hd|reflexivity].
      * pose proof (At_f23 _ (pre1 ++ w) c s1 (zlen pre1) u Hl Hd) as HA.
        apply wp_hxnil; [intros e E|intros E]; rewrite E in HA; exact HA.
Qed.

Lemma D178 b : delta 178 b = if is "%" b then Some (121%N, Some 4%N) else if frag_char b then Some (179%N, Some 4%N) else Some (0%N, None).
Proof. revert b; dsweep. Qed.

(* from the "#" on *)
Lemma sim_frag pos pre rest pb u : pos = zlen pre ->
  wp (ref_frag mode EStart pos rest)
     (fun er => At 178 pre rest pb u (OErr er))
     (At 178 pre rest pb u ONil)
     (fun w' _ => At 178 pre rest pb u (res_f w' u)).
Proof.
  intros ->. destruct rest as [|c s1].
  { cbn. eapply At_eof_ok with (blk := [SMark; SSetF; SSetKind KRFC8141]); [lia|vm_compute; reflexivity| |].
    - xcbn. unfold text. cbn [m_data m_p m_pb].
      pose proof (slice_mid pre [] []) as Hs. cbn [app] in Hs. rewrite zlen_nil, Z.add_0_r in Hs. rewrite Hs. reflexivity.
    - cbn. auto 20. }
  pose proof (D178 c) as Hd. cbn [ref_frag]. destruct (is "%" c) eqn:Epc.
  - eapply (wp_hex (fun s3 => ref_frag mode EHex (zlen pre + 3) s3) (hx_or_nil mode) ohx 121 122 180 23 c (zlen pre) (pre ++ [c]) s1 (zlen pre) u);
      try lia; [exact D121|exact D122|eapply stops_frag; [auto|exact D121]|eapply stops_frag; [auto|exact D122]|zl| |].
    + intros p HA.
      assert (HA' : At 178 pre (c :: s1) pb u (ohx p)).
      { eapply At_byte; [| | |exact Hd|apply x_mark|exact HA]; lia. }
      apply wp_hxnil; [intros e E|intros E]; rewrite E in HA'; exact HA'.
    + intros a b s3 t -> Ha Hb _ HA.
      assert (Hstep : forall o, At 180 (pre ++ [c; a; b]) s3 (zlen pre) (uset_tolower t u) o -> At 178 pre (c :: a :: b :: s3) pb u o).
      { intros o HA'. eapply At_byte; [| | |exact Hd|apply x_mark|apply HA; rewrite <- app_assoc; exact HA']; lia. }
      eapply wp_mono; [apply (sim_fragl _ s3 (le_n _)) with (k := EHex) (pre1 := pre) (w := [c; a; b]) (u := uset_tolower t u)| | |];
        [congruence|zl| | |]; cbn beta; auto.
  - destruct (frag_char c) eqn:Ef; [|cbn; eapply At_nil; [|exact Hd|reflexivity]; lia].
    assert (Hstep : forall o, At 179 (pre ++ [c]) s1 (zlen pre) u o -> At 178 pre (c :: s1) pb u o).
    { intros o HA'. eapply At_byte; [| | |exact Hd|apply x_mark|exact HA']; lia. }
    apply wp_wcons. eapply wp_mono; [apply (sim_fragl _ s1 (le_n _)) with (k := EPlain) (pre1 := pre) (w := [c]) (u := u)| | |];
      [congruence|zl| | |]; cbn beta; auto.
Qed.

(* ---- q-component -------------------------------------------------------------------- *)
Definition qst (k : qpos) : N := match k with QHex => 188%N | QQ => 189%N | QQEq => 190%N | _ => 187%N end.

(* what remains to be shown once a q-component v was read *)
Definition qcont (pre1 v r : bytes) (u : URN) (o : pout) : Prop :=
  match r with
  | [] => o = OUrn (pub_of (uset_kind KRFC8141 (uset_q v u)))
  | c :: r' => forall t, At 178 (pre1 ++ v ++ [c]) r' (zlen pre1) (uset_q v (uset_tolower t u)) o
  end.

Lemma D129 b : delta 129 b = hexdelta 129 130 28 b. Proof. revert b; dsweep. Qed.
Lemma D130 b : delta 130 b = hexdelta 130 188 28 b. Proof. revert b; dsweep. Qed.
Lemma D131 b : delta 131 b = hexdelta 131 132 29 b. Proof. revert b; dsweep. Qed.
Lemma D132 b : delta 132 b = hexdelta 132 188 29 b. Proof. revert b; dsweep. Qed.
Lemma F28 : errf 28 (hx mode Err8141MalformedQComp). Proof. solve_hxf. Qed.
Lemma F29 : errf 29 (hx mode Err8141MalformedRComp). Proof. solve_hxf. Qed.
Lemma F30 : errf 30 Err8141MalformedQComp. Proof. solve_errf. Qed.
Lemma S129 : stops 129 (fun p => OErr (mkErr (hx mode Err8141MalformedQComp) p)) (fun p => OErr (mkErr (hx mode Err8141MalformedQComp) p)).
Proof. eapply stops_err; [lia|exact D129|exact F28|solve_hxe]. Qed.
Lemma S130 : stops 130 (fun p => OErr (mkErr (hx mode Err8141MalformedQComp) p)) (fun p => OErr (mkErr (hx mode Err8141MalformedQComp) p)).
Proof. eapply stops_err; [lia|exact D130|exact F28|solve_hxe]. Qed.
Lemma S131 : stops 131 (fun p => OErr (mkErr (hx mode Err8141MalformedRComp) p)) (fun p => OErr (mkErr (hx mode Err8141MalformedRComp) p)).
Proof. eapply stops_err; [lia|exact D131|exact F29|solve_hxe]. Qed.
Lemma S132 : stops 132 (fun p => OErr (mkErr (hx mode Err8141MalformedRComp) p)) (fun p => OErr (mkErr (hx mode Err8141MalformedRComp) p)).
Proof. eapply stops_err; [lia|exact D132|exact F29|solve_hxe]. Qed.

(* blocks that report a second start *)
Lemma x_f50 d cs p pb u : u_qStart u = true ->
  exec_opt (Some 50%N) (cfg d cs p pb, u) = Ret ((ecfg d 193 (p - 1) pb (mkErr Err8141QComponentStart p), u), Again).
Proof. intros H. unfold exec_opt. xcbn. rewrite H. xcbn. rewrite Z.add_0_r. reflexivity. Qed.
Lemma x_f51 d cs p pb u : u_qStart u = true ->
  exec_opt (Some 51%N) (cfg d cs p pb, u) = Ret ((ecfg d 193 (p - 1) pb (mkErr Err8141QComponentStart p), u), Again).
Proof. intros H. unfold exec_opt. xcbn. rewrite H. xcbn. rewrite Z.add_0_r. reflexivity. Qed.
Lemma x_f31 d cs p pb u : u_qStart u = false ->
  exec_opt (Some 31%N) (cfg d cs p pb, u) = Ret ((cfg d cs p p, uset_qStart true u), Again).
Proof. intros H. unfold exec_opt. xcbn. rewrite H. xcbn. reflexivity. Qed.
Lemma At_e50 cs pre pb u : (cs = 190 \/ cs = 192)%N -> u_qStart u = true -> At cs pre [] pb u (OErr (mkErr Err8141QComponentStart (zlen pre))).
Proof.
  intros Hcs H. eapply At_eof_err with (blk := [SIf CQStart [SSetErr Err8141QComponentStart 0; SDecP; SSetCS 193; SGotoAgain] [];
      SSetQStart; SSetQ; SSetKind KRFC8141]).
  - lia.
  - destruct Hcs as [->| ->]; vm_compute; reflexivity.
  - xcbn. rewrite H. xcbn. rewrite Z.add_0_r. reflexivity.
Qed.

Lemma step_q cs pre1 v c r u o :
  (0 < cs <= 193)%N -> delta cs c = Some (178%N, Some 48%N) ->
  At 178 (pre1 ++ v ++ [c]) r (zlen pre1) (uset_q v u) o ->
  At cs (pre1 ++ v) (c :: r) (zlen pre1) u o.
Proof.
  intros Hcs Hd HA. eapply At_byte; [exact Hcs| | |exact Hd| |rewrite <- app_assoc; exact HA]; [lia|lia|].
  unfold exec_opt. cbn [f_block exec_block exec_stmt].
  rewrite text_mid' by reflexivity. reflexivity.
Qed.

Lemma sim_ql e0 n : forall rest, (List.length rest <= n)%nat -> forall k pos pre1 w u,
  k <> QStart -> pos = zlen (pre1 ++ w) -> u_qStart u = true ->
  wp (ref_q mode e0 k pos rest)
     (fun er => At (qst k) (pre1 ++ w) rest (zlen pre1) u (OErr er)) False
     (fun w' r => forall o, qcont pre1 (w ++ w') r u o -> At (qst k) (pre1 ++ w) rest (zlen pre1) u o).
Proof.
  assert (Heof : forall k pre1 w u, k <> QStart -> k <> QQEq ->
     At (qst k) (pre1 ++ w) [] (zlen pre1) u (OUrn (pub_of (uset_kind KRFC8141 (uset_q w u))))).
  { intros k pre1 w u Hk Hk2. eapply At_eof_ok with (blk := [SSetQ; SSetKind KRFC8141]).
    - destruct k; cbn; lia.
    - destruct k; try congruence; vm_compute; reflexivity.
    - cbn [exec_block exec_stmt]. rewrite text_mid' by reflexivity. reflexivity.
    - cbn. repeat (split; [reflexivity|]). split; [|split; reflexivity]. destruct k; reflexivity. }
  assert (Hnil : forall k pos pre1 w u, k <> QStart -> pos = zlen (pre1 ++ w) -> u_qStart u = true ->
    wp (ref_q mode e0 k pos [])
     (fun er => At (qst k) (pre1 ++ w) [] (zlen pre1) u (OErr er)) False
     (fun w' r => forall o, qcont pre1 (w ++ w') r u o -> At (qst k) (pre1 ++ w) [] (zlen pre1) u o)).
  { intros k pos pre1 w u Hk -> Hq.
    destruct k; [congruence| | | |]; cbn [ref_q wp]; try (intros o ->; rewrite app_nil_r; apply Heof; congruence).
    apply At_e50; auto. }
  induction n as [|n IH]; intros rest Hn k pos pre1 w u Hk Hpos Hq.
  { destruct rest; [|cbn in Hn; lia]. apply Hnil; auto. }
  destruct rest as [|c s1]; [apply Hnil; auto|]. subst pos. clear Hnil Heof.
  cbn [List.length] in Hn.
  assert (Hl : (0 < qst k <= 193)%N) by (destruct k; cbn; lia).
  assert (Hd : delta (qst k) c =
    match k with
    | QQEq => if is "%" c then Some (129%N, Some 50%N) else if is "/" c then Some (187%N, None) else if is "?" c then Some (189%N, Some 50%N) else
              if is "#" c then Some (178%N, Some 51%N) else if pchar c then Some (187%N, Some 50%N) else Some (0%N, Some 30%N)
    | _ => if is "%" c then Some (129%N, None) else if is "#" c then Some (178%N, Some 48%N) else
           if (match k with QQ => is "=" c | _ => false end) then Some (190%N, None) else
           if is "?" c then Some (189%N, None) else if pchar_slash c then Some (187%N, None)
           else Some (0%N, Some (match k with QHex => 28%N | _ => 30%N end))
    end).
  { destruct k; [congruence| | | |]; clear; revert c; cbn match; cbn [qst]; dsweep. }
  assert (Hgo : forall k', delta (qst k) c = Some (qst k', None) -> k' <> QStart ->
    wp (wcons c (ref_q mode e0 k' (zlen (pre1 ++ w) + 1) s1))
     (fun er => At (qst k) (pre1 ++ w) (c :: s1) (zlen pre1) u (OErr er)) False
     (fun w' r => forall o, qcont pre1 (w ++ w') r u o -> At (qst k) (pre1 ++ w) (c :: s1) (zlen pre1) u o)).
  { intros k' E Hk'.
    assert (Hstep : forall o, At (qst k') (pre1 ++ (w ++ [c])) s1 (zlen pre1) u o -> At (qst k) (pre1 ++ w) (c :: s1) (zlen pre1) u o).
    { intros o HA'. eapply At_go; [exact Hl| | |exact E|rewrite <- app_assoc; apply HA']; destruct k'; cbn; lia. }
    apply wp_wcons. eapply wp_mono; [apply (IH s1) with (k := k') (pre1 := pre1) (w := w ++ [c]) (u := u)| | |];
      [lia|exact Hk'|zl|exact Hq| | |]; cbn beta; auto.
    intros w' r HA' o HC. apply Hstep, HA'. rewrite <- app_assoc. exact HC. }
  assert (Hpct : is "%" c = true -> k <> QQEq ->
    wp (match s1 with
        | [] => WErr (mkErr (hx mode Err8141MalformedQComp) (zlen (pre1 ++ w) + 1))
        | a :: s2 => if alnum a then
             match s2 with
             | [] => WErr (mkErr (hx mode Err8141MalformedQComp) (zlen (pre1 ++ w) + 2))
             | b :: s3 => if alnum b then wcons c (wcons a (wcons b (ref_q mode e0 QHex (zlen (pre1 ++ w) + 3) s3)))
                          else WErr (mkErr (hx mode Err8141MalformedQComp) (zlen (pre1 ++ w) + 2))
             end else WErr (mkErr (hx mode Err8141MalformedQComp) (zlen (pre1 ++ w) + 1))
        end)
     (fun er => At (qst k) (pre1 ++ w) (c :: s1) (zlen pre1) u (OErr er)) False
     (fun w' r => forall o, qcont pre1 (w ++ w') r u o -> At (qst k) (pre1 ++ w) (c :: s1) (zlen pre1) u o)).
  { intros Epc Hkk.
    assert (Hd1 : delta (qst k) c = Some (129%N, None)) by (rewrite Hd, Epc; destruct k; congruence).
    eapply (wp_hex (fun s3 => ref_q mode e0 QHex (zlen (pre1 ++ w) + 3) s3) (fun p => WErr (mkErr (hx mode Err8141MalformedQComp) p)) (fun p => OErr (mkErr (hx mode Err8141MalformedQComp) p)) 129 130 188 28 c (zlen (pre1 ++ w)) (pre1 ++ w ++ [c]) s1 (zlen pre1) u);
      try lia; [exact D129|exact D130|exact S129|exact S130|zl| |].
    - intros p HA. cbn. eapply At_go; [exact Hl| | |exact Hd1|rewrite <- app_assoc; exact HA]; lia.
    - intros a b s3 t -> Ha Hb _ HA.
      assert (Hstep : forall o, At (qst QHex) (pre1 ++ (w ++ [c; a; b])) s3 (zlen pre1) (uset_tolower t u) o ->
         At (qst k) (pre1 ++ w) (c :: a :: b :: s3) (zlen pre1) u o).
      { intros o HA'. eapply At_go; [exact Hl| | |exact Hd1|rewrite <- app_assoc; apply HA]; [lia|lia|].
        rewrite <- !app_assoc in *. exact HA'. }
      eapply wp_mono; [apply (IH s3) with (k := QHex) (pre1 := pre1) (w := w ++ [c; a; b]) (u := uset_tolower t u)| | |];
        [cbn [List.length] in Hn; lia|congruence|zl|exact Hq| | |]; cbn beta; auto.
      intros w' r HA' o HC. apply Hstep, HA'. rewrite <- app_assoc. destruct r; exact HC. }
  assert (Hhash : delta (qst k) c = Some (178%N, Some 48%N) ->
     wp (WGo [] (c :: s1))
     (fun er => At (qst k) (pre1 ++ w) (c :: s1) (zlen pre1) u (OErr er)) False
     (fun w' r => forall o, qcont pre1 (w ++ w') r u o -> At (qst k) (pre1 ++ w) (c :: s1) (zlen pre1) u o)).
  { intros E. cbn. rewrite app_nil_r. intros o HC. eapply step_q; [exact Hl|exact E|].
    rewrite <- (uset_tolower_id u). apply HC. }
  assert (Hdup : delta (qst k) c = Some (187%N, Some 50%N) \/ delta (qst k) c = Some (189%N, Some 50%N) \/ delta (qst k) c = Some (129%N, Some 50%N) \/ delta (qst k) c = Some (178%N, Some 51%N) ->
     At (qst k) (pre1 ++ w) (c :: s1) (zlen pre1) u (OErr (mkErr Err8141QComponentStart (zlen (pre1 ++ w))))).
  { intros [E|[E|[E|E]]]; (eapply At_err; [exact Hl|exact E|]); [apply x_f50|apply x_f50|apply x_f50|apply x_f51]; exact Hq. }
  assert (Hbad : forall f e, delta (qst k) c = Some (0%N, Some f) -> errf f e ->
     At (qst k) (pre1 ++ w) (c :: s1) (zlen pre1) u (OErr (mkErr e (zlen (pre1 ++ w))))).
  { intros f e E He. eapply At_errf; [exact Hl|exact E|exact He]. }
  cbn [ref_q].
  destruct k; [congruence| | | |]; cbn match in Hd |- *; destruct (is "%" c) eqn:Epc;
    try (apply Hpct; [reflexivity|congruence]).
  - destruct (is "#" c) eqn:E1; [apply Hhash; exact Hd|]. destruct (is "?" c) eqn:E2; [apply (Hgo QQ); [exact Hd|congruence]|].
    destruct (pchar_slash c) eqn:E3; [apply (Hgo QPlain); [exact Hd|congruence]|]. apply (Hbad _ _ Hd F30).
  - destruct (is "#" c) eqn:E1; [apply Hhash; exact Hd|]. destruct (is "?" c) eqn:E2; [apply (Hgo QQ); [exact Hd|congruence]|].
    destruct (pchar_slash c) eqn:E3; [apply (Hgo QPlain); [exact Hd|congruence]|]. apply (Hbad _ _ Hd F28).
  - destruct (is "#" c) eqn:E1; [apply Hhash; exact Hd|]. destruct (is "=" c) eqn:E4; [apply (Hgo QQEq); [exact Hd|congruence]|].
    destruct (is "?" c) eqn:E2; [apply (Hgo QQ); [exact Hd|congruence]|].
    destruct (pchar_slash c) eqn:E3; [apply (Hgo QPlain); [exact Hd|congruence]|]. apply (Hbad _ _ Hd F30).
  - cbn. apply Hdup. auto.
  - destruct (is "/" c) eqn:E1; [apply (Hgo QPlain); [exact Hd|congruence]|].
    destruct (is "?" c) eqn:E2; [rewrite orb_true_r; apply Hdup; auto|].
    destruct (is "#" c) eqn:E3; [rewrite orb_true_r; apply Hdup; auto|].
    destruct (pchar c) eqn:E4; [apply Hdup; auto|]. cbn. apply (Hbad _ _ Hd F30).
Qed.


(* first character of a q-component, plain or escaped *)
Lemma sim_qhead cs h1 h2 fe e0 pre c s1 pb u :
  (0 < cs <= 193)%N -> (0 < h1 <= 193)%N -> (0 < h2 <= 193)%N -> h1 <> 171%N -> h2 <> 171%N ->
  (forall b, delta h1 b = hexdelta h1 h2 fe b) -> (forall b, delta h2 b = hexdelta h2 188 fe b) ->
  stops h1 (fun p => OErr (mkErr e0 p)) (fun p => OErr (mkErr e0 p)) ->
  stops h2 (fun p => OErr (mkErr e0 p)) (fun p => OErr (mkErr e0 p)) ->
  (is "%" c = true /\ delta cs c = Some (h1, Some 31%N) \/ is "%" c = false /\ pchar c = true /\ delta cs c = Some (187%N, Some 31%N)) ->
  u_qStart u = false ->
  wp (ref_q mode e0 QStart (zlen pre) (c :: s1))
     (fun er => At cs pre (c :: s1) pb u (OErr er)) False
     (fun w r => forall o, qcont pre w r (uset_qStart true u) o -> At cs pre (c :: s1) pb u o).
Proof.
  intros Hcs Hh1 Hh2 N1 N2 D1 D2 S1 S2 [[Epc Hd]|[Epc [Ep Hd]]] Hq; cbn [ref_q]; rewrite Epc.
  - eapply (wp_hex (fun s3 => ref_q mode e0 QHex (zlen pre + 3) s3) (fun p => WErr (mkErr e0 p)) (fun p => OErr (mkErr e0 p)) h1 h2 188 fe c (zlen pre) (pre ++ [c]) s1 (zlen pre) (uset_qStart true u));
      try lia; try assumption; [zl| |].
    + intros p HA. cbn. eapply At_byte; [exact Hcs|exact Hh1|exact N1|exact Hd|apply x_f31; exact Hq|exact HA].
    + intros a b s3 t -> Ha Hb _ HA.
      assert (Hstep : forall o, At (qst QHex) (pre ++ [c; a; b]) s3 (zlen pre) (uset_tolower t (uset_qStart true u)) o ->
         At cs pre (c :: a :: b :: s3) pb u o).
      { intros o HA'. eapply At_byte; [exact Hcs|exact Hh1|exact N1|exact Hd|apply x_f31; exact Hq|apply HA].
        rewrite <- !app_assoc in *. exact HA'. }
      eapply wp_mono; [apply (sim_ql e0 _ s3 (le_n _)) with (k := QHex) (pre1 := pre) (w := [c; a; b]) (u := uset_tolower t (uset_qStart true u))| | |];
        [congruence|zl|reflexivity| | |]; cbn beta; auto.
  - rewrite Ep.
    assert (Hstep : forall o, At (qst QPlain) (pre ++ [c]) s1 (zlen pre) (uset_qStart true u) o -> At cs pre (c :: s1) pb u o).
    { intros o HA'. eapply At_byte; [exact Hcs| | |exact Hd|apply x_f31; exact Hq|exact HA']; cbn; lia. }
    apply wp_wcons. eapply wp_mono; [apply (sim_ql e0 _ s1 (le_n _)) with (k := QPlain) (pre1 := pre) (w := [c]) (u := uset_qStart true u)| | |];
      [congruence|zl|reflexivity| | |]; cbn beta; auto.
Qed.

Lemma sim_q135 pos pre rest pb u : pos = zlen pre -> u_qStart u = false ->
  wp (ref_q mode (hx mode Err8141MalformedQComp) QStart pos rest)
     (fun er => At 135 pre rest pb u (OErr er)) False
     (fun w r => forall o, qcont pre w r (uset_qStart true u) o -> At 135 pre rest pb u o).
Proof.
  intros -> Hq. destruct rest as [|c s1]. { cbn. apply At_erre. solve_erre. }
  assert (Hd : delta 135 c = if is "%" c then Some (129%N, Some 31%N) else if pchar c then Some (187%N, Some 31%N) else if is "?" c then Some (136%N, Some 31%N) else Some (0%N, Some 30%N))
    by (clear; revert c; dsweep).
  destruct (is "%" c) eqn:Epc.
  { apply (sim_qhead 135 129 130 28); try lia; [exact D129|exact D130|exact S129|exact S130|auto|exact Hq]. }
  destruct (pchar c) eqn:Ep.
  { apply (sim_qhead 135 129 130 28); try lia; [exact D129|exact D130|exact S129|exact S130|auto|exact Hq]. }
  cbn [ref_q]. rewrite Epc, Ep. destruct (is "?" c) eqn:Eq.
  2:{ cbn. eapply At_errf; [|exact Hd|apply F30]. lia. }
  assert (Hstep : forall o, At 136 (pre ++ [c]) s1 (zlen pre) (uset_qStart true u) o -> At 135 pre (c :: s1) pb u o).
  { intros o HA. eapply At_byte; [| | |exact Hd|apply x_f31; exact Hq|exact HA]; lia. }
  replace (zlen pre + 1) with (zlen (pre ++ [c])) by zl.
  destruct s1 as [|d s2]. { cbn. apply Hstep. apply At_erre. solve_erre. }
  assert (Hd2 : delta 136 d = if is "=" d then Some (192%N, None) else Some (0%N, Some 30%N))
    by (clear; revert d; dsweep).
  destruct (is "=" d) eqn:Ee. 2:{ cbn. apply Hstep. eapply At_errf; [|exact Hd2|apply F30]. lia. }
  assert (Hstep2 : forall o, At 192 ((pre ++ [c]) ++ [d]) s2 (zlen pre) (uset_qStart true u) o -> At 135 pre (c :: d :: s2) pb u o).
  { intros o HA. apply Hstep. eapply At_go; [| | |exact Hd2|exact HA]; lia. }
  replace (zlen pre + 2) with (zlen ((pre ++ [c]) ++ [d])) by zl.
  destruct s2 as [|x s3]. { cbn. apply Hstep2. apply At_e50; auto. }
  assert (Hd3 : delta 192 x = if pchar x then Some (187%N, Some 50%N) else if is "%" x then Some (129%N, Some 50%N) else if is "?" x then Some (136%N, Some 50%N) else if is "#" x then Some (178%N, Some 51%N) else Some (0%N, Some 30%N))
    by (clear; revert x; dsweep).
  replace (one_of "%?#" x) with (is "%" x || is "?" x || is "#" x)
    by (unfold one_of, is; cbn; rewrite orb_false_r, orb_assoc; reflexivity).
  destruct (pchar x); [cbn; apply Hstep2; eapply At_err; [|exact Hd3|apply x_f50; reflexivity]; lia|].
  destruct (is "%" x); [cbn; apply Hstep2; eapply At_err; [|exact Hd3|apply x_f50; reflexivity]; lia|].
  destruct (is "?" x); [cbn; apply Hstep2; eapply At_err; [|exact Hd3|apply x_f50; reflexivity]; lia|].
  destruct (is "#" x); [cbn; apply Hstep2; eapply At_err; [|exact Hd3|apply x_f51; reflexivity]; lia|].
  cbn. apply Hstep2. eapply At_errf; [|exact Hd3|apply F30]. lia.
Qed.

(* ---- r-component -------------------------------------------------------------------- *)
Definition rst (k : rpos) : N := match k with RHex => 183%N | RQ => 184%N | RQPlus => 185%N | RQEq => 186%N | _ => 182%N end.

(* what remains to be shown once an r-component v was read *)
Definition rcont (pre1 v r : bytes) (u : URN) (o : pout) : Prop :=
  match r with
  | [] => o = OUrn (pub_of (uset_kind KRFC8141 (uset_r v u)))
  | c :: r' =>
      if is "#" c then forall t, At 178 (pre1 ++ v ++ [c]) r' (zlen pre1) (uset_r v (uset_tolower t u)) o
      else match r' with
           | d :: r'' => forall t, At 186 (pre1 ++ v ++ [c; d]) r'' (zlen pre1) (uset_r v (uset_tolower t u)) o
           | [] => True
           end
  end.

Lemma rcont_r pre1 v r u o x t : rcont pre1 v r u o -> rcont pre1 v r (uset_r x (uset_tolower t u)) o.
Proof.
  destruct r as [|c r]; cbn; [intros ->; reflexivity|].
  destruct (is "#" c); [intros H t'; apply (H t')|]. destruct r as [|d r]; [auto|]. intros H t'. apply (H t').
Qed.

Lemma D127 b : delta 127 b = hexdelta 127 128 27 b. Proof. revert b; dsweep. Qed.
Lemma D128 b : delta 128 b = hexdelta 128 183 27 b. Proof. revert b; dsweep. Qed.
Lemma F27 : errf 27 (hx mode Err8141MalformedRComp). Proof. solve_hxf. Qed.
Lemma F25 : errf 25 Err8141MalformedRComp. Proof. solve_errf. Qed.
Lemma F46 : errf 46 Err8141MalformedRComp. Proof. solve_errf. Qed.
Lemma S127 : stops 127 (fun p => OErr (mkErr (hx mode Err8141MalformedRComp) p)) (fun p => OErr (mkErr (hx mode Err8141MalformedRComp) p)).
Proof. eapply stops_err; [lia|exact D127|exact F27|solve_hxe]. Qed.
Lemma S128 : stops 128 (fun p => OErr (mkErr (hx mode Err8141MalformedRComp) p)) (fun p => OErr (mkErr (hx mode Err8141MalformedRComp) p)).
Proof. eapply stops_err; [lia|exact D128|exact F27|solve_hxe]. Qed.

Lemma x_f44 d cs p pb u : u_rStart u = true ->
  exec_opt (Some 44%N) (cfg d cs p pb, u) = Ret ((ecfg d 193 (p - 1) pb (mkErr Err8141RComponentStart p), u), Again).
Proof. intros H. unfold exec_opt. xcbn. rewrite H. xcbn. rewrite Z.add_0_r. reflexivity. Qed.
Lemma x_f45 d cs p pb u : u_rStart u = true ->
  exec_opt (Some 45%N) (cfg d cs p pb, u) = Ret ((ecfg d 193 (p - 1) pb (mkErr Err8141RComponentStart p), u), Again).
Proof. intros H. unfold exec_opt. xcbn. rewrite H. xcbn. rewrite Z.add_0_r. reflexivity. Qed.
Lemma x_f26 d cs p pb u : u_rStart u = false ->
  exec_opt (Some 26%N) (cfg d cs p pb, u) = Ret ((cfg d cs p p, uset_rStart true u), Again).
Proof. intros H. unfold exec_opt. xcbn. rewrite H. xcbn. reflexivity. Qed.
Lemma At_e44 cs pre pb u : (cs = 185 \/ cs = 191)%N -> u_rStart u = true -> At cs pre [] pb u (OErr (mkErr Err8141RComponentStart (zlen pre))).
Proof.
  intros Hcs H. eapply At_eof_err with (blk := [SIf CRStart [SSetErr Err8141RComponentStart 0; SDecP; SSetCS 193; SGotoAgain] [];
      SSetRStart; SSetR; SSetKind KRFC8141]).
  - lia.
  - destruct Hcs as [->| ->]; vm_compute; reflexivity.
  - xcbn. rewrite H. xcbn. rewrite Z.add_0_r. reflexivity.
Qed.

(* "#" or "?": the component so far is stored *)
Lemma step_r cs cs' pre1 v c r u o :
  (0 < cs <= 193)%N -> (0 < cs' <= 193)%N -> cs' <> 171%N -> delta cs c = Some (cs', Some 42%N) ->
  At cs' (pre1 ++ v ++ [c]) r (zlen pre1) (uset_r v u) o ->
  At cs (pre1 ++ v) (c :: r) (zlen pre1) u o.
Proof.
  intros Hcs Hcs' H171 Hd HA. eapply At_byte; [exact Hcs|exact Hcs'|exact H171|exact Hd| |rewrite <- app_assoc; exact HA].
  unfold exec_opt. cbn [f_block exec_block exec_stmt].
  rewrite text_mid' by reflexivity. reflexivity.
Qed.

Definition qstarts (s : bytes) : bool :=
  match s with d :: x :: _ => is "=" d && (pchar x || is "%" x) | _ => false end.
Definition rinv (k : rpos) (rest : bytes) : Prop :=
  match k with
  | RQ => qstarts rest = false
  | RQEq => match rest with x :: _ => pchar x || is "%" x = false | [] => True end
  | _ => True
  end.

Lemma sim_rl n : forall rest, (List.length rest <= n)%nat -> forall k pos pre1 w u,
  k <> RStart -> pos = zlen (pre1 ++ w) -> u_rStart u = true -> rinv k rest ->
  wp (ref_r mode k pos rest)
     (fun er => At (rst k) (pre1 ++ w) rest (zlen pre1) u (OErr er)) False
     (fun w' r => forall o, rcont pre1 (w ++ w') r u o -> At (rst k) (pre1 ++ w) rest (zlen pre1) u o).
Proof.
  assert (Hnil : forall k pos pre1 w u, k <> RStart -> pos = zlen (pre1 ++ w) -> u_rStart u = true ->
    wp (ref_r mode k pos [])
     (fun er => At (rst k) (pre1 ++ w) [] (zlen pre1) u (OErr er)) False
     (fun w' r => forall o, rcont pre1 (w ++ w') r u o -> At (rst k) (pre1 ++ w) [] (zlen pre1) u o)).
  { intros k pos pre1 w u Hk -> Hq.
    assert (Heof : k <> RQPlus ->
     At (rst k) (pre1 ++ w) [] (zlen pre1) u (OUrn (pub_of (uset_kind KRFC8141 (uset_r w u))))).
    { intros Hk2. eapply At_eof_ok with (blk := [SSetR; SSetKind KRFC8141]).
      - destruct k; cbn; lia.
      - destruct k; try congruence; vm_compute; reflexivity.
      - cbn [exec_block exec_stmt]. rewrite text_mid' by reflexivity. reflexivity.
      - cbn. repeat (split; [reflexivity|]). split; [|split; reflexivity]. destruct k; reflexivity. }
    destruct k; [congruence| | | | |]; cbn [ref_r wp]; try (intros o ->; rewrite app_nil_r; apply Heof; congruence).
    apply At_e44; auto. }
  induction n as [|n IH]; intros rest Hn k pos pre1 w u Hk Hpos Hq Hinv.
  { destruct rest; [|cbn in Hn; lia]. apply Hnil; auto. }
  destruct rest as [|c s1]; [apply Hnil; auto|]. subst pos. clear Hnil.
  cbn [List.length] in Hn.
  assert (Hl : (0 < rst k <= 193)%N) by (destruct k; cbn; lia).
  assert (Hd : delta (rst k) c =
    match k with
    | RQPlus => if is "%" c then Some (127%N, Some 44%N) else if is "/" c then Some (182%N, None) else if is "?" c then Some (184%N, Some 45%N) else
              if is "#" c then Some (178%N, Some 45%N) else if pchar c then Some (182%N, Some 44%N) else Some (0%N, Some 25%N)
    | RQEq => if is "%" c then Some (131%N, Some 31%N) else if is "#" c then Some (178%N, Some 42%N) else if is "?" c then Some (184%N, Some 42%N) else
              if pchar c then Some (187%N, Some 31%N) else if is "/" c then Some (182%N, None) else Some (0%N, Some 46%N)
    | _ => if is "%" c then Some (127%N, None) else if is "#" c then Some (178%N, Some 42%N) else
           if (match k with RQ => is "+" c | _ => false end) then Some (185%N, None) else
           if (match k with RQ => is "=" c | _ => false end) then Some (186%N, None) else
           if is "?" c then Some (184%N, Some 42%N) else if pchar_slash c then Some (182%N, None)
           else Some (0%N, Some (match k with RHex => 27%N | _ => 25%N end))
    end).
  { destruct k; [congruence| | | | |]; clear; revert c; cbn match; cbn [rst]; dsweep. }
  assert (Hgo : forall k', delta (rst k) c = Some (rst k', None) -> k' <> RStart -> rinv k' s1 ->
    wp (wcons c (ref_r mode k' (zlen (pre1 ++ w) + 1) s1))
     (fun er => At (rst k) (pre1 ++ w) (c :: s1) (zlen pre1) u (OErr er)) False
     (fun w' r => forall o, rcont pre1 (w ++ w') r u o -> At (rst k) (pre1 ++ w) (c :: s1) (zlen pre1) u o)).
  { intros k' E Hk' Hi.
    assert (Hstep : forall o, At (rst k') (pre1 ++ (w ++ [c])) s1 (zlen pre1) u o -> At (rst k) (pre1 ++ w) (c :: s1) (zlen pre1) u o).
    { intros o HA'. eapply At_go; [exact Hl| | |exact E|rewrite <- app_assoc; apply HA']; destruct k'; cbn; lia. }
    apply wp_wcons. eapply wp_mono; [apply (IH s1) with (k := k') (pre1 := pre1) (w := w ++ [c]) (u := u)| | |];
      [lia|exact Hk'|zl|exact Hq|exact Hi| | |]; cbn beta; auto.
    intros w' r HA' o HC. apply Hstep, HA'. rewrite <- app_assoc. exact HC. }
  assert (Hpct : is "%" c = true -> delta (rst k) c = Some (127%N, None) ->
    wp (match s1 with
        | [] => WErr (mkErr (hx mode Err8141MalformedRComp) (zlen (pre1 ++ w) + 1))
        | a :: s2 => if alnum a then
             match s2 with
             | [] => WErr (mkErr (hx mode Err8141MalformedRComp) (zlen (pre1 ++ w) + 2))
             | b :: s3 => if alnum b then wcons c (wcons a (wcons b (ref_r mode RHex (zlen (pre1 ++ w) + 3) s3)))
                          else WErr (mkErr (hx mode Err8141MalformedRComp) (zlen (pre1 ++ w) + 2))
             end else WErr (mkErr (hx mode Err8141MalformedRComp) (zlen (pre1 ++ w) + 1))
        end)
     (fun er => At (rst k) (pre1 ++ w) (c :: s1) (zlen pre1) u (OErr er)) False
     (fun w' r => forall o, rcont pre1 (w ++ w') r u o -> At (rst k) (pre1 ++ w) (c :: s1) (zlen pre1) u o)).
  { intros Epc Hd1.
    eapply (wp_hex (fun s3 => ref_r mode RHex (zlen (pre1 ++ w) + 3) s3) (fun p => WErr (mkErr (hx mode Err8141MalformedRComp) p)) (fun p => OErr (mkErr (hx mode Err8141MalformedRComp) p)) 127 128 183 27 c (zlen (pre1 ++ w)) (pre1 ++ w ++ [c]) s1 (zlen pre1) u);
      try lia; [exact D127|exact D128|exact S127|exact S128|zl| |].
    - intros p HA. cbn. eapply At_go; [exact Hl| | |exact Hd1|rewrite <- app_assoc; exact HA]; lia.
    - intros a b s3 t -> Ha Hb _ HA.
      assert (Hstep : forall o, At (rst RHex) (pre1 ++ (w ++ [c; a; b])) s3 (zlen pre1) (uset_tolower t u) o ->
         At (rst k) (pre1 ++ w) (c :: a :: b :: s3) (zlen pre1) u o).
      { intros o HA'. eapply At_go; [exact Hl| | |exact Hd1|rewrite <- app_assoc; apply HA]; [lia|lia|].
        rewrite <- !app_assoc in *. exact HA'. }
      eapply wp_mono; [apply (IH s3) with (k := RHex) (pre1 := pre1) (w := w ++ [c; a; b]) (u := uset_tolower t u)| | |];
        [cbn [List.length] in Hn; lia|congruence|zl|exact Hq|exact I| | |]; cbn beta; auto.
      intros w' r HA' o HC. apply Hstep, HA'. rewrite <- app_assoc.
      apply (rcont_r _ _ _ _ _ (u_r u) t) in HC. exact HC. }
  assert (Hhash : is "#" c = true -> delta (rst k) c = Some (178%N, Some 42%N) ->
     wp (WGo [] (c :: s1))
     (fun er => At (rst k) (pre1 ++ w) (c :: s1) (zlen pre1) u (OErr er)) False
     (fun w' r => forall o, rcont pre1 (w ++ w') r u o -> At (rst k) (pre1 ++ w) (c :: s1) (zlen pre1) u o)).
  { intros Ec E. cbn. rewrite app_nil_r, Ec. intros o HC. eapply step_r; [exact Hl| | |exact E|]; [lia|lia|].
    rewrite <- (uset_tolower_id u). apply HC. }
  assert (Hquest : is "#" c = false -> delta (rst k) c = Some (184%N, Some 42%N) ->
     wp (match s1 with
         | d :: x :: _ => if is "=" d && (pchar x || is "%" x) then WGo [] (c :: s1) else wcons c (ref_r mode RQ (zlen (pre1 ++ w) + 1) s1)
         | _ => wcons c (ref_r mode RQ (zlen (pre1 ++ w) + 1) s1)
         end)
     (fun er => At (rst k) (pre1 ++ w) (c :: s1) (zlen pre1) u (OErr er)) False
     (fun w' r => forall o, rcont pre1 (w ++ w') r u o -> At (rst k) (pre1 ++ w) (c :: s1) (zlen pre1) u o)).
  { intros Ec E.
    assert (Hstep : forall o, At (rst RQ) (pre1 ++ (w ++ [c])) s1 (zlen pre1) (uset_r w u) o -> At (rst k) (pre1 ++ w) (c :: s1) (zlen pre1) u o).
    { intros o HA'. eapply step_r; [exact Hl| | |exact E|apply HA']; cbn; lia. }
    replace (match s1 with
         | d :: x :: _ => if is "=" d && (pchar x || is "%" x) then WGo [] (c :: s1) else wcons c (ref_r mode RQ (zlen (pre1 ++ w) + 1) s1)
         | _ => wcons c (ref_r mode RQ (zlen (pre1 ++ w) + 1) s1)
         end) with (if qstarts s1 then WGo [] (c :: s1) else wcons c (ref_r mode RQ (zlen (pre1 ++ w) + 1) s1))
      by (unfold qstarts; destruct s1 as [|? [|? ?]]; reflexivity).
    destruct (qstarts s1) eqn:Eqs.
    - destruct s1 as [|d [|x s3]]; try discriminate. cbn. rewrite app_nil_r, Ec. intros o HC. apply Hstep.
      cbn in Eqs. apply andb_prop in Eqs. destruct Eqs as [Ed _]. apply is_eq in Ed. subst d.
      eapply (At_go _ 186); [cbn; lia|lia|lia|vm_compute; reflexivity|].
      specialize (HC (u_tolower u)). rewrite uset_tolower_id in HC. rewrite <- !app_assoc. exact HC.
    - apply wp_wcons. eapply wp_mono; [apply (IH s1) with (k := RQ) (pre1 := pre1) (w := w ++ [c]) (u := uset_r w u)| | |];
        [lia|congruence|zl|exact Hq|exact Eqs| | |]; cbn beta; auto.
      intros w' r HA' o HC. apply Hstep, HA'. rewrite <- app_assoc.
      apply (rcont_r _ _ _ _ _ w (u_tolower u)) in HC. rewrite uset_tolower_id in HC. exact HC. }
  assert (Hdup : forall cs' f, delta (rst k) c = Some (cs', Some f) -> (f = 44 \/ f = 45)%N ->
     At (rst k) (pre1 ++ w) (c :: s1) (zlen pre1) u (OErr (mkErr Err8141RComponentStart (zlen (pre1 ++ w))))).
  { intros cs' f E [->| ->]; (eapply At_err; [exact Hl|exact E|]); [apply x_f44|apply x_f45]; exact Hq. }
  assert (Hbad : forall f e, delta (rst k) c = Some (0%N, Some f) -> errf f e ->
     At (rst k) (pre1 ++ w) (c :: s1) (zlen pre1) u (OErr (mkErr e (zlen (pre1 ++ w))))).
  { intros f e E He. eapply At_errf; [exact Hl|exact E|exact He]. }
  cbn [ref_r].
  destruct k; [congruence| | | | |]; cbn match in Hd |- *; destruct (is "%" c) eqn:Epc;
    try (apply Hpct; [reflexivity|exact Hd]).
  - destruct (is "#" c) eqn:E1; [apply Hhash; [reflexivity|exact Hd]|]. destruct (is "?" c) eqn:E2; [apply Hquest; [reflexivity|exact Hd]|].
    destruct (pchar_slash c) eqn:E3; [apply (Hgo RPlain); [exact Hd|congruence|exact I]|]. apply (Hbad _ _ Hd F25).
  - destruct (is "#" c) eqn:E1; [apply Hhash; [reflexivity|exact Hd]|]. destruct (is "?" c) eqn:E2; [apply Hquest; [reflexivity|exact Hd]|].
    destruct (pchar_slash c) eqn:E3; [apply (Hgo RPlain); [exact Hd|congruence|exact I]|]. apply (Hbad _ _ Hd F27).
  - destruct (is "#" c) eqn:E1; [apply Hhash; [reflexivity|exact Hd]|].
    destruct (is "+" c) eqn:E4; [apply (Hgo RQPlus); [exact Hd|congruence|exact I]|].
    destruct (is "=" c) eqn:E5; [apply (Hgo RQEq); [exact Hd|congruence|]|].
    { cbn in Hinv. destruct s1 as [|x s2]; [exact I|]. rewrite E5 in Hinv. exact Hinv. }
    destruct (is "?" c) eqn:E2; [apply Hquest; [reflexivity|exact Hd]|].
    destruct (pchar_slash c) eqn:E3; [apply (Hgo RPlain); [exact Hd|congruence|exact I]|]. apply (Hbad _ _ Hd F25).
  - cbn. eapply Hdup; [exact Hd|auto].
  - destruct (is "/" c) eqn:E1; [apply (Hgo RPlain); [exact Hd|congruence|exact I]|].
    destruct (is "?" c) eqn:E2; [rewrite orb_true_r; eapply Hdup; [exact Hd|auto]|].
    destruct (is "#" c) eqn:E3; [rewrite orb_true_r; eapply Hdup; [exact Hd|auto]|].
    destruct (pchar c) eqn:E4; [eapply Hdup; [exact Hd|auto]|]. cbn. apply (Hbad _ _ Hd F25).
  - cbn in Hinv. rewrite Epc, orb_true_r in Hinv. discriminate.
  - cbn in Hinv. rewrite Epc, orb_false_r in Hinv. rewrite Hinv in Hd.
    destruct (is "#" c) eqn:E1; [apply Hhash; [reflexivity|exact Hd]|]. destruct (is "?" c) eqn:E2; [apply Hquest; [reflexivity|exact Hd]|].
    unfold pchar_slash. rewrite Hinv. fold (is "/" c). cbn [orb].
    destruct (is "/" c) eqn:E3; [apply (Hgo RPlain); [exact Hd|congruence|exact I]|]. apply (Hbad _ _ Hd F46).
Qed.

Lemma sim_r126 pos pre rest pb u : pos = zlen pre -> u_rStart u = false ->
  wp (ref_r mode RStart pos rest)
     (fun er => At 126 pre rest pb u (OErr er)) False
     (fun w r => forall o, rcont pre w r (uset_rStart true u) o -> At 126 pre rest pb u o).
Proof.
  intros -> Hq. destruct rest as [|c s1]. { cbn. apply At_erre. solve_erre. }
  assert (Hd : delta 126 c = if is "%" c then Some (127%N, Some 26%N) else if pchar c then Some (182%N, Some 26%N) else if is "?" c then Some (133%N, Some 26%N) else Some (0%N, Some 25%N))
    by (clear; revert c; dsweep).
  cbn [ref_r]. destruct (is "%" c) eqn:Epc.
  { eapply (wp_hex (fun s3 => ref_r mode RHex (zlen pre + 3) s3) (fun p => WErr (mkErr (hx mode Err8141MalformedRComp) p)) (fun p => OErr (mkErr (hx mode Err8141MalformedRComp) p)) 127 128 183 27 c (zlen pre) (pre ++ [c]) s1 (zlen pre) (uset_rStart true u));
      try lia; [exact D127|exact D128|exact S127|exact S128|zl| |].
    - intros p HA. cbn. eapply At_byte; [| | |exact Hd|apply x_f26; exact Hq|exact HA]; lia.
    - intros a b s3 t -> Ha Hb _ HA.
      assert (Hstep : forall o, At (rst RHex) (pre ++ [c; a; b]) s3 (zlen pre) (uset_tolower t (uset_rStart true u)) o ->
         At 126 pre (c :: a :: b :: s3) pb u o).
      { intros o HA'. eapply At_byte; [| | |exact Hd|apply x_f26; exact Hq|apply HA]; [lia|lia|lia|].
        rewrite <- !app_assoc in *. exact HA'. }
      eapply wp_mono; [apply (sim_rl _ s3 (le_n _)) with (k := RHex) (pre1 := pre) (w := [c; a; b]) (u := uset_tolower t (uset_rStart true u))| | |];
        [congruence|zl|reflexivity|exact I| | |]; cbn beta; auto. }
  destruct (pchar c) eqn:Ep.
  { assert (Hstep : forall o, At (rst RPlain) (pre ++ [c]) s1 (zlen pre) (uset_rStart true u) o -> At 126 pre (c :: s1) pb u o).
    { intros o HA'. eapply At_byte; [| | |exact Hd|apply x_f26; exact Hq|exact HA']; cbn; lia. }
    apply wp_wcons. eapply wp_mono; [apply (sim_rl _ s1 (le_n _)) with (k := RPlain) (pre1 := pre) (w := [c]) (u := uset_rStart true u)| | |];
      [congruence|zl|reflexivity|exact I| | |]; cbn beta; auto. }
  destruct (is "?" c) eqn:Eq.
  2:{ cbn. eapply At_errf; [|exact Hd|apply F25]. lia. }
  assert (Hstep : forall o, At 133 (pre ++ [c]) s1 (zlen pre) (uset_rStart true u) o -> At 126 pre (c :: s1) pb u o).
  { intros o HA. eapply At_byte; [| | |exact Hd|apply x_f26; exact Hq|exact HA]; lia. }
  replace (zlen pre + 1) with (zlen (pre ++ [c])) by zl.
  destruct s1 as [|d s2]. { cbn. apply Hstep. apply At_erre. solve_erre. }
  assert (Hd2 : delta 133 d = if is "+" d then Some (191%N, None) else Some (0%N, Some 25%N))
    by (clear; revert d; dsweep).
  destruct (is "+" d) eqn:Ee. 2:{ cbn. apply Hstep. eapply At_errf; [|exact Hd2|apply F25]. lia. }
  assert (Hstep2 : forall o, At 191 ((pre ++ [c]) ++ [d]) s2 (zlen pre) (uset_rStart true u) o -> At 126 pre (c :: d :: s2) pb u o).
  { intros o HA. apply Hstep. eapply At_go; [| | |exact Hd2|exact HA]; lia. }
  replace (zlen pre + 2) with (zlen ((pre ++ [c]) ++ [d])) by zl.
  destruct s2 as [|x s3]. { cbn. apply Hstep2. apply At_e44; auto. }
  assert (Hd3 : delta 191 x = if pchar x then Some (182%N, Some 44%N) else if is "%" x then Some (127%N, Some 44%N) else if is "?" x then Some (134%N, Some 45%N) else if is "#" x then Some (178%N, Some 45%N) else Some (0%N, Some 25%N))
    by (clear; revert x; dsweep).
  replace (one_of "%?#" x) with (is "%" x || is "?" x || is "#" x)
    by (unfold one_of, is; cbn; rewrite orb_false_r, orb_assoc; reflexivity).
  destruct (pchar x); [cbn; apply Hstep2; eapply At_err; [|exact Hd3|apply x_f44; reflexivity]; lia|].
  destruct (is "%" x); [cbn; apply Hstep2; eapply At_err; [|exact Hd3|apply x_f44; reflexivity]; lia|].
  destruct (is "?" x); [cbn; apply Hstep2; eapply At_err; [|exact Hd3|apply x_f45; reflexivity]; lia|].
  destruct (is "#" x); [cbn; apply Hstep2; eapply At_err; [|exact Hd3|apply x_f45; reflexivity]; lia|].
  cbn. apply Hstep2. eapply At_errf; [|exact Hd3|apply F25]. lia.
Qed.


(* ---- NSS ------------------------------------------------------------------------------ *)
Definition sst (k : epos) : N := match k with EHex => 181%N | _ => 177%N end.
Definition unss (v : bytes) (u : URN) : URN := uset_norm (norm_pct v) (uset_SS v u).

Definition ncont (pre1 v r : bytes) (u : URN) (o : pout) : Prop :=
  match r with
  | [] => o = OUrn (pub_of (uset_kind KRFC8141 (unss v u)))
  | c :: r' => forall t, At (if is "#" c then 178%N else 125%N) (pre1 ++ v ++ [c]) r' (zlen pre1) (unss v (uset_tolower t u)) o
  end.

Lemma D123 b : delta 123 b = hexdelta 123 124 24 b. Proof. revert b; dsweep. Qed.
Lemma D124 b : delta 124 b = hexdelta 124 181 24 b. Proof. revert b; dsweep. Qed.
Lemma F24 : errf 24 (hx mode Err8141SpecificString). Proof. solve_hxf. Qed.
Lemma F22 : errf 22 Err8141SpecificString. Proof. solve_errf. Qed.
Lemma S123 : stops 123 (fun p => OErr (mkErr (hx mode Err8141SpecificString) p)) (fun p => OErr (mkErr (hx mode Err8141SpecificString) p)).
Proof. eapply stops_err; [lia|exact D123|exact F24|solve_hxe]. Qed.
Lemma S124 : stops 124 (fun p => OErr (mkErr (hx mode Err8141SpecificString) p)) (fun p => OErr (mkErr (hx mode Err8141SpecificString) p)).
Proof. eapply stops_err; [lia|exact D124|exact F24|solve_hxe]. Qed.

Lemma upos_snoc w c : escaped alnum notpct w -> is "%" c = false -> upos 0 (w ++ [c]) = upos 0 w.
Proof. intros Hw Hc. rewrite (upos_app alnum) by exact Hw. cbn [upos]. rewrite Hc, app_nil_r. reflexivity. Qed.
Lemma upos_esc pre1 w a b : escaped alnum notpct w ->
  upos 0 (w ++ ["%"%byte; a; b]) = upos 0 w ++ dig (zlen pre1) (zlen (pre1 ++ w ++ ["%"%byte])) a ++ dig (zlen pre1) (zlen (pre1 ++ w ++ ["%"%byte]) + 1) b.
Proof.
  intros Hw. rewrite (upos_app alnum) by exact Hw. f_equal. cbn [upos]. rewrite is_refl.
  rewrite app_nil_r. unfold dig. rewrite !zlen_app.
  f_equal; [destruct (upper a)|destruct (upper b)]; try reflexivity; f_equal; zl.
Qed.

Lemma sim_nss8l n : forall rest, (List.length rest <= n)%nat -> forall k pos pre1 w u,
  k <> EStart -> pos = zlen (pre1 ++ w) -> escaped alnum notpct w -> u_tolower u = upos 0 w ->
  wp (ref_nss8 mode k pos rest)
     (fun er => At (sst k) (pre1 ++ w) rest (zlen pre1) u (OErr er)) False
     (fun w' r => forall o, ncont pre1 (w ++ w') r u o -> At (sst k) (pre1 ++ w) rest (zlen pre1) u o).
Proof.
  assert (Heof : forall k pre1 w u, k <> EStart -> escaped alnum notpct w -> u_tolower u = upos 0 w ->
     At (sst k) (pre1 ++ w) [] (zlen pre1) u (OUrn (pub_of (uset_kind KRFC8141 (unss w u))))).
  { intros k pre1 w u Hk Hw Ht. eapply At_eof_ok with (blk := [SSetSS; SForTolower 32; SSetNorm; SForTolower (-32); SSetKind KRFC8141]).
    - destruct k; cbn; lia.
    - destruct k; try congruence; vm_compute; reflexivity.
    - rewrite <- app_assoc. rewrite (x_setnss start mode mset alnum pre1 w [] _ u _ Hw Ht). reflexivity.
    - rewrite <- app_assoc. cbn [fin]. cbn. repeat (split; [reflexivity|]). split; [|split; reflexivity]. destruct k; reflexivity. }
  induction n as [|n IH]; intros rest Hn k pos pre1 w u Hk Hpos Hw Ht.
  { destruct rest; [|cbn in Hn; lia]. destruct k; [congruence| |]; cbn [ref_nss8 wp]; intros o ->; rewrite app_nil_r; apply Heof; auto. }
  destruct rest as [|c s1].
  { destruct k; [congruence| |]; cbn [ref_nss8 wp]; intros o ->; rewrite app_nil_r; apply Heof; auto. }
  subst pos. clear Heof. cbn [List.length] in Hn.
  assert (Hl : (0 < sst k <= 193)%N) by (destruct k; cbn; lia).
  assert (Hd : delta (sst k) c = if is "%" c then Some (123%N, None) else if pchar c then Some (177%N, None) else if is "/" c then Some (177%N, None)
     else if is "?" c then Some (125%N, Some 38%N) else if is "#" c then Some (178%N, Some 38%N)
     else Some (0%N, Some (match k with EHex => 24%N | _ => 22%N end))).
  { destruct k; [congruence| |]; clear; revert c; cbn; dsweep. }
  cbn [ref_nss8]. destruct (is "%" c) eqn:Epc.
  { pose proof (is_eq _ _ Epc). subst c.
    eapply (wp_hex (fun s3 => ref_nss8 mode EHex (zlen (pre1 ++ w) + 3) s3) (fun p => WErr (mkErr (hx mode Err8141SpecificString) p)) (fun p => OErr (mkErr (hx mode Err8141SpecificString) p)) 123 124 181 24 _ (zlen (pre1 ++ w)) (pre1 ++ w ++ ["%"%byte]) s1 (zlen pre1) u);
      try lia; [exact D123|exact D124|exact S123|exact S124|zl| |].
    - intros p HA. cbn. eapply At_go; [exact Hl| | |exact Hd|rewrite <- app_assoc; exact HA]; lia.
    - intros a b s3 t -> Ha Hb Et HA. rewrite Ht, <- (upos_esc pre1 w a b Hw) in Et. subst t.
      assert (Hw' : escaped alnum notpct (w ++ ["%"%byte; a; b])).
      { apply escaped_app; [exact Hw|]. apply esc_pct; auto. apply esc_nil. }
      assert (Hstep : forall o, At (sst EHex) (pre1 ++ (w ++ ["%"%byte; a; b])) s3 (zlen pre1) (uset_tolower (upos 0 (w ++ ["%"%byte; a; b])) u) o ->
         At (sst k) (pre1 ++ w) ("%"%byte :: a :: b :: s3) (zlen pre1) u o).
      { intros o HA'. eapply At_go; [exact Hl| | |exact Hd|rewrite <- app_assoc; apply HA]; [lia|lia|].
        rewrite <- !app_assoc. exact HA'. }
      eapply wp_mono; [apply (IH s3) with (k := EHex) (pre1 := pre1) (w := w ++ ["%"%byte; a; b]) (u := uset_tolower (upos 0 (w ++ ["%"%byte; a; b])) u)| | |];
        [cbn [List.length] in Hn; lia|congruence|zl|exact Hw'|reflexivity| | |]; cbn beta; [auto|auto|].
      intros w' r HA' o HC. apply Hstep, HA'. rewrite <- app_assoc. destruct r; exact HC. }
  assert (Hgo : delta (sst k) c = Some (sst EPlain, None) -> 
    wp (wcons c (ref_nss8 mode EPlain (zlen (pre1 ++ w) + 1) s1))
     (fun er => At (sst k) (pre1 ++ w) (c :: s1) (zlen pre1) u (OErr er)) False
     (fun w' r => forall o, ncont pre1 (w ++ w') r u o -> At (sst k) (pre1 ++ w) (c :: s1) (zlen pre1) u o)).
  { intros E.
    assert (Hstep : forall o, At (sst EPlain) (pre1 ++ (w ++ [c])) s1 (zlen pre1) u o -> At (sst k) (pre1 ++ w) (c :: s1) (zlen pre1) u o).
    { intros o HA'. eapply At_go; [exact Hl| | |exact E|rewrite <- app_assoc; apply HA']; cbn; lia. }
    apply wp_wcons. eapply wp_mono; [apply (IH s1) with (k := EPlain) (pre1 := pre1) (w := w ++ [c]) (u := u)| | |].
    - lia.
    - congruence.
    - zl.
    - apply escaped_app; [exact Hw|]. apply esc_plain; [unfold notpct; rewrite Epc; reflexivity|apply esc_nil].
    - rewrite upos_snoc by assumption. exact Ht.
    - cbn beta; auto.
    - auto.
    - cbn beta. intros w' r HA' o HC. apply Hstep, HA'. rewrite <- app_assoc. exact HC. }
  assert (Hstop : forall cs', (0 < cs' <= 193)%N -> cs' <> 171%N -> cs' = (if is "#" c then 178%N else 125%N) -> delta (sst k) c = Some (cs', Some 38%N) ->
    wp (WGo [] (c :: s1))
     (fun er => At (sst k) (pre1 ++ w) (c :: s1) (zlen pre1) u (OErr er)) False
     (fun w' r => forall o, ncont pre1 (w ++ w') r u o -> At (sst k) (pre1 ++ w) (c :: s1) (zlen pre1) u o)).
  { intros cs' Hc1 Hc2 Hc3 E. cbn. rewrite app_nil_r. intros o HC. rewrite <- Hc3 in HC.
    eapply At_byte; [exact Hl|exact Hc1|exact Hc2|exact E| |].
    - unfold exec_opt. cbn [f_block]. rewrite <- app_assoc.
      rewrite (x_setnss start mode mset alnum pre1 w (c :: s1) cs' u [SGotoAgain] Hw Ht). reflexivity.
    - specialize (HC (u_tolower u)). rewrite uset_tolower_id in HC. rewrite <- app_assoc. exact HC. }
  destruct (pchar c) eqn:Ep; [apply Hgo; exact Hd|].
  assert (Hrest : wp (if is "/" c then wcons c (ref_nss8 mode EPlain (zlen (pre1 ++ w) + 1) s1)
               else if is "?" c || is "#" c then WGo [] (c :: s1)
               else WErr (mkErr (match k with EHex => hx mode Err8141SpecificString | _ => Err8141SpecificString end) (zlen (pre1 ++ w))))
     (fun er => At (sst k) (pre1 ++ w) (c :: s1) (zlen pre1) u (OErr er)) False
     (fun w' r => forall o, ncont pre1 (w ++ w') r u o -> At (sst k) (pre1 ++ w) (c :: s1) (zlen pre1) u o)).
  { destruct (is "/" c) eqn:E1; [apply Hgo; exact Hd|].
    destruct (is "?" c) eqn:E2.
    - apply is_eq in E2. subst c. eapply Hstop; [| | |exact Hd]; [lia|lia|reflexivity].
    - destruct (is "#" c) eqn:E3; [cbn [orb]; eapply Hstop; [| | |exact Hd]; [lia|lia|reflexivity]|].
      cbn. destruct k; [congruence| |]; eapply At_errf; [exact Hl|exact Hd|exact F22|exact Hl|exact Hd|exact F24]. }
  destruct k; [congruence| |]; exact Hrest.
Qed.

Lemma sim_nss8 pos pre rest pb u : pos = zlen pre -> u_tolower u = [] ->
  wp (ref_nss8 mode EStart pos rest)
     (fun er => At 120 pre rest pb u (OErr er)) False
     (fun w r => forall o, ncont pre w r u o -> At 120 pre rest pb u o).
Proof.
  intros -> Ht. destruct rest as [|c s1]. { cbn. apply At_erre. solve_erre. }
  assert (Hd : delta 120 c = if is "%" c then Some (123%N, Some 4%N) else if pchar c then Some (177%N, Some 4%N) else Some (0%N, Some 22%N))
    by (clear; revert c; dsweep).
  cbn [ref_nss8]. destruct (is "%" c) eqn:Epc.
  { pose proof (is_eq _ _ Epc). subst c.
    eapply (wp_hex (fun s3 => ref_nss8 mode EHex (zlen pre + 3) s3) (fun p => WErr (mkErr (hx mode Err8141SpecificString) p)) (fun p => OErr (mkErr (hx mode Err8141SpecificString) p)) 123 124 181 24 _ (zlen pre) (pre ++ ["%"%byte]) s1 (zlen pre) u);
      try lia; [exact D123|exact D124|exact S123|exact S124|zl| |].
    - intros p HA. cbn. eapply At_byte; [| | |exact Hd|apply x_mark|exact HA]; lia.
    - intros a b s3 t -> Ha Hb Et HA. rewrite Ht in Et.
      pose proof (upos_esc pre [] a b (esc_nil _ _)) as Hu. change (upos 0 []) with (@nil Z) in Hu. cbn [app] in Hu. cbn [app] in Et. rewrite <- Hu in Et. subst t.
      assert (Hstep : forall o, At (sst EHex) (pre ++ ["%"%byte; a; b]) s3 (zlen pre) (uset_tolower (upos 0 ["%"%byte; a; b]) u) o ->
         At 120 pre ("%"%byte :: a :: b :: s3) pb u o).
      { intros o HA'. eapply At_byte; [| | |exact Hd|apply x_mark|apply HA]; [lia|lia|lia|].
        rewrite <- app_assoc. exact HA'. }
      eapply wp_mono; [apply (sim_nss8l _ s3 (le_n _)) with (k := EHex) (pre1 := pre) (w := ["%"%byte; a; b]) (u := uset_tolower (upos 0 ["%"%byte; a; b]) u)| | |];
        [congruence|zl|apply esc_pct; auto; apply esc_nil|reflexivity| | |]; cbn beta; [auto|auto|].
      intros w' r HA' o HC. apply Hstep, HA'. destruct r; exact HC. }
  destruct (pchar c) eqn:Ep.
  2:{ cbn. eapply At_errf; [|exact Hd|apply F22]. lia. }
  assert (Hstep : forall o, At (sst EPlain) (pre ++ [c]) s1 (zlen pre) u o -> At 120 pre (c :: s1) pb u o).
  { intros o HA'. eapply At_byte; [| | |exact Hd|apply x_mark|exact HA']; cbn; lia. }
  apply wp_wcons. eapply wp_mono; [apply (sim_nss8l _ s1 (le_n _)) with (k := EPlain) (pre1 := pre) (w := [c]) (u := u)| | |].
  - congruence.
  - zl.
  - apply esc_plain; [unfold notpct; rewrite Epc; reflexivity|apply esc_nil].
  - rewrite Ht. cbn [upos]. rewrite Epc. reflexivity.
  - cbn beta; auto.
  - auto.
  - cbn beta. auto.
Qed.


Lemma At_frag pos pre rest pb u : pos = zlen pre ->
  At 178 pre rest pb u
    (match ref_frag mode EStart pos rest with WErr e => OErr e | WNil => ONil | WGo f _ => res_f f u end).
Proof. intros ->. pose proof (sim_frag (zlen pre) pre rest pb u eq_refl) as K. destruct (ref_frag _ _ _ _); exact K. Qed.

(* the part after the NSS, in the shape of ref8141 *)
Definition fin8 (u : URN) (r q : bytes) (pos : Z) (rest : bytes) : pout :=
  match ref_tailf mode pos rest with
  | WErr e => OErr e
  | WNil => ONil
  | WGo f _ => OUrn (mkPub (u_prefix u) (u_ID u) (u_SS u) (u_norm u) KRFC8141
                   (match u_scim u with Some s => Some (s_Type s, s_Name s, s_Other s) | None => None end) r q f)
  end.
Definition qpart8 (u : URN) (e0 : errconst) (r : bytes) (pos : Z) (rest : bytes) : pout :=
  match ref_q mode e0 QStart pos rest with
  | WErr e => OErr e
  | WNil => ONil
  | WGo q rest => fin8 u r q (pos + zlen q) rest
  end.

Lemma At_fin8 pos pre c rest pb u :
  pos = zlen pre ->
  At 178 (pre ++ [c]) rest pb u (fin8 u (u_r u) (u_q u) pos (c :: rest)).
Proof. intros ->. apply At_frag. zl. Qed.

Lemma qcont_fin pre v r u pos : u_f u = [] -> pos = zlen (pre ++ v) ->
  qcont pre v r u (fin8 u (u_r u) v pos r).
Proof.
  intros Hf ->. destruct r as [|c r']; cbn [qcont].
  - cbn. unfold pub_of. cbn. rewrite Hf. reflexivity.
  - intros t. rewrite app_assoc. apply (At_fin8 _ (pre ++ v) c r' (zlen pre) (uset_q v (uset_tolower t u))). reflexivity.
Qed.

Lemma At_q135 pos pre rest pb u : pos = zlen pre -> u_qStart u = false -> u_f u = [] ->
  At 135 pre rest pb u (qpart8 u (hx mode Err8141MalformedQComp) (u_r u) pos rest).
Proof.
  intros -> Hq Hf. pose proof (sim_q135 (zlen pre) pre rest pb u eq_refl Hq) as K. unfold qpart8.
  destruct (ref_q _ _ _ _ _) as [e| |w r]; cbn [wp] in K; [exact K|contradiction|]. apply K.
  apply (qcont_fin pre w r (uset_qStart true u)); [exact Hf|zl].
Qed.

Lemma At_q186 pos pre c s1 pb u : pos = zlen pre -> u_qStart u = false -> u_f u = [] ->
  pchar c || is "%" c = true ->
  At 186 pre (c :: s1) pb u (qpart8 u (hx mode Err8141MalformedRComp) (u_r u) pos (c :: s1)).
Proof.
  intros -> Hq Hf Hc.
  assert (Hd : delta 186 c = if is "%" c then Some (131%N, Some 31%N) else if is "#" c then Some (178%N, Some 42%N) else if is "?" c then Some (184%N, Some 42%N) else
              if pchar c then Some (187%N, Some 31%N) else if is "/" c then Some (182%N, None) else Some (0%N, Some 46%N))
    by (clear; revert c; dsweep).
  assert (Hp : pchar c = true -> is "#" c = false /\ is "?" c = false).
  { intros Hp. split; [destruct (is "#" c) eqn:E|destruct (is "?" c) eqn:E]; try reflexivity; apply is_eq in E; subst c; discriminate. }
  pose proof (sim_qhead 186 131 132 29 (hx mode Err8141MalformedRComp) pre c s1 pb u
    ltac:(lia) ltac:(lia) ltac:(lia) ltac:(lia) ltac:(lia) D131 D132 S131 S132) as K.
  assert (Hcase : is "%" c = true /\ delta 186 c = Some (131%N, Some 31%N) \/ is "%" c = false /\ pchar c = true /\ delta 186 c = Some (187%N, Some 31%N)).
  { destruct (is "%" c) eqn:E; [left; auto|right]. rewrite orb_false_r in Hc. rewrite Hc in Hd. destruct (Hp Hc) as [E1 E2].
    rewrite E1, E2 in Hd. auto. }
  specialize (K Hcase Hq). unfold qpart8.
  destruct (ref_q _ _ _ _ _) as [e| |w r]; cbn [wp] in K; [exact K|contradiction|]. apply K.
  apply (qcont_fin pre w r (uset_qStart true u)); [exact Hf|zl].
Qed.

(* what stops ref_r *)
Lemma ref_r_stop n : forall s, (List.length s <= n)%nat -> forall k pos,
  wp (ref_r mode k pos s) (fun _ => True) False
    (fun w r => s = w ++ r /\ (r = [] \/ (exists r', r = "#"%byte :: r') \/
       (exists x r', r = "?"%byte :: "="%byte :: x :: r' /\ pchar x || is "%" x = true))).
Proof.
  induction n as [|n IH]; intros s Hn k pos.
  { destruct s; [|cbn in Hn; lia]. destruct k; cbn; auto. }
  destruct s as [|c s1]; [destruct k; cbn; auto|]. cbn [List.length] in Hn.
  assert (Hgo : forall k' p', wp (wcons c (ref_r mode k' p' s1)) (fun _ => True) False
    (fun w r => c :: s1 = w ++ r /\ (r = [] \/ (exists r', r = "#"%byte :: r') \/
       (exists x r', r = "?"%byte :: "="%byte :: x :: r' /\ pchar x || is "%" x = true)))).
  { intros k' p'. apply wp_wcons. eapply wp_mono; [apply (IH s1); lia|auto|auto|]. cbn beta. intros w r [-> H]. split; [reflexivity|exact H]. }
  assert (Hhash : is "#" c = true -> wp (WGo [] (c :: s1)) (fun _ => True) False
    (fun w r => c :: s1 = w ++ r /\ (r = [] \/ (exists r', r = "#"%byte :: r') \/
       (exists x r', r = "?"%byte :: "="%byte :: x :: r' /\ pchar x || is "%" x = true)))).
  { intros E. apply is_eq in E. subst c. cbn. split; [reflexivity|]. right; left. eauto. }
  assert (Hq : is "?" c = true -> forall k' p', wp (match s1 with
         | d :: x :: _ => if is "=" d && (pchar x || is "%" x) then WGo [] (c :: s1) else wcons c (ref_r mode k' p' s1)
         | _ => wcons c (ref_r mode k' p' s1)
         end) (fun _ => True) False
    (fun w r => c :: s1 = w ++ r /\ (r = [] \/ (exists r', r = "#"%byte :: r') \/
       (exists x r', r = "?"%byte :: "="%byte :: x :: r' /\ pchar x || is "%" x = true)))).
  { intros E k' p'. apply is_eq in E. subst c. destruct s1 as [|d [|x s3]]; try apply Hgo.
    destruct (is "=" d) eqn:Ed; cbn [andb]; [|apply Hgo].
    destruct (pchar x || is "%" x) eqn:Ex; [|apply Hgo].
    apply is_eq in Ed. subst d. cbn. split; [reflexivity|]. right; right. exists x, s3. auto. }
  assert (Hpct : wp (match s1 with
        | [] => WErr (mkErr (hx mode Err8141MalformedRComp) (pos + 1))
        | a :: s2 => if alnum a then
             match s2 with
             | [] => WErr (mkErr (hx mode Err8141MalformedRComp) (pos + 2))
             | b :: s3 => if alnum b then wcons c (wcons a (wcons b (ref_r mode RHex (pos + 3) s3)))
                          else WErr (mkErr (hx mode Err8141MalformedRComp) (pos + 2))
             end else WErr (mkErr (hx mode Err8141MalformedRComp) (pos + 1))
        end) (fun _ => True) False
    (fun w r => c :: s1 = w ++ r /\ (r = [] \/ (exists r', r = "#"%byte :: r') \/
       (exists x r', r = "?"%byte :: "="%byte :: x :: r' /\ pchar x || is "%" x = true)))).
  { destruct s1 as [|a [|b s3]]; [exact I|destruct (alnum a); exact I|].
    destruct (alnum a); [|exact I]. destruct (alnum b); [|exact I].
    do 3 apply wp_wcons. eapply wp_mono; [apply (IH s3); cbn [List.length] in Hn; lia|auto|auto|].
    cbn beta. intros w r [-> H]. split; [reflexivity|exact H]. }
  cbn [ref_r]. destruct (is "%" c) eqn:Epc; [destruct k; try exact I; exact Hpct|].
  destruct (is "#" c) eqn:Eh; destruct (is "?" c) eqn:Eq;
    try (apply is_eq in Eh; subst c; discriminate Eq);
  (destruct k; cbn match;
   repeat first [ exact I | apply Hhash; reflexivity | apply Hgo | apply Hq; reflexivity
   | match goal with
     | |- wp (if ?b then _ else _) _ _ _ => destruct b
     | |- wp (match ?l with _ => _ end) _ _ _ => destruct l
     end ]).
Qed.

Theorem sim8141 s : At 83 [] s 0 zeroURN (ref8141 mode s).
Proof.
  unfold ref8141. pose proof (sim_prefix start mode mset 83 s (or_intror (or_intror eq_refl))) as K.
  pose proof (ref_prefix_len s) as Hlen.
  destruct (ref_prefix s) as [e| |pre rest]; cbn [wp] in K; [exact K|contradiction|].
  change (83 + 4)%N with 87%N in K.
  assert (Hne : firstn 3 pre <> []).
  { destruct pre; [discriminate|]. cbn. discriminate. }
  pose proof (sim_nid8 start mode mset 4 pre rest 0 (uset_prefix (firstn 3 pre) zeroURN) (eq_sym Hlen) Hne) as K2.
  destruct (ref_nid8141 mode 4 rest) as [e| |nid rest2]; cbn [wp] in K2; [apply K, K2|contradiction|].
  cbn zeta.
  remember (uid8 nid (uset_prefix (firstn 3 pre) zeroURN)) as u1 eqn:Eu1.
  assert (Hu1 : (u_prefix u1 = if starts_urn_dash nid then firstn 3 nid else firstn 3 pre) /\ u_ID u1 = nid /\ u_scim u1 = None /\ u_r u1 = [] /\ u_q u1 = [] /\ u_f u1 = [] /\ u_tolower u1 = [] /\ u_rStart u1 = false /\ u_qStart u1 = false).
  { subst u1. unfold uid8. destruct (starts_urn_dash nid); cbn; auto 12. }
  destruct Hu1 as (Hpre & Hid & Hsc & Hr & Hq & Hf & Htl & Hrs & Hqs).
  pose proof (sim_nss8 (5 + zlen nid) (pre ++ nid ++ colon) rest2 (zlen pre) u1 ltac:(unfold colon; zl) Htl) as K3.
  destruct (ref_nss8 mode EStart (5 + zlen nid) rest2) as [e| |nss rest3]; cbn [wp] in K3; [apply K, K2, K3|contradiction|].
  apply K, K2, K3. clear K K2 K3.
  remember (pre ++ nid ++ colon) as P eqn:EP.
  remember (5 + zlen nid + zlen nss) as pos eqn:Epos.
  assert (HPpos : pos = zlen (P ++ nss)) by (subst P; unfold colon; zl).
  pose (U := unss nss u1).
  assert (Hfin : forall r q pos rest, match ref_tailf mode pos rest with
       | WErr e => OErr e | WNil => ONil
       | WGo f _ => OUrn {| p_prefix := if starts_urn_dash nid then firstn 3 nid else firstn 3 pre; p_ID := nid; p_SS := nss; p_norm := norm_pct nss; p_kind := KRFC8141; p_scim := None; p_r := r; p_q := q; p_f := f |} end = fin8 U r q pos rest).
  { intros. unfold fin8, U, unss. cbn [u_prefix u_ID u_SS u_norm u_scim uset_norm uset_SS]. rewrite Hpre, Hid, Hsc. reflexivity. }
  assert (Hqp : forall e0 r pos rest, match ref_q mode e0 QStart pos rest with
       | WErr e => OErr e | WNil => ONil
       | WGo q rest => match ref_tailf mode (pos + zlen q) rest with
       | WErr e => OErr e | WNil => ONil
       | WGo f _ => OUrn {| p_prefix := if starts_urn_dash nid then firstn 3 nid else firstn 3 pre; p_ID := nid; p_SS := nss; p_norm := norm_pct nss; p_kind := KRFC8141; p_scim := None; p_r := r; p_q := q; p_f := f |} end end = qpart8 U e0 r pos rest).
  { intros. unfold qpart8. destruct (ref_q _ _ _ _ _); [reflexivity|reflexivity|]. apply Hfin. }
  destruct rest3 as [|c rest3]; cbn [ncont].
  { rewrite Hfin. unfold fin8, U, pub_of, unss. cbn [ref_tailf]. cbn. rewrite Hr, Hq, Hf. reflexivity. }
  intros t. destruct (is "#" c) eqn:Ec.
  { rewrite Hfin. rewrite app_assoc.
    pose proof (At_fin8 pos (P ++ nss) c rest3 (zlen P) (unss nss (uset_tolower t u1)) HPpos) as E.
    cbn [u_r u_q unss uset_tolower uset_norm uset_SS] in E. rewrite Hr, Hq in E. exact E. }
  destruct rest3 as [|d rest4]. { apply At_eof_nil; [lia|vm_compute; reflexivity|reflexivity]. }
  assert (Hd : delta 125 d = if is "+" d then Some (126%N, None) else if is "=" d then Some (135%N, None) else Some (0%N, None))
    by (clear; revert d; dsweep).
  destruct (is "+" d) eqn:Ed.
  - eapply At_go; [| | |exact Hd|]; try lia.
    set (Ut := unss nss (uset_tolower t u1)).
    pose proof (sim_r126 (pos + 2) ((P ++ nss ++ [c]) ++ [d]) rest4 (zlen P) Ut ltac:(zl) Hrs) as R.
    pose proof (ref_r_stop (List.length rest4) rest4 (le_n _) RStart (pos + 2)) as Hstop.
    destruct (ref_r mode RStart (pos + 2) rest4) as [e| |r rest5]; cbn [wp] in R, Hstop; [exact R|contradiction|].
    apply R. destruct Hstop as [_ [-> | [[r' ->]|[x [r' [-> Hx]]]]]].
    + cbn [rcont]. rewrite Hfin. unfold fin8, U, pub_of, Ut, unss. cbn [ref_tailf]. cbn. rewrite Hq, Hf. reflexivity.
    + cbn [rcont]. change (is "#" "#") with true. change (is "?" "#") with false. cbn match.
      rewrite Hfin. intros t'.
      replace (match r' with [] | _ => fin8 U r [] (pos + 2 + zlen r) ("#"%byte :: r') end) with (fin8 U r [] (pos + 2 + zlen r) ("#"%byte :: r')) by (destruct r'; reflexivity).
      rewrite (app_assoc ((P ++ nss ++ [c]) ++ [d])).
      pose proof (At_fin8 (pos + 2 + zlen r) (((P ++ nss ++ [c]) ++ [d]) ++ r) "#" r' (zlen ((P ++ nss ++ [c]) ++ [d])) (uset_r r (uset_tolower t' (uset_rStart true Ut))) ltac:(zl)) as E.
      cbn [u_r u_q Ut unss uset_tolower uset_norm uset_SS uset_r uset_rStart] in E. rewrite Hq in E. exact E.
    + cbn [rcont]. change (is "#" "?") with false. change (is "?" "?") with true. cbn match.
      intros t'. rewrite Hqp.
      pose proof (At_q186 (pos + 2 + zlen r + 2) (((P ++ nss ++ [c]) ++ [d]) ++ r ++ ["?"%byte; "="%byte]) x r' (zlen ((P ++ nss ++ [c]) ++ [d])) (uset_r r (uset_tolower t' (uset_rStart true Ut))) ltac:(zl) Hqs Hf Hx) as E.
      exact E.
  - destruct (is "=" d) eqn:Ee.
    + eapply At_go; [| | |exact Hd|]; try lia. rewrite Hqp.
      pose proof (At_q135 (pos + 2) ((P ++ nss ++ [c]) ++ [d]) rest4 (zlen P) (unss nss (uset_tolower t u1)) ltac:(zl) Hqs Hf) as E.
      cbn [u_r unss uset_tolower uset_norm uset_SS] in E. rewrite Hr in E. exact E.
    + eapply At_nil; [|exact Hd|reflexivity]. lia.
Qed.
End X.
