(* The NID states of the RFC 8141 part of the goto program compute ref_nid8141. *)
From Coq Require Import Lia.
From Verif Require Import GoBase MachineSyntax MachineTables Machine Spec Ref Exec SimBase SimPrefix SimEsc Sim2141.
Local Open Scope Z_scope.
Local Opaque Exec.At.

(* state after 32-n NID characters; ok: the last one was alphanumeric *)
Definition nst (n : nat) (ok : bool) : N :=
  if ok then match n with O => 119%N | _ => (136 + N.of_nat n)%N end else (119 - N.of_nat n)%N.

Lemma delta_no cs b : (88 <= cs <= 117)%N ->
  delta cs b = if is "-" b then Some ((cs + 1)%N, None) else if alnum b then Some ((254 - cs)%N, None) else Some (0%N, Some 21%N).
Proof.
  intros H. apply (delta_sweep2 88 30 (fun cs b => if is "-" b then Some ((cs + 1)%N, None) else if alnum b then Some ((254 - cs)%N, None) else Some (0%N, Some 21%N))); [vm_compute; reflexivity|].
  cbn. lia.
Qed.
Lemma delta_ok cs b : (138 <= cs <= 166)%N ->
  delta cs b = if is ":" b then Some (120%N, Some 6%N) else if is "-" b then Some ((256 - cs)%N, None) else if alnum b then Some ((cs - 1)%N, None) else Some (0%N, Some 21%N).
Proof.
  intros H. apply (delta_sweep2 138 29 (fun cs b => if is ":" b then Some (120%N, Some 6%N) else if is "-" b then Some ((256 - cs)%N, None) else if alnum b then Some ((cs - 1)%N, None) else Some (0%N, Some 21%N))); [vm_compute; reflexivity|].
  cbn. lia.
Qed.
Definition plain8 : list stmt := [SSetErr Err8141Identifier 0; SDecP; SSetCS 193; SGotoAgain].
Lemma eof_sweep lo len :
  forallb (fun n => match eofact (N.of_nat n) with Some [SSetErr Err8141Identifier 0; SDecP; SSetCS 193; SGotoAgain] => true | _ => false end) (seq lo len) = true ->
  forall cs, (N.of_nat lo <= cs < N.of_nat lo + N.of_nat len)%N -> eofact cs = Some plain8.
Proof.
  intros K cs H. rewrite forallb_forall in K. specialize (K (N.to_nat cs)). rewrite N2Nat.id in K.
  assert (Hin : In (N.to_nat cs) (seq lo len)) by (apply in_seq; lia). specialize (K Hin).
  destruct (eofact cs) as [l|]; [|discriminate]. f_equal.
  repeat match type of K with
  | match ?x with _ => _ end = true => destruct x; try discriminate K
  end. reflexivity.
Qed.
Lemma eof_nst n (ok : bool) : (n <= 31)%nat -> (if ok then n <= 30 else 1 <= n)%nat -> eofact (nst n ok) = Some plain8.
Proof.
  intros H1 H2. unfold nst. destruct ok; [destruct n as [|n]|].
  - vm_compute; reflexivity.
  - apply (eof_sweep 137 30); [vm_compute; reflexivity|]. lia.
  - apply (eof_sweep 88 31); [vm_compute; reflexivity|]. lia.
Qed.

(* what state (n, ok) does on a byte, in terms of the counters *)
Lemma delta_nst n (ok : bool) b : (n <= 31)%nat -> (if ok then n <= 30 else 1 <= n)%nat ->
  delta (nst n ok) b =
    if is ":" b then (if ok then Some (120%N, Some 6%N) else Some (0%N, Some 21%N))
    else if is "-" b then match n with S (S _ as n') => Some (nst n' false, None) | _ => Some (0%N, Some 21%N) end
    else if alnum b then match n with S n' => Some (nst n' true, None) | O => Some (0%N, Some 21%N) end
    else Some (0%N, Some 21%N).
Proof.
  intros H1 H2.
  assert (Hc : is ":" b = true -> is "-" b = false /\ alnum b = false).
  { intros E. apply is_eq in E. subst b. split; reflexivity. }
  destruct ok.
  - destruct n as [|[|n]].
    + change (nst 0 true) with 119%N.
      assert (K : forall b, delta 119 b = if is ":" b then Some (120%N, Some 6%N) else Some (0%N, Some 21%N)) by dsweep.
      rewrite K. destruct (is ":" b), (is "-" b), (alnum b); reflexivity.
    + change (nst 1 true) with 137%N.
      assert (K : forall b, delta 137 b = if is ":" b then Some (120%N, Some 6%N) else if alnum b then Some (119%N, None) else Some (0%N, Some 21%N)) by dsweep.
      rewrite K. destruct (is ":" b); [reflexivity|]. destruct (is "-" b) eqn:E.
      * apply is_eq in E. subst b. reflexivity.
      * reflexivity.
    + unfold nst at 1. rewrite delta_ok by lia. destruct (is ":" b); [reflexivity|].
      destruct (is "-" b); [unfold nst; f_equal; f_equal; lia|]. destruct (alnum b); [|reflexivity].
      unfold nst. f_equal; f_equal; lia.
  - destruct n as [|[|n]]; [lia| |].
    + change (nst 1 false) with 118%N.
      assert (K : forall b, delta 118 b = if alnum b then Some (119%N, None) else Some (0%N, Some 21%N)) by dsweep.
      rewrite K. destruct (is ":" b). { destruct (Hc eq_refl) as [_ ->]. reflexivity. }
      destruct (is "-" b) eqn:E; [apply is_eq in E; subst b|]; reflexivity.
    + unfold nst at 1. rewrite delta_no by lia. destruct (is ":" b). { destruct (Hc eq_refl) as [-> ->]. reflexivity. }
      destruct (is "-" b); [unfold nst; f_equal; f_equal; lia|]. destruct (alnum b); [|reflexivity].
      unfold nst. f_equal; f_equal; lia.
Qed.
Lemma nst_range n (ok : bool) : (n <= 31)%nat -> (if ok then n <= 30 else 1 <= n)%nat -> (0 < nst n ok <= 167)%N.
Proof. intros H1 H2. unfold nst. destruct ok; [destruct n|]; lia. Qed.

Section X.
Variables (start : N) (mode : Z) (mset : bool).
Notation cfg := (cfg start mode mset).
Notation At := (At start mode mset).
Notation errf := (errf start mode mset).
Notation erre := (erre start mode mset).

Lemma step_colon8 cs pre1 v r u o :
  (0 < cs <= 193)%N -> delta cs ":" = Some (120%N, Some 6%N) ->
  At 120 (pre1 ++ v ++ colon) r (zlen pre1) (uset_ID v u) o ->
  At cs (pre1 ++ v) (":"%byte :: r) (zlen pre1) u o.
Proof.
  intros Hcs Hd HA. eapply At_byte; [exact Hcs| | |exact Hd| |rewrite <- app_assoc; exact HA]; [lia|lia|].
  unfold exec_opt. cbn [f_block exec_block exec_stmt].
  rewrite text_mid' by reflexivity. reflexivity.
Qed.

Lemma sim_nid8w n : forall (ok : bool) rest pos pre1 v u,
  (n <= 31)%nat -> (if ok then n <= 30 else 1 <= n)%nat -> pos = zlen (pre1 ++ v) ->
  wp (ref_nid8w UNo n ok pos rest)
     (fun er => At (nst n ok) (pre1 ++ v) rest (zlen pre1) u (OErr er)) False
     (fun w r => forall o, At 120 (pre1 ++ (v ++ w) ++ colon) r (zlen pre1) (uset_ID (v ++ w) u) o ->
                 At (nst n ok) (pre1 ++ v) rest (zlen pre1) u o).
Proof.
  induction n as [n IH] using (well_founded_induction Wf_nat.lt_wf).
  intros ok rest pos pre1 v u Hn Hok ->.
  pose proof (nst_range n ok Hn Hok) as Hr.
  assert (Hr' : (0 < nst n ok <= 193)%N) by lia.
  destruct rest as [|c s'].
  { destruct n; cbn; (apply At_erre; split; [apply Hr'|]; exists plain8; split; [apply eof_nst; assumption|apply errs_plain]). }
  pose proof (delta_nst n ok c Hn Hok) as Hd.
  assert (Hbad : delta (nst n ok) c = Some (0%N, Some 21%N) ->
     At (nst n ok) (pre1 ++ v) (c :: s') (zlen pre1) u (OErr (mkErr Err8141Identifier (zlen (pre1 ++ v))))).
  { intros E. eapply At_errf; [exact Hr'|exact E|solve_errf]. }
  assert (Hgo : forall n' (ok' : bool), (n' < n)%nat -> (if ok' then n' <= 30 else 1 <= n')%nat -> delta (nst n ok) c = Some (nst n' ok', None) ->
     wp (wcons c (ref_nid8w UNo n' ok' (zlen (pre1 ++ v) + 1) s'))
     (fun er => At (nst n ok) (pre1 ++ v) (c :: s') (zlen pre1) u (OErr er)) False
     (fun w r => forall o, At 120 (pre1 ++ (v ++ w) ++ colon) r (zlen pre1) (uset_ID (v ++ w) u) o ->
                 At (nst n ok) (pre1 ++ v) (c :: s') (zlen pre1) u o)).
  { intros n' ok' Hlt Hok' E. pose proof (nst_range n' ok' ltac:(lia) Hok') as Hr2.
    apply wp_wcons. eapply wp_mono; [apply (IH n' Hlt ok' s' (zlen (pre1 ++ v) + 1) pre1 (v ++ [c]) u); [lia|exact Hok'|zl]| |auto|].
    - cbn beta. intros er HA. eapply At_byte; [exact Hr'| | |exact E|reflexivity|rewrite <- app_assoc; exact HA]; lia.
    - cbn beta. intros w r HA o HA'. eapply At_byte; [exact Hr'| | |exact E|reflexivity|rewrite <- app_assoc; apply HA]; [lia|lia|].
      rewrite <- !app_assoc in HA'. rewrite <- !app_assoc. exact HA'. }
  destruct (is ":" c) eqn:Ec.
  - pose proof (is_eq _ _ Ec). subst c. destruct ok; destruct n; cbn; try (apply Hbad; exact Hd);
    (rewrite app_nil_r; intros o HA; eapply step_colon8; eauto).
  - destruct (is "-" c) eqn:Em.
    + destruct n as [|[|n]]; [| |]; cbn [ref_nid8w]; rewrite Ec, Em; try (cbn; apply Hbad; exact Hd).
      apply (Hgo (S n) false); [lia|lia|exact Hd].
    + destruct (alnum c) eqn:Ea.
      * destruct n as [|n]; cbn [ref_nid8w]; rewrite Ec, Em, Ea; [cbn; apply Hbad; exact Hd|].
        apply (Hgo n true); [lia|lia|exact Hd].
      * destruct n; cbn [ref_nid8w]; rewrite Ec, Em, Ea; cbn; apply Hbad; exact Hd.
Qed.

Definition uid8 (w : bytes) (u : URN) : URN :=
  uset_ID w (if starts_urn_dash w then uset_prefix (firstn 3 w) u else u).

(* leave the "urn-" track *)
Lemma leave_track n (ok : bool) cs c s' pos pre1 v u fo :
  (n <= 31)%nat -> (if ok then n <= 30 else 1 <= n)%nat -> pos = zlen (pre1 ++ v) ->
  (0 < cs <= 193)%N ->
  delta cs c = Some (nst n ok, fo) ->
  (exec_opt fo (cfg ((pre1 ++ v) ++ c :: s') (nst n ok) (zlen (pre1 ++ v)) (zlen pre1), u)
    = Ret ((cfg ((pre1 ++ v) ++ c :: s') (nst n ok) (zlen (pre1 ++ v)) (zlen pre1), u), Again)) ->
  (forall w, starts_urn_dash (v ++ c :: w) = false) ->
  wp (wcons c (ref_nid8w UNo n ok (pos + 1) s'))
     (fun er => At cs (pre1 ++ v) (c :: s') (zlen pre1) u (OErr er)) False
     (fun w r => forall o, At 120 (pre1 ++ (v ++ w) ++ colon) r (zlen pre1) (uid8 (v ++ w) u) o ->
                 At cs (pre1 ++ v) (c :: s') (zlen pre1) u o).
Proof.
  intros Hn Hok -> Hcs Hd Hx Hs. pose proof (nst_range n ok Hn Hok) as Hr2.
  apply wp_wcons. eapply wp_mono; [apply (sim_nid8w n ok s' (zlen (pre1 ++ v) + 1) pre1 (v ++ [c]) u); [exact Hn|exact Hok|zl]| |auto|].
  - cbn beta. intros er HA. eapply At_byte; [exact Hcs| | |exact Hd|exact Hx|rewrite <- app_assoc; exact HA]; lia.
  - cbn beta. intros w r HA o HA'. eapply At_byte; [exact Hcs| | |exact Hd|exact Hx|rewrite <- app_assoc; apply HA]; [lia|lia|].
    unfold uid8 in HA'. rewrite (Hs w) in HA'. rewrite <- !app_assoc in HA'. rewrite <- !app_assoc. exact HA'.
Qed.

Lemma sud1 c w : isl "u" c = false -> starts_urn_dash (c :: w) = false.
Proof. intros H. destruct w as [|? [|? [|? ?]]]; cbn; rewrite ?H; reflexivity. Qed.
Lemma sud2 c d w : isl "r" d = false -> starts_urn_dash (c :: d :: w) = false.
Proof. intros H. destruct w as [|? [|? ?]]; cbn; rewrite ?H, ?andb_false_r; reflexivity. Qed.
Lemma sud3 c d e w : isl "n" e = false -> starts_urn_dash (c :: d :: e :: w) = false.
Proof. intros H. destruct w as [|? ?]; cbn; rewrite ?H, ?andb_false_r; reflexivity. Qed.
Lemma sud4 c d e f w : is "-" f = false -> starts_urn_dash (c :: d :: e :: f :: w) = false.
Proof. intros H. cbn; rewrite ?H, ?andb_false_r; reflexivity. Qed.
Lemma sud0 w : (List.length w < 4)%nat -> starts_urn_dash w = false.
Proof. destruct w as [|? [|? [|? [|? ?]]]]; cbn; intros; try reflexivity; lia. Qed.


Lemma sim_u4 pre1 v rest u :
  wp (ref_nid8w U4 28 false (zlen (pre1 ++ v)) rest)
     (fun er => At 170 (pre1 ++ v) rest (zlen pre1) u (OErr er)) False
     (fun w r => forall o, At 120 (pre1 ++ (v ++ w) ++ colon) r (zlen pre1) (uset_ID (v ++ w) u) o ->
                 At 170 (pre1 ++ v) rest (zlen pre1) u o).
Proof.
  destruct rest as [|c s']. { cbn. apply At_erre. solve_erre. }
  assert (Hd : delta 170 c = if is "-" c then Some (92%N, None) else if alnum c then
     (if is "0" c || upper c || lower c then Some (171%N, None) else Some (163%N, None)) else Some (0%N, Some 21%N))
    by (clear; revert c; dsweep).
  assert (Hgo : forall n' (ok' : bool), (n' <= 31)%nat -> (if ok' then n' <= 30 else 1 <= n')%nat -> delta 170 c = Some (nst n' ok', None) ->
     wp (wcons c (ref_nid8w UNo n' ok' (zlen (pre1 ++ v) + 1) s'))
     (fun er => At 170 (pre1 ++ v) (c :: s') (zlen pre1) u (OErr er)) False
     (fun w r => forall o, At 120 (pre1 ++ (v ++ w) ++ colon) r (zlen pre1) (uset_ID (v ++ w) u) o ->
                 At 170 (pre1 ++ v) (c :: s') (zlen pre1) u o)).
  { intros n' ok' Hlt Hok' E. pose proof (nst_range n' ok' Hlt Hok') as Hr2.
    apply wp_wcons. eapply wp_mono; [apply (sim_nid8w n' ok' s' (zlen (pre1 ++ v) + 1) pre1 (v ++ [c]) u); [lia|exact Hok'|zl]| |auto|].
    - cbn beta. intros er HA. eapply At_byte; [| | |exact E|reflexivity|rewrite <- app_assoc; exact HA]; lia.
    - cbn beta. intros w r HA o HA'. eapply At_byte; [| | |exact E|reflexivity|rewrite <- app_assoc; apply HA]; [lia|lia|lia|].
      rewrite <- !app_assoc in HA'. rewrite <- !app_assoc. exact HA'. }
  cbn [ref_nid8w utrk_next].
  destruct (is ":" c) eqn:Ec.
  { apply is_eq in Ec. subst c. cbn. eapply At_errf; [lia|exact Hd|solve_errf]. }
  destruct (is "-" c) eqn:Em. { apply (Hgo 27%nat false); [lia|lia|exact Hd]. }
  destruct (alnum c) eqn:Ea. 2:{ cbn. eapply At_errf; [lia|exact Hd|solve_errf]. }
  destruct (is "0" c || upper c || lower c).
  - cbn. eapply At_informal; [lia|exact Hd|reflexivity].
  - apply (Hgo 27%nat true); [lia|lia|exact Hd].
Qed.

Lemma firstn_3 {A} (a b c : A) l : firstn 3 (a :: b :: c :: l) = [a; b; c].
Proof. reflexivity. Qed.

Lemma sim_u3 pre1 c1 c2 c3 rest u :
  let v := [c1; c2; c3] in
  isl "u" c1 = true -> isl "r" c2 = true -> isl "n" c3 = true ->
  wp (ref_nid8w U3 29 true (zlen (pre1 ++ v)) rest)
     (fun er => At 169 (pre1 ++ v) rest (zlen pre1) u (OErr er)) False
     (fun w r => forall o, At 120 (pre1 ++ (v ++ w) ++ colon) r (zlen pre1) (uid8 (v ++ w) u) o ->
                 At 169 (pre1 ++ v) rest (zlen pre1) u o).
Proof.
  intros v H1 H2 H3. destruct rest as [|c s']. { cbn. apply At_erre. solve_erre. }
  assert (Hd : delta 169 c = if is ":" c then Some (120%N, Some 6%N) else if is "-" c then Some (170%N, Some 2%N) else if alnum c then Some (164%N, None) else Some (0%N, Some 21%N))
    by (clear; revert c; dsweep).
  cbn [ref_nid8w utrk_next].
  destruct (is ":" c) eqn:Ec.
  { apply is_eq in Ec. subst c. cbn. intros o HA. eapply step_colon8; [lia|exact Hd|]. exact HA. }
  destruct (is "-" c) eqn:Em.
  - apply wp_wcons.
    assert (Hstep : forall o, At 170 (pre1 ++ v ++ [c]) s' (zlen pre1) (uset_prefix v u) o -> At 169 (pre1 ++ v) (c :: s') (zlen pre1) u o).
    { intros o HA. eapply At_byte; [| | |exact Hd| |rewrite <- app_assoc; exact HA]; [lia|lia|lia|].
      unfold exec_opt. cbn [f_block exec_block exec_stmt]. rewrite text_mid' by reflexivity. reflexivity. }
    replace (zlen (pre1 ++ v) + 1) with (zlen (pre1 ++ v ++ [c])) by zl.
    eapply wp_mono; [apply (sim_u4 pre1 (v ++ [c]) s' (uset_prefix v u))| |auto|].
    + cbn beta. intros er HA. apply Hstep, HA.
    + cbn beta. intros w r HA o HA'. apply Hstep, HA.
      replace ((v ++ [c]) ++ w) with (v ++ c :: w) by (rewrite <- app_assoc; reflexivity).
      assert (Hs : starts_urn_dash (v ++ c :: w) = true) by (cbn; rewrite H1, H2, H3, Em; reflexivity).
      unfold uid8 in HA'. rewrite Hs in HA'. exact HA'.
  - destruct (alnum c) eqn:Ea. 2:{ cbn. eapply At_errf; [lia|exact Hd|solve_errf]. }
    eapply leave_track; [lia|lia|reflexivity|lia|exact Hd|reflexivity|]. intros w. apply sud4. exact Em.
Qed.

Lemma sim_u2 pre1 c1 c2 rest u :
  let v := [c1; c2] in
  isl "u" c1 = true -> isl "r" c2 = true ->
  wp (ref_nid8w U2 30 true (zlen (pre1 ++ v)) rest)
     (fun er => At 168 (pre1 ++ v) rest (zlen pre1) u (OErr er)) False
     (fun w r => forall o, At 120 (pre1 ++ (v ++ w) ++ colon) r (zlen pre1) (uid8 (v ++ w) u) o ->
                 At 168 (pre1 ++ v) rest (zlen pre1) u o).
Proof.
  intros v H1 H2. destruct rest as [|c s']. { cbn. apply At_erre. solve_erre. }
  assert (Hd : delta 168 c = if is ":" c then Some (120%N, Some 6%N) else if is "-" c then Some (90%N, None) else if alnum c then Some (if isl "n" c then 169%N else 165%N, None) else Some (0%N, Some 20%N))
    by (clear; revert c; dsweep).
  cbn [ref_nid8w utrk_next].
  destruct (is ":" c) eqn:Ec.
  { apply is_eq in Ec. subst c. cbn. intros o HA. eapply step_colon8; [lia|exact Hd|]. exact HA. }
  destruct (is "-" c) eqn:Em.
  - apply is_eq in Em. subst c. change (isl "n" "-") with false. cbn match.
    eapply leave_track; [lia|lia|reflexivity|lia|exact Hd|reflexivity|]. intros w. apply sud3. reflexivity.
  - destruct (alnum c) eqn:Ea. 2:{ cbn. eapply At_errf; [lia|exact Hd|solve_errf]. }
    destruct (isl "n" c) eqn:En.
    2:{ eapply leave_track; [lia|lia|reflexivity|lia|exact Hd|reflexivity|]. intros w. apply sud3. exact En. }
    assert (Hstep : forall o, At 169 (pre1 ++ v ++ [c]) s' (zlen pre1) u o -> At 168 (pre1 ++ v) (c :: s') (zlen pre1) u o).
    { intros o HA. eapply At_byte; [| | |exact Hd|reflexivity|rewrite <- app_assoc; exact HA]; lia. }
    apply wp_wcons.
    replace (zlen (pre1 ++ v) + 1) with (zlen (pre1 ++ [c1; c2; c])) by (unfold v; rewrite !zlen_app; reflexivity || (unfold zlen; cbn [List.length]; lia)).
    eapply wp_mono; [apply (sim_u3 pre1 c1 c2 c s' u H1 H2 En)| |auto|].
    + cbn beta. intros er HA. apply Hstep, HA.
    + cbn beta. intros w r HA o HA'. apply Hstep, HA. exact HA'.
Qed.

Lemma sim_u1 pre1 c1 rest u :
  let v := [c1] in
  isl "u" c1 = true ->
  wp (ref_nid8w U1 31 false (zlen (pre1 ++ v)) rest)
     (fun er => At 167 (pre1 ++ v) rest (zlen pre1) u (OErr er)) False
     (fun w r => forall o, At 120 (pre1 ++ (v ++ w) ++ colon) r (zlen pre1) (uid8 (v ++ w) u) o ->
                 At 167 (pre1 ++ v) rest (zlen pre1) u o).
Proof.
  intros v H1. destruct rest as [|c s']. { cbn. apply At_erre. solve_erre. }
  assert (Hd : delta 167 c = if is "-" c then Some (89%N, None) else if alnum c then Some (if isl "r" c then 168%N else 166%N, None) else Some (0%N, Some 20%N))
    by (clear; revert c; dsweep).
  cbn [ref_nid8w utrk_next].
  destruct (is ":" c) eqn:Ec.
  { apply is_eq in Ec. subst c. cbn. eapply At_errf; [lia|exact Hd|solve_errf]. }
  destruct (is "-" c) eqn:Em.
  - apply is_eq in Em. subst c. change (isl "r" "-") with false. cbn match.
    eapply leave_track; [lia|lia|reflexivity|lia|exact Hd|reflexivity|]. intros w. apply sud2. reflexivity.
  - destruct (alnum c) eqn:Ea. 2:{ cbn. eapply At_errf; [lia|exact Hd|solve_errf]. }
    destruct (isl "r" c) eqn:En.
    2:{ eapply leave_track; [lia|lia|reflexivity|lia|exact Hd|reflexivity|]. intros w. apply sud2. exact En. }
    assert (Hstep : forall o, At 168 (pre1 ++ v ++ [c]) s' (zlen pre1) u o -> At 167 (pre1 ++ v) (c :: s') (zlen pre1) u o).
    { intros o HA. eapply At_byte; [| | |exact Hd|reflexivity|rewrite <- app_assoc; exact HA]; lia. }
    apply wp_wcons.
    replace (zlen (pre1 ++ v) + 1) with (zlen (pre1 ++ [c1; c])) by (unfold v; rewrite !zlen_app; unfold zlen; cbn [List.length]; lia).
    eapply wp_mono; [apply (sim_u2 pre1 c1 c s' u H1 En)| |auto|].
    + cbn beta. intros er HA. apply Hstep, HA.
    + cbn beta. intros w r HA o HA'. apply Hstep, HA. exact HA'.
Qed.

Lemma sim_nid8 pos pre1 rest pb u :
  pos = zlen pre1 -> u_prefix u <> [] ->
  wp (ref_nid8141 mode pos rest)
     (fun er => At 87 pre1 rest pb u (OErr er)) False
     (fun w r => forall o, At 120 (pre1 ++ w ++ colon) r (zlen pre1) (uid8 w u) o ->
                 At 87 pre1 rest pb u o).
Proof.
  intros -> Hpre. unfold ref_nid8141. destruct rest as [|c s'].
  { cbn. apply At_erre. solve_erre. }
  assert (Hd : delta 87 c = if alnum c then (if isl "u" c then Some (167%N, Some 1%N) else Some (88%N, Some 4%N)) else Some (0%N, Some 20%N))
    by (revert c; dsweep).
  destruct (alnum c) eqn:Ea.
  2:{ cbn. eapply At_errf; [lia|exact Hd|solve_errf]. }
  destruct (isl "u" c) eqn:Eu; cbn [andb].
  2:{ apply wp_wcons. eapply wp_mono;
       [apply (sim_nid8w 31 false s' (zlen pre1 + 1) pre1 [c] u); [lia|lia|zl] | | auto | ].
      - cbn beta. intros er HA. eapply At_byte; [| | |exact Hd|apply x_mark|exact HA]; lia.
      - cbn beta. intros w r HA o HA'. eapply At_byte; [| | |exact Hd|apply x_mark|apply HA]; [lia|lia|lia|].
        unfold uid8 in HA'. rewrite (sud1 c w Eu) in HA'. exact HA'. }
  destruct (looks_urn mode (c :: s')) eqn:El.
  { cbn. eapply At_err; [|exact Hd|apply x_f1_err; assumption]. lia. }
  apply wp_wcons. replace (zlen pre1 + 1) with (zlen (pre1 ++ [c])) by zl.
  eapply wp_mono; [apply (sim_u1 pre1 c s' u Eu)| |auto|].
  - cbn beta. intros er HA. eapply At_byte; [| | |exact Hd|apply x_f1_later; assumption|exact HA]; lia.
  - cbn beta. intros w r HA o HA'. eapply At_byte; [| | |exact Hd|apply x_f1_later; assumption|apply HA; exact HA']; lia.
Qed.

End X.
