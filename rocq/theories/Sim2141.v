(* The goto program started at the RFC 2141 entry computes ref2141. *)
From Coq Require Import Lia.
From Verif Require Import GoBase MachineSyntax MachineTables Machine Spec Ref Exec SimBase SimPrefix SimEsc.
Local Open Scope Z_scope.

Lemma alnum_nid b : alnum b = true -> nid_char b = true.
Proof. revert b. apply bsweep_imp. vm_compute; reflexivity. Qed.

Lemma delta_nid cs b : (6 <= cs <= 36)%N ->
  delta cs b = if is ":" b then Some (38%N, Some 6%N) else if nid_char b then Some ((cs + 1)%N, None) else Some (0%N, Some 5%N).
Proof.
  intros H. apply (delta_sweep2 6 31 (fun cs b => if is ":" b then Some (38%N, Some 6%N) else if nid_char b then Some ((cs + 1)%N, None) else Some (0%N, Some 5%N))); [vm_compute; reflexivity|].
  cbn. lia.
Qed.
Lemma eof_nid cs : (6 <= cs <= 37)%N -> exists b, eofact cs = Some b /\ b = [SSetErr ErrIdentifier 0; SDecP; SSetCS 193; SGotoAgain].
Proof.
  intros H.
  assert (K : forallb (fun n => match eofact (N.of_nat n) with Some [SSetErr ErrIdentifier 0; SDecP; SSetCS 193; SGotoAgain] => true | _ => false end) (seq 6 32) = true)
    by (vm_compute; reflexivity).
  rewrite forallb_forall in K. specialize (K (N.to_nat cs)). rewrite N2Nat.id in K.
  assert (Hin : In (N.to_nat cs) (seq 6 32)) by (apply in_seq; lia). specialize (K Hin).
  destruct (eofact cs) as [l|]; [|discriminate]. exists l. split; [reflexivity|].
  repeat match type of K with
  | match ?x with _ => _ end = true => destruct x; try discriminate K
  end. reflexivity.
Qed.

Section X.
Variables (start : N) (mode : Z) (mset : bool).
Hypothesis Hmode : mode <> PRFC8141Only.
Notation cfg := (cfg start mode mset).
Notation At := (At start mode mset).
Notation errf := (errf start mode mset).
Notation erre := (erre start mode mset).

(* ":" at the end of the NID *)
Lemma step_colon cs pre1 v r u o :
  (0 < cs <= 193)%N -> delta cs ":" = Some (38%N, Some 6%N) ->
  At 38 (pre1 ++ v ++ colon) r (zlen pre1) (uset_ID v u) o ->
  At cs (pre1 ++ v) (":"%byte :: r) (zlen pre1) u o.
Proof.
  intros Hcs Hd HA. eapply At_byte; [exact Hcs| | |exact Hd| |rewrite <- app_assoc; exact HA]; [lia|lia|].
  unfold exec_opt. cbn [f_block exec_block exec_stmt].
  rewrite text_mid' by reflexivity. reflexivity.
Qed.

Lemma sim_nidw n : forall rest pos pre1 v u cs, (n <= 31)%nat -> cs = (37 - N.of_nat n)%N -> pos = zlen (pre1 ++ v) ->
  wp (ref_nidw n pos rest)
     (fun er => At cs (pre1 ++ v) rest (zlen pre1) u (OErr er)) False
     (fun w r => forall o, At 38 (pre1 ++ (v ++ w) ++ colon) r (zlen pre1) (uset_ID (v ++ w) u) o ->
                 At cs (pre1 ++ v) rest (zlen pre1) u o).
Proof.
  induction n as [|n IH]; intros rest pos pre1 v u cs Hn -> ->.
  - cbn [ref_nidw]. destruct rest as [|c s'].
    { cbn. apply At_erre. solve_erre. }
    change (37 - N.of_nat 0)%N with 37%N.
    assert (Hd : delta 37 c = if is ":" c then Some (38%N, Some 6%N) else Some (0%N, Some 5%N))
      by (revert c; dsweep).
    destruct (is ":" c) eqn:E.
    + apply is_eq in E. subst c. cbn. rewrite app_nil_r. intros o HA. eapply step_colon; eauto. lia.
    + assert (K : wp (WErr (mkErr ErrIdentifier (zlen (pre1 ++ v))))
        (fun er => At 37 (pre1 ++ v) (c :: s') (zlen pre1) u (OErr er)) False
        (fun w r => forall o, At 38 (pre1 ++ (v ++ w) ++ colon) r (zlen pre1) (uset_ID (v ++ w) u) o ->
                 At 37 (pre1 ++ v) (c :: s') (zlen pre1) u o)).
      { cbn. eapply At_errf; [lia|exact Hd|solve_errf]. }
      destruct (nid_char c); exact K.
  - remember (37 - N.of_nat (S n))%N as cs eqn:Ecs.
    assert (Hcs : (6 <= cs <= 36)%N) by lia.
    cbn [ref_nidw]. destruct rest as [|c s'].
    { cbn. apply At_erre. split; [lia|]. destruct (eof_nid cs) as [b [Hb ->]]; [lia|]. eexists; split; [exact Hb|apply errs_plain]. }
    pose proof (delta_nid cs c Hcs) as Hd.
    destruct (is ":" c) eqn:E.
    + apply is_eq in E. subst c. cbn. rewrite app_nil_r. intros o HA. eapply step_colon; eauto. lia.
    + destruct (nid_char c) eqn:En.
      * apply wp_wcons. eapply wp_mono.
        -- apply (IH s' (zlen (pre1 ++ v) + 1) pre1 (v ++ [c]) u (cs + 1)%N); [lia|lia|zl].
        -- cbn beta. intros er HA. eapply At_byte; [lia| | |exact Hd|reflexivity|rewrite <- app_assoc; exact HA]; lia.
        -- auto.
        -- cbn beta. intros w r HA o HA'. eapply At_byte; [lia| | |exact Hd|reflexivity|rewrite <- app_assoc; apply HA]; [lia|lia|].
           rewrite <- !app_assoc in HA'. rewrite <- !app_assoc. exact HA'.
      * cbn. eapply At_errf; [lia|exact Hd|solve_errf].
Qed.

(* one more NID character from the states that watch for "urn" *)
Lemma sim_nid_step n cs cs' c s' pos pre1 v u fe er0 :
  (0 < cs <= 193)%N -> (0 < cs' <= 193)%N -> cs' <> 171%N -> pos = zlen (pre1 ++ v) ->
  delta cs ":" = Some (38%N, Some 6%N) \/ is ":" c = false ->
  delta cs c = (if is ":" c then Some (38%N, Some 6%N) else if nid_char c then Some (cs', None) else Some (0%N, Some fe)) ->
  errf fe ErrIdentifier -> er0 = ErrIdentifier ->
  (nid_char c = true -> is ":" c = false ->
   wp (ref_nidw n (pos + 1) s')
     (fun er => At cs' (pre1 ++ (v ++ [c])) s' (zlen pre1) u (OErr er)) False
     (fun w r => forall o, At 38 (pre1 ++ ((v ++ [c]) ++ w) ++ colon) r (zlen pre1) (uset_ID ((v ++ [c]) ++ w) u) o ->
                 At cs' (pre1 ++ (v ++ [c])) s' (zlen pre1) u o)) ->
  wp (ref_nidw (S n) pos (c :: s'))
     (fun er => At cs (pre1 ++ v) (c :: s') (zlen pre1) u (OErr er)) False
     (fun w r => forall o, At 38 (pre1 ++ (v ++ w) ++ colon) r (zlen pre1) (uset_ID (v ++ w) u) o ->
                 At cs (pre1 ++ v) (c :: s') (zlen pre1) u o).
Proof.
  intros Hcs Hcs' H171 -> Hcol Hd Hf _ Hk. cbn [ref_nidw].
  destruct (is ":" c) eqn:E.
  - pose proof (is_eq _ _ E). subst c. destruct Hcol as [Hcol|?]; [|discriminate].
    cbn. rewrite app_nil_r. intros o HA. eapply step_colon; eauto.
  - destruct (nid_char c) eqn:En.
    + apply wp_wcons. eapply wp_mono; [apply Hk; reflexivity| |auto|].
      * cbn beta. intros er HA. eapply At_byte; [exact Hcs|exact Hcs'|exact H171|exact Hd|reflexivity|rewrite <- app_assoc; exact HA].
      * cbn beta. intros w r HA o HA'. eapply At_byte; [exact Hcs|exact Hcs'|exact H171|exact Hd|reflexivity|rewrite <- app_assoc; apply HA].
        rewrite <- !app_assoc in HA'. rewrite <- !app_assoc. exact HA'.
    + cbn. eapply At_errf; [exact Hcs|exact Hd|exact Hf].
Qed.

Lemma sim_nid pos pre1 rest pb u :
  pos = zlen pre1 -> u_prefix u <> [] ->
  wp (ref_nid2141 mode pos rest)
     (fun er => At 5 pre1 rest pb u (OErr er)) False
     (fun w r => forall o, At 38 (pre1 ++ w ++ colon) r (zlen pre1) (uset_ID w u) o ->
                 At 5 pre1 rest pb u o).
Proof.
  intros -> Hpre. unfold ref_nid2141. destruct rest as [|c s'].
  { cbn. apply At_erre. solve_erre. }
  assert (Hd : delta 5 c = if alnum c then (if isl "u" c then Some (41%N, Some 1%N) else Some (6%N, Some 4%N)) else Some (0%N, Some 3%N))
    by (revert c; dsweep).
  destruct (alnum c) eqn:Ea.
  2:{ cbn. eapply At_errf; [lia|exact Hd|solve_errf]. }
  destruct (isl "u" c) eqn:Eu; cbn [andb].
  2:{ apply wp_wcons. eapply wp_mono;
       [apply (sim_nidw 31 s' (zlen pre1 + 1) pre1 [c] u 6%N); [lia|reflexivity|zl] | | auto | ].
      - cbn beta. intros er HA. eapply At_byte; [| | |exact Hd|apply x_mark|exact HA]; lia.
      - cbn beta. intros w r HA o HA'. eapply At_byte; [| | |exact Hd|apply x_mark|apply HA; exact HA']; lia. }
  destruct (looks_urn mode (c :: s')) eqn:El.
  { cbn. eapply At_err; [|exact Hd|apply x_f1_err; assumption]. lia. }
  assert (Hl : nth_error s' 2 <> Some ":"%byte).
  { unfold looks_urn in El. destruct (mode =? PRFC8141Only) eqn:Em; [apply Z.eqb_eq in Em; contradiction|].
    cbn [negb andb nth_error] in El. cbn [nth_error]. destruct s' as [|? [|? [|x ?]]]; try discriminate.
    intros [= ->]. discriminate. }
  apply wp_wcons.
  eapply wp_mono with (R := fun w r => forall o, At 38 (pre1 ++ ([c] ++ w) ++ colon) r (zlen pre1) (uset_ID ([c] ++ w) u) o -> At 41 (pre1 ++ [c]) s' (zlen pre1) u o)
    (P := fun er => At 41 (pre1 ++ [c]) s' (zlen pre1) u (OErr er)); [| | exact (fun x : False => x) |].
  2:{ intros er HA. eapply At_byte; [| | |exact Hd|apply x_f1_later; assumption|exact HA]; lia. }
  2:{ intros w r HA o HA'. eapply At_byte; [| | |exact Hd|apply x_f1_later; assumption|apply HA; exact HA']; lia. }
  replace (zlen pre1 + 1) with (zlen (pre1 ++ [c])) by zl.
  destruct s' as [|c2 s2]. { cbn. apply At_erre. solve_erre. }
  assert (Hd2 : delta 41 c2 = if is ":" c2 then Some (38%N, Some 6%N) else if nid_char c2 then Some (if isl "r" c2 then 42%N else 7%N, None) else Some (0%N, Some 3%N))
    by (clear; revert c2; dsweep).
  eapply sim_nid_step; [lia| | | |left; vm_compute; reflexivity|exact Hd2|solve_errf|reflexivity|].
  { destruct (isl "r" c2); lia. } { destruct (isl "r" c2); lia. } { reflexivity. }
  intros Hn2 Hc2. replace (zlen (pre1 ++ [c]) + 1) with (zlen (pre1 ++ [c] ++ [c2])) by zl.
  destruct (isl "r" c2) eqn:Er.
  2:{ apply sim_nidw; [lia|reflexivity|reflexivity]. }
  destruct s2 as [|c3 s3]. { cbn. apply At_erre. solve_erre. }
  assert (Hd3 : delta 42 c3 = if is ":" c3 then Some (38%N, Some 6%N) else if nid_char c3 then Some (if isl "n" c3 then 43%N else 8%N, None) else Some (0%N, Some 3%N))
    by (clear; revert c3; dsweep).
  eapply sim_nid_step; [lia| | | |left; vm_compute; reflexivity|exact Hd3|solve_errf|reflexivity|].
  { destruct (isl "n" c3); lia. } { destruct (isl "n" c3); lia. } { reflexivity. }
  intros Hn3 Hc3. replace (zlen (pre1 ++ [c] ++ [c2]) + 1) with (zlen (pre1 ++ ([c] ++ [c2]) ++ [c3])) by zl.
  destruct (isl "n" c3) eqn:Erx.
  2:{ apply sim_nidw; [lia|reflexivity|reflexivity]. }
  destruct s3 as [|c4 s4]. { cbn. apply At_erre. solve_erre. }
  assert (Hc4 : is ":" c4 = false).
  { destruct (is ":" c4) eqn:E; [|reflexivity]. apply is_eq in E. subst c4. exfalso. apply Hl. reflexivity. }
  assert (Hd4 : delta 43 c4 = if nid_char c4 then Some (9%N, None) else Some (0%N, Some 10%N))
    by (clear; revert c4; dsweep).
  eapply sim_nid_step; [lia| | | |right; exact Hc4|rewrite Hc4; exact Hd4|solve_errf|reflexivity|].
  { lia. } { lia. } { reflexivity. }
  intros _ _. apply sim_nidw; [lia|reflexivity|zl].
Qed.

(* NSS from its first character *)
Definition usetNSS (k : Z) (w : bytes) (u : URN) : pub :=
  pub_of (uset_kind k (uset_norm (norm_pct w) (uset_SS w u))).

Lemma eof_34 cs pre1 w u :
  (cs = 172 \/ cs = 173)%N -> escaped alnum notpct w -> u_tolower u = upos 0 w ->
  At cs (pre1 ++ w) [] (zlen pre1) u (OUrn (usetNSS KRFC2141 w u)).
Proof.
  intros Hcs Hw Ht.
  eapply At_eof_ok with (blk := [SSetSS; SForTolower 32; SSetNorm; SForTolower (-32); SSetKind KRFC2141]).
  - lia.
  - destruct Hcs as [->| ->]; vm_compute; reflexivity.
  - rewrite <- app_assoc. rewrite (x_setnss start mode mset alnum pre1 w [] cs u _ Hw Ht). reflexivity.
  - rewrite <- app_assoc. cbn [fin]. cbn. repeat (split; [reflexivity|]).
    split; [|split; [reflexivity|reflexivity]]. destruct Hcs as [->| ->]; reflexivity.
Qed.

Lemma ref_nss_escaped eS eH xE xH n : forall s, (List.length s <= n)%nat -> forall k pos,
  wp (ref_nss eS eH xE xH k pos s) (fun _ => True) False
     (fun w r => r = [] /\ w = s /\ escaped alnum sss w /\ (k = EStart -> w <> [])).
Proof.
  induction n as [|n IH]; intros s Hn k pos.
  - destruct s; [|cbn in Hn; lia]. destruct k; cbn; auto; (split; [|split; [|split]]); auto; try apply esc_nil; discriminate.
  - destruct s as [|c s1].
    { destruct k; cbn; auto; (split; [|split; [|split]]); auto; try apply esc_nil; discriminate. }
    cbn [ref_nss List.length] in *. destruct (is "%" c) eqn:E.
    + apply is_eq in E. subst c. destruct s1 as [|a [|b s3]]; [exact I|destruct (alnum a); exact I|].
      destruct (alnum a) eqn:Ha; [|exact I]. destruct (alnum b) eqn:Hb; [|exact I].
      do 3 apply wp_wcons. eapply wp_mono; [apply (IH s3); cbn [List.length] in Hn; lia|auto|auto|].
      cbn beta. intros w r (H1 & H2 & H3 & _). subst. split; [reflexivity|split;[reflexivity|split]].
      * apply esc_pct; assumption.
      * discriminate.
    + destruct (sss c) eqn:Es; [|exact I]. apply wp_wcons.
      eapply wp_mono; [apply (IH s1); lia|auto|auto|].
      cbn beta. intros w r (H1 & H2 & H3 & _). subst. split; [reflexivity|split;[reflexivity|split]].
      * apply esc_plain; assumption.
      * discriminate.
Qed.

Lemma escaped_sss w : escaped alnum sss w -> escaped alnum notpct w.
Proof. apply escaped_mono; [auto|apply sss_notpct]. Qed.

Lemma pub_tolower t k w u : usetNSS k w (uset_tolower t u) = usetNSS k w u.
Proof. reflexivity. Qed.

Lemma sim_nss pos pre1 rest pb u :
  pos = zlen pre1 -> u_tolower u = [] ->
  wp (ref_nss2141 mode pos rest)
     (fun er => At 38 pre1 rest pb u (OErr er)) False
     (fun w r => At 38 pre1 rest pb u (OUrn (usetNSS KRFC2141 w u))).
Proof.
  intros -> Ht. unfold ref_nss2141.
  set (eH := hx mode ErrSpecificString).
  pose proof (ref_nss_escaped ErrSpecificString eH (mkErr ErrSpecificString) (mkErr eH) (List.length rest) rest (le_n _) EStart (zlen pre1)) as Hesc.
  assert (D38 : forall b, delta 38 b = if is "%" b then Some (39%N, Some 4%N) else if sss b then Some (172%N, Some 4%N) else Some (0%N, Some 7%N)) by dsweep.
  assert (D172 : forall b, delta 172 b = if is "%" b then Some (39%N, None) else if sss b then Some (172%N, None) else Some (0%N, Some 7%N)) by dsweep.
  assert (D173 : forall b, delta 173 b = if is "%" b then Some (39%N, None) else if sss b then Some (172%N, None) else Some (0%N, Some 8%N)) by dsweep.
  assert (D39 : forall b, delta 39 b = hexdelta 39 40 8 b) by dsweep.
  assert (D40 : forall b, delta 40 b = hexdelta 40 173 8 b) by dsweep.
  assert (FS : errf 7 ErrSpecificString) by solve_errf.
  assert (FH : errf 8 eH) by solve_hxf.
  assert (X1 : forall pre pb u, At 39 pre [] pb u (OErr (mkErr eH (zlen pre)))) by (intros; apply At_erre; solve_hxe).
  assert (X2 : forall pre pb u, At 40 pre [] pb u (OErr (mkErr eH (zlen pre)))) by (intros; apply At_erre; solve_hxe).
  assert (Hfin : forall w u', escaped alnum notpct w -> forall k', At (lst 172 173 k') (pre1 ++ w) [] (zlen pre1) (uset_tolower (upos 0 w) u') (OUrn (usetNSS KRFC2141 w u'))).
  { intros w u' Hw k'. rewrite <- (pub_tolower (upos 0 w)). apply eof_34; [destruct k'; auto|exact Hw|reflexivity]. }
  destruct rest as [|c s1]. { cbn. apply At_erre. solve_erre. }
  cbn [ref_nss] in *. specialize (D38 c). destruct (is "%" c) eqn:Epc.
  - apply is_eq in Epc. subst c.
    pose proof (sim_hexloop start mode mset 172 39 40 173 8 eH (mkErr eH) ltac:(lia) ltac:(lia) ltac:(lia) ltac:(lia) ltac:(lia) ltac:(lia) ltac:(lia) ltac:(lia) D39 D40 FH X1 X2 pre1 [] s1 u (esc_nil _ _) Ht) as K.
    cbn zeta in K. cbn [app] in K.
    replace (zlen pre1 + 1) with (zlen (pre1 ++ ["%"%byte])) in * by zl.
    replace (zlen pre1 + 2) with (zlen (pre1 ++ ["%"%byte]) + 1) in * by zl.
    assert (Hstep : forall o, At 39 (pre1 ++ ["%"%byte]) s1 (zlen pre1) u o -> At 38 pre1 ("%"%byte :: s1) pb u o).
    { intros o HA. eapply At_byte; [| | |exact D38|apply x_mark|exact HA]; lia. }
    destruct s1 as [|a [|b s3]]; [cbn; auto|destruct (alnum a); cbn; auto|].
    destruct (alnum a) eqn:Ha; [|cbn; auto]. destruct (alnum b) eqn:Hb; [|cbn; auto].
    destruct K as [Hw' K].
    pose proof (sim_loop start mode mset 172 39 40 173 7 8 ErrSpecificString eH (mkErr ErrSpecificString) (mkErr eH)
      ltac:(lia) ltac:(lia) ltac:(lia) ltac:(lia) ltac:(lia) ltac:(lia) ltac:(lia) ltac:(lia) D172 D173 D39 D40 FS FH X1 X2
      (List.length s3) s3 (le_n _) EHex (zlen pre1 + 3) pre1 ["%"%byte; a; b] (uset_tolower (upos 0 ["%"%byte; a; b]) u)
      ltac:(discriminate) ltac:(zl) Hw' eq_refl) as L.
    destruct (ref_nss ErrSpecificString eH (mkErr ErrSpecificString) (mkErr eH) EHex (zlen pre1 + 3) s3) as [er| |w' r]; cbn in *.
    + apply Hstep, K, L.
    + exact L.
    + destruct L as [-> L]. destruct Hesc as (_ & _ & Hesc & _). apply escaped_sss in Hesc.
      apply Hstep, K. apply L; [exact Hesc|]. intros k'. apply (Hfin _ u Hesc k').
  - destruct (sss c) eqn:Es.
    + assert (Hstep : forall o, At 172 (pre1 ++ [c]) s1 (zlen pre1) u o -> At 38 pre1 (c :: s1) pb u o).
      { intros o HA. eapply At_byte; [| | |exact D38|apply x_mark|exact HA]; lia. }
      pose proof (sim_loop start mode mset 172 39 40 173 7 8 ErrSpecificString eH (mkErr ErrSpecificString) (mkErr eH)
        ltac:(lia) ltac:(lia) ltac:(lia) ltac:(lia) ltac:(lia) ltac:(lia) ltac:(lia) ltac:(lia) D172 D173 D39 D40 FS FH X1 X2
        (List.length s1) s1 (le_n _) EPlain (zlen pre1 + 1) pre1 [c] u
        ltac:(discriminate) ltac:(zl) ltac:(apply esc_plain; [apply sss_notpct; exact Es|apply esc_nil])
        ltac:(rewrite Ht; cbn; rewrite Epc; reflexivity)) as L.
      destruct (ref_nss ErrSpecificString eH (mkErr ErrSpecificString) (mkErr eH) EPlain (zlen pre1 + 1) s1) as [er| |w' r]; cbn in *.
      * apply Hstep, L.
      * exact L.
      * destruct L as [-> L]. destruct Hesc as (_ & _ & Hesc & _). apply escaped_sss in Hesc.
        apply Hstep. apply L; [exact Hesc|]. intros k'. apply (Hfin _ u Hesc k').
    + cbn. eapply At_errf; [lia|exact D38|exact FS].
Qed.

Lemma ref_lit_len e ps : forall pos s, match ref_lit e ps pos s with WGo w _ => zlen w = zlen ps | _ => True end.
Proof.
  induction ps as [|p ps IH]; intros pos s; cbn [ref_lit]; [reflexivity|].
  destruct s as [|c s]; [exact I|]. destruct (p c); [|exact I].
  specialize (IH (pos + 1) s). destruct (ref_lit e ps (pos + 1) s); cbn [wcons]; auto. unfold zlen in *. cbn [List.length]. lia.
Qed.
Lemma ref_prefix_len s : match ref_prefix s with WGo pre _ => zlen pre = 4 | _ => True end.
Proof. apply ref_lit_len. Qed.

Theorem sim2141 s : At 1 [] s 0 zeroURN (ref2141 mode s).
Proof.
  unfold ref2141. pose proof (sim_prefix start mode mset 1 s (or_introl eq_refl)) as K.
  pose proof (ref_prefix_len s) as Hlen.
  destruct (ref_prefix s) as [e| |pre rest]; cbn [wp] in K; [exact K|contradiction|].
  assert (Hne : firstn 3 pre <> []).
  { destruct pre; [discriminate|]. cbn. discriminate. }
  pose proof (sim_nid 4 pre rest 0 (uset_prefix (firstn 3 pre) zeroURN) (eq_sym Hlen) Hne) as K2.
  destruct (ref_nid2141 mode 4 rest) as [e| |nid rest2]; cbn [wp] in K2; [apply K, K2|contradiction|].
  pose proof (sim_nss (5 + zlen nid) (pre ++ nid ++ colon) rest2 (zlen pre) (uset_ID nid (uset_prefix (firstn 3 pre) zeroURN))
    ltac:(unfold colon; zl) eq_refl) as K3.
  destruct (ref_nss2141 mode (5 + zlen nid) rest2) as [e| |nss rest3]; cbn [wp] in K3; [apply K, K2, K3|contradiction|].
  apply K, K2. exact K3.
Qed.

End X.
