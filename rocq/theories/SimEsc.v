(* Simulation of percent escapes and of the RFC 2141 character loop. *)
From Coq Require Import Lia.
From Verif Require Import GoBase MachineSyntax MachineTables Machine Spec Ref Exec SimBase SimPrefix.
Local Open Scope Z_scope.

Lemma alnum_notpct b : alnum b = true -> notpct b = true.
Proof. revert b. apply bsweep_imp. vm_compute; reflexivity. Qed.
Lemma sss_notpct b : sss b = true -> notpct b = true.
Proof. revert b. apply bsweep_imp. vm_compute; reflexivity. Qed.
Lemma upper_alnum b : upper b = true -> alnum b = true.
Proof. revert b. apply bsweep_imp. vm_compute; reflexivity. Qed.

Lemma uset_tolower_id u : uset_tolower (u_tolower u) u = u.
Proof. destruct u; reflexivity. Qed.

Section X.
Variables (start : N) (mode : Z) (mset : bool).
Notation cfg := (cfg start mode mset).
Notation At := (At start mode mset).
Notation errf := (errf start mode mset).
Notation erre := (erre start mode mset).

(* ---- two escape digits --------------------------------------------------------- *)
Definition hexdelta (h h' fe : N) (b : byte) : option (N * option N) :=
  if upper b then Some (h', Some 9%N) else if alnum b then Some (h', None) else Some (0%N, Some fe).

(* illegal character / end of input in state h *)
Definition stops (h : N) (oE oX : Z -> pout) : Prop :=
  (forall pre b rest pb u, alnum b = false -> At h pre (b :: rest) pb u (oE (zlen pre))) /\
  (forall pre pb u, At h pre [] pb u (oX (zlen pre))).

Definition dig (pb p : Z) (a : byte) : list Z := if upper a then [p - pb] else [].

Lemma sim_digit h h' fe pre a rest pb u o :
  (0 < h <= 193)%N -> (0 < h' <= 193)%N -> h' <> 171%N ->
  (forall b, delta h b = hexdelta h h' fe b) -> alnum a = true ->
  At h' (pre ++ [a]) rest pb (uset_tolower (u_tolower u ++ dig pb (zlen pre) a) u) o ->
  At h pre (a :: rest) pb u o.
Proof.
  intros H1 H2 H3 Hd Ha HA. specialize (Hd a). unfold hexdelta in Hd. rewrite Ha in Hd.
  unfold dig in HA. destruct (upper a).
  - eapply At_byte; [assumption|exact H2|assumption|exact Hd|apply x_tolower|exact HA].
  - eapply At_byte; [assumption|exact H2|assumption|exact Hd|reflexivity|].
    rewrite app_nil_r, uset_tolower_id in HA. exact HA.
Qed.

(* state h1 reads the first digit, h2 the second, ending in sE *)
Lemma sim_hex2' h1 h2 sE fe oE oX oE2 oX2 pre rest pb u :
  (0 < h1 <= 193)%N -> (0 < h2 <= 193)%N -> (0 < sE <= 193)%N -> h2 <> 171%N -> sE <> 171%N ->
  (forall b, delta h1 b = hexdelta h1 h2 fe b) -> (forall b, delta h2 b = hexdelta h2 sE fe b) ->
  stops h1 oE oX -> stops h2 oE2 oX2 ->
  match rest with
  | [] => At h1 pre rest pb u (oX (zlen pre))
  | a :: s2 =>
      if alnum a then
        match s2 with
        | [] => At h1 pre rest pb u (oX2 (zlen pre + 1))
        | b :: s3 =>
            if alnum b then
              forall o, At sE (pre ++ [a; b]) s3 pb
                (uset_tolower (u_tolower u ++ dig pb (zlen pre) a ++ dig pb (zlen pre + 1) b) u) o ->
              At h1 pre rest pb u o
            else At h1 pre rest pb u (oE2 (zlen pre + 1))
        end
      else At h1 pre rest pb u (oE (zlen pre))
  end.
Proof.
  intros H1 H2 H3 H4 H5 Hd1 Hd2 [Hb1 He1] [Hb2 He2].
  destruct rest as [|a s2]; [apply He1|].
  destruct (alnum a) eqn:Ha; [|apply Hb1; exact Ha].
  assert (Hp : zlen pre + 1 = zlen (pre ++ [a])) by zl.
  destruct s2 as [|b s3].
  { eapply sim_digit; [exact H1|exact H2|exact H4|exact Hd1|exact Ha|]. rewrite Hp. apply He2. }
  destruct (alnum b) eqn:Hb.
  - intros o HA. eapply sim_digit; [exact H1|exact H2|exact H4|exact Hd1|exact Ha|].
    eapply sim_digit; [exact H2|exact H3|exact H5|exact Hd2|exact Hb|].
    rewrite <- app_assoc. cbn [app u_tolower uset_tolower].
    rewrite <- app_assoc, <- Hp. exact HA.
  - eapply sim_digit; [exact H1|exact H2|exact H4|exact Hd1|exact Ha|]. rewrite Hp. apply Hb2. exact Hb.
Qed.
Definition sim_hex2 h1 h2 sE fe oE oX pre rest pb u :=
  sim_hex2' h1 h2 sE fe oE oX oE oX pre rest pb u.

Lemma stops_hexf h h' fe e (xH : Z -> perr) :
  (0 < h <= 193)%N ->
  (forall b, delta h b = hexdelta h h' fe b) -> errf fe e ->
  (forall pre pb u, At h pre [] pb u (OErr (xH (zlen pre)))) ->
  stops h (fun p => OErr (mkErr e p)) (fun p => OErr (xH p)).
Proof.
  intros H1 Hd Hf Hx. split; [|exact Hx]. intros pre b rest pb u Hb. specialize (Hd b).
  unfold hexdelta in Hd. rewrite Hb in Hd.
  destruct (upper b) eqn:E; [apply upper_alnum in E; congruence|].
  eapply At_errf; eauto.
Qed.

(* ---- the loop of RFC 2141 characters -------------------------------------------- *)
Section Loop.
(* after a plain character, first and second digit, after an escape *)
Variables (sP h1 h2 sE fS fH : N) (eS eH : errconst) (xE xH : Z -> perr).
Hypothesis (RP : (0 < sP <= 193)%N) (R1 : (0 < h1 <= 193)%N) (R2 : (0 < h2 <= 193)%N) (RE : (0 < sE <= 193)%N).
Hypothesis (NP : sP <> 171%N) (N1 : h1 <> 171%N) (N2 : h2 <> 171%N) (NE : sE <> 171%N).
Hypothesis DP : forall b, delta sP b = if is "%" b then Some (h1, None) else if sss b then Some (sP, None) else Some (0%N, Some fS).
Hypothesis DE : forall b, delta sE b = if is "%" b then Some (h1, None) else if sss b then Some (sP, None) else Some (0%N, Some fH).
Hypothesis D1 : forall b, delta h1 b = hexdelta h1 h2 fH b.
Hypothesis D2 : forall b, delta h2 b = hexdelta h2 sE fH b.
Hypothesis (FS : errf fS eS) (FH : errf fH eH).
Hypothesis (X1 : forall pre pb u, At h1 pre [] pb u (OErr (xH (zlen pre))))
           (X2 : forall pre pb u, At h2 pre [] pb u (OErr (xH (zlen pre)))).

Definition lst (k : epos) : N := match k with EHex => sE | _ => sP end.

Lemma sim_hexloop pre1 w rest u :
  let pre := pre1 ++ w ++ ["%"%byte] in
  escaped alnum notpct w -> u_tolower u = upos 0 w ->
  match rest with
  | [] => At h1 pre rest (zlen pre1) u (OErr (xH (zlen pre)))
  | a :: s2 =>
      if alnum a then
        match s2 with
        | [] => At h1 pre rest (zlen pre1) u (OErr (xH (zlen pre + 1)))
        | b :: s3 =>
            if alnum b then
              let w' := w ++ ["%"%byte; a; b] in
              escaped alnum notpct w' /\
              forall o, At sE (pre1 ++ w') s3 (zlen pre1) (uset_tolower (upos 0 w') u) o ->
              At h1 pre rest (zlen pre1) u o
            else At h1 pre rest (zlen pre1) u (OErr (mkErr eH (zlen pre + 1)))
        end
      else At h1 pre rest (zlen pre1) u (OErr (mkErr eH (zlen pre)))
  end.
Proof.
  intros pre Hw Ht.
  pose proof (sim_hex2 h1 h2 sE fH (fun p => OErr (mkErr eH p)) (fun p => OErr (xH p)) pre rest (zlen pre1) u
    R1 R2 RE N2 NE D1 D2 (stops_hexf h1 h2 fH eH xH R1 D1 FH X1) (stops_hexf h2 sE fH eH xH R2 D2 FH X2)) as K.
  destruct rest as [|a s2]; [exact K|]. destruct (alnum a) eqn:Ha; [|exact K].
  destruct s2 as [|b s3]; [exact K|]. destruct (alnum b) eqn:Hb; [|exact K].
  cbn zeta. split.
  - apply escaped_app; [exact Hw|]. apply esc_pct; auto. apply esc_nil.
  - intros o HA. apply K. unfold pre. rewrite <- !app_assoc. cbn [app].
    replace (u_tolower u ++ dig (zlen pre1) (zlen (pre1 ++ w ++ ["%"%byte])) a ++
      dig (zlen pre1) (zlen (pre1 ++ w ++ ["%"%byte]) + 1) b) with (upos 0 (w ++ ["%"%byte; a; b])); [exact HA|].
    rewrite (upos_app alnum) by exact Hw. rewrite Ht. cbn [upos]. rewrite is_refl. f_equal.
    rewrite app_nil_r. unfold dig. rewrite !zlen_app.
    f_equal; [destruct (upper a)|destruct (upper b)]; try reflexivity; f_equal; zl.
Qed.

Lemma sim_loop n : forall rest, (List.length rest <= n)%nat -> forall k pos pre1 w u,
  k <> EStart -> pos = zlen (pre1 ++ w) ->
  escaped alnum notpct w -> u_tolower u = upos 0 w ->
  wp (ref_nss eS eH xE xH k pos rest)
     (fun er => At (lst k) (pre1 ++ w) rest (zlen pre1) u (OErr er)) False
     (fun w' r => r = [] /\
        (escaped alnum notpct (w ++ w') ->
         forall o, (forall k', At (lst k') (pre1 ++ w ++ w') [] (zlen pre1) (uset_tolower (upos 0 (w ++ w')) u) o) ->
        At (lst k) (pre1 ++ w) rest (zlen pre1) u o)).
Proof.
  induction n as [|n IH]; intros rest Hn k pos pre1 w u Hk -> Hw Ht.
  - destruct rest; [|cbn in Hn; lia]. destruct k; cbn; try congruence;
    (split; [reflexivity|]; intros _ o HA; rewrite app_nil_r in HA; rewrite <- Ht, uset_tolower_id in HA).
    apply (HA EPlain). apply (HA EHex).
  - destruct rest as [|c s1].
    { destruct k; cbn; try congruence;
    (split; [reflexivity|]; intros _ o HA; rewrite app_nil_r in HA; rewrite <- Ht, uset_tolower_id in HA).
      apply (HA EPlain). apply (HA EHex). }
    cbn [List.length] in Hn.
    assert (Hl : (0 < lst k <= 193)%N) by (destruct k; assumption).
    assert (Hd : delta (lst k) c = if is "%" c then Some (h1, None) else if sss c then Some (sP, None)
                 else Some (0%N, Some (match k with EHex => fH | _ => fS end)))
      by (destruct k; [congruence|apply DP|apply DE]).
    cbn [ref_nss]. destruct (is "%" c) eqn:Epc.
    + apply is_eq in Epc. subst c.
      pose proof (sim_hexloop pre1 w s1 u Hw Ht) as K. cbn zeta in K.
      replace (zlen (pre1 ++ w) + 1) with (zlen (pre1 ++ w ++ ["%"%byte])) by zl.
      replace (zlen (pre1 ++ w) + 2) with (zlen (pre1 ++ w ++ ["%"%byte]) + 1) by zl.
      assert (Hstep : forall o, At h1 (pre1 ++ w ++ ["%"%byte]) s1 (zlen pre1) u o ->
                At (lst k) (pre1 ++ w) ("%"%byte :: s1) (zlen pre1) u o).
      { intros o HA. eapply At_byte; [exact Hl|exact R1|exact N1|exact Hd|reflexivity|].
        rewrite <- app_assoc. exact HA. }
      destruct s1 as [|a s2]; [cbn; auto|]. destruct (alnum a) eqn:Ha; [|cbn; auto].
      destruct s2 as [|b s3]; [cbn; auto|]. destruct (alnum b) eqn:Hb; [|cbn; auto].
      destruct K as [Hw' K].
      do 3 apply wp_wcons.
      eapply wp_mono.
      * apply (IH s3) with (pre1 := pre1) (w := w ++ ["%"%byte; a; b]) (u := uset_tolower (upos 0 (w ++ ["%"%byte; a; b])) u);
          [cbn [List.length] in Hn; lia|congruence| |exact Hw'|reflexivity].
        zl.
      * cbn beta. intros er HA. apply Hstep, K. exact HA.
      * auto.
      * cbn beta. intros w' r [Hr HA]. split; [exact Hr|].
        intros He o HA'. apply Hstep, K. apply HA.
        -- rewrite <- app_assoc. exact He.
        -- intros k'. specialize (HA' k'). rewrite <- !app_assoc. exact HA'.
    + destruct (sss c) eqn:Es.
      * apply wp_wcons.
        assert (Hw' : escaped alnum notpct (w ++ [c])).
        { apply escaped_app; [exact Hw|]. apply esc_plain; [unfold notpct; rewrite Epc; reflexivity|apply esc_nil]. }
        assert (Hstep : forall o, At sP (pre1 ++ w ++ [c]) s1 (zlen pre1) u o ->
                At (lst k) (pre1 ++ w) (c :: s1) (zlen pre1) u o).
        { intros o HA. eapply At_byte; [exact Hl|exact RP|exact NP|exact Hd|reflexivity|].
          rewrite <- app_assoc. exact HA. }
        eapply wp_mono.
        -- apply (IH s1) with (pre1 := pre1) (w := w ++ [c]) (u := u);
             [lia|congruence|zl|exact Hw'|].
           rewrite (upos_app alnum) by exact Hw. rewrite Ht. cbn [upos]. rewrite Epc. rewrite app_nil_r. reflexivity.
        -- cbn beta. intros er HA. apply Hstep. exact HA.
        -- auto.
        -- cbn beta. intros w' r [Hr HA]. split; [exact Hr|].
           intros He o HA'. apply Hstep. apply HA; rewrite <- app_assoc; [exact He|exact HA'].
      * cbn. destruct k; [congruence| |]; eapply At_errf; eauto.
Qed.

End Loop.
End X.
