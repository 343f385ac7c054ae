(* Reference walk of RFC 8141 against the grammar of Spec.v. *)
From Coq Require Import Lia.
From Verif Require Import GoBase MachineSyntax Machine Spec Ref Exec SimBase Sim8141 RefSpec.
Local Open Scope Z_scope.

(* ---- NID ------------------------------------------------------------------------- *)
Fixpoint inf (t : utrk) (w : bytes) : bool :=
  match w with
  | [] => false
  | c :: w' => (match t with U4 => is "0" c || upper c || lower c | _ => false end) || inf (utrk_next t c) w'
  end.
Fixpoint lastok (ok : bool) (w : bytes) : bool :=
  match w with [] => ok | c :: w' => lastok (alnum c) w' end.

Lemma inf_no w : inf UNo w = false.
Proof. induction w as [|c w IH]; cbn; auto. Qed.

Lemma nid_alnum_dash c : nid_char c = true -> is "-" c = false -> alnum c = true.
Proof. unfold nid_char, is. intros H H2. rewrite H2, orb_false_r in H. exact H. Qed.
Lemma alnum_dash c : alnum c = true -> is "-" c = false.
Proof. intros H. destruct (is "-" c) eqn:E; [|reflexivity]. apply is_eq in E. subst c. discriminate H. Qed.

Lemma ref_nid8w_sound s : forall t n ok pos, wp (ref_nid8w t n ok pos s) (fun _ => True) False
  (fun w r => s = w ++ colon ++ r /\ forallb nid_char w = true /\ (List.length w <= n)%nat /\
              inf t w = false /\ lastok ok w = true).
Proof.
  induction s as [|c s IH]; intros t n ok pos; cbn [ref_nid8w]; [exact I|].
  destruct (is ":" c) eqn:E.
  { apply is_eq in E. subst c. destruct ok; [|exact I]. cbn. repeat split. lia. }
  destruct (is "-" c) eqn:Ed.
  - apply is_eq in Ed. subst c. destruct n as [|[|n]]; [exact I|exact I|].
    apply wp_wcons. eapply wp_mono; [apply IH|auto|auto|]. cbn beta. intros w r (-> & H1 & H2 & H3 & H4).
    cbn [app forallb List.length inf lastok]. change (alnum "-"%byte) with false. rewrite H1, H3, H4. repeat split; [lia|]. destruct t; reflexivity.
  - destruct (alnum c) eqn:Ea; [|exact I].
    assert (Hgo : forall t', t' = utrk_next t c -> (match t with U4 => is "0" c || upper c || lower c | _ => false end) = false ->
      wp (match n with S n' => wcons c (ref_nid8w t' n' true (pos + 1) s) | O => WErr (mkErr Err8141Identifier pos) end)
       (fun _ => True) False
       (fun w r => c :: s = w ++ colon ++ r /\ forallb nid_char w = true /\ (List.length w <= n)%nat /\
              inf t w = false /\ lastok ok w = true)).
    { intros t' Ht' H0. destruct n as [|n]; [exact I|].
      apply wp_wcons. eapply wp_mono; [apply IH|auto|auto|]. cbn beta. intros w r (-> & H1 & H2 & H3 & H4).
      cbn [app forallb List.length inf lastok]. rewrite H0, <- Ht', H1, H3, Ea, H4, (alnum_nid_char _ Ea).
      repeat split. lia. }
    destruct t; try (apply Hgo; reflexivity).
    destruct (is "0" c || upper c || lower c) eqn:Ei; [exact I|]. apply Hgo; reflexivity.
Qed.

Lemma ref_nid8w_complete w : forall t n ok pos r, forallb nid_char w = true -> (List.length w <= n)%nat ->
  inf t w = false -> lastok ok w = true -> ref_nid8w t n ok pos (w ++ colon ++ r) = WGo w r.
Proof.
  induction w as [|c w IH]; intros t n ok pos r H Hn Hi Hl; cbn [app].
  - cbn in *. subst ok. reflexivity.
  - cbn [forallb List.length inf lastok] in *. apply andb_prop in H. destruct H as [Hc H].
    apply orb_false_elim in Hi. destruct Hi as [Hi1 Hi2].
    cbn [ref_nid8w]. rewrite (nid_char_colon _ Hc).
    destruct n as [|n]; [lia|].
    destruct (is "-" c) eqn:Ed.
    + apply is_eq in Ed. subst c. cbn in Hl. destruct n as [|n].
      { destruct w; [discriminate Hl|cbn in Hn; lia]. }
      rewrite IH; auto. lia.
    + pose proof (nid_alnum_dash _ Hc Ed) as Ea. rewrite Ea in *.
      destruct t; try (rewrite IH; auto; lia).
      rewrite Hi1. cbn [utrk_next] in Hi2. rewrite IH; auto. lia.
Qed.

Lemma informal_inf c w : informal (c :: w) <-> isl "u" c && inf U1 w = true.
Proof.
  unfold informal. split.
  - intros (u & d & r & Hw & Hu & Hd). apply urn_word3 in Hu. destruct Hu as (x & y & z & -> & Hx & Hy & Hz).
    cbn [app] in Hw. injection Hw as -> ->. rewrite Hx. cbn [andb inf utrk_next]. rewrite Hy. cbn [inf utrk_next orb].
    rewrite Hz. cbn [inf utrk_next orb]. rewrite is_refl. cbn [inf utrk_next orb].
    destruct Hd as [->|[->| ->]]; [rewrite is_refl|rewrite orb_true_r|rewrite !orb_true_r]; reflexivity.
  - intros H. apply andb_prop in H. destruct H as [Hu H].
    destruct w as [|y w]; [discriminate H|]. cbn [inf utrk_next orb] in H.
    destruct (isl "r" y) eqn:Hy; [|rewrite inf_no in H; discriminate H].
    destruct w as [|z w]; [discriminate H|]. cbn [inf utrk_next orb] in H.
    destruct (isl "n" z) eqn:Hz; [|rewrite inf_no in H; discriminate H].
    destruct w as [|d w]; [discriminate H|]. cbn [inf utrk_next orb] in H.
    destruct (is "-" d) eqn:Hd; [|rewrite inf_no in H; discriminate H]. apply is_eq in Hd. subst d.
    destruct w as [|d w]; [discriminate H|]. cbn [inf utrk_next] in H. rewrite inf_no, orb_false_r in H.
    exists [c; y; z], d, w. split; [reflexivity|]. split; [apply urn_word3; exists c, y, z; auto|].
    apply orb_prop in H. destruct H as [H|H]; [|auto]. apply orb_prop in H. destruct H as [H|H]; [|auto].
    apply is_eq in H. auto.
Qed.

Lemma lastok_last w : forall ok, w <> [] -> (lastok ok w = true <-> exists c r, w = r ++ [c] /\ alnum c = true).
Proof.
  induction w as [|c w IH]; intros ok Hne; [contradiction Hne; reflexivity|]. cbn [lastok].
  destruct w as [|d w].
  - cbn [lastok]. split.
    + intros H. exists c, []. auto.
    + intros (x & r & H1 & H2). destruct r as [|y r]; [injection H1 as ->; exact H2|].
      injection H1 as -> H1. destruct r; discriminate H1.
  - rewrite IH by discriminate. split.
    + intros (x & r & H1 & H2). exists x, (c :: r). rewrite H1. auto.
    + intros (x & r & H1 & H2). destruct r as [|y r]; [discriminate H1|]. injection H1 as -> H1. exists x, r. auto.
Qed.

Section M.
Variable mode : Z.

Lemma ref_nid8141_sound p s pos : urn_word p ->
  wp (ref_nid8141 mode pos s) (fun _ => True) False
     (fun w r => s = w ++ colon ++ r /\ nid8141 w /\ (mode = PRFC8141Only \/ ~ u_lookahead (p ++ colon ++ s))).
Proof.
  intros Hp. unfold ref_nid8141. destruct s as [|c s]; [exact I|]. destruct (alnum c) eqn:Ea; [|exact I].
  destruct (isl "u" c && looks_urn mode (c :: s)) eqn:El; [exact I|].
  apply wp_wcons. eapply wp_mono; [apply ref_nid8w_sound|auto|auto|]. cbn beta. intros w r (-> & H1 & H2 & H3 & H4).
  split; [reflexivity|]. split.
  - assert (Hw : w <> []) by (intros ->; discriminate H4).
    unfold nid8141. cbn [forallb List.length]. rewrite (alnum_nid_char _ Ea), H1.
    split; [destruct w; [contradiction Hw; reflexivity|cbn [List.length] in *; lia]|].
    split; [reflexivity|]. split; [exists c, w; auto|]. split.
    + apply (lastok_last w false Hw) in H4. destruct H4 as (x & r' & -> & Hx). exists x, (c :: r'). auto.
    + rewrite informal_inf. destruct (isl "u" c); [rewrite H3|]; discriminate.
  - destruct (Z.eq_dec mode PRFC8141Only) as [Hm|Hm]; [left; exact Hm|right].
    cbn [app] in *. rewrite (u_lookahead_cons mode Hm _ _ _ Hp), El. discriminate.
Qed.
Lemma ref_nid8141_complete p w r pos : urn_word p -> nid8141 w ->
  (mode = PRFC8141Only \/ ~ u_lookahead (p ++ colon ++ w ++ colon ++ r)) ->
  ref_nid8141 mode pos (w ++ colon ++ r) = WGo w r.
Proof.
  intros Hp (Hl & Hall & (c & w' & -> & Hc) & Hlast & Hinf) Hla. cbn [app] in *.
  unfold ref_nid8141. rewrite Hc.
  assert (El : isl "u" c && looks_urn mode (c :: w' ++ colon ++ r) = false).
  { destruct Hla as [Hm|Hla]; [unfold looks_urn; rewrite Hm; apply andb_false_r|].
    destruct (Z.eq_dec mode PRFC8141Only) as [Hm|Hm]; [unfold looks_urn; rewrite Hm; apply andb_false_r|].
    rewrite (u_lookahead_cons mode Hm _ _ _ Hp) in Hla. destruct (isl "u" c && _); [contradiction Hla|]; reflexivity. }
  change (c :: w' ++ ":"%byte :: r) with (c :: w' ++ colon ++ r). rewrite El.
  cbn [forallb List.length] in *. apply andb_prop in Hall. destruct Hall as [_ Hall].
  change (w' ++ ":"%byte :: r) with (w' ++ colon ++ r). rewrite ref_nid8w_complete; [reflexivity|auto|lia| |].
  - rewrite informal_inf in Hinf. destruct (isl "u" c); [|apply inf_no]. cbn [andb] in Hinf.
    destruct (inf U1 w'); [contradiction Hinf|]; reflexivity.
  - assert (Hw : w' <> []) by (intros ->; cbn in Hl; lia). apply (lastok_last w' false Hw).
    destruct Hlast as (x & r' & H1 & H2). destruct r' as [|y r']; [injection H1 as _ H1; contradiction|].
    injection H1 as _ H1. exists x, r'. auto.
Qed.

(* ---- NSS --------------------------------------------------------------------------- *)
Definition nstop (r : bytes) : Prop :=
  r = [] \/ (exists r', r = "?"%byte :: r') \/ (exists r', r = "#"%byte :: r').

Lemma pchar_slash_of c : pchar c = true -> pchar_slash c = true.
Proof. unfold pchar_slash. intros ->. reflexivity. Qed.
Lemma pchar_not_pct c : pchar c = true -> is "%" c = false.
Proof. intros H. destruct (is "%" c) eqn:E; [|reflexivity]. apply is_eq in E. subst c. discriminate H. Qed.
Lemma pchar_slash_inv c : pchar_slash c = true -> pchar c = true \/ c = "/"%byte.
Proof. unfold pchar_slash. intros H. apply orb_prop in H. destruct H as [H|H]; [auto|]. right. apply beq_eq. exact H. Qed.

Lemma ref_nss8_sound n : forall s, (List.length s <= n)%nat -> forall k pos,
  wp (ref_nss8 mode k pos s) (fun _ => True) False
  (fun w r => s = w ++ r /\ escaped alnum pchar_slash w /\
     (k = EStart -> exists c r, w = c :: r /\ c <> "/"%byte) /\ nstop r).
Proof.
  induction n as [|n IH]; intros s Hn k pos.
  { destruct s; [|cbn in Hn; lia]. destruct k; cbn; auto; (split; [|split; [|split]]); auto; try apply esc_nil; try discriminate; left; reflexivity. }
  destruct s as [|c s1].
  { destruct k; cbn; auto; (split; [|split; [|split]]); auto; try apply esc_nil; try discriminate; left; reflexivity. }
  cbn [ref_nss8 List.length] in *.
  destruct (is "%" c) eqn:E.
  - apply is_eq in E. subst c. destruct s1 as [|a [|b s3]]; [exact I|destruct (alnum a); exact I|].
    destruct (alnum a) eqn:Ha; [|exact I]. destruct (alnum b) eqn:Hb; [|exact I].
    do 3 apply wp_wcons. eapply wp_mono; [apply (IH s3); cbn [List.length] in Hn; lia|auto|auto|].
    cbn beta. intros w r (-> & H2 & _ & H4). split; [reflexivity|]. split; [apply esc_pct; auto|].
    split; [intros _; eexists _, _; split; [reflexivity|discriminate]|exact H4].
  - assert (Hgo : pchar_slash c = true -> (k = EStart -> c <> "/"%byte) ->
      wp (wcons c (ref_nss8 mode EPlain (pos + 1) s1)) (fun _ => True) False
      (fun w r => c :: s1 = w ++ r /\ escaped alnum pchar_slash w /\
         (k = EStart -> exists c r, w = c :: r /\ c <> "/"%byte) /\ nstop r)).
    { intros Hc Hk. apply wp_wcons. eapply wp_mono; [apply (IH s1); lia|auto|auto|].
      cbn beta. intros w r (-> & H2 & _ & H4). split; [reflexivity|]. split; [apply esc_plain; auto|].
      split; [intros Hs; eexists _, _; split; [reflexivity|auto]|exact H4]. }
    destruct (pchar c) eqn:Ep.
    + apply Hgo; [apply pchar_slash_of; exact Ep|]. intros _ ->. discriminate Ep.
    + destruct k; [exact I| |].
      * destruct (is "/" c) eqn:Es; [apply is_eq in Es; subst c; apply Hgo; [reflexivity|discriminate]|].
        destruct (is "?" c || is "#" c) eqn:Eq; [|exact I].
        cbn. split; [reflexivity|]. split; [apply esc_nil|]. split; [discriminate|].
        apply orb_prop in Eq. destruct Eq as [Eq|Eq]; apply is_eq in Eq; subst c; right; eauto.
      * destruct (is "/" c) eqn:Es; [apply is_eq in Es; subst c; apply Hgo; [reflexivity|discriminate]|].
        destruct (is "?" c || is "#" c) eqn:Eq; [|exact I].
        cbn. split; [reflexivity|]. split; [apply esc_nil|]. split; [discriminate|].
        apply orb_prop in Eq. destruct Eq as [Eq|Eq]; apply is_eq in Eq; subst c; right; eauto.
Qed.
Lemma ref_nss8_complete w : escaped alnum pchar_slash w -> forall k pos r,
  (k = EStart -> exists c r, w = c :: r /\ c <> "/"%byte) -> nstop r ->
  ref_nss8 mode k pos (w ++ r) = WGo w r.
Proof.
  induction 1 as [|c w Hc Hw IH|a b w Ha Hb Hw IH]; intros k pos r Hk Hr; cbn [app].
  - destruct k; [destruct (Hk eq_refl) as (? & ? & HH & _); discriminate HH| |];
      destruct Hr as [->|[[r' ->]|[r' ->]]]; reflexivity.
  - cbn [ref_nss8]. destruct (pchar_slash_inv _ Hc) as [Hp| ->].
    + rewrite (pchar_not_pct _ Hp), Hp, IH by (auto; discriminate). reflexivity.
    + change (is "%" "/"%byte) with false. change (pchar "/"%byte) with false. cbn match.
      destruct k; [destruct (Hk eq_refl) as (? & ? & HH & H0); injection HH as <- <-; contradiction H0; reflexivity| |];
      (change (is "/" "/"%byte) with true; cbn match; rewrite IH by (auto; discriminate); reflexivity).
  - cbn [ref_nss8]. rewrite is_refl, Ha, Hb, IH by (auto; discriminate). reflexivity.
Qed.

(* ---- fragment ------------------------------------------------------------------------ *)
Lemma frag_not_pct c : frag_char c = true -> is "%" c = false.
Proof. intros H. destruct (is "%" c) eqn:E; [|reflexivity]. apply is_eq in E. subst c. discriminate H. Qed.

Lemma ref_frag_sound n : forall s, (List.length s <= n)%nat -> forall k pos,
  wp (ref_frag mode k pos s) (fun _ => True) True (fun w r => s = w /\ r = [] /\ escaped alnum frag_char w).
Proof.
  assert (Hx : forall p R, wp (hx_or_nil mode p) (fun _ => True) True R).
  { intros p R. unfold hx_or_nil. destruct (_ || _); exact I. }
  induction n as [|n IH]; intros s Hn k pos.
  { destruct s; [|cbn in Hn; lia]. cbn. repeat split. apply esc_nil. }
  destruct s as [|c s1]; [cbn; repeat split; apply esc_nil|].
  cbn [ref_frag List.length] in *.
  destruct (is "%" c) eqn:E.
  - apply is_eq in E. subst c. destruct s1 as [|a [|b s3]]; [apply Hx|destruct (alnum a); apply Hx|].
    destruct (alnum a) eqn:Ha; [|apply Hx]. destruct (alnum b) eqn:Hb; [|apply Hx].
    do 3 apply wp_wcons. eapply wp_mono; [apply (IH s3); cbn [List.length] in Hn; lia|auto|auto|].
    cbn beta. intros w r (-> & -> & H). repeat split. apply esc_pct; auto.
  - destruct (frag_char c) eqn:Ef.
    + apply wp_wcons. eapply wp_mono; [apply (IH s1); lia|auto|auto|].
      cbn beta. intros w r (-> & -> & H). repeat split. apply esc_plain; auto.
    + destruct k; [exact I|exact I|apply Hx].
Qed.
Lemma ref_frag_complete w : escaped alnum frag_char w -> forall k pos, ref_frag mode k pos w = WGo w [].
Proof.
  induction 1 as [|c w Hc Hw IH|a b w Ha Hb Hw IH]; intros k pos; cbn [ref_frag].
  - reflexivity.
  - rewrite (frag_not_pct _ Hc), Hc, IH. reflexivity.
  - rewrite is_refl, Ha, Hb, IH. reflexivity.
Qed.

(* ---- two-character patterns ------------------------------------------------------------- *)
(* every occurrence of "ab" in w is followed by a tail satisfying P *)
Definition occ (a b : byte) (P : bytes -> Prop) (w : bytes) : Prop :=
  forall x y, w = x ++ a :: b :: y -> P y.

Lemma occ_nil a b P : occ a b P [].
Proof. intros x y H. destruct x; discriminate H. Qed.
Lemma occ_one a b P c : occ a b P [c].
Proof. intros x y H. destruct x as [|? x]; [discriminate H|]. destruct x; discriminate H. Qed.
Lemma occ_other a b P c w : c <> a -> (occ a b P (c :: w) <-> occ a b P w).
Proof.
  intros Hc. split; intros H x y Hw.
  - apply (H (c :: x) y). rewrite Hw. reflexivity.
  - destruct x as [|d x]; [injection Hw as -> _; contradiction Hc; reflexivity|]. injection Hw as _ Hw. apply (H x y Hw).
Qed.
Lemma occ_hit a b P w : a <> b -> (occ a b P (a :: b :: w) <-> P w /\ occ a b P w).
Proof.
  intros Hab. split.
  - intros H. split; [apply (H []); reflexivity|]. intros x y Hw. apply (H (a :: b :: x)). rewrite Hw. reflexivity.
  - intros [H1 H2] x y Hw. destruct x as [|d x]; [injection Hw as <-; exact H1|].
    injection Hw as <- Hw. destruct x as [|e x]; [injection Hw as -> _; contradiction Hab; reflexivity|].
    injection Hw as <- Hw. apply (H2 x y Hw).
Qed.
Lemma occ_miss a b P c w : c <> b -> (occ a b P (a :: c :: w) <-> occ a b P (c :: w)).
Proof.
  intros Hc. split; intros H x y Hw.
  - apply (H (a :: x) y). rewrite Hw. reflexivity.
  - destruct x as [|d x]; [injection Hw as -> _; contradiction Hc; reflexivity|]. injection Hw as _ Hw. apply (H x y Hw).
Qed.

Definition slashed (y : bytes) : Prop := exists y', y = "/"%byte :: y'.
Definition eqtail (y : bytes) : Prop := y = [] \/ (exists y', y = "/"%byte :: y') \/ (exists y', y = "?"%byte :: y').

Lemma alnum_ne c d : alnum c = true -> alnum d = false -> c <> d.
Proof. intros H1 H2 ->. congruence. Qed.
Lemma is_ne c d : is d c = false -> c <> d.
Proof. intros H ->. rewrite is_refl in H. discriminate H. Qed.

Lemma occ_esc x P a b w : alnum a = true -> alnum b = true ->
  (occ "?" x P ("%"%byte :: a :: b :: w) <-> occ "?" x P w).
Proof.
  intros Ha Hb. rewrite occ_other by discriminate. rewrite occ_other by (apply alnum_ne; auto).
  rewrite occ_other by (apply alnum_ne; auto). reflexivity.
Qed.

Lemma frag_pchar c : pchar c = true -> frag_char c = true.
Proof. unfold frag_char. intros ->. reflexivity. Qed.
Lemma frag_ps c : pchar_slash c = true -> frag_char c = true.
Proof. intros H. destruct (pchar_slash_inv _ H) as [H1| ->]; [apply frag_pchar; exact H1|reflexivity]. Qed.
Lemma frag_inv c : frag_char c = true -> pchar c = true \/ c = "/"%byte \/ c = "?"%byte.
Proof.
  unfold frag_char. intros H. apply orb_prop in H. destruct H as [H|H]; [auto|right].
  unfold one_of in H. cbn [B list_byte_of_string] in H. cbn in H.
  destruct (Byte.eqb c "/") eqn:E1; [left; apply beq_eq; exact E1|].
  destruct (Byte.eqb c "?") eqn:E2; [right; apply beq_eq; exact E2|]. discriminate H.
Qed.

(* ---- q-component --------------------------------------------------------------------------- *)
Definition qctx (k : qpos) : bytes :=
  match k with QQ => B "?" | QQEq => B "?=" | _ => [] end.
Definition chead (w : bytes) : Prop := exists c r, w = c :: r /\ c <> "/"%byte /\ c <> "?"%byte.
Definition qstop (r : bytes) : Prop := r = [] \/ (exists r', r = "#"%byte :: r').

Lemma occ_ctx (k : qpos) c w : k <> QQEq -> c <> "?"%byte -> (k = QQ -> c <> "="%byte) ->
  (occ "?" "=" slashed (qctx k ++ c :: w) <-> occ "?" "=" slashed w).
Proof.
  intros Hk Hc He. destruct k; cbn [qctx app B list_byte_of_string]; try (rewrite occ_other by exact Hc; reflexivity).
  - change (B "?" ++ c :: w) with ("?"%byte :: c :: w). rewrite occ_miss by auto. rewrite occ_other by exact Hc. reflexivity.
  - contradiction Hk; reflexivity.
Qed.

Lemma ref_q_sound e0 n : forall s, (List.length s <= n)%nat -> forall k pos,
  wp (ref_q mode e0 k pos s) (fun _ => True) False
  (fun w r => s = w ++ r /\ escaped alnum frag_char w /\ (k = QStart -> chead w) /\
     occ "?" "=" slashed (qctx k ++ w) /\ qstop r).
Proof.
  assert (Hnil : forall k pos, wp (ref_q mode e0 k pos []) (fun _ => True) False
    (fun w r => [] = w ++ r /\ escaped alnum frag_char w /\ (k = QStart -> chead w) /\
     occ "?" "=" slashed (qctx k ++ w) /\ qstop r)).
  { intros k pos. destruct k; cbn; auto; (split; [reflexivity|]; split; [apply esc_nil|]; split; [discriminate|]; split;
     [first [apply occ_nil|apply occ_one]|left; reflexivity]). }
  induction n as [|n IH]; intros s Hn k pos.
  { destruct s; [|cbn in Hn; lia]. apply Hnil. }
  destruct s as [|c s1]; [apply Hnil|].
  cbn [ref_q List.length] in *.
  destruct (is "%" c) eqn:E.
  - apply is_eq in E. subst c.
    assert (Hgo : forall e, k <> QQEq -> wp match s1 with
            | [] => WErr (mkErr e (pos + 1))
            | a :: s2 =>
                if alnum a then
                  match s2 with
                  | [] => WErr (mkErr e (pos + 2))
                  | b :: s3 =>
                      if alnum b then wcons "%"%byte (wcons a (wcons b (ref_q mode e0 QHex (pos + 3) s3)))
                      else WErr (mkErr e (pos + 2))
                  end
                else WErr (mkErr e (pos + 1))
            end (fun _ => True) False
      (fun w r => "%"%byte :: s1 = w ++ r /\ escaped alnum frag_char w /\ (k = QStart -> chead w) /\
       occ "?" "=" slashed (qctx k ++ w) /\ qstop r)).
    { intros e Hk. destruct s1 as [|a [|b s3]]; [exact I|destruct (alnum a); exact I|].
      destruct (alnum a) eqn:Ha; [|exact I]. destruct (alnum b) eqn:Hb; [|exact I].
      do 3 apply wp_wcons. eapply wp_mono; [apply (IH s3); cbn [List.length] in Hn; lia|auto|auto|].
      cbn beta. intros w r (-> & H2 & _ & H3 & H4). split; [reflexivity|]. split; [apply esc_pct; auto|].
      split; [intros _; exists "%"%byte, (a :: b :: w); repeat split; discriminate|].
      split; [|exact H4]. rewrite occ_ctx by (auto; discriminate).
      rewrite occ_other by (apply alnum_ne; auto). rewrite occ_other by (apply alnum_ne; auto). exact H3. }
    destruct k; try (apply Hgo; discriminate). exact I.
  - assert (Hplain : k <> QQEq -> frag_char c = true -> (k = QStart -> c <> "/"%byte) -> c <> "?"%byte -> (k = QQ -> c <> "="%byte) ->
      wp (wcons c (ref_q mode e0 QPlain (pos + 1) s1)) (fun _ => True) False
      (fun w r => c :: s1 = w ++ r /\ escaped alnum frag_char w /\ (k = QStart -> chead w) /\
       occ "?" "=" slashed (qctx k ++ w) /\ qstop r)).
    { intros Hk Hf Hs Hq He. apply wp_wcons. eapply wp_mono; [apply (IH s1); lia|auto|auto|].
      cbn beta. intros w r (-> & H2 & _ & H3 & H4). split; [reflexivity|]. split; [apply esc_plain; auto|].
      split; [intros HK; exists c, w; auto|]. split; [|exact H4].
      rewrite occ_ctx by auto. exact H3. }
    assert (Hqq : k = QPlain \/ k = QHex \/ k = QQ -> c = "?"%byte ->
      wp (wcons c (ref_q mode e0 QQ (pos + 1) s1)) (fun _ => True) False
      (fun w r => c :: s1 = w ++ r /\ escaped alnum frag_char w /\ (k = QStart -> chead w) /\
       occ "?" "=" slashed (qctx k ++ w) /\ qstop r)).
    { intros Hk ->. apply wp_wcons. eapply wp_mono; [apply (IH s1); lia|auto|auto|].
      cbn beta. intros w r (-> & H2 & _ & H3 & H4). split; [reflexivity|]. split; [apply esc_plain; auto|].
      split; [destruct Hk as [->|[->| ->]]; discriminate|]. split; [|exact H4].
      change (qctx QQ ++ w) with ("?"%byte :: w) in H3.
      destruct Hk as [->|[->| ->]]; [exact H3|exact H3|]. change (qctx QQ ++ "?"%byte :: w) with ("?"%byte :: "?"%byte :: w).
      rewrite occ_miss by discriminate. exact H3. }
    assert (Hstop : is "#" c = true -> k = QPlain \/ k = QHex \/ k = QQ ->
      wp (WGo [] (c :: s1)) (fun _ => True) False
      (fun w r => c :: s1 = w ++ r /\ escaped alnum frag_char w /\ (k = QStart -> chead w) /\
       occ "?" "=" slashed (qctx k ++ w) /\ qstop r)).
    { intros Hc Hk. apply is_eq in Hc. subst c. cbn. split; [reflexivity|]. split; [apply esc_nil|].
      split; [destruct Hk as [->|[->| ->]]; discriminate|].
      split; [destruct Hk as [->|[->| ->]]; first [apply occ_nil|apply occ_one]|right; eauto]. }
    destruct k.
    + destruct (pchar c) eqn:Ep.
      { apply Hplain; try discriminate; [apply frag_pchar; exact Ep|intros _ ->; discriminate Ep|intros ->; discriminate Ep]. }
      destruct (is "?" c); [|exact I]. destruct s1 as [|d s2]; [exact I|]. destruct (is "=" d); [|exact I].
      destruct s2 as [|x s2]; [exact I|]. destruct (pchar x || one_of "%?#" x); exact I.
    + destruct (is "#" c) eqn:Eh; [apply Hstop; auto|]. destruct (is "?" c) eqn:Eq; [apply Hqq; [auto|apply is_eq; exact Eq]|].
      destruct (pchar_slash c) eqn:Ep; [|exact I].
      apply Hplain; try discriminate; [apply frag_ps; exact Ep|apply is_ne; exact Eq].
    + destruct (is "#" c) eqn:Eh; [apply Hstop; auto|]. destruct (is "?" c) eqn:Eq; [apply Hqq; [auto|apply is_eq; exact Eq]|].
      destruct (pchar_slash c) eqn:Ep; [|exact I].
      apply Hplain; try discriminate; [apply frag_ps; exact Ep|apply is_ne; exact Eq].
    + destruct (is "#" c) eqn:Eh; [apply Hstop; auto|].
      destruct (is "=" c) eqn:Ee.
      { apply is_eq in Ee. subst c. apply wp_wcons. eapply wp_mono; [apply (IH s1); lia|auto|auto|].
        cbn beta. intros w r (-> & H2 & _ & H3 & H4). split; [reflexivity|]. split; [apply esc_plain; auto|].
        split; [discriminate|]. split; [exact H3|exact H4]. }
      destruct (is "?" c) eqn:Eq; [apply Hqq; [auto|apply is_eq; exact Eq]|].
      destruct (pchar_slash c) eqn:Ep; [|exact I].
      apply Hplain; try discriminate; [apply frag_ps; exact Ep|apply is_ne; exact Eq|intros _; apply is_ne; exact Ee].
    + destruct (is "/" c) eqn:Es; [|destruct (pchar c || is "?" c || is "#" c); exact I].
      apply is_eq in Es. subst c. apply wp_wcons. eapply wp_mono; [apply (IH s1); lia|auto|auto|].
      cbn beta. intros w r (-> & H2 & _ & H3 & H4). split; [reflexivity|]. split; [apply esc_plain; auto|].
      split; [discriminate|]. split; [|exact H4]. change (qctx QQEq ++ "/"%byte :: w) with ("?"%byte :: "="%byte :: "/"%byte :: w).
      rewrite occ_hit by discriminate. split; [eexists; reflexivity|]. rewrite occ_other by discriminate. exact H3.
Qed.

Lemma pchar_ne c d : pchar c = true -> pchar d = false -> is d c = false.
Proof. intros H1 H2. destruct (is d c) eqn:E; [|reflexivity]. apply is_eq in E. subst c. congruence. Qed.

Lemma ref_q_complete e0 w : escaped alnum frag_char w -> forall k pos r,
  (k = QStart -> chead w) -> occ "?" "=" slashed (qctx k ++ w) -> qstop r ->
  ref_q mode e0 k pos (w ++ r) = WGo w r.
Proof.
  assert (Hneq : forall k v, occ "?" "=" slashed (qctx k ++ v) -> k = QQEq -> slashed v).
  { intros k v H ->. change (qctx QQEq ++ v) with ("?"%byte :: "="%byte :: v) in H. rewrite occ_hit in H by discriminate. tauto. }
  induction 1 as [|c w Hc Hw IH|a b w Ha Hb Hw IH]; intros k pos r Hk Ho Hr; cbn [app].
  - destruct k; try (destruct Hr as [->|[r' ->]]; reflexivity).
    + destruct (Hk eq_refl) as (? & ? & HH & _). discriminate HH.
    + destruct (Hneq _ _ Ho eq_refl) as [? HH]. discriminate HH.
  - assert (Ec : is "%" c = false) by (apply frag_not_pct; exact Hc).
    cbn [ref_q]. rewrite Ec.
    destruct k.
    + destruct (Hk eq_refl) as (x & t & HH & H1 & H2). injection HH as <- <-.
      destruct (frag_inv _ Hc) as [Hp|[->| ->]]; [|contradiction H1; reflexivity|contradiction H2; reflexivity].
      rewrite Hp, IH; auto; [discriminate|].
      rewrite occ_ctx in Ho by (auto; discriminate). exact Ho.
    + destruct (frag_inv _ Hc) as [Hp|[->| ->]].
      * rewrite (pchar_ne _ "#" Hp eq_refl), (pchar_ne _ "?" Hp eq_refl), (pchar_slash_of _ Hp), IH; auto; [discriminate|].
        rewrite occ_ctx in Ho by (try discriminate; apply is_ne, (pchar_ne _ "?" Hp eq_refl)). exact Ho.
      * cbn [is Byte.eqb]. rewrite occ_ctx in Ho by discriminate.
        cbn. rewrite IH; auto. discriminate.
      * cbn. rewrite IH; auto. discriminate.
    + destruct (frag_inv _ Hc) as [Hp|[->| ->]].
      * rewrite (pchar_ne _ "#" Hp eq_refl), (pchar_ne _ "?" Hp eq_refl), (pchar_slash_of _ Hp), IH; auto; [discriminate|].
        rewrite occ_ctx in Ho by (try discriminate; apply is_ne, (pchar_ne _ "?" Hp eq_refl)). exact Ho.
      * rewrite occ_ctx in Ho by discriminate.
        cbn. rewrite IH; auto. discriminate.
      * cbn. rewrite IH; auto. discriminate.
    + destruct (frag_inv _ Hc) as [Hp|[->| ->]].
      * rewrite (pchar_ne _ "#" Hp eq_refl), (pchar_ne _ "?" Hp eq_refl), (pchar_slash_of _ Hp).
        destruct (is "=" c) eqn:Ee.
        { apply is_eq in Ee. subst c. rewrite IH; auto. discriminate. }
        rewrite IH; auto; [discriminate|].
        rewrite occ_ctx in Ho by (try discriminate; first [apply is_ne, (pchar_ne _ "?" Hp eq_refl)|intros _; apply is_ne; exact Ee]). exact Ho.
      * rewrite occ_ctx in Ho by discriminate.
        cbn. rewrite IH; auto. discriminate.
      * change (qctx QQ ++ "?"%byte :: w) with ("?"%byte :: "?"%byte :: w) in Ho. rewrite occ_miss in Ho by discriminate.
        cbn. rewrite IH; auto. discriminate.
    + destruct (Hneq _ _ Ho eq_refl) as [y HH]. injection HH as -> ->.
      cbn. rewrite IH; auto; [discriminate|].
      change (qctx QQEq ++ "/"%byte :: y) with ("?"%byte :: "="%byte :: "/"%byte :: y) in Ho.
      rewrite occ_hit in Ho by discriminate. destruct Ho as [_ Ho]. rewrite occ_other in Ho by discriminate. exact Ho.
  - assert (Hk' : k <> QQEq).
    { intros ->. destruct (Hneq _ _ Ho eq_refl) as [y HH]. discriminate HH. }
    rewrite occ_ctx in Ho by (auto; discriminate).
    rewrite occ_other in Ho by (apply alnum_ne; auto). rewrite occ_other in Ho by (apply alnum_ne; auto).
    cbn [ref_q]. rewrite is_refl, Ha, Hb, IH by (auto; discriminate). destruct k; try reflexivity.
    contradiction Hk'; reflexivity.
Qed.

(* ---- r-component --------------------------------------------------------------------------- *)
Definition rctx (k : rpos) : bytes :=
  match k with RQ => B "?" | RQPlus => B "?+" | RQEq => B "?=" | _ => [] end.
Definition qopen (x : byte) : bool := pchar x || is "%" x.
Definition rstop (r : bytes) : Prop :=
  qstop r \/ (exists x r', r = "?"%byte :: "="%byte :: x :: r' /\ qopen x = true).
Definition rok (k : rpos) (w : bytes) : Prop :=
  occ "?" "+" slashed (rctx k ++ w) /\ occ "?" "=" eqtail (rctx k ++ w).

Lemma rok_step k c w k' : c <> "?"%byte -> k' = RPlain \/ k' = RHex ->
  (k = RStart \/ k = RPlain \/ k = RHex \/ (k = RQ /\ c <> "+"%byte /\ c <> "="%byte)) ->
  (rok k (c :: w) <-> rok k' w).
Proof.
  intros Hc Hk' Hk. unfold rok. replace (rctx k' ++ w) with w by (destruct Hk' as [->| ->]; reflexivity).
  destruct Hk as [->|[->|[->|(-> & H1 & H2)]]]; cbn [rctx app]; rewrite ?(occ_other _ _ _ c w Hc); try reflexivity.
  change (B "?" ++ c :: w) with ("?"%byte :: c :: w). rewrite !occ_miss by assumption. rewrite !(occ_other _ _ _ c w Hc). reflexivity.
Qed.
Lemma rok_q k w : k = RStart \/ k = RPlain \/ k = RHex \/ k = RQ -> (rok k ("?"%byte :: w) <-> rok RQ w).
Proof.
  intros Hk. unfold rok. change (rctx RQ ++ w) with ("?"%byte :: w).
  destruct Hk as [->|[->|[->| ->]]]; try reflexivity.
  change (rctx RQ ++ "?"%byte :: w) with ("?"%byte :: "?"%byte :: w). rewrite !occ_miss by discriminate. reflexivity.
Qed.
Lemma rok_plus w : rok RQPlus w <-> slashed w /\ rok RPlain w.
Proof.
  unfold rok. change (rctx RQPlus ++ w) with ("?"%byte :: "+"%byte :: w). change (rctx RPlain ++ w) with w.
  rewrite occ_hit by discriminate. rewrite occ_miss by discriminate. rewrite occ_other by discriminate. tauto.
Qed.
Lemma rok_eq w : rok RQEq w <-> eqtail w /\ rok RPlain w.
Proof.
  unfold rok. change (rctx RQEq ++ w) with ("?"%byte :: "="%byte :: w). change (rctx RPlain ++ w) with w.
  rewrite occ_hit by discriminate. rewrite occ_miss by discriminate. rewrite occ_other by discriminate. tauto.
Qed.
Lemma rok_nil k : k <> RQPlus -> rok k [].
Proof.
  intros Hk. destruct k; try (split; first [apply occ_nil|apply occ_one]).
  - contradiction Hk; reflexivity.
  - apply rok_eq. split; [left; reflexivity|split; apply occ_nil].
Qed.
Lemma rok_esc k a b w : alnum a = true -> alnum b = true ->
  (k = RStart \/ k = RPlain \/ k = RHex \/ k = RQ) -> (rok k ("%"%byte :: a :: b :: w) <-> rok RHex w).
Proof.
  intros Ha Hb Hk. rewrite (rok_step k "%" (a :: b :: w) RPlain); [|discriminate|auto|].
  2:{ destruct Hk as [->|[->|[->| ->]]]; auto. right; right; right. split; [reflexivity|split; discriminate]. }
  rewrite (rok_step RPlain a (b :: w) RPlain) by (auto; apply alnum_ne; auto).
  apply rok_step; auto. apply alnum_ne; auto.
Qed.

Lemma qstarts_spec s : qstarts s = true <-> exists x r, s = "="%byte :: x :: r /\ qopen x = true.
Proof.
  unfold qstarts, qopen. destruct s as [|d [|x s]]; try (split; [discriminate|intros (? & ? & H & _); discriminate H]).
  split.
  - intros H. apply andb_prop in H. destruct H as [H1 H2]. apply is_eq in H1. subst d. eauto.
  - intros (y & r & H & H2). injection H as -> -> ->. rewrite is_refl. exact H2.
Qed.
Lemma ref_r_q k pos s1 : (k = RPlain \/ k = RHex \/ k = RQ \/ k = RQEq) ->
  ref_r mode k pos ("?"%byte :: s1) =
  if qstarts s1 then WGo [] ("?"%byte :: s1) else wcons "?"%byte (ref_r mode RQ (pos + 1) s1).
Proof.
  intros Hk. destruct Hk as [->|[->|[->| ->]]]; cbn [ref_r is Byte.eqb];
   (destruct s1 as [|d [|x s1]]; try reflexivity; unfold qstarts; destruct (is "=" d && (pchar x || is "%" x)); reflexivity).
Qed.

Lemma rpos_eq_dec (a b : rpos) : {a = b} + {a <> b}.
Proof. decide equality. Qed.

Definition rpre (k : rpos) (s : bytes) : Prop :=
  match k with
  | RQ => qstarts s = false
  | RQEq => match s with x :: _ => qopen x = false | [] => True end
  | _ => True
  end.

Lemma ref_r_sound n : forall s, (List.length s <= n)%nat -> forall k pos, rpre k s ->
  wp (ref_r mode k pos s) (fun _ => True) False
  (fun w r => s = w ++ r /\ escaped alnum frag_char w /\ (k = RStart -> chead w) /\ rok k w /\ rstop r).
Proof.
  assert (Hnil : forall k pos, wp (ref_r mode k pos []) (fun _ => True) False
    (fun w r => [] = w ++ r /\ escaped alnum frag_char w /\ (k = RStart -> chead w) /\ rok k w /\ rstop r)).
  { intros k pos. destruct k; cbn [ref_r wp]; auto; (split; [reflexivity|]; split; [apply esc_nil|]; split; [discriminate|]; split;
     [apply rok_nil; discriminate|left; left; reflexivity]). }
  induction n as [|n IH]; intros s Hn k pos Hpre.
  { destruct s; [|cbn in Hn; lia]. apply Hnil. }
  destruct s as [|c s1]; [apply Hnil|].
  destruct (is "?" c) eqn:Eq.
  { apply is_eq in Eq. subst c.
    assert (Hk : (k = RPlain \/ k = RHex \/ k = RQ \/ k = RQEq) \/ k = RStart \/ k = RQPlus) by (destruct k; tauto).
    destruct Hk as [Hk|[->| ->]].
    - rewrite (ref_r_q k pos s1 Hk). destruct (qstarts s1) eqn:Eqs.
      + apply qstarts_spec in Eqs. destruct Eqs as (x & r & -> & Hx). cbn [wp].
        split; [reflexivity|]. split; [apply esc_nil|]. split; [intros ->; destruct Hk as [Hk|[Hk|[Hk|Hk]]]; discriminate Hk|].
        split; [apply rok_nil; intros ->; destruct Hk as [Hk|[Hk|[Hk|Hk]]]; discriminate Hk|]. right. eauto.
      + apply wp_wcons. eapply wp_mono; [apply (IH s1); [cbn in Hn; lia|exact Eqs]|auto|auto|].
        cbn beta. intros w r (-> & H2 & _ & H3 & H4). split; [reflexivity|]. split; [apply esc_plain; auto|].
        split; [intros ->; destruct Hk as [Hk|[Hk|[Hk|Hk]]]; discriminate Hk|]. split; [|exact H4].
        destruct (rpos_eq_dec k RQEq) as [->|Hne].
        * apply rok_eq. split; [right; right; eauto|]. apply (rok_q RPlain); auto.
        * apply rok_q; [|exact H3]. tauto.
    - cbn [ref_r is Byte.eqb]. cbn match.
      destruct s1 as [|d s2]; [exact I|]. cbn. destruct (is "+" d); [|exact I].
      destruct s2 as [|x s2]; [exact I|]. destruct (pchar x || _); exact I.
    - exact I. }
  cbn [List.length] in Hn.
  destruct (is "%" c) eqn:E.
  - apply is_eq in E. subst c. cbn [ref_r]. change (is "%" "%"%byte) with true. cbn match.
    assert (Hgo : forall e, k = RStart \/ k = RPlain \/ k = RHex \/ k = RQ -> wp match s1 with
            | [] => WErr (mkErr e (pos + 1))
            | a :: s2 =>
                if alnum a then
                  match s2 with
                  | [] => WErr (mkErr e (pos + 2))
                  | b :: s3 =>
                      if alnum b then wcons "%"%byte (wcons a (wcons b (ref_r mode RHex (pos + 3) s3)))
                      else WErr (mkErr e (pos + 2))
                  end
                else WErr (mkErr e (pos + 1))
            end (fun _ => True) False
      (fun w r => "%"%byte :: s1 = w ++ r /\ escaped alnum frag_char w /\ (k = RStart -> chead w) /\ rok k w /\ rstop r)).
    { intros e Hk. destruct s1 as [|a [|b s3]]; [exact I|destruct (alnum a); exact I|].
      destruct (alnum a) eqn:Ha; [|exact I]. destruct (alnum b) eqn:Hb; [|exact I].
      do 3 apply wp_wcons. eapply wp_mono; [apply (IH s3); [cbn [List.length] in Hn; lia|exact I]|auto|auto|].
      cbn beta. intros w r (-> & H2 & _ & H3 & H4). split; [reflexivity|]. split; [apply esc_pct; auto|].
      split; [intros _; exists "%"%byte, (a :: b :: w); repeat split; discriminate|].
      split; [|exact H4]. apply rok_esc; auto. }
    destruct k; try (apply Hgo; tauto); [exact I|discriminate Hpre].
  - assert (Hplain : frag_char c = true -> (k = RStart -> c <> "/"%byte) ->
      (k = RStart \/ k = RPlain \/ k = RHex \/ (k = RQ /\ c <> "+"%byte /\ c <> "="%byte)) ->
      wp (wcons c (ref_r mode RPlain (pos + 1) s1)) (fun _ => True) False
      (fun w r => c :: s1 = w ++ r /\ escaped alnum frag_char w /\ (k = RStart -> chead w) /\ rok k w /\ rstop r)).
    { intros Hf Hs Hk. apply wp_wcons. eapply wp_mono; [apply (IH s1); [lia|exact I]|auto|auto|].
      cbn beta. intros w r (-> & H2 & _ & H3 & H4). split; [reflexivity|]. split; [apply esc_plain; auto|].
      split; [intros HK; exists c, w; split; [reflexivity|split; [auto|apply is_ne; exact Eq]]|].
      split; [|exact H4]. apply (rok_step k c w RPlain); auto. apply is_ne; exact Eq. }
    assert (Hslash : c = "/"%byte -> k = RQPlus \/ k = RQEq ->
      wp (wcons c (ref_r mode RPlain (pos + 1) s1)) (fun _ => True) False
      (fun w r => c :: s1 = w ++ r /\ escaped alnum frag_char w /\ (k = RStart -> chead w) /\ rok k w /\ rstop r)).
    { intros -> Hk. apply wp_wcons. eapply wp_mono; [apply (IH s1); [lia|exact I]|auto|auto|].
      cbn beta. intros w r (-> & H2 & _ & H3 & H4). split; [reflexivity|]. split; [apply esc_plain; auto|].
      split; [destruct Hk as [->| ->]; discriminate|]. split; [|exact H4].
      apply (rok_step RPlain "/" w RPlain) in H3; [|discriminate|auto|auto].
      destruct Hk as [->| ->]; [apply rok_plus|apply rok_eq]; (split; [|exact H3]); [eexists; reflexivity|].
      right; left; eexists; reflexivity. }
    assert (Hstop : is "#" c = true -> k <> RStart -> k <> RQPlus ->
      wp (WGo [] (c :: s1)) (fun _ => True) False
      (fun w r => c :: s1 = w ++ r /\ escaped alnum frag_char w /\ (k = RStart -> chead w) /\ rok k w /\ rstop r)).
    { intros Hc Hk1 Hk2. apply is_eq in Hc. subst c. cbn [wp]. split; [reflexivity|]. split; [apply esc_nil|].
      split; [contradiction|]. split; [apply rok_nil; exact Hk2|]. left; right; eauto. }
    cbn [ref_r]. rewrite E, Eq. destruct k.
    + destruct (pchar c) eqn:Ep; [|exact I]. apply Hplain; [apply frag_pchar; exact Ep|intros _ ->; discriminate Ep|auto].
    + destruct (is "#" c) eqn:Eh; [apply Hstop; auto; discriminate|].
      destruct (pchar_slash c) eqn:Ep; [|exact I]. apply Hplain; [apply frag_ps; exact Ep|discriminate|auto].
    + destruct (is "#" c) eqn:Eh; [apply Hstop; auto; discriminate|].
      destruct (pchar_slash c) eqn:Ep; [|exact I]. apply Hplain; [apply frag_ps; exact Ep|discriminate|auto].
    + destruct (is "#" c) eqn:Eh; [apply Hstop; auto; discriminate|].
      destruct (is "+" c) eqn:E1.
      { apply is_eq in E1. subst c. apply wp_wcons. eapply wp_mono; [apply (IH s1); [lia|exact I]|auto|auto|].
        cbn beta. intros w r (-> & H2 & _ & H3 & H4). split; [reflexivity|]. split; [apply esc_plain; auto|].
        split; [discriminate|]. split; [exact H3|exact H4]. }
      destruct (is "=" c) eqn:E2.
      { apply is_eq in E2. subst c. apply wp_wcons. eapply wp_mono; [apply (IH s1); [lia|]|auto|auto|].
        - cbn [rpre] in *. destruct s1 as [|x s1]; [exact I|]. unfold qstarts in Hpre. rewrite is_refl in Hpre. exact Hpre.
        - cbn beta. intros w r (-> & H2 & _ & H3 & H4). split; [reflexivity|]. split; [apply esc_plain; auto|].
          split; [discriminate|]. split; [exact H3|exact H4]. }
      destruct (pchar_slash c) eqn:Ep; [|exact I]. apply Hplain; [apply frag_ps; exact Ep|discriminate|].
      right; right; right. split; [reflexivity|]. split; apply is_ne; assumption.
    + destruct (is "/" c) eqn:Es; [apply Hslash; auto; apply is_eq; exact Es|].
      rewrite orb_false_r. destruct (pchar c || is "#" c); exact I.
    + destruct (is "#" c) eqn:Eh; [apply Hstop; auto; discriminate|].
      destruct (pchar_slash c) eqn:Ep; [|exact I]. apply Hslash; auto.
      cbn [rpre] in Hpre. unfold qopen in Hpre. apply orb_false_elim in Hpre. destruct Hpre as [Hp _].
      destruct (pchar_slash_inv _ Ep) as [H| ->]; [congruence|reflexivity].
Qed.

Lemma ref_r_complete w : escaped alnum frag_char w -> forall k pos r,
  (k = RStart -> chead w) -> rok k w -> rstop r ->
  ref_r mode k pos (w ++ r) = WGo w r.
Proof.
  induction 1 as [|c w Hc Hw IH|a b w Ha Hb Hw IH]; intros k pos r Hk Ho Hr; cbn [app].
  - destruct k.
    + destruct (Hk eq_refl) as (? & ? & HH & _). discriminate HH.
    + destruct Hr as [[->|[r' ->]]|(x & r' & -> & Hx)]; [reflexivity|reflexivity|].
      rewrite ref_r_q by auto. replace (qstarts _) with true by (symmetry; apply qstarts_spec; eauto). reflexivity.
    + destruct Hr as [[->|[r' ->]]|(x & r' & -> & Hx)]; [reflexivity|reflexivity|].
      rewrite ref_r_q by auto. replace (qstarts _) with true by (symmetry; apply qstarts_spec; eauto). reflexivity.
    + destruct Hr as [[->|[r' ->]]|(x & r' & -> & Hx)]; [reflexivity|reflexivity|].
      rewrite ref_r_q by auto. replace (qstarts _) with true by (symmetry; apply qstarts_spec; eauto). reflexivity.
    + apply rok_plus in Ho. destruct Ho as [[? HH] _]. discriminate HH.
    + destruct Hr as [[->|[r' ->]]|(x & r' & -> & Hx)]; [reflexivity|reflexivity|].
      rewrite ref_r_q by auto. replace (qstarts _) with true by (symmetry; apply qstarts_spec; eauto). reflexivity.
  - destruct (is "?" c) eqn:Eq.
    + apply is_eq in Eq. subst c.
      assert (HkQ : k = RPlain \/ k = RHex \/ k = RQ \/ k = RQEq).
      { destruct k; auto.
        - destruct (Hk eq_refl) as (x & t & HH & H1 & H2). injection HH as <- <-. contradiction H2; reflexivity.
        - apply rok_plus in Ho. destruct Ho as [[? HH] _]. discriminate HH. }
      assert (Ho' : rok RQ w).
      { destruct HkQ as [->|[->|[->| ->]]]; [eapply rok_q; [|exact Ho]; auto ..|].
        apply rok_eq in Ho. destruct Ho as [_ Ho]. apply (rok_q RPlain w); auto. }
      rewrite ref_r_q by exact HkQ.
      assert (Hqs : qstarts (w ++ r) = false).
      { destruct (qstarts (w ++ r)) eqn:Eqs; [|reflexivity]. exfalso.
        apply qstarts_spec in Eqs. destruct Eqs as (x & t & Ht & Hx).
        destruct w as [|d w].
        - cbn [app] in Ht. destruct Hr as [[->|[r' ->]]|(y & r' & -> & _)]; discriminate Ht.
        - cbn [app] in Ht. injection Ht as -> Ht.
          assert (He : eqtail w).
          { destruct Ho' as [_ Ho']. change (rctx RQ ++ "="%byte :: w) with ("?"%byte :: "="%byte :: w) in Ho'.
            rewrite occ_hit in Ho' by discriminate. tauto. }
          destruct He as [->|[[y ->]|[y ->]]].
          + cbn [app] in Ht. destruct Hr as [[->|[r' ->]]|(y & r' & -> & _)]; [discriminate Ht| |];
              injection Ht as <- _; discriminate Hx.
          + injection Ht as <- _. discriminate Hx.
          + injection Ht as <- _. discriminate Hx. }
      rewrite Hqs, IH; auto. discriminate.
    + assert (Ec : is "%" c = false) by (apply frag_not_pct; exact Hc).
      assert (Hps : pchar_slash c = true).
      { destruct (frag_inv _ Hc) as [Hp|[->| ->]]; [apply pchar_slash_of; exact Hp|reflexivity|discriminate Eq]. }
      assert (Eh : is "#" c = false).
      { destruct (is "#" c) eqn:E; [|reflexivity]. apply is_eq in E. subst c. discriminate Hps. }
      assert (Hplain : (k = RStart \/ k = RPlain \/ k = RHex \/ (k = RQ /\ c <> "+"%byte /\ c <> "="%byte)) -> rok RPlain w).
      { intros Hk'. apply (rok_step k c w RPlain); auto. apply is_ne; exact Eq. }
      cbn [ref_r]. rewrite Ec, Eq, Eh, Hps.
      destruct k.
      * destruct (Hk eq_refl) as (x & t & HH & H1 & H2). injection HH as <- <-.
        destruct (pchar_slash_inv _ Hps) as [Hp| ->]; [|contradiction H1; reflexivity].
        rewrite Hp, IH; auto. discriminate.
      * rewrite IH; auto. discriminate.
      * rewrite IH; auto. discriminate.
      * destruct (is "+" c) eqn:E1; [apply is_eq in E1; subst c; rewrite IH; auto; discriminate|].
        destruct (is "=" c) eqn:E2; [apply is_eq in E2; subst c; rewrite IH; auto; discriminate|].
        rewrite IH; auto; [discriminate|]. apply Hplain. right; right; right. split; [reflexivity|split; apply is_ne; assumption].
      * apply rok_plus in Ho. destruct Ho as [[y HH] Ho]. injection HH as -> ->.
        apply (rok_step RPlain "/" y RPlain) in Ho; [|discriminate|auto|auto].
        cbn. rewrite IH; auto. discriminate.
      * apply rok_eq in Ho. destruct Ho as [He Ho].
        rewrite IH; auto; [discriminate|].
        apply (rok_step RPlain c w RPlain); auto. apply is_ne; exact Eq.
  - assert (Hk' : k = RStart \/ k = RPlain \/ k = RHex \/ k = RQ).
    { destruct k; auto.
      - apply rok_plus in Ho. destruct Ho as [[? HH] _]. discriminate HH.
      - apply rok_eq in Ho. destruct Ho as [[HH|[[? HH]|[? HH]]] _]; discriminate HH. }
    assert (Ho' : rok RHex w) by (apply (rok_esc k a b w Ha Hb Hk'); exact Ho).
    cbn [ref_r]. rewrite is_refl, Ha, Hb, IH by (auto; discriminate).
    destruct Hk' as [->|[->|[->| ->]]]; reflexivity.
Qed.

End M.
