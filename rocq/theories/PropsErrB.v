(* The column of every error lies between 0 and the length of the input, in every mode. *)
From Coq Require Import Lia.
From Verif Require Import GoBase MachineSyntax MachineTables Machine Urn Spec Ref Exec SimBase
  ParseThm RefSpec RefSpec8 RefSpec8b Api.
Local Open Scope Z_scope.

Definition inb (lo pos : Z) (s : bytes) (k : walk) : Prop :=
  match k with
  | WErr e => lo <= e_col e <= pos + zlen s
  | WNil => True
  | WGo w r => zlen w + zlen r <= zlen s
  end.
Lemma inb_cons lo pos c s k : inb lo (pos + 1) s k -> inb lo pos (c :: s) (wcons c k).
Proof. destruct k; cbn [wcons inb]; rewrite ?zlen_cons; lia. Qed.
Lemma inb_lo lo lo' pos s k : lo' <= lo -> inb lo pos s k -> inb lo' pos s k.
Proof. destruct k; cbn [inb]; lia. Qed.
Lemma inb_err lo pos s e c : lo <= c -> c <= pos + zlen s -> inb lo pos s (WErr (mkErr e c)).
Proof. cbn. lia. Qed.

Ltac ib := cbn [inb e_col]; rewrite ?zlen_cons; try change (zlen (@nil byte)) with 0;
  repeat match goal with |- context [zlen ?s] => lazymatch goal with H : 0 <= zlen s |- _ => fail | _ => pose proof (zlen_nonneg s) end end; lia.

Lemma inb_lit e ps : forall pos s, inb pos pos s (ref_lit e ps pos s).
Proof.
  induction ps as [|p ps IH]; intros pos s; cbn [ref_lit]; [ib|]. destruct s as [|c s]; [ib|].
  destruct (p c); [|ib]. apply inb_cons, (inb_lo (pos + 1)); [lia|apply IH].
Qed.
Lemma inb_nidw s : forall n pos, inb pos pos s (ref_nidw n pos s).
Proof.
  induction s as [|c s IH]; intros n pos; rewrite ref_nidw_eq; [ib|].
  destruct (is ":" c); [ib|]. destruct (nid_char c); [|ib]. destruct n as [|n]; [ib|].
  apply inb_cons, (inb_lo (pos + 1)); [lia|apply IH].
Qed.
Section M.
Variable mode : Z.
Lemma inb_nid pos s : inb pos pos s (ref_nid2141 mode pos s).
Proof.
  unfold ref_nid2141. destruct s as [|c s]; [ib|]. destruct (alnum c); [|ib]. destruct (isl "u" c && looks_urn mode (c :: s)) eqn:E.
  - apply andb_true_iff in E as [_ E]. unfold looks_urn in E. apply andb_true_iff in E as [_ E].
    destruct s as [|a [|b [|d s]]]; try discriminate E. ib.
  - apply inb_cons, (inb_lo (pos + 1)); [lia|apply inb_nidw].
Qed.
Lemma inb_nss eS eH xE xH lo n : (forall p, lo p <= p) -> (forall p q, p <= q -> lo p <= lo q) ->
  (forall p, lo p <= e_col (xE p) <= p) -> (forall p, lo p <= e_col (xH p) <= p) ->
  forall s, (List.length s <= n)%nat -> forall k pos, inb (lo pos) pos s (ref_nss eS eH xE xH k pos s).
Proof.
  intros Hlo Hmono HE HH. 
  assert (K : forall p q s, p <= q -> q <= p + zlen s -> inb (lo p) p s (WErr (xH q))).
  { intros p q s H1 H2. cbn. specialize (HH q). specialize (Hmono p q H1). lia. }
  assert (N : forall k pos, inb (lo pos) pos [] (ref_nss eS eH xE xH k pos [])).
  { intros k pos. cbn [ref_nss]. specialize (HE pos). destruct k; cbn [inb]; change (zlen (@nil byte)) with 0; lia. }
  induction n as [|n IH]; intros s Hn k pos; (destruct s as [|c s1]; [apply N|]); [cbn in Hn; lia|].
  cbn [ref_nss]. cbn [List.length] in Hn. pose proof (Hlo pos) as Hp. pose proof (Hmono pos (pos + 1) ltac:(lia)). pose proof (Hmono pos (pos + 1 + 1 + 1) ltac:(lia)).
  destruct (is "%" c).
  - destruct s1 as [|a s2]; [apply K; [lia|rewrite zlen_cons, zlen_nil; lia]|]. destruct (alnum a); [|ib].
    destruct s2 as [|b s3]; [apply K; [lia|rewrite !zlen_cons, zlen_nil; lia]|]. destruct (alnum b); [|ib].
    apply inb_cons, inb_cons, inb_cons. replace (pos + 3) with (pos + 1 + 1 + 1) by lia.
    eapply inb_lo; [|apply IH; cbn in Hn; lia]. lia.
  - destruct (sss c); [|ib]. apply inb_cons. eapply inb_lo; [|apply IH; lia]. lia.
Qed.
Lemma inb_nss2141 pos s : inb pos pos s (ref_nss2141 mode pos s).
Proof. unfold ref_nss2141. apply (inb_nss _ _ _ _ (fun p => p) (List.length s)); try lia; cbn; intros; lia. Qed.
Lemma inb_other pos s : inb (pos - 1) pos s (ref_other mode pos s).
Proof.
  unfold ref_other. apply (inb_nss _ _ _ _ (fun p => p - 1) (List.length s)); try lia; intros; cbn; try lia.
  destruct (_ || _); cbn; lia.
Qed.
Lemma inb_type pos s : inb pos pos s (ref_scimtype pos s).
Proof.
  unfold ref_scimtype. destruct s as [|c s]; [ib|].
  repeat match goal with |- context [if ?x then _ else _] => destruct x end; try ib;
    apply inb_cons, (inb_lo (pos + 1)); try lia; apply inb_lit.
Qed.
Lemma inb_name s : forall first pos, inb pos pos s (ref_name first pos s).
Proof.
  induction s as [|c s IH]; intros first pos; cbn [ref_name]; [destruct first; ib|].
  destruct (alnum c); [apply inb_cons, (inb_lo (pos + 1)); [lia|apply IH]|]. destruct (_ && _); ib.
Qed.
Lemma inb_nid8w s : forall t n ok pos, inb (pos - 1) pos s (ref_nid8w t n ok pos s).
Proof.
  induction s as [|c s IH]; intros t n ok pos; cbn [ref_nid8w]; [ib|].
  assert (G : forall t n ok, inb (pos - 1) pos (c :: s) (wcons c (ref_nid8w t n ok (pos + 1) s))).
  { intros. apply inb_cons. eapply inb_lo; [|apply IH]. lia. }
  destruct (is ":" c); [destruct ok; ib|]. destruct (is "-" c); [destruct n as [|[|n]]; try ib; apply G|].
  destruct (alnum c); [|ib]. destruct t; try (destruct n; [ib|apply G]). destruct (_ || _); [ib|]. destruct n; [ib|apply G].
Qed.
Lemma inb_nid8 pos s : inb pos pos s (ref_nid8141 mode pos s).
Proof.
  unfold ref_nid8141. destruct s as [|c s]; [ib|]. destruct (alnum c); [|ib]. destruct (isl "u" c && looks_urn mode (c :: s)) eqn:E.
  - apply andb_true_iff in E as [_ E]. unfold looks_urn in E. apply andb_true_iff in E as [_ E].
    destruct s as [|a [|b [|d s]]]; try discriminate E. ib.
  - apply inb_cons. eapply inb_lo; [|apply inb_nid8w]. lia.
Qed.
Ltac splits := repeat match goal with
  | |- inb _ _ _ (match ?s with [] => _ | _ => _ end) => destruct s
  | |- inb _ _ _ (match ?x with _ => _ end) => destruct x
  end.
Ltac steps3 IH := match goal with
  | |- inb _ _ _ (wcons _ (wcons _ (wcons _ _))) => apply inb_cons, inb_cons, inb_cons
  | |- inb _ _ _ (wcons _ _) => apply inb_cons
  end; match goal with |- inb _ (?p + 1 + 1 + 1) _ _ => replace (p + 3) with (p + 1 + 1 + 1) by lia | _ => idtac end;
  (eapply inb_lo; [|apply IH; cbn in *; lia]); lia.
Lemma inb_nss8 n : forall s, (List.length s <= n)%nat -> forall k pos, inb pos pos s (ref_nss8 mode k pos s).
Proof.
  induction n as [|n IH]; intros s Hn k pos; (destruct s as [|c s1]; [cbn [ref_nss8]; destruct k; ib|]); [cbn in Hn; lia|].
  cbn [ref_nss8]. cbn [List.length] in Hn. splits; try ib; steps3 IH.
Qed.
Lemma inb_frag n : forall s, (List.length s <= n)%nat -> forall k pos, inb pos pos s (ref_frag mode k pos s).
Proof.
  induction n as [|n IH]; intros s Hn k pos; (destruct s as [|c s1]; [cbn [ref_frag]; destruct k; ib|]); [cbn in Hn; lia|].
  cbn [ref_frag]. cbn [List.length] in Hn. unfold hx_or_nil. splits; try ib; steps3 IH.
Qed.
Lemma inb_q e0 n : forall s, (List.length s <= n)%nat -> forall k pos, inb pos pos s (ref_q mode e0 k pos s).
Proof.
  induction n as [|n IH]; intros s Hn k pos; (destruct s as [|c s1]; [cbn [ref_q]; destruct k; ib|]); [cbn in Hn; lia|].
  cbn [ref_q]. cbn [List.length] in Hn. splits; try ib; try steps3 IH.
Qed.
Lemma inb_r n : forall s, (List.length s <= n)%nat -> forall k pos, inb pos pos s (ref_r mode k pos s).
Proof.
  induction n as [|n IH]; intros s Hn k pos; (destruct s as [|c s1]; [cbn [ref_r]; destruct k; ib|]); [cbn in Hn; lia|].
  cbn [ref_r]. cbn [List.length] in Hn. splits; try ib; try steps3 IH.
Qed.

Definition outb (s : bytes) (o : pout) : Prop := match o with OErr e => 0 <= e_col e <= zlen s | _ => True end.
Ltac wk lem := let H := fresh "H" in pose proof lem as H; 
  match type of H with inb _ _ _ ?k => destruct k as [?e| |?w ?r] end; cbn [inb] in H;
  [cbn [outb]; lia|exact I|].
Ltac nn := repeat match goal with |- context [zlen ?s] => lazymatch goal with H : 0 <= zlen s |- _ => fail | _ => pose proof (zlen_nonneg s) end end;
  repeat match goal with H : context [zlen ?s] |- _ => lazymatch goal with H : 0 <= zlen s |- _ => fail | _ => pose proof (zlen_nonneg s) end end.
Lemma prefix_four s : match ref_prefix s with WErr e => 0 <= e_col e <= zlen s | WNil => True | WGo w r => zlen s = 4 + zlen r end.
Proof.
  pose proof (inb_lit ErrPrefix [isl "u"; isl "r"; isl "n"; is ":"] 0 s) as H. pose proof (ref_prefix_sound s) as K.
  unfold ref_prefix in *. destruct (ref_lit _ _ _ _) as [e| |w r]; cbn [inb] in H; [lia|exact I|].
  destruct K as (p & -> & Hp & ->). rewrite !zlen_app, (urn_word_len p Hp). change (zlen colon) with 1. lia.
Qed.
Lemma nidw_len s : forall n pos w r, ref_nidw n pos s = WGo w r -> zlen s = zlen w + 1 + zlen r.
Proof.
  induction s as [|c s IH]; intros n pos w r; rewrite ref_nidw_eq; [discriminate|].
  destruct (is ":" c); [intros H; injection H as <- <-; rewrite zlen_cons, zlen_nil; lia|]. destruct (nid_char c); [|discriminate].
  destruct n as [|n]; [discriminate|]. specialize (IH n (pos + 1)). destruct (ref_nidw n (pos + 1) s); try discriminate.
  intros H. injection H as <- <-. rewrite !zlen_cons. rewrite (IH _ _ eq_refl). lia.
Qed.
Lemma nid_len pos s w r : ref_nid2141 mode pos s = WGo w r -> zlen s = zlen w + 1 + zlen r.
Proof.
  unfold ref_nid2141. destruct s as [|c s]; [discriminate|]. destruct (alnum c); [|discriminate]. destruct (_ && _); [discriminate|].
  pose proof (nidw_len s 31 (pos + 1)) as K. destruct (ref_nidw 31 (pos + 1) s); try discriminate. intros H. injection H as <- <-.
  rewrite !zlen_cons. rewrite (K _ _ eq_refl). lia.
Qed.
Lemma nid8w_len s : forall t n ok pos w r, ref_nid8w t n ok pos s = WGo w r -> zlen s = zlen w + 1 + zlen r.
Proof.
  induction s as [|c s IH]; intros t n ok pos w r; cbn [ref_nid8w]; [discriminate|].
  assert (G : forall t n ok, wcons c (ref_nid8w t n ok (pos + 1) s) = WGo w r -> zlen (c :: s) = zlen w + 1 + zlen r).
  { intros t' n' ok' H. specialize (IH t' n' ok' (pos + 1)). destruct (ref_nid8w _ _ _ _ _); try discriminate H.
    injection H as <- <-. rewrite !zlen_cons, (IH _ _ eq_refl). lia. }
  destruct (is ":" c); [destruct ok; [|discriminate]; intros H; injection H as <- <-; rewrite zlen_cons, zlen_nil; lia|].
  destruct (is "-" c); [destruct n as [|[|n]]; try discriminate; apply G|].
  destruct (alnum c); [|discriminate]. destruct t; try (destruct n; [discriminate|apply G]). destruct (_ || _); [discriminate|]. destruct n; [discriminate|apply G].
Qed.
Lemma nid8_len pos s w r : ref_nid8141 mode pos s = WGo w r -> zlen s = zlen w + 1 + zlen r.
Proof.
  unfold ref_nid8141. destruct s as [|c s]; [discriminate|]. destruct (alnum c); [|discriminate]. destruct (_ && _); [discriminate|].
  set (t := if isl "u" c then U1 else UNo). pose proof (nid8w_len s t 31 false (pos + 1)) as K.
  destruct (ref_nid8w t 31 false (pos + 1) s); try discriminate. intros H. injection H as <- <-.
  rewrite !zlen_cons. rewrite (K _ _ eq_refl). lia.
Qed.

Lemma out2141 s : outb s (ref2141 mode s).
Proof.
  unfold ref2141. pose proof (prefix_four s) as HH0. destruct (ref_prefix s) as [e| |pre r0]; [exact HH0|exact I|].
  pose proof (inb_nid 4 r0) as HH1. pose proof (nid_len 4 r0) as L1. destruct (ref_nid2141 mode 4 r0) as [e| |w1 r1]; cbn [inb] in HH1; [cbn [outb]; lia|exact I|].
  specialize (L1 _ _ eq_refl). pose proof (inb_nss2141 (5 + zlen w1) r1) as HH2. nn.
  destruct (ref_nss2141 mode (5 + zlen w1) r1) as [e| |w2 r2]; cbn [inb] in HH2; [cbn [outb]; lia|exact I|exact I].
Qed.
Lemma outscim s : outb s (ref_scim mode s).
Proof.
  unfold ref_scim. pose proof (prefix_four s) as HH0. destruct (ref_prefix s) as [e| |pre r0]; [exact HH0|exact I|].
  pose proof (inb_lit ErrSCIMNamespace (map is (B "ietf:params:scim:")) 4 r0) as HH1.
  pose proof (ref_lit_sound ErrSCIMNamespace (map is (B "ietf:params:scim:")) 4 r0) as K1.
  destruct (ref_lit ErrSCIMNamespace (map is (B "ietf:params:scim:")) 4 r0) as [e| |w1 r1]; cbn [inb] in HH1; [cbn [outb]; lia|exact I|].
  destruct K1 as [-> K1]. apply lit_is in K1. subst w1. rewrite zlen_app in HH0. change (zlen (B "ietf:params:scim:")) with 17 in HH0.
  pose proof (inb_type 21 r1) as HH2. destruct (ref_scimtype 21 r1) as [e| |w2 r2]; cbn [inb] in HH2; [cbn [outb]; lia|exact I|].
  pose proof (inb_name r2 true (21 + zlen w2)) as HH3. nn. destruct (ref_name true (21 + zlen w2) r2) as [e| |w3 r3]; cbn [inb] in HH3; [cbn [outb]; lia|exact I|].
  destruct r3 as [|d r3]; [exact I|]. rewrite zlen_cons in HH3.
  pose proof (inb_other (22 + zlen w2 + zlen w3) r3) as HH4. nn.
  destruct (ref_other mode (22 + zlen w2 + zlen w3) r3) as [e| |w4 r4]; cbn [inb] in HH4; [cbn [outb]; lia|exact I|exact I].
Qed.
Lemma out8141 s : outb s (ref8141 mode s).
Proof.
  unfold ref8141. pose proof (prefix_four s) as HH0. destruct (ref_prefix s) as [e| |pre r0]; [exact HH0|exact I|].
  pose proof (inb_nid8 4 r0) as HH1. pose proof (nid8_len 4 r0) as L1. destruct (ref_nid8141 mode 4 r0) as [e| |w1 r1]; cbn [inb] in HH1; [cbn [outb]; lia|exact I|].
  specialize (L1 _ _ eq_refl). pose proof (inb_nss8 (List.length r1) r1 (Nat.le_refl _) EStart (5 + zlen w1)) as HH2. nn.
  destruct (ref_nss8 mode EStart (5 + zlen w1) r1) as [e| |w2 r2]; cbn [inb] in HH2; [cbn [outb]; lia|exact I|].
  assert (Hf : forall pos r pf n ss r' q, 0 <= pos -> pos + zlen r <= zlen s -> outb s (match ref_tailf mode pos r with WErr e => OErr e | WNil => ONil
     | WGo f _ => OUrn (mkPub pf n ss (norm_pct ss) KRFC8141 None r' q f) end)).
  { intros pos r pf n ss r' q Hp Hr. unfold ref_tailf. destruct r as [|c r]; [exact I|]. rewrite zlen_cons in Hr.
    pose proof (inb_frag (List.length r) r (Nat.le_refl _) EStart (pos + 1)) as K.
    destruct (ref_frag mode EStart (pos + 1) r); cbn [inb] in K; [cbn [outb]; lia|exact I|exact I]. }
  cbv zeta.
  assert (Hq : forall e0 r' pos r pf n ss, 0 <= pos -> pos + zlen r <= zlen s ->
     outb s (match ref_q mode e0 QStart pos r with WErr e => OErr e | WNil => ONil | WGo q rest =>
        match ref_tailf mode (pos + zlen q) rest with WErr e => OErr e | WNil => ONil
        | WGo f _ => OUrn (mkPub pf n ss (norm_pct ss) KRFC8141 None r' q f) end end)).
  { intros e0 r' pos r pf n ss Hp Hr. pose proof (inb_q e0 (List.length r) r (Nat.le_refl _) QStart pos) as K.
    destruct (ref_q mode e0 QStart pos r) as [e| |q rest]; cbn [inb] in K; [cbn [outb]; lia|exact I|]. nn. apply Hf; lia. }
  destruct r2 as [|c r2]; [change (zlen (@nil byte)) with 0 in HH2; apply Hf; change (zlen (@nil byte)) with 0; nn; lia|]. rewrite zlen_cons in HH2.
  destruct (is "#" c); [nn; apply Hf; rewrite ?zlen_cons; lia|].
  destruct r2 as [|d r2]; [exact I|]. rewrite zlen_cons in HH2. nn. destruct (is "+" d).
  - pose proof (inb_r (List.length r2) r2 (Nat.le_refl _) RStart (5 + zlen w1 + zlen w2 + 2)) as HH3.
    destruct (ref_r mode RStart (5 + zlen w1 + zlen w2 + 2) r2) as [e| |w3 r3]; cbn [inb] in HH3; [cbn [outb]; lia|exact I|]. nn.
    destruct r3 as [|c3 [|d3 r3]]; try (apply Hf; lia). destruct (is "?" c3); [|apply Hf; lia].
    rewrite !zlen_cons in HH3. nn. apply Hq; lia.
  - destruct (is "=" d); [apply Hq; lia|exact I].
Qed.
End M.

Theorem column_bounds m s m' uo e : reachable m -> machine_Parse m s = Ret (m', uo, Some e) -> 0 <= e_col e <= zlen s.
Proof.
  intros H Hp. apply parse_reach_inv in Hp; auto. destruct Hp as (_ & _ & _ & Hp). apply outcome_eq in Hp.
  destruct uo; [contradiction|]. unfold ref_parse in Hp.
  destruct (m_startParsingAt m =? 1)%N; [pose proof (out2141 (m_parsingMode m) s) as K; rewrite Hp in K; exact K|].
  destruct (m_startParsingAt m =? 44)%N; [pose proof (outscim (m_parsingMode m) s) as K; rewrite Hp in K; exact K|].
  destruct (m_startParsingAt m =? 83)%N; [pose proof (out8141 (m_parsingMode m) s) as K; rewrite Hp in K; exact K|].
  discriminate Hp.
Qed.
