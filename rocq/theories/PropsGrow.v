(* What may follow an accepted text, and which beginnings of it are accepted. *)
From Coq Require Import Lia.
From Verif Require Import GoBase MachineSyntax MachineTables Machine Errors Urn Spec Ref Exec RefSpec RefSpec8 RefSpec8b Api PropsA PropsB PropsGram8 PropsJson.
Local Open Scope Z_scope.

(* ---- escaped strings cut in two --------------------------------------------------------- *)
Lemma esc_rest (esc cls : byte -> bool) a b : cls "%"%byte = false ->
  escaped esc cls a -> escaped esc cls (a ++ b) -> escaped esc cls b.
Proof.
  intros Hc Ha. revert b. induction Ha as [|c w Hcc Ha IH|x y w Hx Hy Ha IH]; intros b H; [exact H|..]; apply IH.
  - cbn [app] in H. inversion H; subst; [assumption|congruence].
  - cbn [app] in H. inversion H; subst; [congruence|assumption].
Qed.
Lemma norm_app (cls : byte -> bool) a b : cls "%"%byte = false ->
  escaped alnum cls a -> norm_pct (a ++ b) = norm_pct a ++ norm_pct b.
Proof.
  intros Hc Ha. induction Ha as [|c w Hcc Ha IH|x y w Hx Hy Ha IH]; [reflexivity|..]; cbn [app].
  - assert (E : Byte.eqb c "%" = false) by (eapply cls_nopct; eauto).
    rewrite !norm_plain, IH by exact E. reflexivity.
  - rewrite !norm_esc, IH. reflexivity.
Qed.
Lemma app_cut {A} (a b c d : list A) : a ++ b = c ++ d ->
  (exists e, c = a ++ e /\ b = e ++ d) \/ (exists e, a = c ++ e /\ d = e ++ b).
Proof.
  revert c. induction a as [|x a IH]; intros [|y c] H; cbn [app] in H.
  - left. exists []. auto.
  - left. exists (y :: c). auto.
  - right. exists (x :: a). auto.
  - injection H as -> H. destruct (IH c H) as [(e & -> & ->)|(e & -> & ->)]; [left|right]; exists e; auto.
Qed.

Lemma nid_colon n n' a b : forallb nid_char n = true -> forallb nid_char n' = true ->
  n ++ colon ++ a = n' ++ colon ++ b -> n = n' /\ a = b.
Proof.
  revert n'. induction n as [|c n IH]; intros [|c' n'] H H' E; cbn [app] in E.
  - injection E as <-. auto.
  - injection E as <- _. discriminate H'.
  - injection E as -> _. discriminate H.
  - injection E as -> E. cbn [forallb] in *. apply andb_prop in H, H'.
    destruct (IH n' (proj2 H) (proj2 H') E) as [-> ->]. auto.
Qed.

(* ---- RFC 2141 ------------------------------------------------------------------------------ *)
Lemma look2141 p n x t : urn_word p -> nid2141 n -> x <> [] ->
  ~ u_lookahead (p ++ colon ++ n ++ colon ++ x) ->
  (u_lookahead (p ++ colon ++ n ++ colon ++ x ++ t) <->
   lowers n = B "u" /\ List.length x = 1%nat /\ exists t', t = ":"%byte :: t').
Proof.
  intros Hp Hn Hx Hl. assert (Lp : List.length p = 3%nat) by (apply urn_word_len in Hp; unfold zlen in Hp; lia).
  destruct p as [|p1 [|p2 [|p3 [|]]]]; try discriminate Lp. destruct Hn as (Ln & (c & r & -> & Hc) & _).
  destruct x as [|x1 x]; [contradiction Hx; reflexivity|]. cbn [app colon] in *. unfold u_lookahead in *. cbn [nth_error] in *.
  destruct r as [|c2 r].
  - cbn [app nth_error] in *. destruct x as [|x2 x].
    + cbn [app nth_error] in *. split.
      * intros (c0 & E & Hu & Ht). injection E as <-. split; [cbn [lowers map]; rewrite Hu; reflexivity|]. split; [reflexivity|].
        destruct t as [|t0 t]; [discriminate Ht|]. injection Ht as ->. eauto.
      * intros (E & _ & t' & ->). injection E as E. eauto.
    + cbn [app nth_error] in *. split; [intros H; contradiction|]. intros (_ & E & _). discriminate E.
  - split; [|intros (E & _); discriminate E]. intros (c0 & E & Hu & Ht). exfalso. apply Hl. exists c0. split; [exact E|]. split; [exact Hu|].
    destruct r as [|c3 r]; cbn [app nth_error] in *; [exact Ht|]. destruct r as [|c4 r]; cbn [app nth_error] in *; exact Ht.
Qed.

Lemma grow2141 s u t : parsed PRFC2141Only s u ->
  ((exists v, parsed PRFC2141Only (s ++ t) v) <->
   escaped alnum sss t /\ ~ (lowers (u_ID u) = B "u" /\ List.length (u_SS u) = 1%nat /\ exists t', t = ":"%byte :: t')) /\
  (forall v, parsed PRFC2141Only (s ++ t) v ->
     u_prefix v = u_prefix u /\ u_ID v = u_ID u /\ u_SS v = u_SS u ++ t /\ u_norm v = u_norm u ++ norm_pct t).
Proof.
  intros H. destruct (parsed2141_inv s u H) as (p & n & x & (Es & Hp & Hn & Hx & He) & Hl & Hu).
  apply pub_fields in Hu. cbn in Hu. destruct Hu as (U1 & U2 & U3 & U4 & _). rewrite U1, U2, U3, U4.
  assert (K : forall v, parsed PRFC2141Only (s ++ t) v -> ~ u_lookahead (s ++ t) /\ escaped alnum sss t /\
     u_prefix v = p /\ u_ID v = n /\ u_SS v = x ++ t /\ u_norm v = norm_pct x ++ norm_pct t).
  { intros v Hv. destruct (parsed2141_inv _ v Hv) as (p' & n' & x' & (Es' & Hp' & Hn' & Hx' & He') & Hl' & Hu').
    apply pub_fields in Hu'. cbn in Hu'. destruct Hu' as (V1 & V2 & V3 & V4 & _). rewrite V1, V2, V3, V4.
    rewrite Es in Es'. rewrite <- !app_assoc in Es'. destruct (urn_word_app _ _ _ _ Hp Hp' Es') as [<- E].
    apply app_inv_head in E. destruct (nid_colon n n' _ _ ltac:(apply Hn) ltac:(apply Hn') E) as [<- <-].
    split; [exact Hl'|]. split; [exact (esc_rest alnum sss x t eq_refl He He')|]. repeat split. exact (norm_app sss x t eq_refl He). }
  assert (El : s ++ t = p ++ colon ++ n ++ colon ++ x ++ t) by (rewrite Es, <- !app_assoc; reflexivity).
  pose proof (look2141 p n x t Hp Hn Hx ltac:(rewrite <- Es; exact Hl)) as L. rewrite <- El in L.
  split; [split|].
  - intros (v & Hv). destruct (K v Hv) as (A & A2 & _). split; [exact A2|]. rewrite <- L. exact A.
  - intros [A1 A2]. rewrite <- L in A2. destruct (parsed2141_ok (s ++ t) p n (x ++ t)) as (v & Hv & _); [|exact A2|eauto].
    split; [exact El|]. split; [exact Hp|]. split; [exact Hn|]. split; [destruct x; [contradiction Hx; reflexivity|discriminate]|].
    exact (PropsB.esc_app _ _ _ _ He A1).
  - intros v Hv. apply (K v Hv).
Qed.

Lemma cut2141 s u a t : parsed PRFC2141Only s u -> s = a ++ t ->
  ((exists v, parsed PRFC2141Only a v) <->
   exists x, u_SS u = x ++ t /\ x <> [] /\ escaped alnum sss x).
Proof.
  intros H Ea. split.
  - intros (v & Hv). subst s. destruct (grow2141 a v t Hv) as [_ K]. destruct (K u H) as (_ & _ & E & _).
    exists (u_SS v). split; [exact E|]. destruct (parts2141 _ _ Hv) as (p & (_ & _ & _ & H1 & H2) & _). auto.
  - intros (x & Ex & Hx & He). destruct (parsed2141_inv s u H) as (p & n & y & (Es & Hp & Hn & _) & Hl & Hu).
    apply pub_fields in Hu. cbn in Hu. destruct Hu as (_ & _ & U3 & _). rewrite U3 in Ex. subst y.
    assert (E : a = p ++ colon ++ n ++ colon ++ x).
    { apply (app_inv_tail t). rewrite <- Ea, Es, <- !app_assoc. reflexivity. }
    destruct (parsed2141_ok a p n x) as (v & Hv & _); [repeat split; auto; apply Hn| |eauto].
    intros (c & L1 & L2 & L3). apply Hl. exists c. rewrite Ea. split; [|split; [exact L2|]]; rewrite nth_error_app1; auto; apply nth_error_Some; congruence.
Qed.

(* ---- SCIM ---------------------------------------------------------------------------------- *)
Lemma alnum_nid n : forallb alnum n = true -> forallb nid_char n = true.
Proof.
  rewrite !forallb_forall. intros H c Hc. unfold nid_char. rewrite (H c Hc). reflexivity.
Qed.
Lemma colon_not_alnum w a : forallb alnum (w ++ ":"%byte :: a) = true -> False.
Proof. rewrite forallb_app. cbn [forallb]. rewrite andb_false_r. discriminate. Qed.
(* a name, extended *)
Lemma name_cut n x n' o : forallb alnum n = true -> n ++ x = n' ++ scim_tail o ->
  exists y, n' = n ++ y /\ x = y ++ scim_tail o.
Proof.
  intros Hn E. destruct (app_cut _ _ _ _ E) as [(e & -> & ->)|(e & -> & Ee)]; [eauto|].
  exists []. destruct o as [|c o].
  - cbn [scim_tail] in *. symmetry in Ee. apply app_eq_nil in Ee. destruct Ee as [-> ->]. rewrite !app_nil_r. auto.
  - cbn [scim_tail colon app] in *. destruct e as [|b e]; cbn [app] in Ee; [rewrite !app_nil_r; auto|].
    injection Ee as <- _. destruct (colon_not_alnum _ _ Hn).
Qed.
Lemma scim_types t : scim_type t -> forallb alnum t = true.
Proof. intros [->|[->| ->]]; reflexivity. Qed.

Lemma growscim s u sc z : parsed PRFC7643Only s u -> URN_SCIM u = Some sc ->
  ((exists v, parsed PRFC7643Only (s ++ z) v) <->
   (s_Other sc <> [] /\ escaped alnum sss z) \/
   (s_Other sc = [] /\ exists y o, z = y ++ scim_tail o /\ forallb alnum y = true /\ (o = [] \/ scim_other o))) /\
  (forall v, parsed PRFC7643Only (s ++ z) v -> exists sv, URN_SCIM v = Some sv /\ s_Type sv = s_Type sc /\
     u_prefix v = u_prefix u /\ u_ID v = u_ID u /\ u_SS v = u_SS u ++ z /\
     (s_Other sc <> [] -> s_Name sv = s_Name sc /\ s_Other sv = s_Other sc ++ z) /\
     (s_Other sc = [] -> exists y, s_Name sv = s_Name sc ++ y /\ z = y ++ scim_tail (s_Other sv))).
Proof.
  intros H Hs. destruct (partsscim s u H) as (p & t & sc' & (Es & Hp & Ht & Hn & Ho) & Up & Usc & Uty & UID & USS & _ & Uk & _).
  assert (sc' = sc) as -> by (unfold URN_SCIM in Hs; destruct (negb _); [discriminate Hs|congruence]).
  set (n := s_Name sc) in *. set (o := s_Other sc) in *.
  assert (Ez : s ++ z = p ++ colon ++ scim_nid ++ colon ++ t ++ colon ++ n ++ scim_tail o ++ z).
  { rewrite Es. unfold scim_ss. rewrite <- !app_assoc. reflexivity. }
  assert (K : forall v, parsed PRFC7643Only (s ++ z) v -> exists n' o' sv, scim_name n' /\ (o' = [] \/ scim_other o') /\
     n ++ scim_tail o ++ z = n' ++ scim_tail o' /\ URN_SCIM v = Some sv /\ s_Type sv = s_Type sc /\ s_Name sv = n' /\ s_Other sv = o' /\
     u_prefix v = p /\ u_ID v = u_ID u /\ u_SS v = u_SS u ++ z).
  { intros v Hv. destruct (partsscim _ v Hv) as (p' & t' & sv & (Es' & Hp' & Ht' & Hn' & Ho') & Vp & Vsc & Vty & VID & VSS & _ & Vk & _).
    rewrite Ez in Es'. destruct (urn_word_app _ _ _ _ Hp Hp' Es') as [E1 E]. apply app_inv_head in E. apply app_inv_head in E. apply app_inv_head in E.
    unfold scim_ss in E. pose proof E as E0. destruct (nid_colon t t' _ _ (alnum_nid _ (scim_types _ Ht)) (alnum_nid _ (scim_types _ Ht')) E) as [<- E2].
    exists (s_Name sv), (s_Other sv), sv. unfold URN_SCIM. rewrite Vk. split; [exact Hn'|]. split; [exact Ho'|]. split; [exact E2|].
    split; [exact Vsc|]. split; [congruence|]. split; [reflexivity|]. split; [reflexivity|]. split; [congruence|]. split; [congruence|].
    rewrite VSS, USS. unfold scim_ss. rewrite <- E2, <- !app_assoc. reflexivity. }
  assert (K2 : forall n' o', scim_name n' -> (o' = [] \/ scim_other o') -> n ++ scim_tail o ++ z = n' ++ scim_tail o' ->
    (o <> [] -> n' = n /\ o' = o ++ z /\ escaped alnum sss z) /\
    (o = [] -> exists y, n' = n ++ y /\ z = y ++ scim_tail o' /\ forallb alnum y = true)).
  { intros n' o' Hn' Ho' E. split.
    - intros Hne. assert (Eo : scim_tail o = colon ++ o) by (destruct o; [contradiction Hne; reflexivity|reflexivity]). rewrite Eo in E.
      rewrite <- app_assoc in E. destruct o' as [|c' o'].
      + cbn [scim_tail] in E. rewrite app_nil_r in E. destruct Hn' as [_ Hn']. rewrite <- E in Hn'. destruct (colon_not_alnum _ _ Hn').
      + destruct (nid_colon n n' (o ++ z) (c' :: o') (alnum_nid _ (proj2 Hn)) (alnum_nid _ (proj2 Hn')) E) as [<- E2].
        split; [reflexivity|]. split; [symmetry; exact E2|]. destruct Ho' as [Ho'|[_ Ho']]; [discriminate Ho'|]. rewrite <- E2 in Ho'.
        destruct Ho as [Ho|[_ Ho]]; [contradiction|]. exact (esc_rest alnum sss o z eq_refl Ho Ho').
    - intros He. rewrite He in E. cbn [scim_tail app] in E. destruct (name_cut n z n' o' (proj2 Hn) E) as (y & -> & ->).
      exists y. split; [reflexivity|]. split; [reflexivity|]. destruct Hn' as [_ Hn']. rewrite forallb_app in Hn'. apply andb_prop in Hn'. apply Hn'. }
  split; [split|].
  - intros (v & Hv). destruct (K v Hv) as (n' & o' & sv & A1 & A2 & A3 & _). destruct (K2 n' o' A1 A2 A3) as [B1 B2].
    destruct o as [|c o0] eqn:Eo.
    + right. split; [reflexivity|]. destruct (B2 eq_refl) as (y & -> & -> & By). eauto.
    + left. split; [discriminate|]. apply B1. discriminate.
  - intros [[A1 A2]|(A1 & y & o' & -> & A2 & A3)].
    + destruct (parsedscim_ok (s ++ z) p t n (o ++ z)) as (v & Hv & _); [|eauto].
      assert (Ne : o ++ z <> []) by (destruct o; [contradiction A1; reflexivity|discriminate]).
      split; [|split; [exact Hp|split; [exact Ht|split; [exact Hn|right; split; [exact Ne|]]]]].
      * rewrite Ez. unfold scim_ss. do 7 f_equal. destruct o; [contradiction A1; reflexivity|reflexivity].
      * destruct Ho as [Ho|[_ Ho]]; [contradiction|]. exact (PropsB.esc_app _ _ _ _ Ho A2).
    + destruct (parsedscim_ok (s ++ y ++ scim_tail o') p t (n ++ y) o') as (v & Hv & _); [|eauto].
      split; [|split; [exact Hp|split; [exact Ht|split; [|exact A3]]]].
      * rewrite Ez, A1. cbn [scim_tail app]. unfold scim_ss. rewrite <- !app_assoc. reflexivity.
      * split; [destruct n; [destruct Hn as [Hn _]; contradiction Hn; reflexivity|discriminate]|]. rewrite forallb_app, A2. rewrite (proj2 Hn). reflexivity.
  - intros v Hv. destruct (K v Hv) as (n' & o' & sv & A1 & A2 & A3 & A4 & A5 & A6 & A7 & A8 & A9 & A10). destruct (K2 n' o' A1 A2 A3) as [B1 B2].
    exists sv. split; [exact A4|]. split; [exact A5|]. split; [congruence|]. split; [exact A9|]. split; [exact A10|]. rewrite A6, A7. split.
    + intros Hne. destruct (B1 Hne) as (-> & -> & _). auto.
    + intros He. destruct (B2 He) as (y & -> & -> & _). eauto.
Qed.

(* ---- RFC 8141 ------------------------------------------------------------------------------ *)
Definition parts_ok (r q f : option bytes) : Prop := opt_ok r_component r /\ opt_ok q_component q /\ opt_ok fragment f.

Lemma tail_head r q f : tail8141 r q f = [] \/ exists c t, tail8141 r q f = c :: t /\ (c = "?"%byte \/ c = "#"%byte).
Proof.
  unfold tail8141. destruct r as [r|]; [right; cbn; eauto|]. destruct q as [q|]; [right; cbn; eauto|].
  destruct f as [f|]; [right; cbn; eauto|left; reflexivity].
Qed.
Lemma esc_no (cls : byte -> bool) c w x y : escaped alnum cls w -> cls c = false -> alnum c = false -> c <> "%"%byte -> w = x ++ c :: y -> False.
Proof.
  intros H H1 H2 H3 E.
  assert (K : In c w) by (rewrite E; apply in_elt). clear E. induction H as [|b w Hb H IH|a b w Ha Hb H IH]; cbn [In] in K.
  - exact K.
  - destruct K as [->|K]; [congruence|auto].
  - destruct K as [E|[->|[->|K]]]; [congruence|congruence|congruence|auto].
Qed.

(* the text behind prefix:NID:NSS *)
Lemma more8141 p n x T : urn_word p -> nid8141 n -> nss8141 x ->
  ((exists v, parsed PRFC8141Only (p ++ colon ++ n ++ colon ++ x ++ T) v) <->
   exists y r q f, T = y ++ tail8141 r q f /\ escaped alnum pchar_slash y /\ parts_ok r q f) /\
  (forall v y r q f, parsed PRFC8141Only (p ++ colon ++ n ++ colon ++ x ++ T) v -> T = y ++ tail8141 r q f ->
     escaped alnum pchar_slash y -> parts_ok r q f -> pub_of v = res8141 p n (x ++ y) r q f).
Proof.
  intros Hp Hn Hx.
  assert (B2 : forall y r q f, T = y ++ tail8141 r q f -> escaped alnum pchar_slash y -> parts_ok r q f ->
     urn8141 (p ++ colon ++ n ++ colon ++ x ++ T) p n (x ++ y) r q f).
  { intros y r q f -> Hy (H1 & H2 & H3). split; [rewrite <- !app_assoc; reflexivity|]. split; [exact Hp|]. split; [exact Hn|].
    split; [|split; [exact H1|split; [exact H2|exact H3]]]. destruct Hx as [Hx (c & w & -> & Hc)].
    split; [exact (PropsB.esc_app _ _ _ _ Hx Hy)|]. exists c, (w ++ y). auto. }
  split; [split|].
  - intros (v & Hv). destruct (parsed8141_inv _ v Hv) as (p' & n' & x' & r & q & f & (Es & Hp' & Hn' & Hx' & H1 & H2 & H3) & _).
    destruct (urn_word_app _ _ _ _ Hp Hp' Es) as [<- E]. apply app_inv_head in E.
    destruct (nid_colon n n' _ _ ltac:(apply Hn) ltac:(apply Hn') E) as [<- E2].
    destruct (app_cut _ _ _ _ E2) as [(e & -> & ->)|(e & -> & Ee)].
    + exists e, r, q, f. split; [reflexivity|]. split; [|split; [exact H1|split; [exact H2|exact H3]]].
      exact (esc_rest alnum pchar_slash x e eq_refl (proj1 Hx) (proj1 Hx')).
    + exists [], r, q, f. split; [|split; [apply esc_nil|split; [exact H1|split; [exact H2|exact H3]]]].
      destruct (tail_head r q f) as [Et|(c & t & Et & Hc)].
      * rewrite Et in Ee. symmetry in Ee. apply app_eq_nil in Ee. destruct Ee as [-> ->]. rewrite Et. reflexivity.
      * destruct e as [|b e]; [symmetry; exact Ee|]. exfalso. rewrite Et in Ee. cbn [app] in Ee. injection Ee as <- _.
        destruct Hx as [Hx _]. eapply (esc_no pchar_slash c); [exact Hx|..|reflexivity]; destruct Hc as [->| ->]; try reflexivity; discriminate.
  - intros (y & r & q & f & Hy). destruct (parsed8141_ok _ p n (x ++ y) r q f (B2 y r q f ltac:(apply Hy) ltac:(apply Hy) ltac:(apply Hy))) as (v & Hv & _). eauto.
  - intros v y r q f Hv ET Hy Hq. destruct (parsed8141_inv _ v Hv) as (p' & n' & x' & r' & q' & f' & Hu & Hpub).
    destruct (urn8141_unique _ _ _ _ _ _ _ _ _ _ _ _ _ (B2 y r q f ET Hy Hq) Hu) as (<- & <- & <- & <- & <- & <-). exact Hpub.
Qed.
(* behind prefix:NID:NSS stands a component already *)
Lemma more8141_tail p n x c T : urn_word p -> nid8141 n -> nss8141 x -> c = "?"%byte \/ c = "#"%byte ->
  ((exists v, parsed PRFC8141Only (p ++ colon ++ n ++ colon ++ x ++ c :: T) v) <->
   exists r q f, c :: T = tail8141 r q f /\ parts_ok r q f) /\
  (forall v r q f, parsed PRFC8141Only (p ++ colon ++ n ++ colon ++ x ++ c :: T) v -> c :: T = tail8141 r q f ->
     parts_ok r q f -> pub_of v = res8141 p n x r q f).
Proof.
  intros Hp Hn Hx Hc. destruct (more8141 p n x (c :: T) Hp Hn Hx) as [A1 A2]. split; [rewrite A1; split|].
  - intros (y & r & q & f & E & Hy & Hq). exists r, q, f. split; [|exact Hq]. destruct y as [|b y]; [exact E|]. exfalso.
    cbn [app] in E. injection E as <- _. eapply (esc_no pchar_slash c (c :: y) []); [exact Hy|..|reflexivity]; destruct Hc as [->| ->]; try reflexivity; discriminate.
  - intros (r & q & f & E & Hq). exists [], r, q, f. split; [exact E|]. split; [apply esc_nil|exact Hq].
  - intros v r q f Hv E Hq. rewrite (A2 v [] r q f Hv E (esc_nil _ _) Hq), app_nil_r. reflexivity.
Qed.

Lemma frag_hash (w x y : bytes) : escaped alnum frag_char w -> w = x ++ "#"%byte :: y -> False.
Proof. intros H E. eapply (esc_no frag_char "#"%byte); [exact H|reflexivity|reflexivity|discriminate|exact E]. Qed.
Lemma r_hash r : opt_ok r_component r -> forall x y, opt_part (B "?+") r = x ++ "#"%byte :: y -> False.
Proof.
  destruct r as [r|]; intros H x y E; [|destruct x; discriminate E]. destruct H as [[H _] _].
  destruct x as [|a [|b x]]; try discriminate E. injection E as _ _ E. exact (frag_hash r x y H E).
Qed.
Lemma q_hash r : opt_ok q_component r -> forall x y, opt_part (B "?=") r = x ++ "#"%byte :: y -> False.
Proof.
  destruct r as [r|]; intros H x y E; [|destruct x; discriminate E]. destruct H as [[H _] _].
  destruct x as [|a [|b x]]; try discriminate E. injection E as _ _ E. exact (frag_hash r x y H E).
Qed.
Lemma hash_cut (a b c d : bytes) : (forall x y, a = x ++ "#"%byte :: y -> False) -> (forall x y, c = x ++ "#"%byte :: y -> False) ->
  a ++ "#"%byte :: b = c ++ "#"%byte :: d -> a = c /\ b = d.
Proof.
  intros Ha Hc E. destruct (app_cut _ _ _ _ E) as [(e & -> & Ee)|(e & -> & Ee)]; destruct e as [|h e]; cbn [app] in Ee.
  - injection Ee as <-. rewrite app_nil_r. auto.
  - injection Ee as <- _. destruct (Hc _ _ eq_refl).
  - injection Ee as <-. rewrite app_nil_r. auto.
  - injection Ee as <- _. destruct (Ha _ _ eq_refl).
Qed.
(* components without fragment, and where they end *)
Definition rq (r q : option bytes) : bytes := opt_part (B "?+") r ++ opt_part (B "?=") q.
Lemma rq_hash r q : opt_ok r_component r -> opt_ok q_component q -> forall x y, rq r q = x ++ "#"%byte :: y -> False.
Proof.
  intros Hr Hq x y E. unfold rq in E. destruct (app_cut _ _ _ _ E) as [(e & -> & Ee)|(e & Ex & Ee)].
  - exact (q_hash q Hq _ _ Ee).
  - destruct e as [|h e]; cbn [app] in Ee.
    + eapply (q_hash q Hq [] y). symmetry. exact Ee.
    + injection Ee as <- _. exact (r_hash r Hr _ _ Ex).
Qed.
Lemma tail_rq r q f : tail8141 r q f = rq r q ++ opt_part (B "#") f.
Proof. unfold tail8141, rq. rewrite <- app_assoc. reflexivity. Qed.

(* two readings of one text that begins with components *)
Lemma rq_cut r q r' q' : opt_ok r_component r -> opt_ok q_component q -> opt_ok r_component r' -> opt_ok q_component q' ->
  rq r q = rq r' q' -> r = r' /\ q = q'.
Proof.
  intros H1 H2 H1' H2' E.
  assert (W : urn_word (B "urn")) by reflexivity.
  assert (N : nid8141 (B "ab")).
  { split; [cbn; lia|]. split; [reflexivity|]. split; [exists "a"%byte, (B "b"); auto|]. split; [exists "b"%byte, (B "a"); auto|].
    intros (u & c & w & Ea & Hu & _). apply urn_word_len in Hu. destruct u as [|? [|? [|? ?]]]; try discriminate Hu. discriminate Ea. }
  assert (X : nss8141 (B "c")) by (split; [apply esc_forall; reflexivity|exists "c"%byte, []; split; [reflexivity|discriminate]]).
  assert (G : forall r q, opt_ok r_component r -> opt_ok q_component q ->
    urn8141 (B "urn" ++ colon ++ B "ab" ++ colon ++ B "c" ++ rq r q) (B "urn") (B "ab") (B "c") r q None).
  { intros a b Ka Kb. split; [rewrite tail_rq; cbn [opt_part]; rewrite app_nil_r; reflexivity|]. repeat (split; [assumption|]). exact I. }
  pose proof (G r q H1 H2) as U. rewrite E in U.
  destruct (urn8141_unique _ _ _ _ _ _ _ _ _ _ _ _ _ U (G r' q' H1' H2')) as (_ & _ & _ & -> & -> & _). auto.
Qed.
Lemma r_cut r q c w r' q' : opt_ok r_component r -> opt_ok r_component r' -> opt_ok q_component q' -> q = Some (c :: w) ->
  c <> "/"%byte -> c <> "?"%byte -> rq r q = rq r' q' -> r' = r /\ q' = q.
Proof.
  intros Hr Hr' Hq' -> N1 N2 E. unfold rq in E. destruct r as [a|]; cbn [opt_part] in E.
  2:{ destruct r' as [a'|]; [discriminate E|]. destruct q' as [b|]; [|discriminate E]. cbn in E. injection E as <-. auto. }
  destruct r' as [a'|]; [|destruct q'; discriminate E]. cbn [opt_part] in E. rewrite <- !app_assoc in E. apply app_inv_head in E.
  destruct (app_cut _ _ _ _ E) as [(e & -> & Ee)|(e & -> & Ee)].
  - destruct e as [|e1 e].
    + rewrite app_nil_r. destruct q' as [b|]; [|discriminate Ee]. cbn in Ee. injection Ee as <-. auto.
    + exfalso. cbn [B list_byte_of_string app] in Ee. injection Ee as <- Ee. destruct e as [|e2 e].
      * destruct q'; discriminate Ee.
      * injection Ee as <- Ee. destruct e as [|e3 e].
        -- destruct q' as [b|]; [|discriminate Ee]. injection Ee as -> _. contradiction N2; reflexivity.
        -- injection Ee as <- _. destruct Hr' as (_ & _ & Hr'). destruct (Hr' a (c :: e) eq_refl) as [X|[(y & X)|(y & X)]]; [discriminate X|injection X as -> _..];
           [contradiction N1; reflexivity|contradiction N2; reflexivity].
  - destruct q' as [b|]; [|destruct e; discriminate Ee]. destruct e as [|e1 e].
    + rewrite app_nil_r. cbn in Ee. injection Ee as ->. auto.
    + exfalso. cbn [opt_part B list_byte_of_string app] in Ee. injection Ee as <- Ee. destruct e as [|e2 e]; [discriminate Ee|].
      injection Ee as <- Ee. destruct Hq' as [[_ (h & b' & Eb & M1 & M2)] _]. destruct Hr as (_ & _ & Hr).
      destruct (Hr a' e eq_refl) as [->|[(y & ->)|(y & ->)]]; rewrite Eb in Ee; injection Ee as -> _; [contradiction M2; reflexivity|contradiction M1; reflexivity|contradiction M2; reflexivity].
Qed.

Lemma rq_head r q : r <> None \/ q <> None -> exists t, rq r q = "?"%byte :: t.
Proof.
  unfold rq. destruct r as [a|]; [intros _; cbn; eauto|]. destruct q as [b|]; [intros _; cbn; eauto|].
  intros [H|H]; contradiction H; reflexivity.
Qed.
Lemma frag_iff g t : fragment g -> (fragment (g ++ t) <-> fragment t).
Proof.
  intros Hg. split; [exact (esc_rest alnum frag_char g t eq_refl Hg)|exact (PropsB.esc_app _ _ _ _ Hg)].
Qed.

(* a fragment, appended or extended *)
Lemma frag_tail p n x r q g T : urn_word p -> nid8141 n -> nss8141 x -> opt_ok r_component r -> opt_ok q_component q ->
  T = p ++ colon ++ n ++ colon ++ x ++ tail8141 r q (Some g) ->
  ((exists v, parsed PRFC8141Only T v) <-> fragment g) /\
  (forall v, parsed PRFC8141Only T v -> pub_of v = res8141 p n x r q (Some g)).
Proof.
  intros Hp Hn Hx Hr Hq ->.
  assert (A : exists c t, tail8141 r q (Some g) = c :: t /\ (c = "?"%byte \/ c = "#"%byte)).
  { destruct (tail_head r q (Some g)) as [E|E]; [|exact E]. unfold tail8141 in E. apply app_eq_nil in E. destruct E as [_ E].
    apply app_eq_nil in E. destruct E as [_ E]. discriminate E. }
  destruct A as (c & t & A & Hc). rewrite A. destruct (more8141_tail p n x c t Hp Hn Hx Hc) as [M1 M2]. rewrite <- A in *.
  assert (K : forall v, parsed PRFC8141Only (p ++ colon ++ n ++ colon ++ x ++ tail8141 r q (Some g)) v -> fragment g).
  { intros v Hv. destruct (proj1 M1 (ex_intro _ v Hv)) as (r' & q' & f' & E & H1 & H2 & H3). rewrite !tail_rq in E. cbn [opt_part B list_byte_of_string] in E.
    destruct f' as [g'|]; cbn [opt_part B list_byte_of_string] in E.
    - destruct (hash_cut (rq r q) g (rq r' q') g' (rq_hash r q Hr Hq) (rq_hash r' q' H1 H2) E) as [_ ->]. exact H3.
    - exfalso. rewrite app_nil_r in E. symmetry in E. exact (rq_hash r' q' H1 H2 _ _ E). }
  split; [split|].
  - intros (v & Hv). exact (K v Hv).
  - intros Hg. apply M1. exists r, q, (Some g). repeat split; assumption.
  - intros v Hv. apply (M2 v r q (Some g) Hv eq_refl). repeat split; try assumption. exact (K v Hv).
Qed.

Lemma hash8141 s u p n x r q g : parsed PRFC8141Only s u -> urn8141 s p n x r q None ->
  ((exists v, parsed PRFC8141Only (s ++ B "#" ++ g) v) <-> fragment g) /\
  (forall v, parsed PRFC8141Only (s ++ B "#" ++ g) v -> FComponent v = g /\
     u_prefix v = u_prefix u /\ u_ID v = u_ID u /\ u_SS v = u_SS u /\ u_norm v = u_norm u /\
     RComponent v = RComponent u /\ QComponent v = QComponent u).
Proof.
  intros H Hu. pose proof Hu as (Es & Hp & Hn & Hx & Hr & Hq & _).
  destruct (frag_tail p n x r q g (s ++ B "#" ++ g) Hp Hn Hx Hr Hq) as [A1 A2].
  { rewrite Es, <- !app_assoc. unfold tail8141. cbn [opt_part]. rewrite <- !app_assoc. reflexivity. }
  split; [exact A1|]. intros v Hv. specialize (A2 v Hv).
  destruct (parsed8141_inv _ u H) as (p' & n' & x' & r' & q' & f' & Hu' & Hpub).
  destruct (urn8141_unique _ _ _ _ _ _ _ _ _ _ _ _ _ Hu Hu') as (<- & <- & <- & <- & <- & <-).
  apply pub_fields in A2, Hpub. destruct A2 as (V1 & V2 & V3 & V4 & _ & _ & V7 & V8 & V9). destruct Hpub as (U1 & U2 & U3 & U4 & _ & _ & U7 & U8 & _).
  unfold FComponent, RComponent, QComponent. rewrite V1, V2, V3, V4, V7, V8, V9, U1, U2, U3, U4, U7, U8. repeat split.
Qed.

Lemma frag8141 s u p n x r q g t : parsed PRFC8141Only s u -> urn8141 s p n x r q (Some g) ->
  ((exists v, parsed PRFC8141Only (s ++ t) v) <-> fragment t) /\
  (forall v, parsed PRFC8141Only (s ++ t) v -> FComponent v = FComponent u ++ t /\
     u_prefix v = u_prefix u /\ u_ID v = u_ID u /\ u_SS v = u_SS u /\ u_norm v = u_norm u /\
     RComponent v = RComponent u /\ QComponent v = QComponent u).
Proof.
  intros H Hu. pose proof Hu as (Es & Hp & Hn & Hx & Hr & Hq & Hg).
  destruct (frag_tail p n x r q (g ++ t) (s ++ t) Hp Hn Hx Hr Hq) as [A1 A2].
  { rewrite Es, <- !app_assoc. unfold tail8141. cbn [opt_part]. rewrite <- !app_assoc. reflexivity. }
  rewrite (frag_iff g t Hg) in A1. split; [exact A1|]. intros v Hv. specialize (A2 v Hv).
  destruct (parsed8141_inv _ u H) as (p' & n' & x' & r' & q' & f' & Hu' & Hpub).
  destruct (urn8141_unique _ _ _ _ _ _ _ _ _ _ _ _ _ Hu Hu') as (<- & <- & <- & <- & <- & <-).
  apply pub_fields in A2, Hpub. destruct A2 as (V1 & V2 & V3 & V4 & _ & _ & V7 & V8 & V9). destruct Hpub as (U1 & U2 & U3 & U4 & _ & _ & U7 & U8 & U9).
  unfold FComponent, RComponent, QComponent. rewrite V1, V2, V3, V4, V7, V8, V9, U1, U2, U3, U4, U7, U8, U9. repeat split.
Qed.

(* no component yet *)
Lemma bare8141 s u p n x t : parsed PRFC8141Only s u -> urn8141 s p n x None None None ->
  ((exists v, parsed PRFC8141Only (s ++ t) v) <->
   exists y r q f, t = y ++ tail8141 r q f /\ escaped alnum pchar_slash y /\ parts_ok r q f) /\
  (forall v y r q f, parsed PRFC8141Only (s ++ t) v -> t = y ++ tail8141 r q f -> escaped alnum pchar_slash y -> parts_ok r q f ->
     u_prefix v = u_prefix u /\ u_ID v = u_ID u /\ u_SS v = u_SS u ++ y /\ u_norm v = u_norm u ++ norm_pct y /\
     RComponent v = opt_val r /\ QComponent v = opt_val q /\ FComponent v = opt_val f).
Proof.
  intros H Hu. pose proof Hu as (Es & Hp & Hn & Hx & _).
  assert (E : s ++ t = p ++ colon ++ n ++ colon ++ x ++ t) by (rewrite Es, <- !app_assoc; reflexivity).
  rewrite E. destruct (more8141 p n x t Hp Hn Hx) as [A1 A2]. split; [exact A1|].
  intros v y r q f Hv Et Hy Hok. specialize (A2 v y r q f Hv Et Hy Hok).
  destruct (parsed8141_inv _ u H) as (p' & n' & x' & r' & q' & f' & Hu' & Hpub).
  destruct (urn8141_unique _ _ _ _ _ _ _ _ _ _ _ _ _ Hu Hu') as (<- & <- & <- & <- & <- & <-).
  apply pub_fields in A2, Hpub. destruct A2 as (V1 & V2 & V3 & V4 & _ & _ & V7 & V8 & V9). destruct Hpub as (U1 & U2 & U3 & U4 & _).
  unfold FComponent, RComponent, QComponent. rewrite V1, V2, V3, V4, V7, V8, V9, U1, U2, U3, U4.
  repeat split. apply (norm_app pchar_slash x y eq_refl), Hx.
Qed.

(* a q-component, no fragment *)
Lemma q8141 s u p n x r w t : parsed PRFC8141Only s u -> urn8141 s p n x r (Some w) None ->
  ((exists v, parsed PRFC8141Only (s ++ t) v) <->
   exists y f, t = y ++ opt_part (B "#") f /\ q_component (w ++ y) /\ opt_ok fragment f) /\
  (forall v, parsed PRFC8141Only (s ++ t) v -> exists y f, t = y ++ opt_part (B "#") f /\
     QComponent v = QComponent u ++ y /\ FComponent v = opt_val f /\
     u_prefix v = u_prefix u /\ u_ID v = u_ID u /\ u_SS v = u_SS u /\ u_norm v = u_norm u /\ RComponent v = RComponent u).
Proof.
  intros H Hu. pose proof Hu as (Es & Hp & Hn & Hx & Hr & Hq & _).
  destruct (rq_head r (Some w)) as (tl & Eh); [right; discriminate|].
  assert (E : s ++ t = p ++ colon ++ n ++ colon ++ x ++ "?"%byte :: (tl ++ t)).
  { rewrite Es, tail_rq, Eh, <- !app_assoc. cbn [opt_part app]. rewrite <- ?app_assoc. reflexivity. }
  destruct (more8141_tail p n x "?"%byte (tl ++ t) Hp Hn Hx (or_introl eq_refl)) as [A1 A2]. rewrite <- E in A1, A2.
  change ("?"%byte :: tl ++ t) with (("?"%byte :: tl) ++ t) in A1, A2. rewrite <- Eh in A1, A2.
  assert (W : exists c w', w = c :: w' /\ c <> "/"%byte /\ c <> "?"%byte) by (destruct Hq as [[_ Hq] _]; exact Hq).
  destruct W as (c & w' & -> & N1 & N2).
  assert (J : forall y, rq r (Some ((c :: w') ++ y)) = rq r (Some (c :: w')) ++ y).
  { intros y. unfold rq. cbn [opt_part]. rewrite <- !app_assoc. reflexivity. }
  assert (K : forall r' q' f', rq r (Some (c :: w')) ++ t = tail8141 r' q' f' -> parts_ok r' q' f' ->
    exists y, t = y ++ opt_part (B "#") f' /\ r' = r /\ q' = Some ((c :: w') ++ y)).
  { intros r' q' f' Et (H1 & H2 & H3). rewrite tail_rq in Et. destruct (app_cut _ _ _ _ Et) as [(y & Ey & ->)|(e & Ee & Et')].
    - exists y. split; [reflexivity|]. rewrite <- J in Ey. symmetry in Ey. destruct (r_cut r (Some ((c :: w') ++ y)) c (w' ++ y) r' q' Hr H1 H2 eq_refl N1 N2 Ey). auto.
    - exists []. destruct e as [|h e].
      + cbn [app] in Et'. rewrite app_nil_r in Ee. split; [symmetry; exact Et'|]. rewrite app_nil_r.
        destruct (r_cut r (Some (c :: w')) c w' r' q' Hr H1 H2 eq_refl N1 N2 Ee). auto.
      + exfalso. destruct f' as [g|]; [|discriminate Et']. injection Et' as <- _. exact (rq_hash r (Some (c :: w')) Hr Hq _ _ Ee). }
  split; [split|].
  - intros Hv. apply A1 in Hv. destruct Hv as (r' & q' & f' & Et & Hok). destruct (K r' q' f' Et Hok) as (y & -> & -> & ->).
    exists y, f'. split; [reflexivity|]. split; apply Hok.
  - intros (y & f & -> & Hy & Hf). apply A1. exists r, (Some ((c :: w') ++ y)), f. split; [|split; [exact Hr|split; [exact Hy|exact Hf]]].
    rewrite tail_rq, J, <- app_assoc. reflexivity.
  - intros v Hv. destruct (proj1 A1 (ex_intro _ v Hv)) as (r' & q' & f' & Et & Hok). pose proof (A2 v r' q' f' Hv Et Hok) as Hpv.
    destruct (K r' q' f' Et Hok) as (y & -> & -> & ->). exists y, f'. split; [reflexivity|].
    destruct (parsed8141_inv _ u H) as (p' & n' & x' & r' & q' & f'' & Hu' & Hpub).
    destruct (urn8141_unique _ _ _ _ _ _ _ _ _ _ _ _ _ Hu Hu') as (<- & <- & <- & <- & <- & <-).
    apply pub_fields in Hpv, Hpub. destruct Hpv as (V1 & V2 & V3 & V4 & _ & _ & V7 & V8 & V9). destruct Hpub as (U1 & U2 & U3 & U4 & _ & _ & U7 & U8 & U9).
    unfold FComponent, RComponent, QComponent. rewrite V1, V2, V3, V4, V7, V8, V9, U1, U2, U3, U4, U7, U8. repeat split.
Qed.

(* an r-component, nothing behind it *)
Lemma r8141 s u p n x w t : parsed PRFC8141Only s u -> urn8141 s p n x (Some w) None None ->
  ((exists v, parsed PRFC8141Only (s ++ t) v) <->
   exists r q f, w ++ t = r ++ opt_part (B "?=") q ++ opt_part (B "#") f /\ parts_ok (Some r) q f) /\
  (forall v r q f, parsed PRFC8141Only (s ++ t) v -> w ++ t = r ++ opt_part (B "?=") q ++ opt_part (B "#") f -> parts_ok (Some r) q f ->
     RComponent v = r /\ QComponent v = opt_val q /\ FComponent v = opt_val f /\
     u_prefix v = u_prefix u /\ u_ID v = u_ID u /\ u_SS v = u_SS u /\ u_norm v = u_norm u).
Proof.
  intros H Hu. pose proof Hu as (Es & Hp & Hn & Hx & Hr & _).
  assert (E : s ++ t = p ++ colon ++ n ++ colon ++ x ++ "?"%byte :: "+"%byte :: (w ++ t)).
  { rewrite Es, <- !app_assoc. unfold tail8141. cbn [opt_part]. rewrite !app_nil_r. reflexivity. }
  destruct (more8141_tail p n x "?"%byte ("+"%byte :: (w ++ t)) Hp Hn Hx (or_introl eq_refl)) as [A1 A2]. rewrite <- E in A1, A2.
  split; [rewrite A1; split|].
  - intros (r & q & f & Et & Hok). destruct r as [r|]; [|destruct q, f; discriminate Et]. exists r, q, f. split; [|exact Hok].
    unfold tail8141 in Et. cbn [opt_part] in Et. injection Et as Et. exact Et.
  - intros (r & q & f & Et & Hok). exists (Some r), q, f. split; [|exact Hok]. unfold tail8141. cbn [opt_part]. rewrite Et. reflexivity.
  - intros v r q f Hv Et Hok. assert (Hpv : pub_of v = res8141 p n x (Some r) q f).
    { apply (A2 v (Some r) q f Hv); [|exact Hok]. unfold tail8141. cbn [opt_part]. rewrite Et. reflexivity. }
    destruct (parsed8141_inv _ u H) as (p' & n' & x' & r' & q' & f'' & Hu' & Hpub).
    destruct (urn8141_unique _ _ _ _ _ _ _ _ _ _ _ _ _ Hu Hu') as (<- & <- & <- & <- & <- & <-).
    apply pub_fields in Hpv, Hpub. destruct Hpv as (V1 & V2 & V3 & V4 & _ & _ & V7 & V8 & V9). destruct Hpub as (U1 & U2 & U3 & U4 & _).
    unfold FComponent, RComponent, QComponent. rewrite V1, V2, V3, V4, V7, V8, V9, U1, U2, U3, U4. repeat split.
Qed.

(* cutting the components off, and cutting inside the NSS *)
Lemma cut8141 s u p n x r q f y z : parsed PRFC8141Only s u -> urn8141 s p n x r q f -> x = y ++ z ->
  ((exists v, parsed PRFC8141Only (p ++ colon ++ n ++ colon ++ y) v) <-> y <> [] /\ escaped alnum pchar_slash y) /\
  (forall v, parsed PRFC8141Only (p ++ colon ++ n ++ colon ++ y) v ->
     u_ID v = u_ID u /\ u_SS v = y /\ RComponent v = [] /\ QComponent v = [] /\ FComponent v = []).
Proof.
  intros H Hu Ex. pose proof Hu as (Es & Hp & Hn & Hx & _).
  assert (K : forall v, parsed PRFC8141Only (p ++ colon ++ n ++ colon ++ y) v ->
    nss8141 y /\ pub_of v = res8141 p n y None None None).
  { intros v Hv. destruct (parsed8141_inv _ v Hv) as (p' & n' & x' & r' & q' & f' & (Es' & Hp' & Hn' & Hx' & Hok) & Hpub).
    destruct (urn_word_app _ _ _ _ Hp Hp' Es') as [<- E]. apply app_inv_head in E.
    destruct (nid_colon n n' _ _ ltac:(apply Hn) ltac:(apply Hn') E) as [<- E2].
    assert (Et : tail8141 r' q' f' = []).
    { destruct (tail_head r' q' f') as [Et|(c & t & Et & Hc)]; [exact Et|]. exfalso. rewrite Et in E2. rewrite Ex, E2, <- app_assoc in Hx. cbn [app] in Hx.
      destruct Hx as [Hx _]. eapply (esc_no pchar_slash c); [exact Hx|..|reflexivity]; destruct Hc as [->| ->]; try reflexivity; discriminate. }
    rewrite Et, app_nil_r in E2. subst x'. split; [exact Hx'|].
    destruct r'; [discriminate Et|]. destruct q'; [discriminate Et|]. destruct f'; [discriminate Et|]. exact Hpub. }
  split; [split|].
  - intros (v & Hv). destruct (K v Hv) as [[K1 (c & w & -> & _)] _]. split; [discriminate|exact K1].
  - intros [Hy He]. destruct (parsed8141_ok (p ++ colon ++ n ++ colon ++ y) p n y None None None) as (v & Hv & _); [|eauto].
    split; [unfold tail8141; cbn [opt_part app]; rewrite app_nil_r; reflexivity|]. split; [exact Hp|]. split; [exact Hn|]. split; [|repeat split].
    split; [exact He|]. destruct y as [|c y]; [contradiction Hy; reflexivity|]. destruct Hx as [_ (c' & w & E & Hc)]. rewrite Ex in E. injection E as -> _. eauto.
  - intros v Hv. destruct (K v Hv) as [_ Hpv].
    destruct (parsed8141_inv _ u H) as (p' & n' & x' & r' & q' & f'' & Hu' & Hpub).
    destruct (urn8141_unique _ _ _ _ _ _ _ _ _ _ _ _ _ Hu Hu') as (<- & <- & <- & <- & <- & <-).
    apply pub_fields in Hpv, Hpub. destruct Hpv as (V1 & V2 & V3 & V4 & _ & _ & V7 & V8 & V9). destruct Hpub as (U1 & U2 & _).
    unfold FComponent, RComponent, QComponent. rewrite V2, V3, V7, V8, V9, U2. repeat split.
Qed.
