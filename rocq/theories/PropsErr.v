(* The errors of RFC 2141 and SCIM modes: SpecErr.v is exactly what Parse reports (C25),
   and the column is the first byte that cannot be continued (C24). *)
From Coq Require Import Lia.
From Verif Require Import GoBase MachineSyntax MachineTables Machine Urn Spec SpecErr Ref Exec SimBase
  ParseThm RefSpec RefSpec8 RefSpec8b Api PropsA PropsB.
Local Open Scope Z_scope.

Lemma wcons_err c k e : wcons c k = WErr e <-> k = WErr e.
Proof. destruct k; cbn; split; intros H; try discriminate H; exact H. Qed.

Lemma perr_eq (a b : perr) : e_kind a = e_kind b -> e_col a = e_col b -> a = b.
Proof. destruct a, b; cbn; congruence. Qed.

(* ---- fixed words -------------------------------------------------------------------- *)
Lemma stuck_cons l w x y : stuck [l :: w] (l :: x) y <-> stuck [w] x y.
Proof.
  unfold stuck. split.
  - intros [(w' & v & [<-|[]] & H & Hv) K]. injection H as H. split; [exists w, v; cbn; auto|].
    intros c y' w2 v2 E [<-|[]] H2. apply (K c y' (l :: w) v2 E); [left; reflexivity|]. cbn. rewrite H2. reflexivity.
  - intros [(w' & v & [<-|[]] & H & Hv) K]. split; [exists (l :: w), v; cbn; rewrite <- H; auto|].
    intros c y' w2 v2 E [<-|[]] H2. cbn in H2. injection H2 as H2. apply (K c y' w v2 E); [left; reflexivity|exact H2].
Qed.
Lemma stuck_nil l w y : stuck [l :: w] [] y <-> stops (fun c => c <> l) y.
Proof.
  unfold stuck, stops. split.
  - intros [_ K]. destruct y as [|c y]; [left; reflexivity|right]. exists c, y. split; [reflexivity|].
    intros ->. apply (K l y (l :: w) w eq_refl); [left; reflexivity|reflexivity].
  - intros H. split; [exists (l :: w), (l :: w); cbn; repeat split; auto; discriminate|].
    intros c y' w2 v E [<-|[]] H2. cbn in H2. injection H2 as -> _. subst y.
    destruct H as [H|(c' & y2 & H & Hn)]; [discriminate H|]. injection H as <- <-. apply Hn. reflexivity.
Qed.
Lemma stuck_hd l w c x y : stuck [l :: w] (c :: x) y -> c = l.
Proof. intros [(w' & v & [<-|[]] & H & _) _]. injection H as ->. reflexivity. Qed.

Definition lits (f : byte -> byte) (w : bytes) : list (byte -> bool) := map (fun l b => Byte.eqb (f b) l) w.
Lemma lit_stuck f e e' w : forall pos s, ref_lit e (lits f w) pos s = WErr e' <->
  exists x y, s = x ++ y /\ stuck [w] (map f x) (map f y) /\ e' = mkErr e (pos + zlen x).
Proof.
  induction w as [|l w IH]; intros pos s; cbn [lits map ref_lit].
  - split; [discriminate|]. intros (x & y & _ & [(w & v & [<-|[]] & H & Hv) _] & _). 
    destruct (map f x); [|discriminate H]. destruct v; [contradiction Hv; reflexivity|discriminate H].
  - destruct s as [|c s].
    + split.
      * intros H. injection H as <-. exists [], []. split; [reflexivity|]. split; [|f_equal; unfold zlen; cbn; lia].
        apply stuck_nil. left; reflexivity.
      * intros (x & y & E & _ & ->). destruct x; [|discriminate E]. f_equal. f_equal. unfold zlen; cbn; lia.
    + destruct (Byte.eqb (f c) l) eqn:Ec.
      * apply beq_eq in Ec. rewrite wcons_err. unfold lits in IH. rewrite IH. split.
        -- intros (x & y & -> & Hs & ->). exists (c :: x), y. split; [reflexivity|]. split.
           ++ cbn [map]. rewrite Ec. apply (proj2 (stuck_cons _ _ _ _)). exact Hs.
           ++ f_equal. rewrite zlen_cons. lia.
        -- intros (x & y & E & Hs & ->). destruct x as [|d x].
           ++ cbn in E. subst y. cbn [map] in Hs. apply stuck_nil in Hs. destruct Hs as [Hs|(c' & y & Hs & Hn)]; [discriminate Hs|].
              injection Hs as Hs _. congruence.
           ++ injection E as <- ->. exists x, y. split; [reflexivity|]. cbn [map] in Hs. rewrite Ec in Hs. apply (proj1 (stuck_cons _ _ _ _)) in Hs.
              split; [exact Hs|]. f_equal. rewrite zlen_cons. lia.
      * split.
        -- intros H. injection H as <-. exists [], (c :: s). split; [reflexivity|]. split; [|f_equal; unfold zlen; cbn; lia].
           apply stuck_nil. right. exists (f c), (map f s). split; [reflexivity|]. intros E. rewrite E in Ec. rewrite beq_refl in Ec. discriminate Ec.
        -- intros (x & y & E & Hs & ->). destruct x as [|d x]; [f_equal; f_equal; unfold zlen; cbn; lia|].
           injection E as <- ->. cbn [map] in Hs. apply stuck_hd in Hs. rewrite Hs, beq_refl in Ec. discriminate Ec.
Qed.
Lemma ref_lit_ext e ps qs : Forall2 (fun (p q : byte -> bool) => forall c, p c = q c) ps qs ->
  forall pos s, ref_lit e ps pos s = ref_lit e qs pos s.
Proof.
  induction 1 as [|p q ps qs Hpq _ IH]; intros pos s; [reflexivity|]. cbn [ref_lit].
  destruct s as [|c s]; [reflexivity|]. rewrite Hpq, IH. reflexivity.
Qed.
Lemma prefix_lits s : ref_prefix s = ref_lit ErrPrefix (lits low (B "urn:")) 0 s.
Proof.
  unfold ref_prefix. apply ref_lit_ext. repeat constructor; intros c; unfold isl, is; try reflexivity.
  destruct c; reflexivity.
Qed.
Lemma prefix_err_iff s e : ref_prefix s = WErr e <-> prefix_err s e.
Proof.
  rewrite prefix_lits, lit_stuck. unfold prefix_err, lowers. split; intros (x & y & H1 & H2 & H3); exists x, y; auto.
Qed.
Lemma is_lits w : map is w = lits (fun b => b) w.
Proof. reflexivity. Qed.
Lemma lit_is_stuck e e' w pos s : ref_lit e (map is w) pos s = WErr e' <->
  exists x y, s = x ++ y /\ stuck [w] x y /\ e' = mkErr e (pos + zlen x).
Proof. rewrite is_lits, lit_stuck. setoid_rewrite map_id. reflexivity. Qed.

(* ---- NID ------------------------------------------------------------------------------- *)
(* the rest of a NID with room for n more characters *)
Definition nidw_stuck (n : nat) (x y : bytes) : Prop :=
  forallb nid_char x = true /\ (List.length x <= n)%nat /\
  stops (fun c => c <> ":"%byte /\ (nid_char c = false \/ List.length x = n)) y.
Lemma nidw_err s : forall n pos e, ref_nidw n pos s = WErr e <->
  exists x y, s = x ++ y /\ nidw_stuck n x y /\ e = mkErr ErrIdentifier (pos + zlen x).
Proof.
  induction s as [|c s IH]; intros n pos e; rewrite ref_nidw_eq.
  - split.
    + intros H. injection H as <-. exists [], []. repeat split; [apply Nat.le_0_l|left; reflexivity|f_equal; unfold zlen; cbn; lia].
    + intros (x & y & E & _ & ->). destruct x; [|discriminate E]. f_equal; f_equal; unfold zlen; cbn; lia.
  - destruct (is ":" c) eqn:E1.
    + apply is_eq in E1. subst c. split; [discriminate|]. intros (x & y & E & (H1 & H2 & H3) & _).
      destruct x as [|d x].
      * cbn in E. subst y. destruct H3 as [H3|(c & y & H3 & Hc & _)]; [discriminate H3|]. injection H3 as <- _. contradiction Hc; reflexivity.
      * injection E as <- _. discriminate H1.
    + destruct (nid_char c) eqn:E2.
      * assert (Hn : n = O -> (WErr (mkErr ErrIdentifier pos) = WErr e <-> exists x y : list byte,
           c :: s = x ++ y /\ nidw_stuck n x y /\ e = mkErr ErrIdentifier (pos + zlen x))).
        { intros ->. split.
          - intros H. injection H as <-. exists [], (c :: s). repeat split; [apply Nat.le_0_l| |f_equal; unfold zlen; cbn; lia].
            right. exists c, s. split; [reflexivity|]. split; [apply is_ne; exact E1|right; reflexivity].
          - intros (x & y & E & (_ & H2 & _) & ->). destruct x; [|cbn in H2; lia]. f_equal; f_equal; unfold zlen; cbn; lia. }
        destruct n as [|n]; [apply Hn; reflexivity|]. clear Hn. rewrite wcons_err, IH. split.
        -- intros (x & y & -> & (H1 & H2 & H3) & ->). exists (c :: x), y. split; [reflexivity|]. split.
           ++ split; [cbn [forallb]; rewrite E2; exact H1|]. split; [cbn; lia|].
              destruct H3 as [->|(d & y' & -> & Hd & H3)]; [left; reflexivity|right]. exists d, y'. split; [reflexivity|]. split; [exact Hd|].
              destruct H3 as [H3|H3]; [left; exact H3|right; cbn; lia].
           ++ f_equal. rewrite zlen_cons. lia.
        -- intros (x & y & E & (H1 & H2 & H3) & ->). destruct x as [|d x].
           ++ cbn in E. subst y. destruct H3 as [H3|(d & y' & H3 & _ & H4)]; [discriminate H3|]. injection H3 as <- <-.
              destruct H4 as [H4|H4]; [congruence|discriminate H4].
           ++ injection E as <- ->. cbn [forallb] in H1. rewrite E2 in H1. exists x, y. split; [reflexivity|]. split.
              ** split; [exact H1|]. split; [cbn in H2; lia|]. destruct H3 as [->|(d & y' & -> & Hd & H3)]; [left; reflexivity|right].
                 exists d, y'. split; [reflexivity|]. split; [exact Hd|]. destruct H3 as [H3|H3]; [left; exact H3|right; cbn in H3; lia].
              ** f_equal. rewrite zlen_cons. lia.
      * assert (HH : (WErr (mkErr ErrIdentifier pos) = WErr e <-> exists x y : list byte,
           c :: s = x ++ y /\ nidw_stuck n x y /\ e = mkErr ErrIdentifier (pos + zlen x))); [|exact HH].
        split.
        -- intros H. injection H as <-. exists [], (c :: s). repeat split; [apply Nat.le_0_l| |f_equal; unfold zlen; cbn; lia].
           right. exists c, s. split; [reflexivity|]. split; [apply is_ne; exact E1|left; exact E2].
        -- intros (x & y & E & (H1 & _ & _) & ->). destruct x as [|d x]; [f_equal; f_equal; unfold zlen; cbn; lia|].
           injection E as <- _. cbn [forallb] in H1. rewrite E2 in H1. discriminate H1.
Qed.

Lemma nid2141_err mode p s e : mode <> PRFC8141Only -> urn_word p ->
  ref_nid2141 mode 4 s = WErr e <->
  (u_lookahead (p ++ colon ++ s) /\ e = mkErr ErrNoUrnWithinID 7) \/
  (~ u_lookahead (p ++ colon ++ s) /\ exists x y, s = x ++ y /\ nid_stuck x y /\ e = mkErr ErrIdentifier (4 + zlen x)).
Proof.
  intros Hm Hp. unfold ref_nid2141. destruct s as [|c s].
  - assert (Hn : ~ u_lookahead (p ++ colon ++ [])).
    { apply urn_word3 in Hp. destruct Hp as (a & b & d & -> & _). intros (c & H & _). discriminate H. }
    split.
    + intros H. injection H as <-. right. split; [exact Hn|]. exists [], []. split; [reflexivity|]. split; [left; split; [reflexivity|left; reflexivity]|reflexivity].
    + intros [[H _]|(_ & x & y & E & _ & ->)]; [contradiction|]. destruct x; [reflexivity|discriminate E].
  - pose proof (u_lookahead_cons mode Hm p c s Hp) as Hu. destruct (alnum c) eqn:Ea.
    + destruct (isl "u" c && looks_urn mode (c :: s)) eqn:El.
      * assert (Hl : u_lookahead (p ++ colon ++ c :: s)) by (apply Hu; reflexivity). split.
        -- intros H. injection H as <-. left. auto.
        -- intros [[_ ->]|[H _]]; [reflexivity|contradiction].
      * assert (Hl : ~ u_lookahead (p ++ colon ++ c :: s)) by (intros H; apply Hu in H; discriminate H).
        rewrite wcons_err, nidw_err. split.
        -- intros (x & y & -> & (H1 & H2 & H3) & ->). right. split; [exact Hl|]. exists (c :: x), y. split; [reflexivity|]. split.
           ++ right. split; [exists c, x; auto|]. split; [cbn [forallb]; rewrite (alnum_nid_char c Ea); exact H1|]. split; [cbn; lia|].
              destruct H3 as [->|(d & y' & -> & Hd & H3)]; [left; reflexivity|right]. exists d, y'. split; [reflexivity|]. split; [exact Hd|].
              destruct H3 as [H3|H3]; [left; exact H3|right; cbn; lia].
           ++ f_equal. rewrite zlen_cons. lia.
        -- intros [[H _]|(_ & x & y & E & Hs & ->)]; [contradiction|].
           destruct Hs as [[-> Hs]|(_ & H1 & H2 & H3)].
           ++ cbn in E. subst y. destruct Hs as [Hs|(d & y & Hs & Hd)]; [discriminate Hs|]. injection Hs as <- _. congruence.
           ++ destruct x as [|d x].
              { cbn in E. subst y. destruct H3 as [H3|(d & y & H3 & Hc & H4)]; [discriminate H3|]. injection H3 as <- <-.
                rewrite (alnum_nid_char c Ea) in H4. destruct H4 as [H4|H4]; discriminate H4. }
              injection E as <- ->. cbn [forallb] in H1. apply andb_true_iff in H1 as [_ H1].
              exists x, y. split; [reflexivity|]. split.
              ** split; [exact H1|]. split; [cbn in H2; lia|]. destruct H3 as [->|(d & y' & -> & Hd & H3)]; [left; reflexivity|right].
                 exists d, y'. split; [reflexivity|]. split; [exact Hd|]. destruct H3 as [H3|H3]; [left; exact H3|right; cbn in H3; lia].
              ** f_equal. rewrite zlen_cons. lia.
    + assert (Hl : ~ u_lookahead (p ++ colon ++ c :: s)).
      { intros H. apply Hu in H. apply andb_true_iff in H as [H _]. unfold isl in H. apply beq_eq in H.
        rewrite <- low_alnum, H in Ea. discriminate Ea. }
      split.
      * intros H. injection H as <-. right. split; [exact Hl|]. exists [], (c :: s). split; [reflexivity|]. split; [|reflexivity].
        left. split; [reflexivity|]. right. exists c, s. auto.
      * intros [[H _]|(_ & x & y & E & Hs & ->)]; [contradiction|]. destruct Hs as [[-> _]|((d & r & -> & Hd) & _)]; [reflexivity|].
        injection E as <- _. congruence.
Qed.

(* ---- escaped strings ----------------------------------------------------------------------- *)
Lemma ends_esc_iff w : escaped alnum sss w -> ends_esc w <-> lastk EStart w = EHex.
Proof.
  intros H. assert (H' : escaped alnum frag_char w).
  { apply (esc_incl _ sss); [|exact H]. intros b Hb. destruct b; try discriminate Hb; reflexivity. }
  rewrite (lastk_hex w H'). unfold ends_esc. split; [auto|]. intros [[-> K]|K]; [discriminate K|exact K].
Qed.
Lemma lastk_app' w : escaped alnum sss w -> forall k v, lastk k (w ++ v) = lastk (lastk k w) v.
Proof.
  intros H. apply lastk_app. apply (esc_incl _ sss); [|exact H]. intros b Hb. destruct b; try discriminate Hb; reflexivity.
Qed.
Lemma lastk_start w : lastk EStart w = EStart -> w = [].
Proof.
  assert (G : forall n w k, (List.length w <= n)%nat -> k <> EStart -> lastk k w <> EStart).
  { induction n as [|n IH]; intros v k Hn Hk.
    - destruct v; [exact Hk|cbn in Hn; lia].
    - destruct v as [|c r]; [exact Hk|]. cbn [lastk List.length] in *. destruct (is "%" c).
      + destruct r as [|a [|b r]]; try discriminate. apply IH; [cbn in Hn; lia|discriminate].
      + apply IH; [lia|discriminate]. }
  intros H. destruct w as [|c r]; [reflexivity|]. exfalso. cbn [lastk] in H. destruct (is "%" c).
  - destruct r as [|a [|b r]]; try discriminate H. apply (G (List.length r)) in H; [exact H|lia|discriminate].
  - apply (G (List.length r)) in H; [exact H|lia|discriminate].
Qed.

Definition esc_err (eS eH : errconst) (xE xH : Z -> perr) (why : escstop) (pos : Z) : perr :=
  match why with
  | Missing => xE pos
  | Illegal => mkErr eS pos
  | AfterEsc | BadEsc => mkErr eH pos
  | CutEsc => xH pos
  end.

Lemma nss_err_sound eS eH xE xH n : forall s, (List.length s <= n)%nat -> forall w0 pos e,
  escaped alnum sss w0 -> ref_nss eS eH xE xH (lastk EStart w0) pos s = WErr e ->
  exists x y why, s = x ++ y /\ esc_stuck sss why (w0 ++ x) y /\ e = esc_err eS eH xE xH why (pos + zlen x).
Proof.
  assert (Hz : forall pos, pos + zlen (@nil byte) = pos) by (intros; unfold zlen; cbn; lia).
  induction n as [|n IH]; intros s Hn w0 pos e Hw.
  { destruct s; [|cbn in Hn; lia]. cbn [ref_nss]. destruct (lastk EStart w0) eqn:Ek; try discriminate.
    intros H. injection H as <-. apply lastk_start in Ek. subst w0. exists [], [], Missing. rewrite Hz. repeat split. }
  destruct s as [|c s1].
  { cbn [ref_nss]. destruct (lastk EStart w0) eqn:Ek; try discriminate.
    intros H. injection H as <-. apply lastk_start in Ek. subst w0. exists [], [], Missing. rewrite Hz. repeat split. }
  cbn [ref_nss List.length] in *. destruct (is "%" c) eqn:Ec.
  - apply is_eq in Ec. subst c. destruct s1 as [|a s2].
    { intros H. injection H as <-. exists ["%"%byte], [], CutEsc. split; [reflexivity|]. split; [|reflexivity].
      split; [|reflexivity]. exists w0, []. auto. }
    destruct (alnum a) eqn:Ea.
    2:{ intros H. injection H as <-. exists ["%"%byte], (a :: s2), BadEsc. split; [reflexivity|]. split; [|reflexivity].
        split; [exists w0, []; auto|]. exists a, s2. auto. }
    destruct s2 as [|b s3].
    { intros H. injection H as <-. exists ["%"%byte; a], [], CutEsc. split; [reflexivity|]. split; [|reflexivity].
      split; [|reflexivity]. exists w0, [a]. split; [reflexivity|]. split; [exact Hw|]. right. exists a. auto. }
    destruct (alnum b) eqn:Eb.
    2:{ intros H. injection H as <-. exists ["%"%byte; a], (b :: s3), BadEsc. split; [reflexivity|]. split; [|reflexivity].
        split; [exists w0, [a]; split; [reflexivity|]; split; [exact Hw|]; right; exists a; auto|]. exists b, s3. auto. }
    rewrite !wcons_err. intros H.
    assert (Hw' : escaped alnum sss (w0 ++ ["%"%byte; a; b])) by (apply esc_app; [exact Hw|]; apply esc_pct; auto; apply esc_nil).
    destruct (IH s3 ltac:(cbn in Hn; lia) (w0 ++ ["%"%byte; a; b]) (pos + 3) e Hw') as (x & y & why & -> & Hs & ->).
    { rewrite lastk_app' by exact Hw. cbn [lastk]. rewrite is_refl. exact H. }
    exists ("%"%byte :: a :: b :: x), y, why. split; [reflexivity|]. split; [rewrite <- app_assoc in Hs; exact Hs|].
    f_equal. rewrite !zlen_cons. lia.
  - destruct (sss c) eqn:Es.
    + rewrite wcons_err. intros H.
      assert (Hw' : escaped alnum sss (w0 ++ [c])) by (apply esc_app; [exact Hw|]; apply esc_plain; auto; apply esc_nil).
      destruct (IH s1 ltac:(lia) (w0 ++ [c]) (pos + 1) e Hw') as (x & y & why & -> & Hs & ->).
      { rewrite lastk_app' by exact Hw. cbn [lastk]. rewrite Ec. exact H. }
      exists (c :: x), y, why. split; [reflexivity|]. split; [rewrite <- app_assoc in Hs; exact Hs|].
      f_equal. rewrite !zlen_cons. lia.
    + intros H. injection H as <-. apply is_ne in Ec.
      assert (Ha : at_char (fun c => c <> "%"%byte /\ sss c = false) (c :: s1)) by (exists c, s1; auto).
      destruct (lastk EStart w0) eqn:Ek.
      * exists [], (c :: s1), Illegal. rewrite Hz, app_nil_r. split; [reflexivity|]. split; [|reflexivity]. split; [exact Hw|].
        split; [|exact Ha]. rewrite ends_esc_iff by exact Hw. congruence.
      * exists [], (c :: s1), Illegal. rewrite Hz, app_nil_r. split; [reflexivity|]. split; [|reflexivity]. split; [exact Hw|].
        split; [|exact Ha]. rewrite ends_esc_iff by exact Hw. congruence.
      * exists [], (c :: s1), AfterEsc. rewrite Hz, app_nil_r. split; [reflexivity|]. split; [|reflexivity]. split; [exact Hw|].
        split; [|exact Ha]. apply ends_esc_iff; auto.
Qed.

Fixpoint prepend (w : bytes) (k : walk) : walk := match w with [] => k | c :: w => wcons c (prepend w k) end.
Lemma prepend_err w e : prepend w (WErr e) = WErr e.
Proof. induction w as [|c w IH]; [reflexivity|]. cbn. rewrite IH. reflexivity. Qed.
Lemma nss_walk eS eH xE xH w : escaped alnum sss w -> forall k pos y,
  ref_nss eS eH xE xH k pos (w ++ y) = prepend w (ref_nss eS eH xE xH (lastk k w) (pos + zlen w) y).
Proof.
  induction 1 as [|c w Hc Hw IH|a b w Ha Hb Hw IH]; intros k pos y.
  - cbn [app lastk prepend]. f_equal. unfold zlen; cbn; lia.
  - cbn [app ref_nss lastk prepend]. rewrite (sss_pct c Hc), Hc, IH. do 2 f_equal. f_equal. rewrite zlen_cons. lia.
  - cbn [app ref_nss lastk prepend]. rewrite is_refl, Ha, Hb, IH. do 4 f_equal. f_equal. rewrite !zlen_cons. lia.
Qed.
Lemma nss_err_complete eS eH xE xH why x y pos : esc_stuck sss why x y ->
  ref_nss eS eH xE xH EStart pos (x ++ y) = WErr (esc_err eS eH xE xH why (pos + zlen x)).
Proof.
  assert (Hhalf : forall t, t = [] \/ (exists a, t = [a] /\ alnum a = true) -> stops (fun c => alnum c = false) y ->
     forall k q, ref_nss eS eH xE xH k q ("%"%byte :: t ++ y) = WErr (match y with [] => xH (q + zlen ("%"%byte :: t)) | _ => mkErr eH (q + zlen ("%"%byte :: t)) end)).
  { intros t Ht Hy k q. destruct Ht as [->|(a & -> & Ha)]; cbn [app ref_nss]; rewrite is_refl.
    - destruct Hy as [->|(c & y' & -> & Hc)]; [reflexivity|]. rewrite Hc. reflexivity.
    - rewrite Ha. destruct Hy as [->|(c & y' & -> & Hc)]; [reflexivity|]. rewrite Hc. reflexivity. }
  destruct why; cbn [esc_stuck].
  - intros [-> ->]. cbn. f_equal. f_equal. unfold zlen; cbn; lia.
  - intros (Hx & He & (c & y' & -> & Hc & Hs)). rewrite nss_walk by exact Hx. rewrite ends_esc_iff in He by exact Hx.
    cbn [ref_nss]. replace (is "%" c) with false by (symmetry; destruct (is "%" c) eqn:E; [apply is_eq in E; contradiction|reflexivity]).
    rewrite Hs, prepend_err. cbn [esc_err]. destruct (lastk EStart x); [reflexivity|reflexivity|contradiction He; reflexivity].
  - intros (Hx & He & (c & y' & -> & Hc & Hs)). rewrite nss_walk by exact Hx. rewrite ends_esc_iff in He by exact Hx.
    cbn [ref_nss]. replace (is "%" c) with false by (symmetry; destruct (is "%" c) eqn:E; [apply is_eq in E; contradiction|reflexivity]).
    rewrite Hs, prepend_err, He. reflexivity.
  - intros [(w & t & -> & Hw & Ht) (c & y' & -> & Hc)]. rewrite <- app_assoc. rewrite nss_walk by exact Hw.
    cbn [app]. rewrite Hhalf by (auto; right; exists c, y'; auto). rewrite prepend_err. cbn [esc_err]. do 2 f_equal. rewrite zlen_app. lia.
  - intros [(w & t & -> & Hw & Ht) ->]. rewrite <- app_assoc. rewrite nss_walk by exact Hw.
    cbn [app]. rewrite Hhalf by (auto; left; reflexivity). rewrite prepend_err. cbn [esc_err]. do 2 f_equal. rewrite zlen_app. lia.
Qed.
Lemma nss_err eS eH xE xH pos s e : ref_nss eS eH xE xH EStart pos s = WErr e <->
  exists x y why, s = x ++ y /\ esc_stuck sss why x y /\ e = esc_err eS eH xE xH why (pos + zlen x).
Proof.
  split.
  - intros H. apply (nss_err_sound _ _ _ _ (List.length s) s (Nat.le_refl _) [] pos e (esc_nil _ _) H).
  - intros (x & y & why & -> & H & ->). apply nss_err_complete. exact H.
Qed.

(* ---- RFC 2141 --------------------------------------------------------------------------------- *)
Lemma u_lookahead_dec s : u_lookahead s \/ ~ u_lookahead s.
Proof.
  unfold u_lookahead. destruct (nth_error s 4) as [c|]; [|right; intros (d & H & _); discriminate H].
  destruct (Byte.eqb (low c) "u") eqn:E.
  - apply beq_eq in E. destruct (nth_error s 7) as [d|]; [|right; intros (x & _ & _ & H); discriminate H].
    destruct (Byte.eqb d ":") eqn:E2; [apply beq_eq in E2; subst d; left; eauto|].
    right. intros (x & _ & _ & H). injection H as ->. discriminate E2.
  - right. intros (x & H & H2 & _). injection H as <-. rewrite H2 in E. discriminate E.
Qed.

Theorem ref2141_err s e : ref2141 PRFC2141Only s = OErr e <-> err2141 s e.
Proof.
  unfold ref2141. split.
  - pose proof (prefix_err_iff s) as H1. pose proof (ref_prefix_sound s) as H1'.
    destruct (ref_prefix s) as [e1| |pre rest]; [|contradiction|].
    { intros H. injection H as <-. left. apply H1. reflexivity. }
    destruct H1' as (p & -> & Hp & ->). clear H1.
    pose proof (nid2141_err PRFC2141Only p rest) as H2. pose proof (ref_nid2141_sound PRFC2141Only ltac:(discriminate) p rest 4 Hp) as H2'.
    destruct (ref_nid2141 PRFC2141Only 4 rest) as [e1| |nid rest2]; [|contradiction|].
    { intros H. injection H as <-. specialize (H2 e1 ltac:(discriminate) Hp). right. apply proj1 in H2.
      destruct (H2 eq_refl) as [[Ha ->]|(Ha & x & y & -> & Hs & ->)]; [left|right; left]; [exists p, rest; auto|exists p, x, y; auto]. }
    clear H2. destruct H2' as (-> & Hn & Hla). unfold ref_nss2141.
    match goal with |- context [ref_nss ?a ?b ?c ?d ?k ?q ?s] => pose proof (nss_err a b c d q s) as H3;
      destruct (ref_nss a b c d k q s) as [e1| |nss rest3] end; [|discriminate|discriminate].
    intros H. injection H as <-. destruct (proj1 (H3 e1) eq_refl) as (x & y & why & -> & Hs & ->). right; right; right.
    exists p, nid, x, y, why. split; [reflexivity|]. repeat (split; [assumption|]). destruct why; reflexivity.
  - intros [H|[(p & r & -> & Hp & Hl & ->)|[(p & x & y & -> & Hp & Hl & Hs & ->)|(p & nid & x & y & why & -> & Hp & Hl & Hn & Hs & ->)]]].
    + apply prefix_err_iff in H. rewrite H. reflexivity.
    + rewrite ref_prefix_complete by exact Hp.
      rewrite (proj2 (nid2141_err PRFC2141Only p r (mkErr ErrNoUrnWithinID 7) ltac:(discriminate) Hp)); [reflexivity|]. left. auto.
    + rewrite ref_prefix_complete by exact Hp.
      rewrite (proj2 (nid2141_err PRFC2141Only p (x ++ y) (mkErr ErrIdentifier (4 + zlen x)) ltac:(discriminate) Hp)); [reflexivity|].
      right. split; [exact Hl|]. exists x, y. auto.
    + rewrite ref_prefix_complete by exact Hp.
      rewrite (ref_nid2141_complete PRFC2141Only ltac:(discriminate) p) by auto. unfold ref_nss2141.
      rewrite (nss_err_complete _ _ _ _ why) by exact Hs. destruct why; reflexivity.
Qed.

(* ---- SCIM --------------------------------------------------------------------------------------- *)
Lemma scimtype_err_sound pos s e : ref_scimtype pos s = WErr e ->
  exists x y, s = x ++ y /\ stuck [B "schemas:"; B "api:"; B "param:"] x y /\ e = mkErr ErrSCIMType (pos + zlen x).
Proof.
  assert (H0 : forall y, (forall c y', y = c :: y' -> is "a" c = false /\ is "p" c = false /\ is "s" c = false) ->
     stuck [B "schemas:"; B "api:"; B "param:"] [] y).
  { intros y Hy. split; [exists (B "schemas:"), (B "schemas:"); cbn; repeat split; auto; discriminate|].
    intros c y' w v -> Hw H. destruct (Hy c y' eq_refl) as (H1 & H2 & H3).
    destruct Hw as [<-|[<-|[<-|[]]]]; injection H as <- _; (discriminate H1 || discriminate H2 || discriminate H3). }
  assert (H1 : forall l w r y, In (l :: w) [B "schemas:"; B "api:"; B "param:"] -> stuck [w] r y ->
     stuck [B "schemas:"; B "api:"; B "param:"] (l :: r) y).
  { intros l w r y Hi [(w' & v & [<-|[]] & E & Hv) K]. split; [exists (l :: w), v; cbn; rewrite <- E; auto|].
    intros c y' w2 v2 -> Hw H.
    assert (E2 : w2 = l :: w).
    { destruct Hi as [Hi|[Hi|[Hi|[]]]]; injection Hi as <- <-; destruct Hw as [<-|[<-|[<-|[]]]]; try reflexivity; discriminate H. }
    rewrite E2 in H. injection H as H. apply (K c y' w v2 eq_refl); [left; reflexivity|exact H]. }
  unfold ref_scimtype. destruct s as [|c s].
  - intros H. injection H as <-. exists [], []. split; [reflexivity|]. split; [apply H0; discriminate|f_equal; unfold zlen; cbn; lia].
  - destruct (is "a" c) eqn:Ea; [|destruct (is "p" c) eqn:Ep; [|destruct (is "s" c) eqn:Es]].
    + apply is_eq in Ea. subst c. rewrite wcons_err, lit_is_stuck. intros (x & y & -> & Hs & ->).
      exists ("a"%byte :: x), y. split; [reflexivity|]. split; [apply (H1 _ (B "pi:")); cbn; auto|]. f_equal. rewrite zlen_cons. lia.
    + apply is_eq in Ep. subst c. rewrite wcons_err, lit_is_stuck. intros (x & y & -> & Hs & ->).
      exists ("p"%byte :: x), y. split; [reflexivity|]. split; [apply (H1 _ (B "aram:")); cbn; auto|]. f_equal. rewrite zlen_cons. lia.
    + apply is_eq in Es. subst c. rewrite wcons_err, lit_is_stuck. intros (x & y & -> & Hs & ->).
      exists ("s"%byte :: x), y. split; [reflexivity|]. split; [apply (H1 _ (B "chemas:")); cbn; auto|]. f_equal. rewrite zlen_cons. lia.
    + intros H. injection H as <-. exists [], (c :: s). split; [reflexivity|]. split; [|f_equal; unfold zlen; cbn; lia].
      apply H0. intros d y' E. injection E as <- <-. auto.
Qed.
Lemma scimtype_err_complete pos x y : stuck [B "schemas:"; B "api:"; B "param:"] x y ->
  ref_scimtype pos (x ++ y) = WErr (mkErr ErrSCIMType (pos + zlen x)).
Proof.
  intros H.
  assert (H1 : forall l w r, In (l :: w) [B "schemas:"; B "api:"; B "param:"] -> x = l :: r ->
     (exists v, w = r ++ v /\ v <> []) -> stuck [w] r y).
  { intros l w r Hi -> (v & Ev & Hv). destruct H as [_ K]. split; [exists w, v; cbn; auto|].
    intros c y' w2 v2 E [<-|[]] H2. apply (K c y' (l :: w) v2 E Hi). cbn. rewrite H2. reflexivity. }
  destruct x as [|l r].
  - destruct H as [_ K]. cbn [app]. unfold ref_scimtype. destruct y as [|c y]; [f_equal; f_equal; unfold zlen; cbn; lia|].
    assert (G : forall l w, In (l :: w) [B "schemas:"; B "api:"; B "param:"] -> is l c = false).
    { intros l w Hi. destruct (is l c) eqn:E; [|reflexivity]. apply is_eq in E. subst c. exfalso. apply (K l y (l :: w) w eq_refl Hi). reflexivity. }
    rewrite (G "a"%byte (B "pi:")), (G "p"%byte (B "aram:")), (G "s"%byte (B "chemas:")) by (cbn; auto).
    f_equal; f_equal; unfold zlen; cbn; lia.
  - destruct H as [(w & v & Hw & E & Hv) _].
    destruct Hw as [<-|[<-|[<-|[]]]]; injection E as <- E; cbn [app]; unfold ref_scimtype;
      repeat match goal with |- context [is ?a ?b] => let v := eval vm_compute in (is a b) in change (is a b) with v end;
      cbv iota; apply wcons_err;
      apply (proj2 (lit_is_stuck _ _ _ _ _)); exists r, y; (split; [reflexivity|]); (split; [eapply H1; [|reflexivity|eauto]; cbn; auto|]);
      f_equal; rewrite zlen_cons; lia.
Qed.

Definition name_stuck (first : bool) (x y : bytes) : Prop :=
  forallb alnum x = true /\
  ((x = [] /\ first = true /\ stops (fun c => alnum c = false) y) \/
   (x <> [] \/ first = false) /\ at_char (fun c => alnum c = false /\ c <> ":"%byte) y).
Lemma name_err s : forall first pos e, ref_name first pos s = WErr e <->
  exists x y, s = x ++ y /\ name_stuck first x y /\ e = mkErr ErrSCIMName (pos + zlen x).
Proof.
  assert (Hz : forall pos, mkErr ErrSCIMName (pos + zlen (@nil byte)) = mkErr ErrSCIMName pos) by (intros; f_equal; unfold zlen; cbn; lia).
  induction s as [|c s IH]; intros first pos e; cbn [ref_name].
  - split.
    + destruct first; [|discriminate]. intros H. injection H as <-. exists [], []. split; [reflexivity|]. split; [|rewrite Hz; reflexivity].
      split; [reflexivity|]. left. repeat split. left; reflexivity.
    + intros (x & y & E & [_ H] & ->). destruct x; [|discriminate E]. cbn in E. subst y.
      destruct H as [(_ & -> & _)|[_ (c & y & H & _)]]; [rewrite Hz; reflexivity|discriminate H].
  - destruct (alnum c) eqn:Ea.
    + rewrite wcons_err, IH. split.
      * intros (x & y & -> & [H1 H2] & ->). exists (c :: x), y. split; [reflexivity|]. split; [|f_equal; rewrite zlen_cons; lia].
        split; [cbn [forallb]; rewrite Ea; exact H1|]. right. split; [left; discriminate|].
        destruct H2 as [(_ & H2 & _)|[_ H2]]; [discriminate H2|exact H2].
      * intros (x & y & E & [H1 H2] & ->). destruct x as [|d x].
        -- cbn in E. subst y. exfalso. destruct H2 as [(_ & _ & [H2|(d & y & H2 & Hd)])|[_ (d & y & H2 & Hd & _)]]; [discriminate H2| |];
             injection H2 as <- _; congruence.
        -- injection E as <- ->. cbn [forallb] in H1. rewrite Ea in H1. exists x, y. split; [reflexivity|].
           split; [|f_equal; rewrite zlen_cons; lia]. split; [exact H1|]. right. split; [right; reflexivity|].
           destruct H2 as [(H2 & _)|[_ H2]]; [discriminate H2|exact H2].
    + destruct (is ":" c && negb first) eqn:El.
      * apply andb_true_iff in El as [El Ef]. apply is_eq in El. subst c. destruct first; [discriminate Ef|].
        split; [discriminate|]. intros (x & y & E & [H1 H2] & _). destruct x as [|d x].
        -- cbn in E. subst y. destruct H2 as [(_ & H2 & _)|[_ (d & y & H2 & _ & Hd)]]; [discriminate H2|]. injection H2 as <- _. contradiction Hd; reflexivity.
        -- injection E as <- _. discriminate H1.
      * split.
        -- intros H. injection H as <-. exists [], (c :: s). split; [reflexivity|]. split; [|rewrite Hz; reflexivity]. split; [reflexivity|].
           destruct first; [left; repeat split; right; exists c, s; auto|]. right. split; [right; reflexivity|]. exists c, s.
           split; [reflexivity|]. split; [exact Ea|]. rewrite andb_true_r in El. apply is_ne. exact El.
        -- intros (x & y & E & [H1 H2] & ->). destruct x as [|d x]; [rewrite Hz; reflexivity|].
           injection E as <- _. cbn [forallb] in H1. rewrite Ea in H1. discriminate H1.
Qed.

Lemma ref_name_sound s : forall first pos w r, ref_name first pos s = WGo w r ->
  s = w ++ r /\ forallb alnum w = true /\ (first = true -> w <> []) /\ (r = [] \/ exists r', r = ":"%byte :: r').
Proof.
  induction s as [|c s IH]; intros first pos w r; cbn [ref_name].
  - destruct first; [discriminate|]. intros H. injection H as <- <-. repeat split; [discriminate|left; reflexivity].
  - destruct (alnum c) eqn:Ea.
    + destruct (ref_name false (pos + 1) s) as [e| |w' r'] eqn:E; cbn; try discriminate. intros H. injection H as <- <-.
      destruct (IH _ _ _ _ E) as (-> & H1 & _ & H2). split; [reflexivity|]. split; [cbn; rewrite Ea; exact H1|]. split; [discriminate|exact H2].
    + destruct (is ":" c && negb first) eqn:El; [|discriminate]. intros H. injection H as <- <-.
      apply andb_true_iff in El as [El Ef]. apply is_eq in El. subst c. repeat split; [intros ->; discriminate Ef|right; eauto].
Qed.

Theorem refscim_err s e : ref_scim PRFC7643Only s = OErr e <-> errscim s e.
Proof.
  unfold ref_scim. split.
  - pose proof (prefix_err_iff s) as H1. pose proof (ref_prefix_sound s) as H1'.
    destruct (ref_prefix s) as [e1| |pre rest]; [|contradiction|].
    { intros H. injection H as <-. left. apply H1. reflexivity. }
    destruct H1' as (p & -> & Hp & ->). clear H1.
    pose proof (lit_is_stuck ErrSCIMNamespace) as H2. specialize (H2) with (w := B "ietf:params:scim:") (pos := 4) (s := rest).
    pose proof (ref_lit_sound ErrSCIMNamespace (map is (B "ietf:params:scim:")) 4 rest) as H2'.
    destruct (ref_lit ErrSCIMNamespace (map is (B "ietf:params:scim:")) 4 rest) as [e1| |w rest2]; [|contradiction|].
    { intros H. injection H as <-. destruct (proj1 (H2 e1) eq_refl) as (x & y & -> & Hs & ->). right; left. exists p, x, y. auto. }
    destruct H2' as [-> Hw]. apply lit_is in Hw. subst w. clear H2.
    pose proof (scimtype_err_sound 21 rest2) as H3. pose proof (ref_scimtype_sound 21 rest2) as H3'.
    destruct (ref_scimtype 21 rest2) as [e1| |tc rest3]; [|contradiction|].
    { intros H. injection H as <-. destruct (H3 e1 eq_refl) as (x & y & -> & Hs & ->). right; right; left. exists p, x, y. auto. }
    destruct H3' as (t & -> & Ht & ->). clear H3.
    pose proof (name_err rest3 true (21 + zlen (t ++ colon))) as H4.
    destruct (ref_name true (21 + zlen (t ++ colon)) rest3) as [e1| |name rest4] eqn:E4; [|discriminate|].
    { intros H. injection H as <-. destruct (proj1 (H4 e1) eq_refl) as (x & y & -> & [Hs1 Hs2] & ->). right; right; right; left.
      exists p, t, x, y. split; [reflexivity|]. split; [exact Hp|]. split; [exact Ht|]. split; [exact Hs1|].
      split; [destruct Hs2 as [(K1 & _ & K2)|[[K1|K1] K2]]; auto; discriminate K1|]. f_equal. rewrite zlen_app. unfold colon. rewrite zlen_cons, zlen_nil. lia. }
    clear H4. apply ref_name_sound in E4. destruct E4 as (-> & Hn1 & Hn2 & Hr). specialize (Hn2 eq_refl).
    destruct Hr as [->|(rest5 & ->)]; [discriminate|]. unfold ref_other.
    match goal with |- context [ref_nss ?a ?b ?c ?d ?k ?q ?s] => pose proof (nss_err a b c d q s) as H5;
      destruct (ref_nss a b c d k q s) as [e1| |nss rest6] end; [|discriminate|discriminate].
    intros H. injection H as <-. destruct (proj1 (H5 e1) eq_refl) as (x & y & why & -> & Hs & ->). right; right; right; right.
    exists p, t, name, x, y, why. split; [reflexivity|]. split; [exact Hp|]. split; [exact Ht|]. split; [split; assumption|]. split; [exact Hs|].
    rewrite zlen_app. unfold colon. rewrite zlen_cons, zlen_nil. destruct why; (apply perr_eq; [reflexivity|]); cbn -[Z.add Z.sub zlen]; lia.
  -
    intros [H|[(p & x & y & -> & Hp & Hs & ->)|[(p & x & y & -> & Hp & Hs & ->)|[(p & t & x & y & -> & Hp & Ht & Ha & Hs & ->)|(p & t & name & x & y & why & -> & Hp & Ht & (Hn1 & Hn2) & Hs & ->)]]]].
    + apply prefix_err_iff in H. rewrite H. reflexivity.
    + rewrite ref_prefix_complete by exact Hp.
      rewrite (proj2 (lit_is_stuck ErrSCIMNamespace (mkErr ErrSCIMNamespace (4 + zlen x)) (B "ietf:params:scim:") 4 (x ++ y))); [reflexivity|].
      exists x, y. auto.
    + rewrite ref_prefix_complete by exact Hp.
      change (scim_nid ++ colon ++ x ++ y) with (B "ietf:params:scim:" ++ x ++ y).
      rewrite ref_lit_complete by (apply lit_is; reflexivity). rewrite scimtype_err_complete by exact Hs. reflexivity.
    + rewrite ref_prefix_complete by exact Hp.
      change (scim_nid ++ colon ++ t ++ colon ++ x ++ y) with (B "ietf:params:scim:" ++ t ++ colon ++ x ++ y).
      rewrite ref_lit_complete by (apply lit_is; reflexivity). rewrite ref_scimtype_complete by exact Ht.
      rewrite (proj2 (name_err (x ++ y) true (21 + zlen (t ++ colon)) (mkErr ErrSCIMName (22 + zlen t + zlen x)))); [reflexivity|].
      exists x, y. split; [reflexivity|]. split; [split; [exact Ha|]; destruct Hs as [[K1 K2]|[K1 K2]]; [left|right]; auto|].
      f_equal. rewrite zlen_app. unfold colon. rewrite zlen_cons, zlen_nil. lia.
    + rewrite ref_prefix_complete by exact Hp.
      change (scim_nid ++ colon ++ t ++ colon ++ name ++ colon ++ x ++ y) with (B "ietf:params:scim:" ++ t ++ colon ++ name ++ colon ++ x ++ y).
      rewrite ref_lit_complete by (apply lit_is; reflexivity). rewrite ref_scimtype_complete by exact Ht.
      rewrite ref_name_complete; [|exact Hn2|auto|right; eexists; reflexivity].
      cbn [colon app]. unfold ref_other. rewrite (nss_err_complete _ _ _ _ why) by exact Hs.
      rewrite zlen_app. unfold colon. rewrite zlen_cons, zlen_nil. destruct why; f_equal; (apply perr_eq; [reflexivity|]); cbn -[Z.add Z.sub zlen]; lia.
Qed.

(* ---- Parse reports exactly these ------------------------------------------------------------------ *)
Theorem parse_err2141 m s m' uo eo : reachable m -> m_parsingMode m = PRFC2141Only ->
  machine_Parse m s = Ret (m', uo, eo) -> forall e, eo = Some e <-> err2141 s e.
Proof.
  intros H Hm Hp e. apply parse2141_ref in Hp; auto. apply outcome_eq in Hp. rewrite <- ref2141_err.
  destruct uo, eo; try contradiction; rewrite Hp; split; intros K; try discriminate K; injection K as ->; reflexivity.
Qed.
Theorem parse_errscim m s m' uo eo : reachable m -> m_parsingMode m = PRFC7643Only ->
  machine_Parse m s = Ret (m', uo, eo) -> forall e, eo = Some e <-> errscim s e.
Proof.
  intros H Hm Hp e. apply parsescim_ref in Hp; auto. apply outcome_eq in Hp. rewrite <- refscim_err.
  destruct uo, eo; try contradiction; rewrite Hp; split; intros K; try discriminate K; injection K as ->; reflexivity.
Qed.

Lemma err2141_not s e : err2141 s e -> forall u, ~ parsed PRFC2141Only s u.
Proof.
  intros H u (m & m' & Hr & Hm & Hp). apply (parse_err2141 _ _ _ _ _ Hr Hm Hp) in H. discriminate H.
Qed.
Lemma errscim_not s e : errscim s e -> forall u, ~ parsed PRFC7643Only s u.
Proof.
  intros H u (m & m' & Hr & Hm & Hp). apply (parse_errscim _ _ _ _ _ Hr Hm Hp) in H. discriminate H.
Qed.

(* ---- completions ---------------------------------------------------------------------------------------- *)
Lemma stuck_complete w x y : stuck [w] x y -> exists v, w = x ++ v.
Proof. intros [(w' & v & [<-|[]] & H & _) _]. eauto. Qed.
Lemma lowers4 z : lowers z = B "urn:" -> exists p, urn_word p /\ z = p ++ colon.
Proof.
  unfold lowers. intros H. destruct z as [|a [|b [|c [|d [|? z]]]]]; try discriminate H.
  injection H as H1 H2 H3 H4. exists [a; b; c]. split; [unfold urn_word, lowers; cbn [map]; rewrite H1, H2, H3; reflexivity|].
  assert (d = ":"%byte) as -> by (destruct d; try discriminate H4; reflexivity). reflexivity.
Qed.
Lemma prefix_complete x y : stuck [B "urn:"] (lowers x) y -> exists v p, urn_word p /\ x ++ v = p ++ colon.
Proof.
  intros H. apply stuck_complete in H. destruct H as [v H]. exists v.
  destruct (lowers4 (x ++ v)) as (p & Hp & E); [|eauto].
  unfold lowers in *. rewrite map_app, H. f_equal.
  assert (K : map low (B "urn:") = B "urn:") by reflexivity. rewrite H, map_app in K.
  apply app_len_inj in K; [apply K|]. rewrite !map_length. reflexivity.
Qed.
Lemma stuck_head words x c y y' : stuck words x (c :: y) -> stuck words x (c :: y').
Proof.
  intros [H K]. split; [exact H|]. intros d z w v E. injection E as <- <-. apply (K c y w v eq_refl).
Qed.
Lemma stops_head P c y y' : stops P (c :: y) -> stops P (c :: y').
Proof. intros [H|(d & z & H & Hd)]; [discriminate H|]. injection H as <- <-. right. exists c, y'. auto. Qed.
Lemma at_head P c y y' : at_char P (c :: y) -> at_char P (c :: y').
Proof. intros (d & z & H & Hd). injection H as <- <-. exists c, y'. auto. Qed.
Lemma nid_stuck_head x c y y' : nid_stuck x (c :: y) -> nid_stuck x (c :: y').
Proof.
  intros [[H1 H2]|(H1 & H2 & H3 & H4)]; [left|right]; [split; [exact H1|]|repeat (split; [assumption|])]; eapply stops_head; eauto.
Qed.
Lemma esc_stuck_head cls why x c y y' : esc_stuck cls why x (c :: y) -> esc_stuck cls why x (c :: y').
Proof.
  destruct why; cbn [esc_stuck].
  - intros [_ H]; discriminate H.
  - intros (H1 & H2 & H3). repeat (split; [assumption|]). eapply at_head; eauto.
  - intros (H1 & H2 & H3). repeat (split; [assumption|]). eapply at_head; eauto.
  - intros (H1 & H3). repeat (split; [assumption|]). eapply at_head; eauto.
  - intros [_ H]; discriminate H.
Qed.
(* an unfinished escaped string can be finished with the letter a *)
Lemma esc_complete why x y : esc_stuck sss why x y ->
  exists t, (t = B "a" \/ t = B "aa") /\ escaped alnum sss (x ++ t) /\ x ++ t <> [].
Proof.
  assert (Hx : escaped alnum sss x -> exists t, (t = B "a" \/ t = B "aa") /\ escaped alnum sss (x ++ t) /\ x ++ t <> []).
  { intros H. exists (B "a"). split; [auto|]. split; [|destruct x; discriminate]. apply esc_app; [exact H|]. apply esc_plain; [reflexivity|apply esc_nil]. }
  assert (Hh : half_esc sss x -> exists t, (t = B "a" \/ t = B "aa") /\ escaped alnum sss (x ++ t) /\ x ++ t <> []).
  { intros (w & t & -> & Hw & [->|(a & -> & Ha)]).
    - exists (B "aa"). split; [auto|]. split; [|destruct w; discriminate]. rewrite <- app_assoc. apply esc_app; [exact Hw|].
      apply esc_pct; [reflexivity|reflexivity|apply esc_nil].
    - exists (B "a"). split; [auto|]. split; [|destruct w; discriminate]. rewrite <- app_assoc. apply esc_app; [exact Hw|].
      apply esc_pct; [exact Ha|reflexivity|apply esc_nil]. }
  destruct why; cbn [esc_stuck].
  - intros [-> _]. apply Hx. apply esc_nil.
  - intros (H & _). auto.
  - intros (H & _). auto.
  - intros (H & _). auto.
  - intros (H & _). auto.
Qed.

Definition acc (mode : Z) (s : bytes) : Prop := exists u, parsed mode s u.
Lemma acc2141 s p n x : urn2141 alnum s p n x -> ~ u_lookahead s -> acc PRFC2141Only s.
Proof. intros H1 H2. destruct (parsed2141_ok s p n x H1 H2) as (u & Hu & _). exists u. exact Hu. Qed.
Lemma accscim s p t n o : urnscim s p t n o -> acc PRFC7643Only s.
Proof. intros H1. destruct (parsedscim_ok s p t n o H1) as (u & Hu & _). exists u. exact Hu. Qed.

Lemma nth_colon (w : bytes) i : forallb nid_char w = true -> nth_error w i <> Some ":"%byte.
Proof.
  intros H E. apply nth_error_In in E. rewrite forallb_forall in H. apply H in E. discriminate E.
Qed.
Lemma acc_long p w : urn_word p -> head_in alnum w -> forallb nid_char w = true -> (4 <= List.length w <= 32)%nat ->
  acc PRFC2141Only (p ++ colon ++ w ++ B ":a").
Proof.
  intros Hp Hh Hw Hl. apply (acc2141 _ p w (B "a")).
  - split; [reflexivity|]. split; [exact Hp|]. split.
    + split; [lia|]. split; [exact Hh|]. split; [exact Hw|]. intros H. apply urn_word_len in H. unfold zlen in H. lia.
    + split; [discriminate|]. apply esc_plain; [reflexivity|apply esc_nil].
  - apply urn_word3 in Hp. destruct Hp as (a & b & c & -> & _). intros (d & _ & _ & H).
    change (nth_error (w ++ B ":a") 3 = Some ":"%byte) in H. rewrite nth_error_app1 in H by lia. apply nth_colon in H; [exact H|exact Hw].
Qed.
Lemma acc_nid p x y : urn_word p -> nid_stuck x y -> exists t, acc PRFC2141Only (p ++ colon ++ x ++ t).
Proof.
  intros Hp [[-> _]|((c & r & -> & Hc) & Hx & Hl & _)].
  - exists (B "aaaa:a"). apply (acc_long p (B "aaaa")); [exact Hp|exists "a"%byte, (B "aaa"); auto|reflexivity|cbn; lia].
  - destruct (Nat.leb 4 (List.length (c :: r))) eqn:E.
    + apply Nat.leb_le in E. exists (B ":a"). apply acc_long; [exact Hp|exists c, r; auto|exact Hx|lia].
    + apply Nat.leb_gt in E. exists (B "aaa:a"). change (B "aaa:a") with (B "aaa" ++ B ":a"). rewrite (app_assoc (c :: r)).
      apply acc_long; [exact Hp|exists c, (r ++ B "aaa"); auto| |rewrite app_length; cbn in *; lia].
      rewrite forallb_app, Hx. reflexivity.
Qed.
Lemma u_look_app X y t : ~ u_lookahead (X ++ y) -> forallb nid_char t = true -> (5 <= List.length X)%nat -> ~ u_lookahead (X ++ t).
Proof.
  intros Hn Ht Hl (c & H1 & H2 & H3). apply Hn. exists c.
  destruct (Nat.ltb 7 (List.length X)) eqn:E.
  - apply Nat.ltb_lt in E. rewrite nth_error_app1 in H1, H3 by lia. split; [|split; [exact H2|]]; rewrite nth_error_app1 by lia; assumption.
  - apply Nat.ltb_ge in E. rewrite nth_error_app2 in H3 by lia. apply nth_colon in H3; [contradiction|exact Ht].
Qed.
Lemma acc_nss p nid x y why : urn_word p -> nid2141 nid -> esc_stuck sss why x y ->
  ~ u_lookahead (p ++ colon ++ nid ++ colon ++ x ++ y) -> exists t, acc PRFC2141Only (p ++ colon ++ nid ++ colon ++ x ++ t).
Proof.
  intros Hp Hn He Hl. destruct (esc_complete _ _ _ He) as (t & Ht & H1 & H2). exists t.
  apply (acc2141 _ p nid (x ++ t)); [repeat (split; [auto|]); auto|].
  replace (p ++ colon ++ nid ++ colon ++ x ++ t) with ((p ++ colon ++ nid ++ colon ++ x) ++ t) by (rewrite !app_assoc; reflexivity).
  apply (u_look_app _ y); [rewrite <- !app_assoc; exact Hl|destruct Ht as [->| ->]; reflexivity|].
  apply urn_word_len in Hp. rewrite !app_length. unfold colon. cbn [List.length]. destruct Hn as [Hn _]. unfold zlen in Hp. lia.
Qed.

(* C24, RFC 2141 mode *)
Theorem column2141 s e : err2141 s e -> exists x y, s = x ++ y /\ e_col e = zlen x /\
  (e_kind e <> ErrNoUrnWithinID -> exists t u, parsed PRFC2141Only (x ++ t) u) /\
  (forall c y' t u, y = c :: y' -> ~ parsed PRFC2141Only (x ++ c :: t) u) /\
  (e_kind e = ErrNoUrnWithinID -> e_col e = 7 /\ u_lookahead s).
Proof.
  intros [(x & y & -> & Hs & ->)|[(p & r & -> & Hp & Hl & ->)|[(p & x & y & -> & Hp & Hl & Hs & ->)|(p & nid & x & y & why & -> & Hp & Hl & Hn & Hs & ->)]]].
  - exists x, y. split; [reflexivity|]. split; [reflexivity|]. split; [|split; [|discriminate]].
    + intros _. destruct (prefix_complete _ _ Hs) as (v & p & Hp & E). exists (v ++ B "aaaa:a").
      rewrite app_assoc, E, <- app_assoc. apply (acc_long p (B "aaaa")); [exact Hp|exists "a"%byte, (B "aaa"); auto|reflexivity|cbn; lia].
    + intros c y' t u ->. apply (err2141_not _ (mkErr ErrPrefix (zlen x))). left. exists x, (c :: t). split; [reflexivity|]. split; [|reflexivity].
      cbn [lowers map] in *. eapply stuck_head; eauto.
  - assert (H3 : exists a b c y', r = a :: b :: c :: ":"%byte :: y' /\ low a = "u"%byte).
    { pose proof Hp as Hp3. apply urn_word3 in Hp3. destruct Hp3 as (a & b & d & -> & _). destruct Hl as (c & H1 & H2 & H3).
      cbn [app colon nth_error] in H1, H3. destruct r as [|a1 [|a2 [|a3 [|a4 y']]]]; try discriminate H3.
      injection H3 as ->. injection H1 as ->. exists c, a2, a3, y'. auto. }
    destruct H3 as (a & b & d & y' & -> & Ha).
    exists (p ++ colon ++ [a; b; d]), (":"%byte :: y'). split; [rewrite <- !app_assoc; reflexivity|].
    split; [rewrite !zlen_app, (urn_word_len p Hp); reflexivity|]. split; [intros K; contradiction K; reflexivity|]. split; [|auto].
    intros c y2 t u E. injection E as <- <-. apply (err2141_not _ (mkErr ErrNoUrnWithinID 7)). right; left.
    exists p, ([a; b; d] ++ ":"%byte :: t). split; [rewrite <- !app_assoc; reflexivity|]. split; [exact Hp|]. split; [|reflexivity].
    apply urn_word3 in Hp. destruct Hp as (a1 & b1 & d1 & -> & _). exists a. cbn. auto.
  - exists (p ++ colon ++ x), y. split; [rewrite <- !app_assoc; reflexivity|].
    split; [cbn [e_col]; rewrite !zlen_app, (urn_word_len p Hp); change (zlen colon) with 1; lia|]. split; [|split; [|discriminate]].
    + intros _. destruct (acc_nid p x y Hp Hs) as (t & Ht). exists t. rewrite <- !app_assoc. exact Ht.
    + intros c y' t u ->. destruct (u_lookahead_dec ((p ++ colon ++ x) ++ c :: t)) as [Hd|Hd]; rewrite <- !app_assoc in *.
      * apply (err2141_not _ (mkErr ErrNoUrnWithinID 7)). right; left. eexists p, _. split; [reflexivity|]. auto.
      * apply (err2141_not _ (mkErr ErrIdentifier (4 + zlen x))). right; right; left. exists p, x, (c :: t). split; [reflexivity|].
        repeat (split; [assumption|]). split; [eapply nid_stuck_head; eauto|reflexivity].
  - exists (p ++ colon ++ nid ++ colon ++ x), y. split; [rewrite <- !app_assoc; reflexivity|].
    split; [cbn [e_col]; rewrite !zlen_app, (urn_word_len p Hp); change (zlen colon) with 1; lia|]. split; [|split; [|destruct why; discriminate]].
    + intros _. destruct (acc_nss p nid x y why Hp Hn Hs Hl) as (t & Ht). exists t. rewrite <- !app_assoc. exact Ht.
    + intros c y' t u ->. destruct (u_lookahead_dec ((p ++ colon ++ nid ++ colon ++ x) ++ c :: t)) as [Hd|Hd]; rewrite <- !app_assoc in *.
      * apply (err2141_not _ (mkErr ErrNoUrnWithinID 7)). right; left. eexists p, _. split; [reflexivity|]. auto.
      * eapply err2141_not. right; right; right. exists p, nid, x, (c :: t), why. split; [reflexivity|].
        repeat (split; [assumption|]). split; [eapply esc_stuck_head; eauto|reflexivity].
Qed.

(* C24, SCIM mode *)
Lemma acc_other p t name x y why : urn_word p -> scim_type t -> scim_name name -> esc_stuck sss why x y ->
  exists v, acc PRFC7643Only (p ++ colon ++ scim_nid ++ colon ++ t ++ colon ++ name ++ colon ++ x ++ v).
Proof.
  intros Hp Ht Hn He. destruct (esc_complete _ _ _ He) as (v & Hv & H1 & H2). exists v.
  apply (accscim _ p t name (x ++ v)). split; [|split; [exact Hp|]; split; [exact Ht|]; split; [exact Hn|]; right; split; assumption].
  unfold scim_ss, scim_tail. destruct (x ++ v); [contradiction H2; reflexivity|reflexivity].
Qed.
Lemma acc_name p t name : urn_word p -> scim_type t -> scim_name name ->
  acc PRFC7643Only (p ++ colon ++ scim_nid ++ colon ++ t ++ colon ++ name).
Proof.
  intros Hp Ht Hn. apply (accscim _ p t name []). split; [|auto]. unfold scim_ss, scim_tail. rewrite app_nil_r. reflexivity.
Qed.
Lemma acc_api p : urn_word p -> acc PRFC7643Only (p ++ colon ++ B "ietf:params:scim:api:a").
Proof.
  intros Hp. apply (acc_name p (B "api") (B "a") Hp); [right; left; reflexivity|split; [discriminate|reflexivity]].
Qed.
Theorem columnscim s e : errscim s e ->
  (e_kind e <> ErrSCIMOtherIncomplete -> exists x y, s = x ++ y /\ e_col e = zlen x /\
    (exists t u, parsed PRFC7643Only (x ++ t) u) /\
    (forall c y' t u, y = c :: y' -> ~ parsed PRFC7643Only (x ++ c :: t) u)) /\
  (e_kind e = ErrSCIMOtherIncomplete -> e_col e = zlen s - 1 /\ exists t u, parsed PRFC7643Only (s ++ t) u).
Proof.
  intros [(x & y & -> & Hs & ->)|[(p & x & y & -> & Hp & Hs & ->)|[(p & x & y & -> & Hp & Hs & ->)|[(p & t & x & y & -> & Hp & Ht & Ha & Hs & ->)|(p & t & name & x & y & why & -> & Hp & Ht & Hn & Hs & ->)]]]].
  - split; [intros _|discriminate]. exists x, y. split; [reflexivity|]. split; [reflexivity|]. split.
    + destruct (prefix_complete _ _ Hs) as (v & p & Hp & E). exists (v ++ B "ietf:params:scim:api:a").
      rewrite app_assoc, E, <- app_assoc. apply acc_api. exact Hp.
    + intros c y' t u ->. apply (errscim_not _ (mkErr ErrPrefix (zlen x))). left. exists x, (c :: t). split; [reflexivity|]. split; [|reflexivity].
      cbn [lowers map] in *. eapply stuck_head; eauto.
  - split; [intros _|discriminate]. exists (p ++ colon ++ x), y. split; [rewrite <- !app_assoc; reflexivity|].
    split; [cbn [e_col]; rewrite !zlen_app, (urn_word_len p Hp); change (zlen colon) with 1; lia|]. split.
    + destruct (stuck_complete _ _ _ Hs) as [v E]. exists (v ++ B "api:a"). rewrite <- !app_assoc, (app_assoc x), <- E. apply acc_api. exact Hp.
    + intros c y' t u ->. rewrite <- !app_assoc. eapply errscim_not. right; left. exists p, x, (c :: t). split; [reflexivity|].
      repeat (split; [assumption|]). split; [eapply stuck_head; eauto|reflexivity].
  - split; [intros _|discriminate]. exists (p ++ colon ++ scim_nid ++ colon ++ x), y. split; [rewrite <- !app_assoc; reflexivity|].
    split; [cbn [e_col]; rewrite !zlen_app, (urn_word_len p Hp); change (zlen colon) with 1; change (zlen scim_nid) with 16; lia|]. split.
    + pose proof Hs as [(w & v & Hw & E & _) _]. exists (v ++ B "a"). rewrite <- !app_assoc, (app_assoc x), <- E.
      assert (H : exists t, scim_type t /\ w = t ++ colon) by (unfold scim_type; destruct Hw as [<-|[<-|[<-|[]]]]; [exists (B "schemas")|exists (B "api")|exists (B "param")]; (split; [|reflexivity]); auto).
      destruct H as (t & Ht & ->). rewrite <- app_assoc. apply (acc_name p t (B "a") Hp Ht). split; [discriminate|reflexivity].
    + intros c y' t u ->. rewrite <- !app_assoc. eapply errscim_not. right; right; left. exists p, x, (c :: t). split; [reflexivity|].
      repeat (split; [assumption|]). split; [eapply stuck_head; eauto|reflexivity].
  - split; [intros _|discriminate]. exists (p ++ colon ++ scim_nid ++ colon ++ t ++ colon ++ x), y. split; [rewrite <- !app_assoc; reflexivity|].
    split; [cbn [e_col]; rewrite !zlen_app, (urn_word_len p Hp); change (zlen colon) with 1; change (zlen scim_nid) with 16; lia|]. split.
    + exists (B "a"). rewrite <- !app_assoc. apply (acc_name p t (x ++ B "a") Hp Ht). split; [destruct x; discriminate|].
      rewrite forallb_app, Ha. reflexivity.
    + intros c y' z u ->. rewrite <- !app_assoc. eapply errscim_not. right; right; right; left. exists p, t, x, (c :: z). split; [reflexivity|].
      repeat (split; [assumption|]). split; [|reflexivity]. destruct Hs as [[H1 H2]|[H1 H2]]; [left|right]; (split; [exact H1|]); [eapply stops_head|eapply at_head]; eauto.
  - split.
    + intros Hk. exists (p ++ colon ++ scim_nid ++ colon ++ t ++ colon ++ name ++ colon ++ x), y. split; [rewrite <- !app_assoc; reflexivity|].
      split; [destruct why; try (contradiction Hk; reflexivity); cbn [e_col]; rewrite !zlen_app, (urn_word_len p Hp); change (zlen colon) with 1; change (zlen scim_nid) with 16; lia|]. split.
      * destruct (acc_other p t name x y why Hp Ht Hn Hs) as (v & Hv). exists v. rewrite <- !app_assoc. exact Hv.
      * intros c y' z u ->. rewrite <- !app_assoc. eapply errscim_not. right; right; right; right. exists p, t, name, x, (c :: z), why. split; [reflexivity|].
        repeat (split; [assumption|]). split; [eapply esc_stuck_head; eauto|reflexivity].
    + intros Hk. assert (Hy : y = []) by (destruct why; try discriminate Hk; apply Hs). subst y. rewrite app_nil_r. split.
      * destruct why; try discriminate Hk; cbn [e_col]; rewrite !zlen_app, (urn_word_len p Hp); change (zlen colon) with 1; change (zlen scim_nid) with 16; lia.
      * destruct (acc_other p t name x [] why Hp Ht Hn Hs) as (v & Hv). exists v. rewrite <- !app_assoc. exact Hv.
Qed.
