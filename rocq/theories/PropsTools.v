(* snake2camel and removecomments against their specifications. *)
From Coq Require Import Lia.
From Verif Require Import GoBase Spec Tools SpecTools.
Local Open Scope Z_scope.
Local Open Scope list_scope.

(* ---- runs of a class ----------------------------------------------------------------------- *)
Fixpoint takew (p : byte -> bool) (s : bytes) : bytes :=
  match s with c :: r => if p c then c :: takew p r else [] | [] => [] end.
Fixpoint dropw (p : byte -> bool) (s : bytes) : bytes :=
  match s with c :: r => if p c then dropw p r else s | [] => [] end.
Lemma take_drop p s : takew p s ++ dropw p s = s.
Proof. induction s as [|c s IH]; [reflexivity|]. cbn. destruct (p c); [cbn; rewrite IH|]; reflexivity. Qed.
Lemma take_all p s : forallb p (takew p s) = true.
Proof. induction s as [|c s IH]; [reflexivity|]. cbn. destruct (p c) eqn:E; [cbn; rewrite E|]; auto. Qed.
Lemma drop_head p s c r : dropw p s = c :: r -> p c = false.
Proof. induction s as [|d s IH]; cbn; [discriminate|]. destruct (p d) eqn:E; [exact IH|]. intros H; injection H as -> ->. exact E. Qed.
Lemma drop_app p a s : forallb p a = true -> dropw p (a ++ s) = dropw p s.
Proof. induction a as [|c a IH]; [reflexivity|]. cbn. intros H. apply andb_prop in H as [-> H]. auto. Qed.
Lemma take_app p a s : forallb p a = true -> takew p (a ++ s) = a ++ takew p s.
Proof. induction a as [|c a IH]; [reflexivity|]. cbn. intros H. apply andb_prop in H as [-> H]. rewrite IH; auto. Qed.
Lemma drop_len p s : (List.length (dropw p s) <= List.length s)%nat.
Proof. induction s as [|c s IH]; [reflexivity|]. cbn. destruct (p c); cbn; lia. Qed.
Definition seen (b : option byte) (w : bytes) : option byte := fold_left (fun _ c => Some c) w b.
Lemma seen_app b v w : seen b (v ++ w) = seen (seen b v) w.
Proof. apply fold_left_app. Qed.
Lemma seen_last b v c : seen b (v ++ [c]) = Some c.
Proof. rewrite seen_app. reflexivity. Qed.

(* the longest way to match class* *)
Definition far (p : byte -> bool) (x : pos) : pos :=
  mkPos (seen (prev x) (takew p (rest x))) (dropw p (rest x)) (taken x ++ takew p (rest x)) (caps x).
Lemma far_stop p x : match rest x with c :: _ => p c = false | [] => True end -> far p x = x.
Proof.
  destruct x as [b s t g]. unfold far. cbn. destruct s as [|c s]; cbn; [rewrite app_nil_r; reflexivity|].
  intros ->. cbn. rewrite app_nil_r. reflexivity.
Qed.
Lemma far_go p x c r : rest x = c :: r -> p c = true -> far p x = far p (advance c r x).
Proof.
  destruct x as [b s t g]. unfold far, advance. cbn. intros -> H. cbn. rewrite H. cbn. rewrite <- app_assoc. reflexivity.
Qed.
Lemma star_first (k : pos -> list pos) p :
  (forall y c r, rest y = c :: r -> p c = true -> k y = []) ->
  forall s x, rest x = s -> flat_map k (star p s x) = k (far p x).
Proof.
  intros Hk. induction s as [|c s IH]; intros x E; cbn [star].
  - rewrite far_stop by (rewrite E; exact I). cbn. apply app_nil_r.
  - destruct (p c) eqn:Hc.
    + rewrite flat_map_app. rewrite (IH (advance c s x)) by reflexivity. cbn [flat_map].
      rewrite (Hk x c s E Hc). cbn [app]. rewrite app_nil_r. rewrite (far_go p x c s E Hc). reflexivity.
    + rewrite far_stop by (rewrite E; exact Hc). cbn. apply app_nil_r.
Qed.
Lemma star_hd p s x : rest x = s -> exists tl, star p s x = far p x :: tl.
Proof.
  revert x. induction s as [|c s IH]; intros x E; cbn [star].
  - rewrite far_stop by (rewrite E; exact I). eauto.
  - destruct (p c) eqn:Hc.
    + destruct (IH (advance c s x) eq_refl) as (tl & ->). rewrite (far_go p x c s E Hc). cbn. eauto.
    + rewrite far_stop by (rewrite E; exact Hc). eauto.
Qed.

(* skipping text before the first match *)
Lemma replace_skip fuel r repl b s i last w b' s' :
  s = w ++ s' ->
  find r b s = match find r b' s' with Some (v, y) => Some (w ++ v, y) | None => None end ->
  replace_all fuel r repl b s i last =
  (do k <- replace_all fuel r repl b' s' (i + zlen w) last; Ret (w ++ fst k, snd k)).
Proof.
  intros -> H. destruct fuel as [|fuel]; cbn [replace_all]; [reflexivity|]. rewrite H.
  destruct (find r b' s') as [[v y]|]; [|reflexivity].
  replace (i + zlen (w ++ v)) with (i + zlen w + zlen v) by (unfold zlen; rewrite app_length; lia).
  destruct (replace_all fuel r repl (prev y) (rest y) _ _) as [[t k]| |]; cbn [bind fst snd]; [|reflexivity..].
  rewrite <- app_assoc. reflexivity.
Qed.

(* ---- removecomments -------------------------------------------------------------------------- *)
Definition bol (b : option byte) : Prop := b = None \/ b = Some nl.
Lemma re_space_ws c : re_space c = ws c.
Proof. destruct c; reflexivity. Qed.
Lemma slash_ws c : Byte.eqb "/" c = true -> re_space c = false.
Proof. destruct c; cbn; try discriminate; reflexivity. Qed.

Definition tail_re : re := RCat (RStar dot) (RCat REol (RCat (ROpt (Byte.eqb "013")) (ROpt is_nl))).

Definition after_line (t : bytes) : bytes := match dropw dot t with [] => [] | _ :: r => r end.
(* the end of the expression: rest of the line and its newline *)
Lemma tail_match x : exists y tl, rmatch tail_re x = y :: tl /\
  rest y = after_line (rest x) /\
  (rest y = [] \/ prev y = Some nl).
Proof.
  unfold tail_re, after_line. cbn [rmatch]. rewrite star_first with (p := dot); [|intros y c r E Hc|reflexivity].
  - unfold far. cbn [rest]. destruct (dropw dot (rest x)) as [|c r] eqn:E; cbn.
    + eexists _, _. split; [reflexivity|]. cbn. auto.
    + pose proof (drop_head _ _ _ _ E) as H. unfold dot in H. destruct (is_nl c) eqn:En; [|discriminate H].
      assert (c = nl) as -> by (destruct c; try discriminate En; reflexivity). cbn.
      eexists _, _. split; [reflexivity|]. cbn. auto.
  - rewrite E. unfold dot in Hc. destruct (is_nl c); [discriminate Hc|reflexivity].
Qed.

Definition ahead (s : bytes) : option bytes :=
  match dropw re_space s with
  | c1 :: c2 :: c3 :: c4 :: c5 :: c6 :: t =>
      if Byte.eqb "/" c1 && Byte.eqb "/" c2 && Byte.eqb "l" c3 && Byte.eqb "i" c4 && Byte.eqb "n" c5 && Byte.eqb "e" c6
      then Some t else None
  | _ => None
  end.
Lemma ahead_iff s t : ahead s = Some t <-> dropw re_space s = B "//line" ++ t.
Proof.
  unfold ahead. split.
  - destruct (dropw re_space s) as [|c1 [|c2 [|c3 [|c4 [|c5 [|c6 r]]]]]]; try discriminate.
    intros H. destruct (_ && _) eqn:E in H; [|discriminate H]. injection H as ->.
    repeat (apply andb_prop in E as [E ?]).
    repeat match goal with H : Byte.eqb _ ?c = true |- _ => apply Byte.byte_dec_bl in H; subst c end. reflexivity.
  - intros ->. reflexivity.
Qed.

Lemma comment_match b s : bol b ->
  match ahead s with
  | None => rmatch comment_re (mkPos b s [] []) = []
  | Some t => exists y tl, rmatch comment_re (mkPos b s [] []) = y :: tl /\
      rest y = after_line t /\ (rest y = [] \/ prev y = Some nl)
  end.
Proof.
  intros Hb. unfold comment_re. fold tail_re.
  assert (E0 : forall k, rmatch (RCat RBol k) (mkPos b s [] []) = rmatch k (mkPos b s [] [])).
  { intros k. cbn [rmatch prev]. destruct Hb as [-> | ->]; cbn; apply app_nil_r. }
  rewrite E0.
  assert (L : forall c k y, rmatch (RCat (RCls (Byte.eqb c)) k) y =
     match rest y with d :: r => if Byte.eqb c d then rmatch k (advance d r y) else [] | [] => [] end).
  { intros c k y. cbn [rmatch]. destruct (rest y) as [|d r]; [reflexivity|]. destruct (Byte.eqb c d); cbn; [apply app_nil_r|reflexivity]. }
  change (re_lit "//line" tail_re) with
    (RCat (RCls (Byte.eqb "/")) (RCat (RCls (Byte.eqb "/")) (RCat (RCls (Byte.eqb "l")) (RCat (RCls (Byte.eqb "i"))
      (RCat (RCls (Byte.eqb "n")) (RCat (RCls (Byte.eqb "e")) tail_re)))))).
  match goal with |- context [rmatch (RCat (RStar re_space) ?k) ?x] =>
    change (rmatch (RCat (RStar re_space) k) x) with (flat_map (rmatch k) (star re_space s x)) end.
  rewrite (star_first _ re_space); [| |reflexivity].
  2:{ intros y c r E Hc. rewrite L, E.
      destruct (Byte.eqb "/" c) eqn:Es; [|reflexivity]. rewrite (slash_ws c Es) in Hc. discriminate Hc. }
  unfold far. cbn [rest prev taken caps]. generalize (seen b (takew re_space s)) as b'. generalize (takew re_space s) as w.
  intros w b'. unfold ahead. generalize (dropw re_space s) as u. intros u. cbn [app].
  rewrite L.
  destruct u as [|c1 u]; cbn [rest]; [reflexivity|]. destruct (Byte.eqb "/" c1);
    [rewrite L; unfold advance; cbn [rest prev taken caps]|destruct u as [|? [|? [|? [|? [|? ?]]]]]; reflexivity].
  destruct u as [|c2 u]; cbn [rest]; [reflexivity|]. destruct (Byte.eqb "/" c2);
    [rewrite L; unfold advance; cbn [rest prev taken caps]|destruct u as [|? [|? [|? [|? ?]]]]; reflexivity].
  destruct u as [|c3 u]; cbn [rest]; [reflexivity|]. destruct (Byte.eqb "l" c3);
    [rewrite L; unfold advance; cbn [rest prev taken caps]|destruct u as [|? [|? [|? ?]]]; reflexivity].
  destruct u as [|c4 u]; cbn [rest]; [reflexivity|]. destruct (Byte.eqb "i" c4);
    [rewrite L; unfold advance; cbn [rest prev taken caps]|destruct u as [|? [|? ?]]; reflexivity].
  destruct u as [|c5 u]; cbn [rest]; [reflexivity|]. destruct (Byte.eqb "n" c5);
    [rewrite L; unfold advance; cbn [rest prev taken caps]|destruct u as [|? ?]; reflexivity].
  destruct u as [|c6 u]; cbn [rest]; [reflexivity|]. destruct (Byte.eqb "e" c6); [|reflexivity].
  unfold advance; cbn [rest prev taken caps]. cbn [andb].
  match goal with |- exists y tl, rmatch tail_re ?x = _ /\ _ => exact (tail_match x) end.
Qed.

Lemma no_bol_match c s : is_nl c = false -> rmatch comment_re (mkPos (Some c) s [] []) = [].
Proof. intros H. unfold comment_re. cbn [rmatch prev]. rewrite H. reflexivity. Qed.

(* the first line of a text that is not empty *)
Lemma first_line c s : exists l r, c :: s = l ++ r /\ lines (c :: s) = l :: lines r /\ (List.length r <= List.length s)%nat /\
  ((exists v, l = v ++ [nl] /\ forallb dot v = true) \/ (r = [] /\ forallb dot l = true)).
Proof.
  revert c. induction s as [|d s IH]; intros c; cbn [lines].
  - destruct (Byte.eqb c newline) eqn:E.
    + exists [c], []. split; [reflexivity|]. split; [reflexivity|]. split; [reflexivity|]. left. exists [].
      apply Byte.byte_dec_bl in E. subst c. split; reflexivity.
    + exists [c], []. split; [reflexivity|]. split; [reflexivity|]. split; [reflexivity|]. right. split; [reflexivity|].
      cbn. unfold dot, is_nl, nl, newline in *. rewrite E. reflexivity.
  - destruct (Byte.eqb c newline) eqn:E.
    + exists [c], (d :: s). split; [reflexivity|]. split; [reflexivity|]. split; [reflexivity|]. left. exists [].
      apply Byte.byte_dec_bl in E. subst c. split; reflexivity.
    + destruct (IH d) as (l & r & E1 & E2 & E3 & E4). exists (c :: l), r. split; [cbn; rewrite <- E1; reflexivity|].
      split; [|split; [cbn; lia|]].
      * cbn [lines] in E2 |- *. rewrite E2. reflexivity.
      * assert (Hc : dot c = true) by (unfold dot, is_nl, nl, newline in *; rewrite E; reflexivity).
        destruct E4 as [(v & -> & Hv)|[-> Hv]]; [left; exists (c :: v)|right]; cbn; rewrite Hc; auto.
Qed.

Lemma find_step_comment b s : bol b ->
  match ahead s with
  | Some t => exists y, find comment_re b s = Some ([], y) /\
      rest y = after_line t /\ (rest y = [] \/ prev y = Some nl)
  | None => match s with
            | [] => find comment_re b s = None
            | c :: s' => find comment_re b s =
                match find comment_re (Some c) s' with Some (w, y) => Some (c :: w, y) | None => None end
            end
  end.
Proof.
  intros Hb. pose proof (comment_match b s Hb) as H. destruct (ahead s) as [t|].
  - destruct H as (y & tl & H1 & H2). exists y. destruct s; cbn [find]; rewrite H1; auto.
  - destruct s; cbn [find]; rewrite H; reflexivity.
Qed.

(* past the first byte of a line, no match before the next line *)
Lemma find_in_line c v s : is_nl c = false -> forallb dot v = true ->
  find comment_re (Some c) (v ++ nl :: s) =
  match find comment_re (Some nl) s with Some (w, y) => Some (v ++ nl :: w, y) | None => None end.
Proof.
  revert c. induction v as [|d v IH]; intros c Hc Hv; cbn [app find]; rewrite no_bol_match by exact Hc.
  - reflexivity.
  - cbn in Hv. apply andb_prop in Hv as [Hd Hv]. rewrite IH; [|unfold dot in Hd; destruct (is_nl d); [discriminate|reflexivity]|exact Hv].
    destruct (find comment_re (Some nl) s) as [[w y]|]; reflexivity.
Qed.
Lemma find_last_line c v : is_nl c = false -> forallb dot v = true -> find comment_re (Some c) v = None.
Proof.
  revert c. induction v as [|d v IH]; intros c Hc Hv; cbn [find]; rewrite no_bol_match by exact Hc; [reflexivity|].
  cbn in Hv. apply andb_prop in Hv as [Hd Hv]. rewrite IH; [reflexivity| |exact Hv].
  unfold dot in Hd. destruct (is_nl d); [discriminate|reflexivity].
Qed.
Lemma find_nil b : find comment_re b [] = None.
Proof. destruct b as [c|]; cbn; [destruct (is_nl c)|]; reflexivity. Qed.

Lemma lines_concat s : List.concat (lines s) = s.
Proof.
  induction s as [|c s IH]; [reflexivity|]. cbn [lines]. destruct (Byte.eqb c newline); [cbn; rewrite IH; reflexivity|].
  destruct (lines s) as [|l ls]; cbn in *; rewrite <- IH; reflexivity.
Qed.
Lemma blanks_ws bs : Forall blank bs -> forallb re_space (List.concat bs) = true.
Proof.
  induction 1 as [|b bs H Hs IH]; [reflexivity|]. cbn. rewrite forallb_app, IH, andb_true_r.
  unfold blank in H. rewrite <- H. clear. induction b as [|c b IH]; [reflexivity|]. cbn. rewrite IH, re_space_ws. reflexivity.
Qed.
Lemma ws_space w : forallb ws w = forallb re_space w.
Proof. induction w as [|c w IH]; [reflexivity|]. cbn. rewrite IH, re_space_ws. reflexivity. Qed.
Lemma ahead_lines s bs d r : lines s = bs ++ d :: r -> Forall blank bs -> directive d -> ahead s <> None.
Proof.
  intros E Hb (w & x & -> & Hw). rewrite <- (lines_concat s), E, concat_app. cbn [List.concat].
  assert (H : ahead (List.concat bs ++ (w ++ B "//line" ++ x) ++ List.concat r) = Some (x ++ List.concat r)).
  { apply ahead_iff. rewrite drop_app by (apply blanks_ws; exact Hb). rewrite <- app_assoc.
    rewrite drop_app by (rewrite <- ws_space; exact Hw). reflexivity. }
  rewrite H. discriminate.
Qed.

(* a directive ahead: blank lines, then the line it is on, then what the expression leaves *)
Lemma lines_line v s : forallb dot v = true -> lines (v ++ nl :: s) = (v ++ [nl]) :: lines s.
Proof.
  induction v as [|c v IH]; [reflexivity|]. cbn [forallb]. intros H. apply andb_prop in H as [Hc Hv]. cbn [app lines].
  replace (Byte.eqb c newline) with false by (unfold dot, is_nl, nl, newline in *; destruct (Byte.eqb c _); [discriminate|reflexivity]).
  rewrite (IH Hv). reflexivity.
Qed.
Lemma lines_last v : forallb dot v = true -> v <> [] -> lines v = [v].
Proof.
  induction v as [|c v IH]; [congruence|]. cbn [forallb]. intros H _. apply andb_prop in H as [Hc Hv]. cbn [lines].
  replace (Byte.eqb c newline) with false by (unfold dot, is_nl, nl, newline in *; destruct (Byte.eqb c _); [discriminate|reflexivity]).
  destruct v as [|d v]; [reflexivity|]. rewrite IH; [reflexivity|exact Hv|discriminate].
Qed.
Lemma drop_dot t : dropw dot t = [] \/ exists r, dropw dot t = nl :: r.
Proof.
  destruct (dropw dot t) as [|c r] eqn:E; [left; reflexivity|right]. pose proof (drop_head _ _ _ _ E) as H. exists r.
  unfold dot, is_nl in H. destruct (Byte.eqb c nl) eqn:Ec; [|discriminate H]. apply Byte.byte_dec_bl in Ec. subst. reflexivity.
Qed.
Lemma ahead_split s t : ahead s = Some t ->
  exists (bs : list bytes) (d : bytes), lines s = bs ++ d :: lines (after_line t) /\
    Forall blank bs /\ directive d.
Proof.
  intros H. apply ahead_iff in H.
  assert (E : s = takew re_space s ++ B "//line" ++ t) by (rewrite <- H, take_drop; reflexivity).
  pose proof (take_all re_space s) as Hw. revert E Hw. generalize (takew re_space s) as w. clear H. intros w -> Hw.
  assert (M : forall n w, (List.length w <= n)%nat -> forallb re_space w = true ->
    exists (bs : list bytes) (d : bytes), lines (w ++ B "//line" ++ t) = bs ++ d :: lines (after_line t) /\
    Forall blank bs /\ directive d).
  { clear. induction n as [|n IH]; intros w Hn Hw.
    - unfold after_line. destruct w; [|cbn in Hn; lia]. exists []. cbn [app].
      destruct (drop_dot t) as [E|[r E]]; rewrite E.
      + exists (B "//line" ++ t). split; [|split; [constructor|exists [], t; split; reflexivity]].
        rewrite lines_last; [reflexivity| |discriminate]. rewrite forallb_app.
        rewrite <- (take_drop dot t), E, app_nil_r, take_all. reflexivity.
      + exists ((B "//line" ++ takew dot t) ++ [nl]). split; [|split; [constructor|]].
        * rewrite <- lines_line by (rewrite forallb_app, take_all; reflexivity). rewrite <- E, <- app_assoc, take_drop. reflexivity.
        * exists [], (takew dot t ++ [nl]). split; [rewrite <- app_assoc; reflexivity|reflexivity].
    - destruct (drop_dot w) as [E|[r E]].
      + unfold after_line. destruct (drop_dot t) as [E'|[r' E']]; rewrite E'; exists [].
        * exists (w ++ B "//line" ++ t). split; [|split; [constructor|exists w, t; split; [reflexivity|rewrite ws_space; exact Hw]]].
          rewrite lines_last; [reflexivity| |destruct w; discriminate]. rewrite !forallb_app.
          rewrite <- (take_drop dot t), E', app_nil_r, take_all. rewrite <- (take_drop dot w), E, app_nil_r, take_all. reflexivity.
        * exists ((w ++ B "//line" ++ takew dot t) ++ [nl]). split; [|split; [constructor|]].
          -- rewrite <- lines_line.
             ++ rewrite <- E'. rewrite <- !app_assoc, take_drop. reflexivity.
             ++ rewrite !forallb_app, take_all. rewrite <- (take_drop dot w), E, app_nil_r, take_all. reflexivity.
          -- exists w, (takew dot t ++ [nl]). split; [rewrite <- !app_assoc; reflexivity|rewrite ws_space; exact Hw].
      + pose proof (take_drop dot w) as Ew. rewrite E in Ew.
        assert (Hr : forallb re_space r = true /\ forallb re_space (takew dot w ++ [nl]) = true).
        { rewrite <- Ew in Hw. rewrite forallb_app in Hw. cbn [forallb] in Hw. rewrite forallb_app.
          apply andb_prop in Hw as [H1 H2]. apply andb_prop in H2 as [H2 H3]. rewrite H1. split; [exact H3|reflexivity]. }
        destruct (IH r) as (bs & d & E1 & E2 & E3); [|exact (proj1 Hr)|].
        { rewrite <- Ew in Hn. rewrite app_length in Hn. cbn in Hn. lia. }
        exists ((takew dot w ++ [nl]) :: bs), d. split; [|split; [|exact E3]].
        * rewrite <- Ew, <- app_assoc. cbn [app]. rewrite lines_line by apply take_all. rewrite E1.
          cbn [app]. rewrite Ew. reflexivity.
        * constructor; [|exact E2]. unfold blank. rewrite ws_space. exact (proj2 Hr). }
  exact (M (List.length w) w (Nat.le_refl _) Hw).
Qed.

Lemma ahead_len s t : ahead s = Some t -> (List.length (after_line t) < List.length s)%nat.
Proof.
  intros H. unfold after_line. apply ahead_iff in H. pose proof (drop_len re_space s) as L. rewrite H in L. rewrite app_length in L.
  change (List.length (B "//line")) with 6%nat in L.
  pose proof (drop_len dot t). destruct (dropw dot t); cbn in *; lia.
Qed.

Lemma clean_main : forall n s b fuel i last, (List.length s <= n)%nat -> bol b -> (List.length s < fuel)%nat ->
  exists k ls, replace_all fuel comment_re (fun _ => []) b s i last = Ret (List.concat ls, k) /\ cleaned (lines s) ls.
Proof.
  induction n as [|n IH]; intros s b fuel i last Hn Hb Hf.
  { destruct s; [|cbn in Hn; lia]. destruct fuel; [lia|]. cbn [replace_all]. rewrite find_nil.
    exists last, []. split; [reflexivity|constructor]. }
  pose proof (find_step_comment b s Hb) as H. destruct (ahead s) as [t|] eqn:Ea.
  - destruct H as (y & Hfind & Hrest & Hprev). pose proof (ahead_len _ _ Ea) as Hl. rewrite <- Hrest in Hl.
    destruct (ahead_split _ _ Ea) as (bs & d & E1 & E2 & E3). rewrite <- Hrest in E1.
    destruct fuel as [|fuel]; [lia|]. cbn [replace_all]. rewrite Hfind.
    destruct (rest y) as [|c r] eqn:Er.
    + destruct fuel as [|fuel]; [lia|]. cbn [replace_all]. rewrite find_nil. cbn [bind fst snd app].
      eexists _, []. split; [reflexivity|]. rewrite E1. constructor; [exact E2|exact E3|constructor].
    + destruct Hprev as [Hp|Hp]; [discriminate Hp|]. rewrite Hp.
      edestruct (IH (c :: r) (Some nl) fuel) as (k & ls & R1 & R2); [lia|right; reflexivity|lia|].
      rewrite R1. cbn [bind fst snd app]. exists k, ls. split; [reflexivity|]. rewrite E1. constructor; assumption.
  - destruct s as [|c s].
    { destruct fuel; [lia|]. cbn [replace_all]. rewrite H. exists last, []. split; [reflexivity|constructor]. }
    destruct (first_line c s) as (l & r & E1 & E2 & E3 & E4).
    assert (Hkeep : forall bs d q, l :: lines r = bs ++ d :: q -> Forall blank bs -> ~ directive d).
    { intros bs d q Eq Hbs Hd. rewrite <- E2 in Eq. exact (ahead_lines _ _ _ _ Eq Hbs Hd Ea). }
    assert (Hfind : find comment_re b (c :: s) = match find comment_re (Some nl) r with Some (v, y) => Some (l ++ v, y) | None => None end).
    { rewrite H. destruct E4 as [(v & -> & Hv)|[-> Hv]].
      - destruct v as [|d v].
        + cbn in E1. injection E1 as -> ->. reflexivity.
        + cbn in E1. injection E1 as <- ->. cbn in Hv. apply andb_prop in Hv as [Hc Hv]. rewrite <- app_assoc. cbn [app].
          rewrite find_in_line; [|unfold dot in Hc; destruct (is_nl c); [discriminate|reflexivity]|exact Hv].
          destruct (find comment_re (Some nl) r) as [[w y]|]; [|reflexivity]. rewrite <- app_assoc. reflexivity.
      - rewrite app_nil_r in E1. subst l. cbn in Hv. apply andb_prop in Hv as [Hc Hv]. rewrite find_nil.
        rewrite find_last_line; [reflexivity| |exact Hv]. unfold dot in Hc; destruct (is_nl c); [discriminate|reflexivity]. }
    rewrite (replace_skip fuel comment_re _ b (c :: s) i last l (Some nl) r E1 Hfind).
    edestruct (IH r (Some nl) fuel) as (k & ls & R1 & R2); [cbn in Hn; lia|right; reflexivity|cbn in Hf; lia|].
    rewrite R1. cbn [bind fst snd]. exists k, (l :: ls). split; [reflexivity|]. rewrite E2. constructor; assumption.
Qed.

Theorem removeComments_ok s : exists ls, removeComments s = Ret (List.concat ls) /\ cleaned (lines s) ls.
Proof.
  unfold removeComments.
  destruct (clean_main (List.length s) s None (S (List.length s)) 0 0) as (k & ls & H1 & H2); [lia|left; reflexivity|lia|].
  rewrite H1. cbn [bind fst]. eauto.
Qed.

Lemma directive_not_blank l : directive l -> ~ blank l.
Proof.
  intros (w & x & -> & _) H. unfold blank in H. rewrite !forallb_app in H.
  apply andb_prop in H as [_ H]. apply andb_prop in H as [H _]. discriminate H.
Qed.
Lemma cleaned_none ls ls' : cleaned ls ls' -> Forall (fun l => ~ directive l) ls'.
Proof. induction 1 as [|bs d ls ls' Hb Hd H IH|l ls ls' Hk H IH]; auto. constructor; [|exact IH]. exact (Hk [] l ls eq_refl (Forall_nil _)). Qed.
Lemma cleaned_id ls : Forall (fun l => ~ directive l) ls -> cleaned ls ls.
Proof.
  induction ls as [|l ls IH]; intros H; constructor.
  - intros bs d r E Hb. rewrite E in H. apply Forall_app in H as [_ H]. inversion H; assumption.
  - apply IH. inversion H; assumption.
Qed.
Lemma cleaned_fun ls a : cleaned ls a -> forall b, cleaned ls b -> a = b.
Proof.
  induction 1 as [|bs d ls ls' Hb Hd H IH|l ls ls' Hk H IH]; intros b H'.
  - remember [] as z eqn:Ez in H'. destruct H' as [|bs d ls ls' Hb Hd H'|l ls ls' Hk H']; [reflexivity|destruct bs; discriminate|discriminate].
  - inversion H' as [E|bs2 d2 ls2 ls2' Hb2 Hd2 H2 E E'|l2 ls2 ls2' Hk2 H2 E E'].
    + destruct bs; discriminate.
    + apply IH. subst ls2'. cut (ls = ls2); [intros ->; exact H2|]. clear - Hb Hd Hb2 Hd2 E. revert bs2 Hb2 E.
      induction Hb as [|x bs Hx Hbs IH]; intros [|y bs2] Hb2 E; cbn in E; injection E as E1 E2; subst.
      * reflexivity.
      * exfalso. inversion Hb2; subst. match goal with H1 : directive ?x, H2 : blank ?x |- _ => exact (directive_not_blank x H1 H2) end.
      * exfalso. match goal with H1 : directive ?x, H2 : blank ?x |- _ => exact (directive_not_blank x H1 H2) end.
      * inversion Hb2; subst. eapply IH; eassumption.
    + exfalso. subst b. exact (Hk2 bs d ls E Hb Hd).
  - inversion H' as [E|bs2 d2 ls2 ls2' Hb2 Hd2 H2 E E'|l2 ls2 ls2' Hk2 H2 E E'].
    + exfalso. exact (Hk bs2 d2 ls2 (eq_sym E) Hb2 Hd2).
    + f_equal. apply IH. exact H2.
Qed.

(* what is gone is blank or a directive *)
Lemma cleaned_rest ls ls' (p : bytes -> bool) : (forall l, p l = true -> ~ blank l /\ ~ directive l) ->
  cleaned ls ls' -> filter p ls' = filter p ls.
Proof.
  intros Hp. induction 1 as [|bs d ls ls' Hb Hd H IH|l ls ls' Hk H IH]; [reflexivity| |cbn; rewrite IH; reflexivity].
  rewrite filter_app. cbn.
  assert (E : p d = false) by (destruct (p d) eqn:E; [destruct (Hp d E) as [_ N]; contradiction|reflexivity]). rewrite E.
  replace (filter p bs) with (@nil bytes); [exact IH|]. clear - Hp Hb. induction Hb as [|b bs Hb Hbs IH]; [reflexivity|]. cbn.
  destruct (p b) eqn:E; [destruct (Hp b E); contradiction|exact IH].
Qed.

(* lists of lines *)
Inductive good : list bytes -> Prop :=
| good_nil : good []
| good_last v : forallb dot v = true -> v <> [] -> good [v]
| good_line v ls : forallb dot v = true -> good ls -> good ((v ++ [nl]) :: ls).
Lemma lines_good : forall n s, (List.length s <= n)%nat -> good (lines s).
Proof.
  induction n as [|n IH]; intros [|c s] Hn; try constructor; [cbn in Hn; lia|].
  destruct (first_line c s) as (l & r & E1 & E2 & E3 & E4). rewrite E2.
  destruct E4 as [(v & -> & Hv)|[-> Hv]].
  - constructor; [exact Hv|]. apply IH. cbn in Hn. lia.
  - constructor; [exact Hv|]. intros ->. discriminate E1.
Qed.
Lemma good_lines ls : good ls -> lines (List.concat ls) = ls.
Proof.
  induction 1 as [|v Hv Hn|v ls Hv H IH]; [reflexivity| |].
  - cbn. rewrite app_nil_r. apply lines_last; assumption.
  - cbn. rewrite <- app_assoc. cbn. rewrite lines_line by exact Hv. rewrite IH. reflexivity.
Qed.
Lemma good_tail a ls : good (a ++ ls) -> good ls.
Proof.
  induction a as [|l a IH]; [auto|]. cbn. intros H. apply IH.
  inversion H as [|v Hv Hn E|]; subst; [constructor|assumption].
Qed.
Lemma cleaned_good ls ls' : cleaned ls ls' -> good ls -> good ls'.
Proof.
  induction 1 as [|bs d ls ls' Hb Hd H IH|l ls ls' Hk H IH]; intros G; [constructor| |].
  - apply IH. apply (good_tail (bs ++ [d])). rewrite <- app_assoc. exact G.
  - inversion G as [|v Hv Hn E|v ls2 Hv G2]; subst; [|constructor; auto].
    inversion H as [|bs d ls ls2 Hb Hd E1 E2|]; subst; [constructor; assumption|destruct bs; discriminate].
Qed.

Lemma remove_spec s t : removeComments s = Ret t <-> exists ls, cleaned (lines s) ls /\ t = List.concat ls.
Proof.
  destruct (removeComments_ok s) as (ls & H1 & H2). rewrite H1. split.
  - intros E. injection E as <-. eauto.
  - intros (ls2 & H3 & ->). rewrite (cleaned_fun _ _ H2 _ H3). reflexivity.
Qed.
Lemma remove_lines s t : removeComments s = Ret t -> cleaned (lines s) (lines t).
Proof.
  intros H. apply remove_spec in H as (ls & H & ->). rewrite good_lines; [exact H|].
  eapply cleaned_good; [exact H|]. eapply lines_good, Nat.le_refl.
Qed.
Lemma remove_idem s t : removeComments s = Ret t -> removeComments t = Ret t.
Proof.
  intros H. apply remove_lines in H. apply remove_spec. exists (lines t). split; [|symmetry; apply lines_concat].
  apply cleaned_id. eapply cleaned_none, H.
Qed.
Lemma remove_fixed s : removeComments s = Ret s <-> Forall (fun l => ~ directive l) (lines s).
Proof.
  split.
  - intros H. apply remove_lines in H. eapply cleaned_none, H.
  - intros H. apply remove_spec. exists (lines s). split; [apply cleaned_id, H|symmetry; apply lines_concat].
Qed.

(* ---- snake2camel -------------------------------------------------------------------------------- *)
Lemma az_lower c : re_az c = lower c. Proof. destruct c; reflexivity. Qed.
Lemma d09_digit c : re_09 c = digit c. Proof. destruct c; reflexivity. Qed.
Lemma digits_eq ds : forallb re_09 ds = forallb digit ds.
Proof. induction ds as [|d ds IH]; [reflexivity|]. cbn [forallb]. rewrite IH, d09_digit. reflexivity. Qed.
Lemma an_alnum c : re_alnum c = alnum c. Proof. destruct c; reflexivity. Qed.
Lemma up_capital c : upper_byte c = capital c. Proof. destruct c; reflexivity. Qed.

(* the first byte starts a snake: what it becomes *)
Definition here (s : bytes) : option bytes :=
  match s with
  | a :: r => if re_az a then
      match dropw re_09 r with
      | u :: c :: y => if Byte.eqb u "_" && re_alnum c then Some (a :: takew re_09 r ++ upper_byte c :: y) else None
      | _ => None
      end else None
  | [] => None
  end.
(* the last snake of the first line *)
Fixpoint conv1 (s : bytes) : option bytes :=
  match s with
  | [] => None
  | c :: r => if is_nl c then None else
      match conv1 r with Some t => Some (c :: t) | None => here s end
  end.

Lemma here_some a ds c y : re_az a = true -> forallb re_09 ds = true -> re_alnum c = true ->
  here (a :: ds ++ uscore :: c :: y) = Some (a :: ds ++ upper_byte c :: y).
Proof.
  intros Ha Hd Hc. unfold here. rewrite Ha, drop_app by exact Hd. rewrite take_app by exact Hd. cbn. rewrite Hc.
  rewrite app_nil_r. reflexivity.
Qed.
Lemma here_inv s t : here s = Some t -> exists a ds c y, s = a :: ds ++ uscore :: c :: y /\ t = a :: ds ++ upper_byte c :: y /\
  re_az a = true /\ forallb re_09 ds = true /\ re_alnum c = true.
Proof.
  unfold here. destruct s as [|a r]; [discriminate|]. destruct (re_az a) eqn:Ea; [|discriminate].
  destruct (dropw re_09 r) as [|u [|c y]] eqn:Er; try discriminate.
  destruct (Byte.eqb u "_") eqn:Eu; [|discriminate]. destruct (re_alnum c) eqn:Ec; [|discriminate]. intros E.
  injection E as <-. apply Byte.byte_dec_bl in Eu. subst u. exists a, (takew re_09 r), c, y.
  split; [|split; [reflexivity|]]; [|split; [exact Ea|split; [apply take_all|exact Ec]]].
  rewrite <- (take_drop re_09 r) at 1. rewrite Er. reflexivity.
Qed.
Lemma az_dot c : re_az c = true -> is_nl c = false.
Proof. destruct c; cbn; intros H; try discriminate H; reflexivity. Qed.
Lemma digit_dot c : re_09 c = true -> is_nl c = false.
Proof. destruct c; cbn; intros H; try discriminate H; reflexivity. Qed.
Lemma alnum_dot c : re_alnum c = true -> is_nl c = false.
Proof. destruct c; cbn; intros H; try discriminate H; reflexivity. Qed.
Lemma conv1_tail c r : is_nl c = false -> conv1 (c :: r) = None -> conv1 r = None /\ here (c :: r) = None.
Proof. intros Hc. cbn [conv1]. rewrite Hc. destruct (conv1 r); [discriminate|auto]. Qed.
Lemma conv1_some ls ds c y : forallb re_az ls = true -> ls <> [] -> forallb re_09 ds = true -> re_alnum c = true ->
  conv1 (ls ++ ds ++ uscore :: c :: y) <> None.
Proof.
  intros Hl Hn Hd Hc. induction ls as [|a ls IH]; [congruence|]. cbn in Hl. apply andb_prop in Hl as [Ha Hl].
  cbn [app conv1]. rewrite (az_dot a Ha). destruct ls as [|b ls].
  - cbn [app]. destruct (conv1 _); [discriminate|]. rewrite here_some by assumption. discriminate.
  - destruct (conv1 ((b :: ls) ++ _)); [discriminate|]. exfalso. apply IH; [exact Hl|discriminate|reflexivity].
Qed.
Lemma conv1_head s t : conv1 s = Some t -> exists c r r', s = c :: r /\ t = c :: r'.
Proof.
  destruct s as [|c r]; [discriminate|]. cbn [conv1]. destruct (is_nl c); [discriminate|]. destruct (conv1 r) as [t'|].
  - intros E; injection E as <-. eauto.
  - intros E. apply here_inv in E as (a & ds & d & y & E1 & -> & _). injection E1 as -> E1. eauto.
Qed.

(* the number of underscores *)
Definition unders (s : bytes) : nat := List.length (filter (Byte.eqb uscore) s).
Lemma unders_app a b : unders (a ++ b) = (unders a + unders b)%nat.
Proof. unfold unders. rewrite filter_app, app_length. reflexivity. Qed.
Lemma unders_cons c s : unders (c :: s) = (unders [c] + unders s)%nat.
Proof. exact (unders_app [c] s). Qed.
Lemma up_under c : re_alnum c = true -> unders [upper_byte c] = 0%nat /\ unders [c] = 0%nat.
Proof. destruct c; cbn; intros H; try discriminate H; split; reflexivity. Qed.
Lemma conv1_unders s t : conv1 s = Some t -> unders s = S (unders t).
Proof.
  revert t. induction s as [|c r IH]; intros t; [discriminate|]. cbn [conv1]. destruct (is_nl c); [discriminate|].
  destruct (conv1 r) as [t'|].
  - intros E; injection E as <-. rewrite (unders_cons c r), (unders_cons c t'), (IH t' eq_refl). lia.
  - intros E. apply here_inv in E as (a & ds & d & y & -> & -> & _ & _ & Hd).
    rewrite (unders_cons a (ds ++ uscore :: d :: y)), (unders_cons a (ds ++ upper_byte d :: y)), !unders_app,
      (unders_cons uscore (d :: y)), (unders_cons d y), (unders_cons (upper_byte d) y).
    destruct (up_under d Hd) as [-> ->]. change (unders [uscore]) with 1%nat. lia.
Qed.

(* camel does not see whether the last snake of a line is already converted *)
Definition stuck (s : bytes) : Prop :=
  match dropw re_09 s with u :: c :: _ => Byte.eqb u "_" && re_alnum c = false | _ => True end.
Lemma camel_stuck s : stuck s -> camel true s = camel false s.
Proof.
  unfold stuck. induction s as [|e s IH]; intros H; [reflexivity|]. cbn [dropw] in H. cbn [camel].
  destruct (re_09 e) eqn:Ee.
  - replace (Byte.eqb e uscore) with false by (destruct e; try discriminate Ee; reflexivity). cbn [andb].
    rewrite d09_digit in Ee. rewrite Ee. rewrite <- az_lower.
    replace (re_az e) with false by (rewrite <- d09_digit in Ee; destruct e; try discriminate Ee; reflexivity). cbn [orb andb].
    rewrite (IH H). reflexivity.
  - rewrite d09_digit in Ee. rewrite Ee, !andb_false_l, andb_false_r, andb_true_r, orb_false_r.
    destruct (Byte.eqb e uscore) eqn:Eu; [|reflexivity].
    apply Byte.byte_dec_bl in Eu. subst e. destruct s as [|d s]; [reflexivity|]. cbn in H.
    rewrite <- an_alnum, H. reflexivity.
Qed.
Lemma here_stuck a r : re_az a = true -> here (a :: r) = None -> stuck r.
Proof.
  unfold here, stuck. intros ->. destruct (dropw re_09 r) as [|u [|c y]]; auto.
  destruct (Byte.eqb u "_" && re_alnum c); [discriminate|reflexivity].
Qed.
Lemma camel_here ds c y : forallb re_09 ds = true -> re_alnum c = true -> (re_az c = true -> stuck y) ->
  camel true (ds ++ uscore :: c :: y) = camel true (ds ++ upper_byte c :: y).
Proof.
  intros Hd Hc Hs. induction ds as [|d ds IH].
  - cbn [app camel]. replace (Byte.eqb uscore uscore) with true by reflexivity. cbn [andb]. rewrite <- an_alnum, Hc.
    rewrite <- up_capital. replace (Byte.eqb (upper_byte c) uscore) with false by (destruct c; try discriminate Hc; reflexivity).
    cbn [andb]. f_equal. rewrite andb_true_r.
    destruct (re_az c) eqn:Ea.
    + rewrite <- az_lower, Ea. cbn [orb]. rewrite camel_stuck by auto. f_equal. destruct c; try discriminate Ea; reflexivity.
    + f_equal. destruct c; try discriminate Ea; reflexivity.
  - cbn in Hd. apply andb_prop in Hd as [H1 H2]. cbn [app camel].
    replace (Byte.eqb d uscore) with false by (destruct d; try discriminate H1; reflexivity). cbn [andb]. f_equal.
    rewrite d09_digit in H1. rewrite H1, orb_true_r. apply IH, H2.
Qed.
Lemma conv1_suffix w s : forallb dot w = true -> conv1 (w ++ s) = None -> conv1 s = None.
Proof.
  induction w as [|c w IH]; [auto|]. cbn [forallb app]. intros H E. apply andb_prop in H as [Hc Hw].
  apply conv1_tail in E as [E _]; [auto|]. unfold dot in Hc. destruct (is_nl c); [discriminate|reflexivity].
Qed.
Lemma digits_dot ds : forallb re_09 ds = true -> forallb dot ds = true.
Proof.
  induction ds as [|d ds IH]; [auto|]. cbn. intros H. apply andb_prop in H as [H1 H2].
  unfold dot at 1. rewrite (digit_dot d H1), IH by exact H2. reflexivity.
Qed.
Lemma camel_conv1 s t : conv1 s = Some t -> forall L, camel L t = camel L s.
Proof.
  revert t. induction s as [|c r IH]; intros t; [discriminate|]. cbn [conv1]. destruct (is_nl c) eqn:Ec; [discriminate|].
  destruct (conv1 r) as [t'|] eqn:Er.
  - intros E; injection E as <-. intros L. specialize (IH t' eq_refl). cbn [camel].
    destruct (Byte.eqb c uscore && L) eqn:EL; [|rewrite IH; reflexivity].
    destruct (conv1_head _ _ Er) as (d & q & q' & -> & ->). destruct (alnum d) eqn:Ed; [|rewrite IH; reflexivity].
    specialize (IH true). cbn [camel] in IH. rewrite <- an_alnum in Ed.
    replace (Byte.eqb d uscore) with false in IH by (destruct d; try discriminate Ed; reflexivity). cbn [andb] in IH.
    rewrite andb_true_r in IH. injection IH as IH. rewrite IH. reflexivity.
  - intros E. apply here_inv in E as (a & ds & d & y & E1 & -> & Ha & Hds & Hd). injection E1 as -> ->. intros L.
    cbn [camel]. replace (Byte.eqb a uscore) with false by (destruct a; try discriminate Ha; reflexivity). cbn [andb].
    rewrite <- az_lower, Ha. cbn [orb]. rewrite camel_here; auto. intros Hz.
    change (ds ++ uscore :: d :: y) with (ds ++ [uscore] ++ d :: y) in Er. rewrite app_assoc in Er.
    apply conv1_suffix in Er; [|rewrite forallb_app, digits_dot by exact Hds; reflexivity].
    apply conv1_tail in Er; [|apply az_dot, Hz]. eapply here_stuck; [exact Hz|apply Er].
Qed.
Lemma camel_nl l r L : camel L (l ++ nl :: r) = camel L l ++ nl :: camel false r.
Proof.
  revert L. assert (M : forall n l L, (List.length l <= n)%nat -> camel L (l ++ nl :: r) = camel L l ++ nl :: camel false r).
  { clear. induction n as [|n IH]; intros [|c l] L Hn; try (cbn in Hn; lia); try reflexivity.
    cbn [app camel]. destruct (Byte.eqb c uscore && L).
    - destruct l as [|d l]; [reflexivity|]. cbn [app]. cbn in Hn. destruct (alnum d).
      + rewrite IH by lia. reflexivity.
      + change (d :: l ++ nl :: r) with ((d :: l) ++ nl :: r). rewrite IH by (cbn; lia). reflexivity.
    - cbn in Hn. rewrite IH by lia. reflexivity. }
  intros L. exact (M (List.length l) l L (Nat.le_refl _)).
Qed.

(* nothing to convert *)
Fixpoint settled (s : bytes) : Prop :=
  match s with [] => True | _ :: r => here s = None /\ settled r end.
Lemma camel_settled s : settled s -> forall L, (L = true -> stuck s) -> camel L s = s.
Proof.
  induction s as [|c r IH]; intros H L HL; [reflexivity|]. destruct H as [H1 H2]. cbn [camel].
  destruct (Byte.eqb c uscore && L) eqn:E.
  - apply andb_prop in E as [Ec ->]. apply Byte.byte_dec_bl in Ec. subst c. specialize (HL eq_refl). unfold stuck in HL. cbn in HL.
    destruct r as [|d r]; [reflexivity|]. rewrite <- an_alnum. cbn in HL. rewrite HL. rewrite IH; [reflexivity|exact H2|discriminate].
  - rewrite IH; [reflexivity|exact H2|]. intros HL'. destruct (re_az c) eqn:Ea; [eapply here_stuck; eassumption|].
    rewrite <- az_lower, Ea in HL'. cbn [orb] in HL'. apply andb_prop in HL' as [Hd ->]. specialize (HL eq_refl).
    unfold stuck in *. cbn [dropw] in HL. rewrite d09_digit, Hd in HL. exact HL.
Qed.
Lemma snake_here s : settled s -> ~ snake s.
Proof.
  intros H (x & a & ds & c & y & -> & Ha & Hd & Hc). assert (G : settled (a :: ds ++ uscore :: c :: y)).
  { clear - H. induction x as [|b x IH]; [exact H|]. destruct H as [_ H]. auto. }
  destruct G as [G _]. rewrite here_some in G; [discriminate G| | |].
  - rewrite az_lower. exact Ha.
  - rewrite digits_eq. exact Hd.
  - rewrite an_alnum. exact Hc.
Qed.
Lemma no_snake_settled s : ~ snake s -> settled s.
Proof.
  induction s as [|c s IH]; intros H; [exact I|]. split.
  - destruct (here (c :: s)) as [t|] eqn:E; [|reflexivity]. exfalso.
    apply here_inv in E as (a & ds & d & y & E & _ & Ha & Hd & Hc). apply H.
    exists [], a, ds, d, y. split; [exact E|]. rewrite <- az_lower, <- an_alnum. split; [exact Ha|split; [|exact Hc]].
    rewrite <- digits_eq. exact Hd.
  - apply IH. intros (x & a & ds & d & y & -> & R). apply H. exists (c :: x), a, ds, d, y. split; [reflexivity|exact R].
Qed.

(* the expression at one place *)
Definition snake_tail : re := RCat (RGroup 2 (RCat (RCls re_az) (RCat (RStar re_az) (RStar re_09))))
 (RCat (RCls (fun c => Byte.eqb c "_")) (RCat (RGroup 3 (RCls re_alnum)) (RGroup 4 (RStar dot)))).
Lemma flat_flat {A} (g h : A -> list A) l : flat_map g (flat_map h l) = flat_map (fun y => flat_map g (h y)) l.
Proof. induction l as [|a l IH]; [reflexivity|]. cbn. rewrite flat_map_app, IH. reflexivity. Qed.
Lemma flat_of_map {A} (g : A -> list A) (f : A -> A) l : flat_map g (map f l) = flat_map (fun y => g (f y)) l.
Proof. induction l as [|a l IH]; [reflexivity|]. cbn. rewrite IH. reflexivity. Qed.
Lemma skipn_len {A} (a b : list A) : skipn (List.length a) (a ++ b) = b.
Proof. induction a; [reflexivity|assumption]. Qed.

Lemma tail_snake x :
  match rest x with
  | a :: r =>
      if re_az a then
        match dropw re_09 (dropw re_az r) with
        | u :: c :: y =>
            if Byte.eqb u "_" && re_alnum c then
              exists z tl, rmatch snake_tail x = z :: tl /\ rest z = dropw dot y /\
                taken z = taken x ++ (a :: takew re_az r ++ takew re_09 (dropw re_az r)) ++ u :: c :: takew dot y /\
                caps z = (4%nat, takew dot y) :: (3%nat, [c]) :: (2%nat, a :: takew re_az r ++ takew re_09 (dropw re_az r)) :: caps x
            else rmatch snake_tail x = []
        | _ => rmatch snake_tail x = []
        end
      else rmatch snake_tail x = []
  | [] => rmatch snake_tail x = []
  end.
Proof.
  destruct x as [b s T g]. cbn [rest taken caps]. unfold snake_tail.
  destruct s as [|a r]; [reflexivity|]. destruct (re_az a) eqn:Ea; [|cbn [rmatch rest]; rewrite Ea; reflexivity].
  set (r3 := RCat (RCls (fun c : byte => Byte.eqb c "_")) (RCat (RGroup 3 (RCls re_alnum)) (RGroup 4 (RStar dot)))).
  set (x1 := advance a r (mkPos b (a :: r) T g)).
  set (f := fun y => mkPos (prev y) (rest y) (taken y) ((2%nat, skipn (List.length T) (taken y)) :: caps y)).
  assert (E : rmatch (RCat (RGroup 2 (RCat (RCls re_az) (RCat (RStar re_az) (RStar re_09)))) r3) (mkPos b (a :: r) T g)
    = rmatch r3 (f (far re_09 (far re_az x1)))).
  { change (flat_map (rmatch r3) (map f (flat_map (fun y => flat_map (fun y => star re_09 (rest y) y) (star re_az (rest y) y))
       (if re_az a then [x1] else []))) = rmatch r3 (f (far re_09 (far re_az x1)))).
    rewrite Ea. cbn [flat_map]. rewrite app_nil_r, flat_of_map, flat_flat.
    assert (N : forall y c q, rest y = c :: q -> Byte.eqb c "_" = false -> rmatch r3 (f y) = []).
    { intros y c q Ey Ec. unfold r3, f. cbn [rmatch rest]. rewrite Ey, Ec. reflexivity. }
    rewrite (flat_map_ext _ (fun y => rmatch r3 (f (far re_09 y)))).
    - rewrite (star_first (fun y => rmatch r3 (f (far re_09 y))) re_az); [reflexivity| |reflexivity].
      intros y c q Ey Ec. rewrite far_stop; [|rewrite Ey; destruct c; try discriminate Ec; reflexivity].
      apply (N y c q Ey). destruct c; try discriminate Ec; reflexivity.
    - intros y. rewrite (star_first (fun y => rmatch r3 (f y)) re_09); [reflexivity| |reflexivity].
      intros z c q Ez Ec. apply (N z c q Ez). destruct c; try discriminate Ec; reflexivity. }
  rewrite E. unfold far, x1, advance, f. cbn [rest prev taken caps].
  rewrite <- !app_assoc, skipn_len. cbn [app].
  destruct (dropw re_09 (dropw re_az r)) as [|u [|c y]] eqn:Er.
  - reflexivity.
  - unfold r3. cbn [rmatch rest]. destruct (Byte.eqb u "_"); reflexivity.
  - unfold r3. cbn [rmatch rest]. destruct (Byte.eqb u "_"); [|reflexivity]. unfold advance. cbn [flat_map rest prev taken caps].
    destruct (re_alnum c); [|reflexivity]. cbn [andb map flat_map rest prev taken caps]. rewrite !app_nil_r.
    match goal with |- context [star dot y ?p] => destruct (star_hd dot y p eq_refl) as (tl & ->) end.
    cbn [map]. eexists _, _. split; [reflexivity|]. unfold far. cbn [rest prev taken caps].
    split; [reflexivity|]. split.
    + rewrite <- !app_assoc. cbn [app]. rewrite <- !app_assoc. reflexivity.
    + rewrite !skipn_len. reflexivity.
Qed.

Lemma app_cons {A} (a : list A) b c : a ++ b :: c = (a ++ [b]) ++ c.
Proof. rewrite <- app_assoc. reflexivity. Qed.

Definition grp1 (y : pos) : pos := mkPos (prev y) (rest y) (taken y) ((1%nat, taken y) :: caps y).
Lemma star_snake s : forall x, rest x = s -> caps x = [] ->
  match conv1 s with
  | None => flat_map (fun y => rmatch snake_tail (grp1 y)) (star dot s x) = []
  | Some t => exists z tl m m', flat_map (fun y => rmatch snake_tail (grp1 y)) (star dot s x) = z :: tl /\
      taken z = taken x ++ m /\ snake_repl (caps z) = taken x ++ m' /\
      m ++ rest z = s /\ m' ++ rest z = t /\ hd_error m = hd_error m' /\ m <> [] /\ rest z = dropw dot s
  end.
Proof.
  induction s as [|c r IH]; intros x Ex Ec.
  - pose proof (tail_snake (grp1 x)) as H. unfold grp1 in H at 1. cbn [rest] in H. rewrite Ex in H. cbn [conv1 star flat_map]. rewrite H. reflexivity.
  - cbn [conv1]. pose proof (tail_snake (grp1 x)) as H. unfold grp1 in H at 1. cbn [rest] in H. rewrite Ex in H.
    destruct (is_nl c) eqn:En.
    + cbn [star]. unfold dot at 1. rewrite En. cbn [negb flat_map].
      assert (Ea : re_az c = false) by (destruct c; try discriminate En; reflexivity). rewrite Ea in H. rewrite H. reflexivity.
    + assert (EF : flat_map (fun y => rmatch snake_tail (grp1 y)) (star dot (c :: r) x) =
        flat_map (fun y => rmatch snake_tail (grp1 y)) (star dot r (advance c r x)) ++ rmatch snake_tail (grp1 x)).
      { cbn [star]. unfold dot at 1. rewrite En. cbn [negb]. rewrite flat_map_app. cbn [flat_map]. rewrite app_nil_r. reflexivity. }
      rewrite EF. clear EF.
      specialize (IH (advance c r x) eq_refl Ec). destruct (conv1 r) as [t|] eqn:Er.
      * destruct IH as (z & tl & m & m' & E1 & E2 & E3 & E4 & E5 & E6 & E7 & E8). rewrite E1.
        cbn [advance taken] in E2, E3. rewrite <- app_assoc in E2, E3.
        exists z, (tl ++ rmatch snake_tail (grp1 x)), (c :: m), (c :: m'). cbn [app] in *.
        split; [reflexivity|]. split; [exact E2|]. split; [exact E3|]. split; [rewrite E4; reflexivity|].
        split; [rewrite E5; reflexivity|]. split; [reflexivity|]. split; [discriminate|].
        cbn [dropw]. unfold dot at 1. rewrite En. exact E8.
      * rewrite IH. cbn [app]. unfold here. destruct (re_az c) eqn:Ea; [|rewrite H; reflexivity].
        assert (Et : forall u d y, dropw re_09 (dropw re_az r) = u :: d :: y -> Byte.eqb u "_" && re_alnum d = true -> takew re_az r = []).
        { intros u d y Eu Ed. destruct (takew re_az r) as [|b bs] eqn:Eb; [reflexivity|]. exfalso.
          apply andb_prop in Ed as [Hu Hd]. apply Byte.byte_dec_bl in Hu. subst u.
          refine (conv1_some (b :: bs) (takew re_09 (dropw re_az r)) d y _ _ _ Hd _);
            [rewrite <- Eb; apply take_all|discriminate|apply take_all|].
          rewrite <- Er. f_equal. rewrite <- (take_drop re_az r) at 2. rewrite Eb.
          f_equal. rewrite <- (take_drop re_09 (dropw re_az r)) at 2. rewrite Eu. reflexivity. }
        assert (Ed : takew re_az r = [] -> dropw re_az r = r).
        { intros E. rewrite <- (take_drop re_az r) at 2. rewrite E. reflexivity. }
        destruct (takew re_az r) as [|b bs] eqn:Eb.
        -- rewrite (Ed eq_refl) in *. destruct (dropw re_09 r) as [|u [|d y]] eqn:Eu; [exact H|exact H|].
           destruct (Byte.eqb u "_" && re_alnum d) eqn:Eud; [|exact H].
           destruct H as (z & tl & H1 & H2 & H3 & H4).
           exists z, tl, (c :: takew re_09 r ++ u :: d :: takew dot y), (c :: takew re_09 r ++ upper_byte d :: takew dot y).
           split; [exact H1|]. cbn [app] in H3, H4. split; [exact H3|]. split; [rewrite H4; unfold snake_repl; cbn; reflexivity|].
           rewrite H2. split; [cbn; rewrite <- app_assoc; cbn; rewrite take_drop, <- Eu, take_drop; reflexivity|].
           split; [cbn; rewrite <- app_assoc; cbn; rewrite take_drop; reflexivity|]. split; [reflexivity|]. split; [discriminate|].
           cbn [dropw]. unfold dot at 2. rewrite En. cbn [negb]. rewrite <- (take_drop re_09 r), Eu.
           rewrite drop_app by (apply digits_dot, take_all). cbn [dropw]. apply andb_prop in Eud as [E1 E2].
           apply Byte.byte_dec_bl in E1. subst u. change (dot "_") with true. cbn iota. unfold dot at 2. rewrite (alnum_dot d E2). reflexivity.
        -- assert (Hh : forall (P : Prop) (Q : bytes -> Prop), P ->
             match (match dropw re_09 r with u :: d :: y => if Byte.eqb u "_" && re_alnum d then Some (c :: takew re_09 r ++ upper_byte d :: y) else None | _ => None end)
             with Some t => Q t | None => P end).
           { intros P Q HP. destruct r as [|e r]; [discriminate Eb|]. cbn in Eb. destruct (re_az e) eqn:Ee; [|discriminate Eb].
             cbn [dropw]. replace (re_09 e) with false by (destruct e; try discriminate Ee; reflexivity).
             destruct r as [|? ?]; [exact HP|]. replace (Byte.eqb e "_") with false by (destruct e; try discriminate Ee; reflexivity). exact HP. }
           match goal with |- match ?X with Some t => @?Q t | None => ?P end => apply (Hh P Q) end.
           destruct (dropw re_09 (dropw re_az r)) as [|u [|d y]] eqn:Eu; [exact H|exact H|].
           destruct (Byte.eqb u "_" && re_alnum d) eqn:Eud; [|exact H]. discriminate (Et u d y eq_refl Eud).
Qed.

Lemma snake_match b s :
  match conv1 s with
  | None => rmatch snake_re (mkPos b s [] []) = []
  | Some t => exists z tl m', rmatch snake_re (mkPos b s [] []) = z :: tl /\ snake_repl (caps z) = m' /\
      taken z ++ rest z = s /\ m' ++ rest z = t /\ hd_error (taken z) = hd_error m' /\ taken z <> [] /\ rest z = dropw dot s
  end.
Proof.
  pose proof (star_snake s (mkPos b s [] []) eq_refl eq_refl) as H.
  assert (E : rmatch snake_re (mkPos b s [] []) = flat_map (fun y => rmatch snake_tail (grp1 y)) (star dot s (mkPos b s [] []))).
  { change (rmatch snake_re (mkPos b s [] [])) with (flat_map (rmatch snake_tail) (map grp1 (star dot s (mkPos b s [] [])))).
    apply flat_of_map. }
  rewrite E. destruct (conv1 s) as [t|]; [|exact H].
  destruct H as (z & tl & m & m' & E1 & E2 & E3 & E4 & E5 & E6 & E7 & E8). cbn [taken app] in E2, E3. subst m.
  exists z, tl, m'. auto 10.
Qed.

(* searching forward *)
Lemma find_step_snake b s :
  match find snake_re b s with
  | None => settled s
  | Some (w, y) => exists u t, s = w ++ u /\ conv1 u = Some t /\ (w = [] \/ exists w', w = w' ++ [nl]) /\
      taken y ++ rest y = u /\ snake_repl (caps y) ++ rest y = t /\ hd_error (taken y) = hd_error (snake_repl (caps y)) /\
      taken y <> [] /\ rest y = dropw dot u
  end.
Proof.
  revert b. induction s as [|c s IH]; intros b; cbn [find].
  - pose proof (snake_match b []) as H. cbn [conv1] in H. rewrite H. exact I.
  - pose proof (snake_match b (c :: s)) as H. destruct (conv1 (c :: s)) as [t|] eqn:Et.
    + destruct H as (z & tl & m' & E1 & <- & E3). rewrite E1. exists (c :: s), t. split; [reflexivity|]. split; [exact Et|].
      split; [left; reflexivity|exact E3].
    + rewrite H. specialize (IH (Some c)). destruct (find snake_re (Some c) s) as [[w y]|].
      * destruct IH as (u & t & -> & E2 & E3 & E4). exists u, t. split; [reflexivity|]. split; [exact E2|]. split; [|exact E4].
        right. destruct E3 as [-> | (w' & ->)]; [|exists (c :: w'); reflexivity]. exists [].
        cbn [conv1 app] in Et. destruct (is_nl c) eqn:En; [apply Byte.byte_dec_bl in En; subst c; reflexivity|].
        rewrite E2 in Et. discriminate Et.
      * split; [|exact IH]. cbn [conv1] in Et. destruct (is_nl c) eqn:En.
        -- apply Byte.byte_dec_bl in En. subst c. reflexivity.
        -- destruct (conv1 s); [discriminate Et|exact Et].
Qed.

Lemma camel_after w X Y : (w = [] \/ exists w', w = w' ++ [nl]) -> camel false X = camel false Y -> camel false (w ++ X) = camel false (w ++ Y).
Proof. intros [-> | (w' & ->)] E; [exact E|]. rewrite <- !app_assoc. cbn. rewrite !camel_nl, E. reflexivity. Qed.

Lemma pass_main : forall n s b fuel i last, (List.length s <= n)%nat -> (List.length s < fuel)%nat -> 0 <= i ->
  exists t k, replace_all fuel snake_re snake_repl b s i last = Ret (t, k) /\ camel false t = camel false s /\
    hd_error t = hd_error s /\
    ((k = last /\ t = s /\ settled s) \/ (0 < k /\ (unders t < unders s)%nat)).
Proof.
  induction n as [|n IH]; intros s b fuel i last Hn Hf Hi.
  all: destruct fuel as [|fuel]; [lia|]; cbn [replace_all]; pose proof (find_step_snake b s) as H;
    destruct (find snake_re b s) as [[w y]|]; [|exists s, last; auto 10].
  - exfalso. destruct H as (u & t & -> & E & _). destruct w; [destruct u; [discriminate E|cbn in Hn; lia]|cbn in Hn; lia].
  - destruct H as (u & t & -> & Ec & Ew & Et & Er & Eh & Et0 & Erest).
    set (e := i + zlen w + zlen (taken y)).
    assert (Htk : (0 < List.length (taken y))%nat) by (destruct (taken y); [congruence|cbn; lia]).
    assert (He : 0 < e) by (unfold e, zlen; lia).
    assert (Hl : (List.length (rest y) < List.length (w ++ u))%nat) by (rewrite <- Et, !app_length; lia).
    destruct (IH (rest y) (prev y) fuel e e) as (T & k & R1 & R2 & R3 & R4); [lia|lia|lia|].
    rewrite R1. cbn [bind fst snd]. exists (w ++ snake_repl (caps y) ++ T), k. split; [reflexivity|].
    pose proof (camel_conv1 u t Ec false) as Hcam. pose proof (conv1_unders u t Ec) as Hun.
    split; [|split; [|right; split]].
    + apply camel_after; [exact Ew|]. rewrite <- Et, <- Er in Hcam. rewrite <- Et.
      destruct (drop_dot u) as [E|[r E]]; rewrite E in Erest; rewrite Erest in *.
      * assert (T = []) as -> by (destruct T; [reflexivity|discriminate R3]). exact Hcam.
      * destruct T as [|c T]; [discriminate R3|]. injection R3 as ->.
        rewrite !camel_nl in Hcam |- *. apply app_inv_tail in Hcam. rewrite Hcam.
        change (camel false (nl :: T)) with (nl :: camel false T) in R2. change (camel false (nl :: r)) with (nl :: camel false r) in R2.
        injection R2 as ->. reflexivity.
    + destruct w; [|reflexivity]. cbn [app]. rewrite <- Et. destruct (taken y); [congruence|].
      destruct (snake_repl (caps y)); [discriminate Eh|exact (eq_sym Eh)].
    + destruct R4 as [(-> & _)|[R4 _]]; assumption.
    + rewrite <- Et, <- Er in Hun. rewrite !unders_app in *. rewrite <- Et, unders_app. 
      destruct R4 as [(_ & -> & _)|[_ R4]]; lia.
Qed.

Lemma loop_main : forall fuel s, (unders s < fuel)%nat ->
  exists t, snake_loop fuel s = Ret t /\ camel false t = camel false s /\ settled t.
Proof.
  induction fuel as [|fuel IH]; intros s Hf; [lia|]. cbn [snake_loop]. unfold replaceAllStringSubmatchFunc.
  destruct (pass_main (List.length s) s None (S (List.length s)) 0 0) as (t & k & E1 & E2 & _ & E3); [lia..|].
  rewrite E1. cbn [bind fst snd]. destruct E3 as [(-> & -> & Hs)|[Hk Hu]].
  - cbn. eauto.
  - replace (k =? 0) with false by (symmetry; apply Z.eqb_neq; lia).
    destruct (IH t) as (t' & F1 & F2 & F3); [lia|]. exists t'. split; [exact F1|]. split; [congruence|exact F3].
Qed.
Lemma snake_ok s : snake2camel s = Ret (camel false s) /\ settled (camel false s).
Proof.
  unfold snake2camel. destruct (loop_main (S (List.length s)) s) as (t & E1 & E2 & E3).
  { unfold unders. assert (H : (List.length (filter (Byte.eqb uscore) s) <= List.length s)%nat); [|lia].
    induction s as [|c s IH]; [reflexivity|]. cbn [filter]. destruct (Byte.eqb uscore c); cbn [List.length]; lia. }
  assert (E : t = camel false s) by (rewrite <- E2; symmetry; apply camel_settled; [exact E3|discriminate]).
  subst t. auto.
Qed.

Lemma snake_spec s : snake2camel s = Ret (camel false s).
Proof. apply snake_ok. Qed.
Lemma snake_done s t : snake2camel s = Ret t -> ~ snake t.
Proof. destruct (snake_ok s) as [-> H]. intros E; injection E as <-. apply snake_here, H. Qed.
Lemma snake_fixed s : snake2camel s = Ret s <-> ~ snake s.
Proof.
  split; [apply snake_done|]. intros H. rewrite snake_spec. f_equal. apply camel_settled; [apply no_snake_settled, H|discriminate].
Qed.
Lemma snake_idem s t : snake2camel s = Ret t -> snake2camel t = Ret t.
Proof. intros H. apply snake_fixed. eapply snake_done, H. Qed.

Lemma camel_bare s : forall L, bare (camel L s) = bare s.
Proof.
  assert (M : forall n s L, (List.length s <= n)%nat -> bare (camel L s) = bare s).
  { induction n as [|n IH]; intros [|c r] L Hn; try reflexivity; [cbn in Hn; lia|]. cbn in Hn. cbn [camel].
    assert (G : forall L', bare (c :: camel L' r) = bare (c :: r)).
    { intros L'. unfold bare. cbn [filter]. specialize (IH r L' ltac:(lia)). unfold bare in IH.
      destruct (negb _); [cbn [lowers map]; f_equal; exact IH|exact IH]. }
    destruct (Byte.eqb c uscore && L) eqn:E; [|apply G]. destruct r as [|d r]; [reflexivity|]. destruct (alnum d) eqn:Ed; [|apply G].
    apply andb_prop in E as [E _]. unfold bare. cbn [filter]. rewrite E. cbn [negb].
    replace (Byte.eqb (capital d) uscore) with false by (rewrite <- an_alnum in Ed; destruct d; try discriminate Ed; reflexivity).
    replace (Byte.eqb d uscore) with false by (rewrite <- an_alnum in Ed; destruct d; try discriminate Ed; reflexivity).
    cbn [negb lowers map]. f_equal; [destruct d; reflexivity|]. apply IH. cbn in Hn. lia. }
  intros L. exact (M (List.length s) s L (Nat.le_refl _)).
Qed.
