(* What snake2camel does to the tokens of a Go text (C68). *)
From Coq Require Import Lia.
From Verif Require Import GoBase Spec Tools SpecTools PropsTools RlSrc GoSrc.
From Verif Require GoLex RlParse.
Import GoLex.
Local Open Scope list_scope.

Definition lit (s : string) : bytes := list_byte_of_string s.
(* the token with its identifier converted *)
Definition rename (t : tok) : tok := match t with TId s => TId (string_of_list_byte (camel false (lit s))) | t => t end.
(* no underscore in the literal stands just before a letter or digit *)
Definition plain (w : string) : Prop := forall x c y, lit w = x ++ uscore :: c :: y -> alnum c = false.
Definition fine (l : list tok) : Prop := ~ In TBad l /\ forall w, In (TStr w) l -> plain w.

Lemma fine_app a b : fine (a ++ b) -> fine b.
Proof. intros [H K]. split; [intros I; apply H, in_or_app; auto|intros w I; apply K, in_or_app; auto]. Qed.
Lemma fine_cons t b : fine (t :: b) -> fine b.
Proof. apply (fine_app [t]). Qed.
Lemma fine_bad l : ~ fine (TBad :: l).
Proof. intros [H _]. apply H. left. reflexivity. Qed.

(* ---- bytes -------------------------------------------------------------------------------------- *)
Definition word (c : byte) : bool := letter c || GoLex.digit c.
Lemma word_not c : word c = false -> lower c = false /\ Spec.digit c = false /\ Byte.eqb c uscore = false /\ alnum c = false /\
  letter c = false /\ GoLex.digit c = false.
Proof. destruct c; intros H; try discriminate H; repeat split; reflexivity. Qed.
Lemma word_alnum c : alnum c = true -> word c = true /\ Byte.eqb c uscore = false.
Proof. destruct c; intros H; try discriminate H; split; reflexivity. Qed.
Lemma word_capital c : alnum c = true -> word (capital c) = true /\ in_rng 10 10 (capital c) = false /\ in_rng 10 10 c = false.
Proof. destruct c; intros H; try discriminate H; repeat split; reflexivity. Qed.
Lemma alnum_lit c : alnum c = true -> in_rng 34 34 c = false /\ in_rng 92 92 c = false /\ in_rng 10 10 c = false.
Proof. destruct c; intros H; try discriminate H; repeat split; reflexivity. Qed.
Lemma under_is c : Byte.eqb c uscore = true -> c = uscore.
Proof. destruct c; intros H; try discriminate H; reflexivity. Qed.
Lemma num_digit c : GoLex.digit c = true -> lower c = false /\ Byte.eqb c uscore = false /\ word c = true.
Proof. destruct c; intros H; try discriminate H; repeat split; reflexivity. Qed.

Lemma camel_step o c r : Byte.eqb c uscore = false -> camel o (c :: r) = c :: camel (lower c || (Spec.digit c && o)) r.
Proof. intros E. cbn [camel]. rewrite E. reflexivity. Qed.
Lemma camel_out o c r : word c = false -> camel o (c :: r) = c :: camel false r.
Proof. intros E. apply word_not in E. destruct E as (E1 & E2 & E3 & _). rewrite camel_step, E1, E2 by exact E3. reflexivity. Qed.
Lemma camel_first c r : camel false (c :: r) = c :: camel (lower c) r.
Proof. cbn [camel]. rewrite !andb_false_r, orb_false_r. reflexivity. Qed.

(* ---- keywords: the semicolon after an identifier stays ------------------------------------------- *)
Lemma camel_new : forall n w o, (List.length w <= n)%nat -> camel o w = w \/ exists c, In c (camel o w) /\ lower c = false.
Proof.
  induction n as [|n IH]; intros [|c w] o Hn; try (cbn in Hn; lia); [left; reflexivity..|]. cbn in Hn.
  cbn [camel]. destruct (Byte.eqb c uscore && o) eqn:E.
  - destruct w as [|d w]; [left; reflexivity|]. destruct (alnum d) eqn:Ed.
    + right. exists (capital d). split; [left; reflexivity|]. revert Ed. destruct d; intros H; try discriminate H; reflexivity.
    + destruct (IH (d :: w) false) as [->|(e & I & K)]; [cbn in *; lia|left; reflexivity|]. right. exists e. split; [right; exact I|exact K].
  - destruct (IH w (lower c || (Spec.digit c && o))) as [->|(e & I & K)]; [cbn in *; lia|left; reflexivity|].
    right. exists e. split; [right; exact I|exact K].
Qed.
Lemma camel_same : forall w o, forallb lower w = true -> camel o w = w.
Proof.
  induction w as [|c w IH]; intros o H; [reflexivity|]. cbn [forallb] in H. apply andb_prop in H as [H1 H2].
  rewrite camel_step by (revert H1; destruct c; intros H; try discriminate H; reflexivity). f_equal. apply IH, H2.
Qed.
Lemma keyword_lower s : mem s keywords = true -> forallb lower (lit s) = true.
Proof.
  unfold mem. intros H. apply existsb_exists in H as (k & I & E). apply String.eqb_eq in E. subst k.
  revert s I. apply Forall_forall. repeat constructor.
Qed.
Lemma lit_of w : lit (string_of_list_byte w) = w.
Proof. apply list_byte_of_string_of_list_byte. Qed.
Lemma ends_other s : mem s keywords = false -> ends (TId s) = true.
Proof. intros H. unfold ends. rewrite H. reflexivity. Qed.
Lemma ends_rename s : ends (rename (TId s)) = ends (TId s).
Proof.
  unfold rename. destruct (camel_new (List.length (lit s)) (lit s) false (Nat.le_refl _)) as [->|(c & I & K)].
  - unfold lit. rewrite string_of_list_byte_of_string. reflexivity.
  - destruct (mem s keywords) eqn:E1.
    + rewrite (camel_same _ _ (keyword_lower s E1)) in *. unfold lit. rewrite string_of_list_byte_of_string. reflexivity.
    + rewrite (ends_other s E1). apply ends_other. apply not_true_iff_false. intros E2.
      apply keyword_lower in E2. rewrite lit_of in E2. rewrite forallb_forall in E2. rewrite (E2 c I) in K. discriminate K.
Qed.

(* ---- the lexer -------------------------------------------------------------------------------------- *)
Lemma lex_start last c r : lex MStart last (c :: r) = let '(o, m, l) := begin last c r in o ++ lex m l r.
Proof. reflexivity. Qed.
Lemma lex_id acc last c r : word c = true -> lex (MId acc) last (c :: r) = lex (MId (c :: acc)) last r.
Proof. intros E. cbn [lex lex1]. unfold word in E. rewrite E. reflexivity. Qed.
Lemma lex_id_end acc last c r : word c = false -> lex (MId acc) last (c :: r) = TId (str acc) :: lex MStart (ends (TId (str acc))) (c :: r).
Proof.
  intros E. rewrite lex_start. cbn [lex lex1]. unfold word in E. rewrite E. unfold finish. destruct (begin _ c r) as [[o m] l]. reflexivity.
Qed.
(* a literal whose text is begun is completed *)
Lemma literal_ends : forall s acc last,
  (~ In TBad (lex (MStr acc) last s) -> exists w, In (TStr (str (w ++ acc))) (lex (MStr acc) last s)) /\
  (~ In TBad (lex (MEsc acc) last s) -> exists w, In (TStr (str (w ++ acc))) (lex (MEsc acc) last s)).
Proof.
  induction s as [|c s IH]; intros acc last; [split; intros H; exfalso; apply H; left; reflexivity|].
  assert (next : forall x l, ~ In TBad (lex (MStr (x :: acc)) l s) -> exists w, In (TStr (str (w ++ acc))) (lex (MStr (x :: acc)) l s)).
  { intros x l H. destruct (proj1 (IH (x :: acc) l) H) as (w & I). exists (w ++ [x]). rewrite <- app_assoc. exact I. }
  split; cbn [lex lex1]; intros H.
  - destruct (in_rng 34 34 c); [exists []; left; reflexivity|]. destruct (in_rng 92 92 c); [exact (proj2 (IH acc last) H)|].
    destruct (in_rng 10 10 c); [exfalso; apply H; left; reflexivity|]. exact (next _ _ H).
  - destruct (in_rng 34 34 c || in_rng 92 92 c); [exact (next _ _ H)|]. destruct (in_rng 110 110 c); [exact (next _ _ H)|].
    destruct (in_rng 116 116 c); [exact (next _ _ H)|]. exfalso; apply H; left; reflexivity.
Qed.

(* the letters and digits at the front *)
Fixpoint run (s : bytes) : bytes := match s with c :: r => if word c then c :: run r else [] | [] => [] end.

(* the conversion does not reach the bytes an operator is made of *)
Lemma begin_same last c r : begin last c (camel false r) = begin last c r.
Proof.
  destruct r as [|d r]; [reflexivity|]. rewrite camel_first.
  assert (H : camel (lower d) r = r \/ firstn 1 (camel (lower d) r) = firstn 1 r \/ lower d = true).
  { destruct (lower d); [right; right; reflexivity|]. destruct r as [|e r]; [left; reflexivity|]. rewrite camel_first. right; left. reflexivity. }
  destruct H as [->|[H|H]]; [reflexivity| |].
  - unfold begin. assert (E : firstn 3 (c :: d :: camel (lower d) r) = firstn 3 (c :: d :: r)).
    { change (firstn 3 (c :: d :: camel (lower d) r)) with (c :: d :: firstn 1 (camel (lower d) r)). rewrite H. reflexivity. }
    rewrite E. reflexivity.
  - unfold begin. assert (E : forall q, mem (string_of_list_byte (firstn 3 (c :: d :: q))) ops3 = false).
    { intros q. apply not_true_iff_false. intros M. unfold mem, ops3 in M. cbn [existsb] in M. rewrite orb_false_r in M.
      apply String.eqb_eq in M. apply (f_equal lit) in M. rewrite lit_of in M. destruct q; cbn in M; [discriminate M|].
      injection M as _ -> _. discriminate H. }
    rewrite !E. reflexivity.
Qed.

Lemma op2_next c r : mem (string_of_list_byte (firstn 2 (c :: r))) ops2 = true -> exists d q, r = d :: q /\ word d = false.
Proof.
  intros M. unfold mem in M. apply existsb_exists in M as (k & I & E). apply String.eqb_eq in E. apply (f_equal lit) in E. rewrite lit_of in E.
  destruct r as [|d q]; cbn [firstn] in E.
  - exfalso. unfold ops2 in I. cbn [In] in I. intuition (subst; discriminate E).
  - exists d, q. split; [reflexivity|]. unfold ops2 in I. cbn [In] in I. intuition (subst; injection E as -> ->; reflexivity).
Qed.
Lemma op3_next c r : mem (string_of_list_byte (firstn 3 (c :: r))) ops3 = true ->
  exists d e q, r = d :: e :: q /\ word d = false /\ word e = false.
Proof.
  intros M. unfold mem, ops3 in M. cbn [existsb] in M. rewrite orb_false_r in M. apply String.eqb_eq in M. apply (f_equal lit) in M. rewrite lit_of in M.
  destruct r as [|d [|e q]]; cbn in M; try discriminate M. injection M as _ -> ->. exists "."%byte, "."%byte, q. repeat split.
Qed.

(* converting the rest of the text, from a mode of the lexer, renames the tokens that follow *)
Definition keeps (m m' : mode) (o : bool) (s : bytes) : Prop :=
  forall last, fine (lex m last s) -> lex m' last (camel o s) = map rename (lex m last s).
Definition upto (n : nat) : Prop := forall s, (List.length s < n)%nat ->
  keeps MStart MStart false s /\ (forall o, keeps MLine MLine o s) /\
  (forall acc acc' o, camel false (rev acc ++ run s) = rev acc' ++ camel o (run s) -> keeps (MId acc) (MId acc') o s) /\
  (forall acc, keeps (MNum acc) (MNum acc) false s) /\ (forall acc o, keeps (MStr acc) (MStr acc) o s) /\
  (forall acc, keeps (MEsc acc) (MEsc acc) false s).

Lemma start_step n s : upto n -> (List.length s <= n)%nat -> keeps MStart MStart false s.
Proof.
  intros U Hn last. destruct s as [|c r]; [reflexivity|]. cbn in Hn. intros F.
  destruct (word c) eqn:W.
  - rewrite camel_first, lex_start. rewrite lex_start in F |- *.
    assert (N0 : in_rng 10 10 c = false /\ in_rng 32 32 c = false /\ in_rng 9 9 c = false /\ in_rng 13 13 c = false)
      by (revert W; clear; destruct c; intros H; try discriminate H; repeat split; reflexivity).
    destruct N0 as (N1 & N2 & N3 & N4). unfold begin in F |- *. rewrite N1, N2, N3, N4 in F |- *. cbn [orb] in F |- *.
    destruct (letter c) eqn:L; cbn [app] in F |- *.
    + destruct (U r) as (_ & _ & ident & _); [lia|]. apply ident; [|exact F]. cbn [rev app]. rewrite camel_first. reflexivity.
    + unfold word in W. rewrite L in W. cbn [orb] in W. rewrite W in F |- *. cbn [app] in F |- *.
      destruct (num_digit c W) as (-> & _ & _). destruct (U r) as (_ & _ & _ & num & _); [lia|]. apply num, F.
  - rewrite (camel_out false c r W), !lex_start, begin_same. rewrite lex_start in F.
    pose proof (word_not c W) as (_ & _ & _ & _ & L & D).
    destruct (begin last c r) as [[o m] l] eqn:E. unfold begin in E. rewrite L, D in E.
    assert (ok : map rename o = o /\ (m = MStart \/ m = MStr [] \/ m = MLine \/
       (m = MSkip 1 /\ exists d q, r = d :: q /\ word d = false) \/
       (m = MSkip 2 /\ exists d e q, r = d :: e :: q /\ word d = false /\ word e = false))).
    { destruct (in_rng 10 10 c); [injection E as <- <- _; split; [destruct last; reflexivity|auto]|].
      destruct (in_rng 32 32 c || in_rng 9 9 c || in_rng 13 13 c); [injection E as <- <- _; auto|].
      destruct (in_rng 34 34 c); [injection E as <- <- _; auto|].
      destruct (String.eqb (string_of_list_byte (firstn 2 (c :: r))) "//"); [injection E as <- <- _; auto|].
      destruct (mem (string_of_list_byte (firstn 3 (c :: r))) ops3) eqn:M3; [injection E as <- <- _; split; [reflexivity|]; do 4 right; split; [reflexivity|exact (op3_next c r M3)]|].
      destruct (mem (string_of_list_byte (firstn 2 (c :: r))) ops2) eqn:M2; [injection E as <- <- _; split; [reflexivity|]; do 3 right; left; split; [reflexivity|exact (op2_next c r M2)]|].
      destruct (mem (string_of_list_byte [c]) ops1); injection E as <- <- _; auto. }
    clear E. destruct ok as (Ho & K). rewrite map_app, Ho. f_equal. apply fine_app in F.
    destruct K as [->|[->|[->|[(-> & d & q & -> & W1)|(-> & d & e & q & -> & W1 & W2)]]]].
    + apply U; [lia|exact F].
    + destruct (U r) as (_ & _ & _ & _ & strs & _); [lia|]. apply strs, F.
    + destruct (U r) as (_ & line & _); [lia|]. apply line, F.
    + rewrite (camel_out false d q W1). cbn [lex lex1 app] in F |- *. apply U; [cbn in Hn; lia|exact F].
    + rewrite (camel_out false d _ W1), (camel_out false e q W2). cbn [lex lex1 app] in F |- *. apply U; [cbn in Hn; lia|exact F].
Qed.

Lemma all_steps n : upto n -> upto (S n).
Proof.
  intros U s Hs. assert (Hn : (List.length s <= n)%nat) by lia. clear Hs.
  assert (S0 := start_step n s U Hn). split; [exact S0|].
  destruct s as [|c r].
  { repeat split; try (intros; intros last F; reflexivity).
    - intros acc acc' o E last F. cbn in *. rewrite !app_nil_r in E. cbn [map rename]. unfold str. rewrite lit_of, E. reflexivity. }
  cbn in Hn. destruct (U r) as (A1 & A2 & A3 & A4 & A5 & A6); [lia|].
  split; [|split; [|split; [|split]]].
  - (* a comment *)
    intros o last F. destruct (in_rng 10 10 c) eqn:E.
    + assert (c = "010"%byte) as -> by (revert E; clear; destruct c; intros H; try discriminate H; reflexivity).
      change (lex MLine last ("010"%byte :: r)) with (lex MStart last ("010"%byte :: r)) in F |- *.
      rewrite <- (S0 last F). reflexivity.
    + assert (F' : fine (lex MLine last r)) by (cbn [lex lex1] in F; rewrite E in F; exact F).
      replace (lex MLine last (c :: r)) with (lex MLine last r) by (cbn [lex lex1]; rewrite E; reflexivity).
      assert (K : forall o', lex MLine last (c :: camel o' r) = map rename (lex MLine last r)).
      { intros o'. rewrite <- (A2 o' last F'). cbn [lex lex1]. rewrite E. reflexivity. }
      cbn [camel]. destruct (Byte.eqb c uscore && o); [|apply K].
      destruct r as [|d r]; [exact (K false)|]. destruct (alnum d) eqn:Ad; [|exact (K false)].
      destruct (word_capital d Ad) as (_ & C1 & C2). destruct (U r) as (_ & B2 & _); [cbn in Hn; lia|].
      assert (F2 : fine (lex MLine last r)) by (cbn [lex lex1] in F'; rewrite C2 in F'; exact F').
      replace (lex MLine last (d :: r)) with (lex MLine last r) by (cbn [lex lex1]; rewrite C2; reflexivity).
      rewrite <- (B2 (lower d || Spec.digit d) last F2). cbn [lex lex1]. rewrite C1. reflexivity.
  - (* an identifier *)
    intros acc acc' o R last F. destruct (word c) eqn:W.
    + rewrite lex_id in F |- * by exact W. cbn [run] in R. rewrite W in R.
      assert (one : forall o', camel o (c :: r) = c :: camel o' r -> camel o (c :: run r) = c :: camel o' (run r) ->
        lex (MId acc') last (camel o (c :: r)) = map rename (lex (MId (c :: acc)) last r)).
      { intros o' E1 E2. rewrite E1, lex_id by exact W. apply (A3 (c :: acc) (c :: acc') o'); [|exact F].
        cbn [rev]. rewrite <- !app_assoc. cbn [app]. rewrite <- E2. exact R. }
      destruct (Byte.eqb c uscore && o) eqn:E.
      2:{ apply (one (lower c || (Spec.digit c && o))); cbn [camel]; rewrite E; reflexivity. }
      destruct r as [|d r]; [apply (one false); cbn [camel run]; rewrite E; reflexivity|].
      destruct (alnum d) eqn:Ad.
      2:{ apply (one false); [cbn [camel]; rewrite E, Ad; reflexivity|]. cbn [run].
          destruct (word d); cbn [camel]; rewrite E; [rewrite Ad|]; reflexivity. }
      destruct (word_alnum d Ad) as (Wd & _). destruct (word_capital d Ad) as (Wc & _).
      assert (E1 : forall q, camel o (c :: d :: q) = capital d :: camel (lower d || Spec.digit d) q) by (intros q; cbn [camel]; rewrite E, Ad; reflexivity).
      rewrite E1, lex_id by exact Wc. rewrite lex_id in F |- * by exact Wd. destruct (U r) as (_ & _ & B3 & _); [cbn in Hn; lia|].
      apply (B3 (d :: c :: acc)); [|exact F]. cbn [run] in R. rewrite Wd, E1 in R. cbn [rev]. rewrite <- !app_assoc. exact R.
    + rewrite lex_id_end in F by exact W. rewrite (lex_id_end acc) by exact W.
      assert (C : camel o (c :: r) = camel false (c :: r)) by (rewrite !camel_out by exact W; reflexivity). rewrite C.
      rewrite (camel_out false) by exact W. rewrite lex_id_end by exact W. rewrite <- (camel_out false c r W).
      cbn [run] in R. rewrite W in R. cbn [camel] in R. rewrite !app_nil_r in R.
      assert (T : TId (str acc') = rename (TId (str acc))) by (unfold rename, str; rewrite lit_of, R; reflexivity).
      cbn [map]. rewrite T, ends_rename. f_equal. apply S0. exact (fine_cons _ _ F).
  - (* a number *)
    intros acc last F. destruct (GoLex.digit c) eqn:D.
    + destruct (num_digit c D) as (L & _). rewrite camel_first, L. cbn [lex lex1 app] in F |- *. rewrite D in F |- *. cbn [app] in F |- *.
      apply A4. exact F.
    + destruct (letter c || in_rng 46 46 c) eqn:L.
      { exfalso. cbn [lex lex1] in F. rewrite D, L in F. exact (fine_bad _ F). }
      assert (W : word c = false) by (unfold word; apply orb_false_iff in L as [-> _]; exact D).
      assert (H : forall q, lex (MNum acc) last (c :: q) = TInt acc :: lex MStart true (c :: q)).
      { intros q. rewrite lex_start. cbn [lex lex1]. rewrite D, L. unfold finish. cbn [ends]. destruct (begin true c q) as [[x y] z]. reflexivity. }
      rewrite H in F |- *. rewrite (camel_out false c r W), H, <- (camel_out false c r W). cbn [map rename]. f_equal. apply S0. exact (fine_cons _ _ F).
  - (* a literal *)
    intros acc o last F.
    assert (K : forall o', (in_rng 34 34 c = true -> o' = false) -> (in_rng 92 92 c = true -> o' = false) ->
      lex (MStr acc) last (c :: camel o' r) = map rename (lex (MStr acc) last (c :: r))).
    { intros o' H1 H2. cbn [lex lex1] in F |- *. destruct (in_rng 34 34 c); [cbn [app map rename] in F |- *; rewrite (H1 eq_refl); f_equal; apply A1; exact (fine_cons _ _ F)|].
      destruct (in_rng 92 92 c); [rewrite (H2 eq_refl); apply A6; exact F|].
      destruct (in_rng 10 10 c); [exfalso; exact (fine_bad _ F)|]. apply A5. exact F. }
    assert (Q : in_rng 34 34 c = true \/ in_rng 92 92 c = true -> word c = false)
      by (clear; destruct c; intros [H|H]; try discriminate H; reflexivity).
    cbn [camel]. destruct (Byte.eqb c uscore && o) eqn:E.
    2:{ apply K; intros H; [specialize (Q (or_introl H))|specialize (Q (or_intror H))]; apply word_not in Q as (-> & -> & _); reflexivity. }
    destruct r as [|d r]; [apply (K false); reflexivity|]. destruct (alnum d) eqn:Ad; [|apply K; reflexivity].
    exfalso. apply andb_prop in E as [E _]. apply under_is in E. subst c.
    destruct (alnum_lit d Ad) as (L1 & L2 & L3).
    assert (F3 : fine (lex (MStr (d :: uscore :: acc)) last r)).
    { cbn [lex lex1] in F. change (in_rng 34 34 uscore) with false in F. change (in_rng 92 92 uscore) with false in F.
      change (in_rng 10 10 uscore) with false in F. cbv iota in F. cbn [lex lex1] in F. rewrite L1, L2, L3 in F. exact F. }
    clear F. rename F3 into F.
    destruct F as [F1 F2]. destruct (proj1 (literal_ends r (d :: uscore :: acc) last) F1) as (w & I).
    specialize (F2 _ I (rev acc) d (rev w)). rewrite F2 in Ad; [discriminate Ad|].
    unfold str. rewrite lit_of, rev_app_distr. cbn [rev]. rewrite <- !app_assoc. reflexivity.
  - (* after a backslash *)
    intros acc last F. rewrite camel_first. cbn [lex lex1] in F |- *.
    destruct (in_rng 34 34 c || in_rng 92 92 c); [apply A5; exact F|]. destruct (in_rng 110 110 c); [apply A5; exact F|].
    destruct (in_rng 116 116 c); [apply A5; exact F|]. exfalso. exact (fine_bad _ F).
Qed.

Theorem renames s : fine (tokens s) -> tokens (camel false s) = map rename (tokens s).
Proof.
  assert (U : forall n, upto n) by (induction n as [|n IH]; [intros s' H; inversion H|exact (all_steps n IH)]).
  intros F. destruct (U (S (List.length s)) s) as (H & _); [lia|]. exact (H false F).
Qed.

(* ---- the texts of the repository ------------------------------------------------------------------- *)
(* k stands in front of s *)
Fixpoint front (k s : bytes) : bool :=
  match k, s with [], _ => true | a :: k, b :: s => Byte.eqb a b && front k s | _, [] => false end.
Fixpoint has (k s : bytes) : bool := front k s || match s with [] => false | _ :: r => has k r end.
Lemma front_at k y : front k (k ++ y) = true.
Proof. induction k as [|a k IH]; [reflexivity|]. cbn [app front]. rewrite IH. destruct a; reflexivity. Qed.
Lemma has_at k x y : has k (x ++ k ++ y) = true.
Proof.
  induction x as [|c x IH]; cbn [app].
  - destruct (k ++ y) eqn:E; cbn [has]; rewrite <- E, front_at; reflexivity.
  - cbn [has]. rewrite IH. apply orb_true_r.
Qed.
Lemma no_directive s : has (B "//line") s = false -> Forall (fun l => ~ directive l) (lines s).
Proof.
  intros H. apply Forall_forall. intros l I (w & x & E & _).
  rewrite <- (lines_concat s) in H. apply in_split in I as (l1 & l2 & S). rewrite S, concat_app in H. cbn [List.concat] in H. rewrite E in H.
  replace (List.concat l1 ++ (w ++ B "//line" ++ x) ++ List.concat l2) with ((List.concat l1 ++ w) ++ B "//line" ++ (x ++ List.concat l2)) in H
    by (rewrite <- !app_assoc; reflexivity).
  rewrite has_at in H. discriminate H.
Qed.

Definition is_bad (t : tok) : bool := match t with TBad => true | _ => false end.
Fixpoint calm (s : bytes) : bool :=
  match s with c :: r => negb (Byte.eqb c uscore && match r with d :: _ => alnum d | [] => false end) && calm r | [] => true end.
Lemma calm_plain w : calm (lit w) = true -> plain w.
Proof.
  unfold plain. generalize (lit w). intros s H x c y ->. induction x as [|a x IH].
  - cbn in H. destruct (alnum c); [discriminate H|reflexivity].
  - cbn [app calm] in H. apply andb_prop in H as [_ H]. exact (IH H).
Qed.
Definition fine_b (l : list tok) : bool := forallb (fun t => negb (is_bad t) && match t with TStr w => calm (lit w) | _ => true end) l.
Lemma fine_ok l : fine_b l = true -> fine l.
Proof.
  unfold fine_b. intros H. rewrite forallb_forall in H. split; [intros I; specialize (H _ I); discriminate H|].
  intros w I. apply calm_plain. exact (H _ I).
Qed.

Definition names (l : list tok) : list string := flat_map (fun t => match t with TId s => [s] | _ => [] end) l.
Lemma names_in l a : In (TId a) l -> In a (names l).
Proof. intros I. apply in_flat_map. exists (TId a). split; [exact I|left; reflexivity]. Qed.
(* the code of the actions of a ragel text *)
Definition action_codes (s : bytes) : list bytes :=
  flat_map (fun t => match t with RlParse.KCode c => [c] | _ => [] end) (RlParse.rlex RlParse.LStart (RlParse.machine_part s)).
Definition rl_names : list string := nodup string_dec (names (tokens (RlParse.go_part machine_go_rl)) ++ flat_map (fun c => names (tokens c)) (action_codes machine_go_rl)).
Definition other_names : list string := nodup string_dec (flat_map (fun f => names (tokens f)) [urn_go; urn8141_go; scim_go; options_go; kind_go; parsing_mode_go]).
Definition camel_name (s : string) : string := string_of_list_byte (camel false (lit s)).
Definition apart (l o : list string) : bool := forallb (fun a => let a' := camel_name a in
  forallb (fun b => implb (String.eqb a' (camel_name b)) (String.eqb a b)) l &&
  forallb (fun b => implb (String.eqb a' b) (String.eqb a b)) o) l.

Lemma apart_spec l o : apart l o = true -> forall a, In a l ->
  (forall b, In b l -> camel_name a = camel_name b -> a = b) /\ (forall b, In b o -> camel_name a = b -> a = b).
Proof.
  unfold apart. intros H a Ia. rewrite forallb_forall in H. specialize (H a Ia). cbv zeta in H.
  apply andb_prop in H as [H1 H2]. rewrite forallb_forall in H1, H2. split; intros b Ib E.
  - specialize (H1 b Ib). rewrite E, String.eqb_refl in H1. cbn [implb] in H1. apply String.eqb_eq, H1.
  - specialize (H2 b Ib). rewrite E, String.eqb_refl in H2. cbn [implb] in H2. apply String.eqb_eq, H2.
Qed.
Lemma named g cs s a : s = g \/ In s cs -> In (TId a) (tokens s) ->
  In a (nodup string_dec (names (tokens g) ++ flat_map (fun c => names (tokens c)) cs)).
Proof.
  intros H I. apply nodup_In, in_or_app. destruct H as [<-|H]; [left; apply names_in, I|right; apply in_flat_map; eauto using names_in].
Qed.
Lemma named' cs a f : In f cs -> In (TId a) (tokens f) -> In a (nodup string_dec (flat_map (fun c => names (tokens c)) cs)).
Proof. intros I H. apply nodup_In, in_flat_map. exists f. split; [exact I|apply names_in, H]. Qed.
Lemma apart_ok : apart rl_names other_names = true. Proof. vm_compute. reflexivity. Qed.
Definition rl_name := named (RlParse.go_part machine_go_rl) (action_codes machine_go_rl).
Definition other_name := named' [urn_go; urn8141_go; scim_go; options_go; kind_go; parsing_mode_go].
Definition names_apart := apart_spec rl_names other_names apart_ok.
Lemma rl_fine : forall s, s = RlParse.go_part machine_go_rl \/ In s (action_codes machine_go_rl) -> fine (tokens s).
Proof.
  assert (K : forallb (fun s => fine_b (tokens s)) (RlParse.go_part machine_go_rl :: action_codes machine_go_rl) = true) by (vm_compute; reflexivity).
  rewrite forallb_forall in K. intros s H. apply fine_ok, K. destruct H as [->|H]; [left; reflexivity|right; exact H].
Qed.

Fixpoint quiet (open : bool) (s : bytes) : bool :=
  match s with
  | [] => true
  | c :: r =>
      if Byte.eqb c uscore && open then if match r with d :: _ => alnum d | [] => false end then false else quiet false r
      else quiet (lower c || (Spec.digit c && open)) r
  end.
Lemma quiet_camel s : forall L, quiet L s = true -> camel L s = s.
Proof.
  induction s as [|c r IH]; intros L H; [reflexivity|]. cbn [quiet camel] in *. destruct (Byte.eqb c uscore && L).
  - destruct r as [|d r]; [reflexivity|]. destruct (alnum d); [discriminate H|]. rewrite (IH false H). reflexivity.
  - rewrite (IH _ H). reflexivity.
Qed.
Lemma machine_camel : camel false machine_go = machine_go.
Proof. apply quiet_camel. vm_compute. reflexivity. Qed.
Lemma machine_lines : has (B "//line") machine_go = false. Proof. vm_compute. reflexivity. Qed.
Lemma machine_done : removeComments machine_go = Ret machine_go /\ snake2camel machine_go = Ret machine_go.
Proof.
  split; [apply remove_fixed, no_directive, machine_lines|]. rewrite snake_spec, machine_camel. reflexivity.
Qed.
