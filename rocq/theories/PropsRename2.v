(* What removecomments does to the tokens of a Go text (C68). *)
From Coq Require Import Lia.
From Verif Require Import GoBase Spec Tools SpecTools PropsTools.
From Verif Require GoLex.
Import GoLex.
From Verif Require Import PropsRename.
Local Open Scope list_scope.

(* ---- a line, from any mode of the lexer but inside an operator, ends where it began ------------- *)
Lemma nl_in c : in_rng 10 10 c = negb (dot c).
Proof. destruct c; reflexivity. Qed.
Lemma nl_only c : dot c = false -> c = nl.
Proof. destruct c; intros H; try discriminate H; reflexivity. Qed.
Lemma op3_dots c r : mem (string_of_list_byte (firstn 3 (c :: r))) ops3 = true -> exists q, r = "."%byte :: "."%byte :: q.
Proof.
  intros M. unfold mem, ops3 in M. cbn [existsb] in M. rewrite orb_false_r in M. apply String.eqb_eq in M. apply (f_equal lit) in M. rewrite lit_of in M.
  destruct r as [|d [|e q]]; cbn in M; try discriminate M. injection M as _ -> ->. exists q. reflexivity.
Qed.
Lemma op2_dot c r : mem (string_of_list_byte (firstn 2 (c :: r))) ops2 = true -> exists d q, r = d :: q /\ dot d = true.
Proof.
  intros M. unfold mem in M. apply existsb_exists in M as (k & I & E). apply String.eqb_eq in E. apply (f_equal lit) in E. rewrite lit_of in E.
  destruct r as [|d q]; cbn [firstn] in E.
  - exfalso. unfold ops2 in I. cbn [In] in I. intuition (subst; discriminate E).
  - exists d, q. split; [reflexivity|]. unfold ops2 in I. cbn [In] in I. intuition (subst; injection E as -> ->; reflexivity).
Qed.
Lemma begin_line last c x r r' : begin last c (x ++ nl :: r) = begin last c (x ++ nl :: r').
Proof.
  unfold begin. assert (E2 : firstn 2 (c :: x ++ nl :: r) = firstn 2 (c :: x ++ nl :: r')) by (destruct x; reflexivity). rewrite E2.
  assert (E3 : firstn 3 (c :: x ++ nl :: r) = firstn 3 (c :: x ++ nl :: r') \/ x = []) by (destruct x as [|a [|b x]]; auto).
  destruct E3 as [->| ->]; [reflexivity|]. cbn [app].
  assert (N : forall q, mem (string_of_list_byte (firstn 3 (c :: nl :: q))) ops3 = false).
  { intros q. apply not_true_iff_false. intros M. apply op3_dots in M as (q' & M). discriminate M. }
  rewrite !N. reflexivity.
Qed.
Definition still (m : mode) : Prop := match m with MSkip _ => False | _ => True end.
(* what begin leaves *)
Lemma begin_mode last c r o m l : begin last c r = (o, m, l) -> dot c = true ->
  still m \/ (m = MSkip 1 /\ exists d q, r = d :: q /\ dot d = true) \/ (m = MSkip 2 /\ exists q, r = "."%byte :: "."%byte :: q).
Proof.
  unfold begin. intros E D. rewrite nl_in, D in E. cbn [negb] in E.
  destruct (in_rng 32 32 c || in_rng 9 9 c || in_rng 13 13 c); [injection E as _ <- _; left; exact I|].
  destruct (letter c); [injection E as _ <- _; left; exact I|]. destruct (GoLex.digit c); [injection E as _ <- _; left; exact I|].
  destruct (in_rng 34 34 c); [injection E as _ <- _; left; exact I|].
  destruct (String.eqb (string_of_list_byte (firstn 2 (c :: r))) "//"); [injection E as _ <- _; left; exact I|].
  destruct (mem (string_of_list_byte (firstn 3 (c :: r))) ops3) eqn:M3; [injection E as _ <- _; right; right; split; [reflexivity|exact (op3_dots c r M3)]|].
  destruct (mem (string_of_list_byte (firstn 2 (c :: r))) ops2) eqn:M2; [injection E as _ <- _; right; left; split; [reflexivity|exact (op2_dot c r M2)]|].
  destruct (mem (string_of_list_byte [c]) ops1); injection E as _ <- _; left; exact I.
Qed.
Definition splits (m : mode) (last : bool) (x : bytes) : Prop := exists o, forall r, lex m last (x ++ nl :: r) = o ++ lex MStart false r.
Lemma splits_out m last x m' last' o c : (forall r, lex m last ((c :: x) ++ nl :: r) = o ++ lex m' last' (x ++ nl :: r)) -> splits m' last' x -> splits m last (c :: x).
Proof. intros E (o' & H). exists (o ++ o'). intros r. rewrite E, H, app_assoc. reflexivity. Qed.
Lemma line_splits : forall n x, (List.length x < n)%nat -> forallb dot x = true -> forall m last, still m -> splits m last x.
Proof.
  induction n as [|n IH]; intros x Hn D; [lia|]. destruct x as [|c x].
  { intros m last S. assert (H : forall l, exists o, forall r, lex MStart l (nl :: r) = o ++ lex MStart false r).
    { intros l. exists (if l then [TOp ";"] else []). intros r. destruct l; reflexivity. }
    unfold splits. cbn [app]. destruct m as [|k|acc|acc|acc|acc|]; [apply H|destruct S| | | | |].
    - destruct (H (ends (TId (str acc)))) as (o & Ho). exists (TId (str acc) :: o). intros r. rewrite lex_id_end by reflexivity. rewrite Ho. reflexivity.
    - exists [TInt acc; TOp ";"]. reflexivity.
    - exists [TBad]. reflexivity.
    - exists [TBad]. reflexivity.
    - destruct (H last) as (o & Ho). exists o. exact Ho. }
  cbn [forallb] in D. apply andb_prop in D as [Dc D]. cbn in Hn.
  assert (R : forall m last, still m -> splits m last x) by (intros m last S; apply IH; [lia|exact D|exact S]).
  assert (S0 : forall last, splits MStart last (c :: x)).
  { intros last. destruct (begin last c (x ++ nl :: [])) as [[o m'] l'] eqn:E.
    assert (F : forall r, lex MStart last ((c :: x) ++ nl :: r) = o ++ lex m' l' (x ++ nl :: r)).
    { intros r. cbn [app]. rewrite lex_start, (begin_line last c x r []), E. reflexivity. }
    destruct (begin_mode _ _ _ _ _ _ E Dc) as [S|[(-> & d & q & Q & Dd)|(-> & q & Q)]].
    - exact (splits_out _ _ _ _ _ _ _ F (R _ _ S)).
    - destruct x as [|a x]; [injection Q as <- _; discriminate Dd|]. injection Q as -> _. cbn [forallb] in D. apply andb_prop in D as [_ D].
      destruct (IH x) with (m := MStart) (last := l') as (o' & H); [cbn in Hn; lia|exact D|exact I|].
      exists (o ++ o'). intros r. rewrite F. cbn [app lex lex1]. rewrite H, app_assoc. reflexivity.
    - destruct x as [|a [|b x]]; [discriminate Q|discriminate Q|]. cbn [forallb] in D. apply andb_prop in D as [_ D]. apply andb_prop in D as [_ D].
      destruct (IH x) with (m := MStart) (last := l') as (o' & H); [cbn in Hn; lia|exact D|exact I|].
      exists (o ++ o'). intros r. rewrite F. cbn [app lex lex1]. rewrite H, app_assoc. reflexivity. }
  assert (N : in_rng 10 10 c = false) by (rewrite nl_in, Dc; reflexivity).
  intros m last S. destruct m as [|k|acc|acc|acc|acc|]; [apply S0|destruct S| | | | |].
  - destruct (word c) eqn:W.
    + apply (splits_out _ _ _ (MId (c :: acc)) last []); [|apply R; exact I]. intros r. cbn [app]. rewrite lex_id by exact W. reflexivity.
    + destruct (S0 (ends (TId (str acc)))) as (o & H). exists (TId (str acc) :: o). intros r. cbn [app] in *. rewrite lex_id_end by exact W. rewrite H. reflexivity.
  - destruct (GoLex.digit c) eqn:Dg.
    + eapply (splits_out _ _ _ (MNum _) last []); [|apply R; exact I]. intros r. cbn [app lex lex1]. rewrite Dg. reflexivity.
    + destruct (letter c || in_rng 46 46 c) eqn:L.
      * apply (splits_out _ _ _ MStart false [TBad]); [|apply R; exact I]. intros r. cbn [app lex lex1]. rewrite Dg, L. reflexivity.
      * destruct (S0 true) as (o & H). exists (TInt acc :: o). intros r. cbn [app] in *. rewrite <- H, lex_start. cbn [lex lex1]. rewrite Dg, L.
        unfold finish. cbn [ends]. destruct (begin true c _) as [[a b] d]. reflexivity.
  - destruct (in_rng 34 34 c) eqn:E1; [apply (splits_out _ _ _ MStart true [TStr (str acc)]); [|apply R; exact I]; intros r; cbn [app lex lex1]; rewrite E1; reflexivity|].
    destruct (in_rng 92 92 c) eqn:E2; [apply (splits_out _ _ _ (MEsc acc) last []); [|apply R; exact I]; intros r; cbn [app lex lex1]; rewrite E1, E2; reflexivity|].
    apply (splits_out _ _ _ (MStr (c :: acc)) last []); [|apply R; exact I]. intros r. cbn [app lex lex1]. rewrite E1, E2, N. reflexivity.
  - destruct (in_rng 34 34 c || in_rng 92 92 c) eqn:E1; [apply (splits_out _ _ _ (MStr (c :: acc)) last []); [|apply R; exact I]; intros r; cbn [app lex lex1]; rewrite E1; reflexivity|].
    destruct (in_rng 110 110 c) eqn:E2; [eapply (splits_out _ _ _ (MStr _) last []); [|apply R; exact I]; intros r; cbn [app lex lex1]; rewrite E1, E2; reflexivity|].
    destruct (in_rng 116 116 c) eqn:E3; [eapply (splits_out _ _ _ (MStr _) last []); [|apply R; exact I]; intros r; cbn [app lex lex1]; rewrite E1, E2, E3; reflexivity|].
    apply (splits_out _ _ _ MStart false [TBad]); [|apply R; exact I]. intros r. cbn [app lex lex1]. rewrite E1, E2, E3. reflexivity.
  - apply (splits_out _ _ _ MLine last []); [|apply R; exact I]. intros r. cbn [app lex lex1]. rewrite N. reflexivity.
Qed.

(* ---- white space and comments -------------------------------------------------------------------- *)
Lemma form_feed last r : begin last "012"%byte r = ([TBad], MStart, false).
Proof. destruct r as [|a [|b r]]; reflexivity. Qed.
Lemma space_gone w r : forallb ws w = true -> ~ In TBad (lex MStart false (w ++ r)) -> lex MStart false (w ++ r) = lex MStart false r.
Proof.
  induction w as [|c w IH]; intros H K; [reflexivity|]. cbn [forallb] in H. apply andb_prop in H as [Hc H]. cbn [app] in *. rewrite lex_start in *.
  assert (E : c = "012"%byte \/ begin false c (w ++ r) = ([], MStart, false))
    by (revert Hc; clear; destruct c; intros H; try discriminate H; auto).
  destruct E as [->|E].
  - rewrite form_feed in K. exfalso. apply K. left. reflexivity.
  - rewrite E in *. cbn [app] in *. exact (IH H K).
Qed.
Lemma comment_gone x : forallb dot x = true -> forall r, lex MLine false (x ++ nl :: r) = lex MStart false r.
Proof.
  induction x as [|c x IH]; intros D r; [reflexivity|]. cbn [forallb] in D. apply andb_prop in D as [Dc D]. cbn [app lex lex1]. rewrite nl_in, Dc. exact (IH D r).
Qed.
Lemma comment_last x : forallb dot x = true -> lex MLine false x = [].
Proof.
  induction x as [|c x IH]; intros D; [reflexivity|]. cbn [forallb] in D. apply andb_prop in D as [Dc D]. cbn [app lex lex1]. rewrite nl_in, Dc. exact (IH D).
Qed.
Lemma dots_app a b : forallb dot (a ++ b) = true -> forallb dot b = true.
Proof. rewrite forallb_app. intros H. apply andb_prop in H as [_ H]. exact H. Qed.
Lemma directive_gone d ls : good (d :: ls) -> directive d -> ~ In TBad (lex MStart false (d ++ List.concat ls)) ->
  lex MStart false (d ++ List.concat ls) = lex MStart false (List.concat ls).
Proof.
  intros G (w & x & -> & Hw) K. rewrite <- app_assoc in *. rewrite (space_gone w _ Hw K).
  change ((B "//line" ++ x) ++ List.concat ls) with ("/"%byte :: "/"%byte :: B "line" ++ x ++ List.concat ls).
  assert (E : forall q, lex MStart false ("/"%byte :: "/"%byte :: q) = lex MLine false q).
  { intros q. rewrite lex_start. destruct q as [|a q]; reflexivity. }
  rewrite E. clear E K. remember (w ++ B "//line" ++ x) as d eqn:Q. inversion G as [|v D NE EQ|v ls0 D G' EQ].
  - subst v. subst d. cbn [List.concat]. rewrite app_nil_r. apply comment_last. apply dots_app in D. apply (dots_app (B "//")). exact D.
  - assert (X : exists x', x = x' ++ [nl] /\ v = w ++ B "//line" ++ x').
    { rewrite Q in EQ. destruct (list_eq_dec Byte.byte_eq_dec x []) as [->|NE].
      - rewrite app_nil_r in EQ. change (B "//line") with (B "//lin" ++ ["e"%byte]) in EQ. rewrite app_assoc in EQ. apply app_inj_tail in EQ as [_ EQ]. discriminate EQ.
      - destruct (exists_last NE) as (x' & e & ->). exists x'. rewrite !app_assoc in EQ. apply app_inj_tail in EQ as [-> <-]. rewrite <- app_assoc. split; reflexivity. }
    destruct X as (x' & -> & ->). rewrite <- app_assoc. apply dots_app in D. apply (comment_gone (B "line" ++ x')). apply (dots_app (B "//")). exact D.
Qed.

(* ---- the lines that go carry no token ------------------------------------------------------------ *)
Lemma blank_good bs : Forall blank bs -> forallb ws (List.concat bs) = true.
Proof. induction 1 as [|b bs H _ IH]; [reflexivity|]. cbn [List.concat]. rewrite forallb_app, IH. unfold blank in H. rewrite H. reflexivity. Qed.
Lemma cleaned_tokens ls ls' : cleaned ls ls' -> good ls -> ~ In TBad (lex MStart false (List.concat ls)) ->
  lex MStart false (List.concat ls') = lex MStart false (List.concat ls).
Proof.
  induction 1 as [|bs d ls ls' B D C IH|l ls ls' _ C IH]; intros G K; [reflexivity| |].
  - rewrite concat_app in *. cbn [List.concat] in *. pose proof (space_gone _ _ (blank_good bs B) K) as E1. rewrite E1 in *.
    apply good_tail in G. pose proof (directive_gone d ls G D K) as E2. rewrite E2 in *. apply IH; [|exact K]. exact (good_tail [d] ls G).
  - cbn [List.concat] in *. inversion G as [|v D NE EQ|v ls0 D G' EQ]; subst.
    + inversion C as [|bs d ls1 ls2 _ _ _ E|]; [reflexivity|]. destruct bs; discriminate E.
    + destruct (line_splits (S (List.length v)) v (Nat.lt_succ_diag_r _) D MStart false I) as (o & H).
      rewrite <- !app_assoc. rewrite <- app_assoc in K. cbn [app] in *. rewrite H in K. rewrite !H. rewrite IH; [reflexivity|exact G'|]. intros J. apply K, in_or_app. right. exact J.
Qed.
Theorem comments_kept s t : removeComments s = Ret t -> ~ In TBad (tokens s) -> tokens t = tokens s.
Proof.
  intros H K. apply remove_spec in H as (ls & C & ->). unfold tokens in *. rewrite <- (lines_concat s) in K |- * at 1.
  apply cleaned_tokens; [exact C| |exact K]. eapply lines_good, Nat.le_refl.
Qed.
