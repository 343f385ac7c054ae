(* The texts of the errors: what err.Error() gives for the errors of Parse and of the
   UnmarshalJSON methods. *)
From Coq Require Import Ascii DecimalString Decimal DecimalFacts DecimalPos DecimalN Lia.
From Verif Require Import GoBase MachineSyntax MachineTables Machine Errors SpecText.
Local Open Scope string_scope.

Lemma sapp_assoc : forall a b c : string, (a ++ b) ++ c = a ++ (b ++ c).
Proof. induction a as [|x a IH]; intros b c; [reflexivity|]. cbn [append]. rewrite IH. reflexivity. Qed.

(* ---- itoa -------------------------------------------------------------------------- *)
Lemma dec_step : forall acc r,
  dec_from acc (String "0" r) = dec_from (10 * acc) r /\ dec_from acc (String "1" r) = dec_from (1 + 10 * acc) r /\
  dec_from acc (String "2" r) = dec_from (2 + 10 * acc) r /\ dec_from acc (String "3" r) = dec_from (3 + 10 * acc) r /\
  dec_from acc (String "4" r) = dec_from (4 + 10 * acc) r /\ dec_from acc (String "5" r) = dec_from (5 + 10 * acc) r /\
  dec_from acc (String "6" r) = dec_from (6 + 10 * acc) r /\ dec_from acc (String "7" r) = dec_from (7 + 10 * acc) r /\
  dec_from acc (String "8" r) = dec_from (8 + 10 * acc) r /\ dec_from acc (String "9" r) = dec_from (9 + 10 * acc) r.
Proof.
  intros acc r.
  assert (H : forall c d, (N.leb 48 (N_of_ascii c) && N.leb (N_of_ascii c) 57)%bool = true -> (N_of_ascii c - 48 = d)%N ->
    dec_from acc (String c r) = dec_from (d + 10 * acc) r).
  { intros c d H1 H2. cbn [dec_from]. rewrite H1, H2, N.add_comm. reflexivity. }
  repeat split; try (apply H; reflexivity). rewrite (H "0"%char 0%N) by reflexivity. reflexivity.
Qed.
Lemma dec_acc : forall d p, dec_from (Npos p) (NilEmpty.string_of_uint d) = Some (Npos (Pos.of_uint_acc d p)).
Proof.
  induction d; intros p; cbn [NilEmpty.string_of_uint]; [reflexivity|..];
    destruct (dec_step (Npos p) (NilEmpty.string_of_uint d)) as (H0 & H1 & H2 & H3 & H4 & H5 & H6 & H7 & H8 & H9);
    first [rewrite H0|rewrite H1|rewrite H2|rewrite H3|rewrite H4|rewrite H5|rewrite H6|rewrite H7|rewrite H8|rewrite H9]; apply IHd.
Qed.
Lemma dec_uint : forall d, dec_from 0 (NilEmpty.string_of_uint d) = Some (N.of_uint d).
Proof.
  induction d; cbn [NilEmpty.string_of_uint]; [reflexivity|..];
    destruct (dec_step 0 (NilEmpty.string_of_uint d)) as (H0 & H1 & H2 & H3 & H4 & H5 & H6 & H7 & H8 & H9);
    first [rewrite H0|rewrite H1|rewrite H2|rewrite H3|rewrite H4|rewrite H5|rewrite H6|rewrite H7|rewrite H8|rewrite H9];
    first [apply IHd|apply dec_acc].
Qed.
Lemma nilzero : forall d, d <> Nil -> NilZero.string_of_uint d = NilEmpty.string_of_uint d.
Proof. destruct d; [congruence|reflexivity..]. Qed.
Lemma itoa_N : forall n, (0 <= n)%Z -> itoa n = NilZero.string_of_uint (N.to_uint (Z.to_N n)).
Proof. intros [|p|p] H; [reflexivity..|lia]. Qed.
Lemma unorm_head : forall d, unorm d = D0 Nil \/ (unorm d <> Nil /\ forall e, unorm d <> D0 e).
Proof.
  intros d. unfold unorm. assert (H : forall e, nzhead d <> D0 e).
  { induction d; cbn; try discriminate. exact IHd. }
  destruct (nzhead d); [left; reflexivity|right; split; [discriminate|exact H]..].
Qed.
Lemma itoa_numeral : forall n, (0 <= n)%Z -> numeral n (itoa n).
Proof.
  intros n Hn. rewrite itoa_N by exact Hn. set (d := N.to_uint (Z.to_N n)).
  assert (E : unorm d = d).
  { unfold d. rewrite <- DecimalN.Unsigned.to_of, DecimalN.Unsigned.of_to. reflexivity. }
  assert (V : N.of_uint d = Z.to_N n) by apply DecimalN.Unsigned.of_to.
  assert (N : d <> Nil). { intros K. destruct (unorm_head d) as [U|[U _]]; rewrite E, K in U; congruence. }
  split; [|split; [|split; [exact Hn|]]].
  - destruct d; [congruence|discriminate..].
  - rewrite nilzero, dec_uint, V by exact N. reflexivity.
  - destruct (unorm_head d) as [U|[_ U]]; rewrite E in U; [left; rewrite U; reflexivity|right].
    destruct d; [congruence|exfalso; eapply U; reflexivity|intros r K; discriminate K..].
Qed.

(* ---- the texts ---------------------------------------------------------------------- *)
Lemma error_text : forall k n, (0 <= n)%Z ->
  exists w, numeral n w /\ perr_Error (mkErr k n) = sentence k ++ " [col " ++ w ++ "]".
Proof.
  intros k n H. exists (itoa n). split; [apply itoa_numeral; exact H|].
  unfold perr_Error. cbn [e_kind e_col]. generalize (itoa_numeral n H). intros _. destruct k; cbn -[itoa]; reflexivity.
Qed.

(* ---- the text determines the error --------------------------------------------------- *)
(* the two strings differ at a place both have *)
Fixpoint clash (a b : string) : bool :=
  match a, b with
  | String x a, String y b => if Ascii.eqb x y then clash a b else true
  | _, _ => false
  end.
Lemma clash_app : forall a b x y, clash a b = true -> a ++ x <> b ++ y.
Proof.
  induction a as [|c a IH]; intros [|d b] x y H; try discriminate H. cbn [clash] in H. cbn [append].
  destruct (Ascii.eqb c d) eqn:E.
  - apply Ascii.eqb_eq in E. subst d. intros K. injection K as K. exact (IH b x y H K).
  - apply Ascii.eqb_neq in E. congruence.
Qed.
Lemma sentences_clash : forall k k', k <> k' -> clash (sentence k ++ " [col ") (sentence k' ++ " [col ") = true.
Proof. intros k k' H. destruct k, k'; try reflexivity; congruence. Qed.
Lemma sapp_inv_head : forall a x y : string, a ++ x = a ++ y -> x = y.
Proof. induction a as [|c a IH]; intros x y H; [exact H|]. injection H as H. exact (IH x y H). Qed.
Lemma dec_bracket : forall w w' acc acc' n n', dec_from acc w = Some n -> dec_from acc' w' = Some n' -> w ++ "]" = w' ++ "]" -> w = w'.
Proof.
  induction w as [|c w IH]; intros [|c' w'] acc acc' n n' H H' E; [reflexivity|..].
  - injection E as <- _. discriminate H'.
  - injection E as -> _. discriminate H.
  - injection E as <- E. f_equal. cbn [dec_from] in H, H'. destruct (_ && _)%bool; [|discriminate H]. exact (IH w' _ _ _ _ H H' E).
Qed.
Lemma numeral_inj : forall n n' w, numeral n w -> numeral n' w -> n = n'.
Proof.
  intros n n' w (_ & H & Hn & _) (_ & H' & Hn' & _). rewrite H in H'. injection H' as H'. lia.
Qed.
Lemma error_text_inj : forall e e', (0 <= e_col e)%Z -> (0 <= e_col e')%Z -> perr_Error e = perr_Error e' -> e = e'.
Proof.
  intros [k n] [k' n'] H H' E. cbn [e_col] in *.
  destruct (error_text k n H) as (w & Hw & T). destruct (error_text k' n' H') as (w' & Hw' & T'). rewrite T, T' in E.
  assert (K : {k = k'} + {k <> k'}) by decide equality. destruct K as [<-|K].
  - f_equal. apply sapp_inv_head in E. apply (sapp_inv_head " [col ") in E. eapply numeral_inj; [exact Hw|].
    erewrite (dec_bracket w w'); [exact Hw'|apply Hw|apply Hw'|exact E].
  - rewrite <- !sapp_assoc in E. rewrite sapp_assoc in E. exfalso. revert E. rewrite (sapp_assoc (sentence k' ++ _)).
    apply clash_app, sentences_clash, K.
Qed.
