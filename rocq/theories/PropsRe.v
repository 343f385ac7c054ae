(* The expressions read from the text of the tools do what those of RuneTools.v do. *)
From Verif Require Import GoBase Tools SpecTools RuneTools RlParse ReParse ToolsSrc PropsRune.
From Verif Require PropsTools.
From Coq Require Import Lia.
Local Open Scope list_scope.

(* the same up to the way classes are written *)
Fixpoint same (a b : ure) : Prop :=
  match a, b with
  | UCls p, UCls q | UStar p, UStar q | UOpt p, UOpt q => forall c, p c = q c
  | UBol, UBol | UEol, UEol => True
  | UCat a a', UCat b b' => same a b /\ same a' b'
  | UGroup n a, UGroup m b => n = m /\ same a b
  | _, _ => False
  end.
Lemma one_ext p q x : (forall c, p c = q c) -> one p x = one q x.
Proof. intros H. unfold one. destruct (DecodeRune (rest x)) as [r k]. rewrite H. reflexivity. Qed.
Lemma ustar_ext p q n : (forall c, p c = q c) -> forall x, ustar n p x = ustar n q x.
Proof.
  intros H. induction n as [|n IH]; intros x; [reflexivity|]. cbn [ustar]. rewrite (one_ext p q x H).
  f_equal. apply flat_map_ext. exact IH.
Qed.
Lemma umatch_ext a : forall b, same a b -> forall x, umatch a x = umatch b x.
Proof.
  induction a as [p|p|p| | |a IHa a' IHa'|n a IHa]; intros [q|q|q| | |b b'|m b] H x; cbn [same] in H; try contradiction; cbn [umatch].
  - apply one_ext, H.
  - apply ustar_ext, H.
  - rewrite (one_ext p q x H). reflexivity.
  - reflexivity.
  - reflexivity.
  - destruct H as [H K]. rewrite (IHa b H). apply flat_map_ext. intros y. apply IHa', K.
  - destruct H as [-> H]. rewrite (IHa b H). reflexivity.
Qed.
Lemma ufind_ext a b : same a b -> forall n w s, ufind n a w s = ufind n b w s.
Proof.
  intros H n. induction n as [|n IH]; intros w s; [reflexivity|]. cbn [ufind]. rewrite (umatch_ext a b H).
  destruct (umatch b _); [|reflexivity]. destruct (DecodeRune s) as [r [|k]]; [reflexivity|]. rewrite IH. reflexivity.
Qed.
Lemma do_ext a b : same a b -> forall s i, doExecute a s i = doExecute b s i.
Proof. intros H s i. unfold doExecute. rewrite (ufind_ext a b H). reflexivity. Qed.
Lemma all_ext a b : same a b -> forall n s i e, allMatches n a s i e = allMatches n b s i e.
Proof.
  intros H n. induction n as [|n IH]; intros s i e; [reflexivity|]. cbn [allMatches]. rewrite (do_ext a b H).
  destruct (Nat.ltb _ _); [reflexivity|]. destruct (doExecute b s i) as [[[? ?] ?]|]; [|reflexivity]. rewrite IH. reflexivity.
Qed.
Lemma replace_ext a b : same a b -> forall n s i j, replaceAll n a s i j = replaceAll n b s i j.
Proof.
  intros H n. induction n as [|n IH]; intros s i j; [reflexivity|]. cbn [replaceAll]. rewrite (do_ext a b H).
  destruct (Nat.ltb _ _); [reflexivity|]. destruct (doExecute b s j) as [[[? ?] ?]|]; [|reflexivity]. rewrite IH. reflexivity.
Qed.
Lemma snake_ext a : same a u_snake -> forall s, snake2camel_with a s = go_snake2camel s.
Proof.
  intros H s. unfold snake2camel_with, go_snake2camel. generalize (S (List.length s)) as n. intros n. revert s.
  induction n as [|n IH]; intros s; [reflexivity|]. cbn [loop_with go_snake_loop]. unfold go_replaceAllStringSubmatchFunc.
  rewrite (all_ext a u_snake H). destruct (allMatches _ _ _ _ _); cbn [bind]; try reflexivity. rewrite IH. reflexivity.
Qed.

Definition texts (o : option (list bytes)) : list bytes := match o with Some l => l | None => [] end.
Definition the (o : option ure) : ure := match o with Some r => r | None => UBol end.
Definition snake_text : bytes := Eval vm_compute in nth 0 (texts (raws snake2camel_go)) [].
Definition comment_text : bytes := Eval vm_compute in nth 0 (texts (raws removecomments_go)) [].
Lemma snake_raw : raws snake2camel_go = Some [snake_text]. Proof. vm_compute. reflexivity. Qed.
Lemma comment_raw : raws removecomments_go = Some [comment_text]. Proof. vm_compute. reflexivity. Qed.
Lemma rune_byte a : forall c, rune_in [(Byte.to_N a, Byte.to_N a)] c = is_rune a c.
Proof.
  intros c. unfold rune_in, is_rune, in_range. cbn [existsb]. rewrite Bool.orb_false_r.
  apply Bool.eq_iff_eq_true. rewrite Bool.andb_true_iff, !N.leb_le, N.eqb_eq. lia.
Qed.
Lemma snake_read : exists r, read_re snake_text = Some r /\ same r u_snake.
Proof.
  eexists. split; [lazy -[u_dot rune_in]; reflexivity|]. cbn [same u_snake].
  repeat split; try exact (rune_byte "_"); intros c; unfold rune_in, u_az, u_09, u_alnum; cbn [existsb]; rewrite ?Bool.orb_false_r; try reflexivity.
  rewrite Bool.orb_assoc. reflexivity.
Qed.
Lemma rune_space : forall c, rune_in [(9, 10); (12, 13); (32, 32)]%N c = u_space c.
Proof.
  intros c. unfold rune_in, u_space, in_range. cbn [existsb]. rewrite Bool.orb_false_r.
  apply Bool.eq_iff_eq_true. rewrite !Bool.orb_true_iff, !Bool.andb_true_iff, !N.leb_le, !N.eqb_eq. lia.
Qed.
Lemma comment_read : exists r, read_re comment_text = Some r /\ same r u_comment.
Proof.
  eexists. split; [lazy -[u_dot rune_in]; reflexivity|].
  repeat match goal with |- same (UCat _ _) _ => split | |- _ /\ _ => split end; cbn [same];
    try exact I; try exact rune_space; try (intros c; reflexivity);
    first [exact (rune_byte "/")|exact (rune_byte "l")|exact (rune_byte "i")|exact (rune_byte "n")|exact (rune_byte "e")
          |exact (rune_byte "013")|exact (rune_byte "010")].
Qed.

(* from the text to the specifications in SpecTools.v *)
Lemma snake_source : exists t r, raws snake2camel_go = Some [t] /\ read_re t = Some r /\
  forall s, snake2camel_with r s = Ret (camel false s).
Proof.
  destruct snake_read as (r & R & S). exists snake_text, r. split; [exact snake_raw|]. split; [exact R|].
  intros s. rewrite (snake_ext r S), snake_same. apply PropsTools.snake_spec.
Qed.
Lemma comment_source : exists t r, raws removecomments_go = Some [t] /\ read_re t = Some r /\
  forall s u, removeComments_with r s = Ret u <-> cleaned (lines s) (lines u).
Proof.
  destruct comment_read as (r & R & S). exists comment_text, r. split; [exact comment_raw|]. split; [exact R|].
  intros s u. unfold removeComments_with. rewrite (replace_ext r u_comment S). change (replaceAll _ u_comment s 0 0) with (go_removeComments s).
  rewrite remove_same. split; [apply PropsTools.remove_lines|]. intros H. apply PropsTools.remove_spec.
  exists (lines u). split; [exact H|symmetry; apply PropsTools.lines_concat].
Qed.
