(* machine.go, token by token, is machine.go.rl with its names changed and two pieces put in by
   ragel (C68). *)
From Verif Require Import GoBase Spec Tools SpecTools RlSrc GoSrc.
From Verif Require GoLex RlParse.
Import GoLex.
From Verif Require Import PropsRename.
Local Open Scope list_scope.

Fixpoint cut (k s : bytes) : option (bytes * bytes) :=
  if front k s then Some ([], skipn (List.length k) s)
  else match s with [] => None | c :: r => match cut k r with Some (a, b) => Some (c :: a, b) | None => None end end.
Lemma front_skip k : forall s, front k s = true -> s = k ++ skipn (List.length k) s.
Proof.
  induction k as [|a k IH]; intros [|b s] H; try discriminate H; try reflexivity. cbn [front] in H. apply andb_prop in H as [E H].
  apply Byte.byte_dec_bl in E. subst b. cbn [List.length skipn app]. rewrite <- IH by exact H. reflexivity.
Qed.
Lemma cut_spec k : forall s a b, cut k s = Some (a, b) -> s = a ++ k ++ b.
Proof.
  induction s as [|c s IH]; intros a b H; cbn [cut] in H; destruct (front k _) eqn:F.
  - injection H as <- <-. apply front_skip, F.
  - discriminate H.
  - injection H as <- <-. apply front_skip, F.
  - destruct (cut k s) as [[x y]|]; [|discriminate H]. injection H as <- <-. cbn [app]. f_equal. apply IH. reflexivity.
Qed.

Definition same (a b : tok) : bool :=
  match a, b with
  | TId x, TId y | TStr x, TStr y | TOp x, TOp y => String.eqb x y
  | TInt x, TInt y => Z.eqb x y
  | _, _ => false
  end.
Lemma same_eq a b : same a b = true -> a = b.
Proof. destruct a, b; cbn; intros H; try discriminate H; f_equal; try (apply String.eqb_eq; exact H); apply Z.eqb_eq; exact H. Qed.
(* what is left of l after p *)
Fixpoint strip (p l : list tok) : option (list tok) :=
  match p, l with [], _ => Some l | a :: p, b :: l => if same a b then strip p l else None | _, [] => None end.
Lemma strip_spec p : forall l r, strip p l = Some r -> l = p ++ r.
Proof.
  induction p as [|a p IH]; intros [|b l] r H; cbn in H; try discriminate H; try (injection H as <-; reflexivity).
  destruct (same a b) eqn:E; [|discriminate H]. apply same_eq in E. subst b. cbn [app]. f_equal. apply IH, H.
Qed.
Definition conv (s : bytes) : list tok := map rename (tokens (RlParse.go_part s)).
Definition write_data := B "%% write data noerror noprefix;".
Definition write_exec := B "%% write exec;".
Definition pieces (rl : bytes) : option (bytes * bytes * bytes) :=
  match cut write_data rl with
  | Some (s1, r) => match cut write_exec r with Some (s2, s3) => Some (s1, s2, s3) | None => None end
  | None => None
  end.
Lemma pieces_spec rl s1 s2 s3 : pieces rl = Some (s1, s2, s3) -> rl = s1 ++ write_data ++ s2 ++ write_exec ++ s3.
Proof.
  unfold pieces. destruct (cut write_data rl) as [[a r]|] eqn:E1; [|discriminate]. destruct (cut write_exec r) as [[b c]|] eqn:E2; [|discriminate].
  intros H. injection H as <- <- <-. apply cut_spec in E1, E2. subst r. exact E1.
Qed.
(* the first place of p in l *)
Fixpoint seek (p l : list tok) : option (list tok * list tok) :=
  match strip p l with
  | Some r => Some ([], r)
  | None => match l with [] => None | t :: l => match seek p l with Some (a, b) => Some (t :: a, b) | None => None end end
  end.
Lemma seek_spec p : forall l a b, seek p l = Some (a, b) -> l = a ++ p ++ b.
Proof.
  induction l as [|t l IH]; intros a b H; cbn [seek] in H; destruct (strip p _) as [r|] eqn:E.
  - injection H as <- <-. exact (strip_spec p _ _ E).
  - discriminate H.
  - injection H as <- <-. exact (strip_spec p _ _ E).
  - destruct (seek p l) as [[x y]|]; [|discriminate H]. injection H as <- <-. cbn [app]. f_equal. apply IH. reflexivity.
Qed.
(* what ragel put in: the two pieces of l beside what a, b and c leave *)
Definition rv (l : list tok) : list tok := rev_append l [].
Lemma rv_rev l : rv l = rev l.
Proof. symmetry. apply rev_alt. Qed.
Definition put_in (a b c l : list tok) : option (list tok * list tok) :=
  match strip a l with
  | Some l1 => match strip (rv c) (rv l1) with Some l2 => seek b (rv l2) | None => None end
  | None => None
  end.
Lemma put_in_spec a b c l x y : put_in a b c l = Some (x, y) -> l = a ++ x ++ b ++ y ++ c.
Proof.
  unfold put_in. destruct (strip a l) as [l1|] eqn:E1; [|discriminate]. rewrite !rv_rev. destruct (strip (rev c) (rev l1)) as [l2|] eqn:E2; [|discriminate].
  rewrite rv_rev. intros H. apply strip_spec in E1, E2. apply seek_spec in H. subst l. f_equal. apply (f_equal (@rev _)) in E2.
  rewrite rev_involutive, rev_app_distr, rev_involutive in E2. rewrite E2, H, <- !app_assoc. reflexivity.
Qed.
(* declarations of constants and variables, outside of any function *)
Definition data_only (l : list tok) : bool :=
  forallb (fun t => match t with
    | TId k => negb (mem k ["func"; "type"; "import"; "package"; "goto"; "if"; "switch"; "for"]%string)
    | TInt _ => true | TOp k => mem k [";"; "="; "["; "]"; "{"; "}"; ","]%string | _ => false end) l.
(* braces in balance, never closed below where they began *)
Fixpoint balanced (n : nat) (l : list tok) : bool :=
  match l with
  | [] => Nat.eqb n 0
  | TOp k :: l => if String.eqb k "{" then balanced (S n) l else if String.eqb k "}" then match n with O => false | S n => balanced n l end else balanced n l
  | _ :: l => balanced n l
  end.
(* a block: { first, } and the semicolon of the end of the line last *)
Definition block_like (y : list tok) : bool :=
  match y with
  | t :: y => same t (TOp "{") && match rv y with u :: v :: _ => same u (TOp ";") && same v (TOp "}") | _ => false end
  | [] => false
  end.
Lemma block_like_spec y : block_like y = true -> exists z, y = TOp "{" :: z ++ [TOp "}"; TOp ";"].
Proof.
  unfold block_like. destruct y as [|t y]; [discriminate|]. rewrite rv_rev. intros H. apply andb_prop in H as [H1 H]. apply same_eq in H1. subst t.
  destruct (rev y) as [|u [|v z]] eqn:E; try discriminate H. apply andb_prop in H as [H2 H3]. apply same_eq in H2, H3. subst u v.
  apply (f_equal (@rev _)) in E. rewrite rev_involutive in E. cbn [rev] in E. rewrite <- app_assoc in E. exists (rev z). rewrite E. reflexivity.
Qed.
Definition passes (rl g : bytes) : bool :=
  match pieces rl with
  | Some (s1, s2, s3) =>
      match put_in (conv s1) (conv s2) (conv (s3 ++ [newline])) (tokens g) with
      | Some (x, y) => data_only x && balanced 0 x && (balanced 0 y && block_like y)
      | None => false
      end
  | None => false
  end.
Lemma passes_spec rl g : passes rl g = true -> exists s1 s2 s3 x y,
  rl = s1 ++ write_data ++ s2 ++ write_exec ++ s3 /\
  tokens g = conv s1 ++ x ++ conv s2 ++ (TOp "{" :: y ++ [TOp "}"; TOp ";"]) ++ conv (s3 ++ [newline]) /\
  data_only x = true /\ balanced 0 x = true /\ balanced 0 (TOp "{" :: y ++ [TOp "}"; TOp ";"]) = true.
Proof.
  unfold passes. destruct (pieces rl) as [[[s1 s2] s3]|] eqn:E1; [|discriminate]. destruct (put_in _ _ _ _) as [[x y]|] eqn:E2; [|discriminate].
  intros H. apply andb_prop in H as [H1 H2]. apply andb_prop in H1 as [H1 H3]. apply andb_prop in H2 as [H2 H4].
  apply pieces_spec in E1. apply put_in_spec in E2. apply block_like_spec in H4 as (z & ->). exists s1, s2, s3, x, z. auto 10.
Qed.
Lemma machine_passes : passes machine_go_rl machine_go = true.
Proof. vm_compute. reflexivity. Qed.
