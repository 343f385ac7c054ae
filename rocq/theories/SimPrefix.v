(* Simulation of the "urn:" prefix, common to the three grammars, and fixed words. *)
From Coq Require Import Lia.
From Verif Require Import GoBase MachineSyntax MachineTables Machine Spec Ref Exec SimBase.
Local Open Scope Z_scope.

Lemma index_app {A} (pre rest : list A) (k : nat) x :
  nth_error rest k = Some x -> index (pre ++ rest) (zlen pre + Z.of_nat k) = Ret x.
Proof.
  intros H. unfold index.
  assert (Hk : (k < List.length rest)%nat) by (apply nth_error_Some; congruence).
  replace ((0 <=? zlen pre + Z.of_nat k) && (zlen pre + Z.of_nat k <? zlen (pre ++ rest))) with true.
  2:{ symmetry. rewrite andb_true_iff, Z.leb_le, Z.ltb_lt. rewrite zlen_app. unfold zlen in *. lia. }
  replace (Z.to_nat (zlen pre + Z.of_nat k)) with (List.length pre + k)%nat by (unfold zlen; lia).
  rewrite nth_error_app2 by lia. replace (List.length pre + k - List.length pre)%nat with k by lia.
  rewrite H. reflexivity.
Qed.

Section X.
Variables (start : N) (mode : Z) (mset : bool).
Notation cfg := (cfg start mode mset).
Notation ecfg := (ecfg start mode mset).
Notation At := (At start mode mset).
Notation errf := (errf start mode mset).
Notation erre := (erre start mode mset).

(* the look-ahead of f1, as a function of the remaining input *)
Definition colon3 (rest : bytes) : bool :=
  match nth_error rest 3 with Some c => Byte.eqb c ":" | None => false end.

Lemma is_colon_N b : N.eqb (Byte.to_N b) 58 = Byte.eqb b ":".
Proof.
  revert b. apply (bsweep (fun b => N.eqb (Byte.to_N b) 58) (fun b => Byte.eqb b ":")).
  vm_compute; reflexivity.
Qed.

Lemma x_f1 pre rest cs pb u :
  exec_opt (Some 1%N) (cfg (pre ++ rest) cs (zlen pre) pb, u) =
  if negb (mode =? PRFC8141Only) && colon3 rest && negb (match u_prefix u with [] => true | _ => false end)
  then Ret ((ecfg (pre ++ rest) 193 (zlen pre - 1) (zlen pre) (mkErr ErrNoUrnWithinID (zlen pre + 3)), u), Again)
  else Ret ((cfg (pre ++ rest) cs (zlen pre) (zlen pre), u), Again).
Proof.
  assert (H : exists k, (zlen pre + 3 <? zlen (pre ++ rest)) = k /\
     if k then exists c, index (pre ++ rest) (zlen pre + 3) = Ret c /\ colon3 rest = Byte.eqb c ":"
     else colon3 rest = false).
  { unfold colon3. destruct (nth_error rest 3) as [c|] eqn:E.
    - assert (H3 : (3 < List.length rest)%nat) by (apply nth_error_Some; congruence).
      exists true. split; [apply Z.ltb_lt; rewrite zlen_app; unfold zlen; lia|].
      exists c. split; [apply (index_app pre rest 3); exact E|reflexivity].
    - apply nth_error_None in E. exists false. split; [|reflexivity].
      apply Z.ltb_ge; rewrite zlen_app; unfold zlen; lia. }
  destruct H as [k [Hk Hi]]. generalize dependent (colon3 rest). intros c3 Hi.
  unfold exec_opt. xcbn.
  destruct (mode =? PRFC8141Only); [reflexivity|].
  xcbn. rewrite Hk. destruct k.
  - destruct Hi as [c [Hi ->]]. rewrite Hi. xcbn. rewrite is_colon_N.
    destruct (Byte.eqb c ":"); xcbn; [|reflexivity].
    destruct (u_prefix u); xcbn; reflexivity.
  - rewrite Hi. xcbn. reflexivity.
Qed.

Lemma x_f1_first rest cs pb u :
  u_prefix u = [] ->
  exec_opt (Some 1%N) (cfg rest cs 0 pb, u) = Ret ((cfg rest cs 0 0, u), Again).
Proof.
  intros H. pose proof (x_f1 [] rest cs pb u) as K. rewrite H in K. cbn [negb] in K.
  rewrite andb_false_r in K. exact K.
Qed.

Lemma x_f1_later pre rest cs pb u :
  u_prefix u <> [] -> looks_urn mode rest = false ->
  exec_opt (Some 1%N) (cfg (pre ++ rest) cs (zlen pre) pb, u) = Ret ((cfg (pre ++ rest) cs (zlen pre) (zlen pre), u), Again).
Proof.
  intros H H2. rewrite x_f1. unfold looks_urn in H2. fold (colon3 rest) in H2. rewrite H2. reflexivity.
Qed.

Lemma x_f1_err pre rest cs pb u :
  u_prefix u <> [] -> looks_urn mode rest = true ->
  exec_opt (Some 1%N) (cfg (pre ++ rest) cs (zlen pre) pb, u) =
  Ret ((ecfg (pre ++ rest) 193 (zlen pre - 1) (zlen pre) (mkErr ErrNoUrnWithinID (zlen pre + 3)), u), Again).
Proof.
  intros H H2. rewrite x_f1. unfold looks_urn in H2. fold (colon3 rest) in H2. rewrite H2.
  destruct (u_prefix u); [congruence|reflexivity].
Qed.

(* one character of a fixed word *)
Lemma sim_lit1 (T : bytes -> bytes -> pout -> Prop) cs cs' fo fe (p : byte -> bool) e ps pos pre rest pb u pb' u' :
  pos = zlen pre ->
  (0 < cs <= 193)%N -> (0 < cs' <= 193)%N -> cs' <> 171%N ->
  (forall b, delta cs b = if p b then Some (cs', fo) else Some (0%N, Some fe)) ->
  erre cs e -> errf fe e ->
  (forall b s', rest = b :: s' -> p b = true ->
     exec_opt fo (cfg (pre ++ b :: s') cs' (zlen pre) pb, u)
     = Ret ((cfg (pre ++ b :: s') cs' (zlen pre) pb', u'), Again)) ->
  (forall b s', rest = b :: s' -> p b = true ->
     wp (ref_lit e ps (pos + 1) s')
        (fun er => At cs' (pre ++ [b]) s' pb' u' (OErr er)) False
        (fun w r => forall o : pout, T ((pre ++ [b]) ++ w) r o -> At cs' (pre ++ [b]) s' pb' u' o)) ->
  wp (ref_lit e (p :: ps) pos rest)
     (fun er => At cs pre rest pb u (OErr er)) False
     (fun w r => forall o : pout, T (pre ++ w) r o -> At cs pre rest pb u o).
Proof.
  intros -> Hcs Hcs' H171 Hd He Hf Hx Hk. cbn [ref_lit]. destruct rest as [|b s'].
  - cbn. apply At_erre; assumption.
  - specialize (Hd b). destruct (p b) eqn:Hp.
    + apply wp_wcons. eapply wp_mono; [apply (Hk b s'); auto | | exact (fun x : False => x) |].
      * intros er H. eapply At_byte; eauto.
      * cbn beta. intros w r H o HT. eapply At_byte; eauto. apply H.
        rewrite <- app_assoc. exact HT.
    + cbn. eapply At_errf; eauto.
Qed.

Lemma wp_lit_nil (T : bytes -> bytes -> pout -> Prop) e pos rest cs pre pb u :
  (forall o, T pre rest o -> At cs pre rest pb u o) ->
  wp (ref_lit e [] pos rest)
     (fun er => At cs pre rest pb u (OErr er)) False
     (fun w r => forall o : pout, T (pre ++ w) r o -> At cs pre rest pb u o).
Proof. intros H. cbn. rewrite app_nil_r. exact H. Qed.

Ltac solve_eof t :=
  match goal with |- SimBase.erre _ _ _ ?cs _ =>
    let v := eval vm_compute in (eofact cs) in
    match v with Some ?b => split; [lia|exists b; split; [vm_compute; reflexivity|t]] end
  end.
Ltac solve_erre := solve_eof ltac:(apply errs_plain).
Ltac solve_errf := eexists; split; [reflexivity|intros; apply errs_plain].

Lemma sim_prefix c rest :
  (c = 1 \/ c = 44 \/ c = 83)%N ->
  wp (ref_prefix rest)
     (fun er => At c [] rest 0 zeroURN (OErr er)) False
     (fun w r => forall o : pout, At (c + 4) w r 0 (uset_prefix (firstn 3 w) zeroURN) o -> At c [] rest 0 zeroURN o).
Proof.
  intros Hc. unfold ref_prefix.
  apply (wp_mono _ (fun er => At c [] rest 0 zeroURN (OErr er)) False
     (fun w r => forall o : pout, At (c + 4) ([] ++ w) r 0 (uset_prefix (firstn 3 ([] ++ w)) zeroURN) o -> At c [] rest 0 zeroURN o)); auto.
  apply (sim_lit1 (fun w r o => At (c + 4) w r 0 (uset_prefix (firstn 3 w) zeroURN) o)) with (cs' := (c + 1)%N) (fo := Some 1%N) (fe := 0%N) (pb' := 0) (u' := zeroURN);
    [reflexivity | lia | lia | lia | destruct Hc as [->|[->| ->]]; dsweep
     | destruct Hc as [->|[->| ->]]; solve_erre | solve_errf | |].
  { intros b s' -> _. apply x_f1_first. reflexivity. }
  intros b1 s1 -> Hb1.
  apply (sim_lit1 (fun w r o => At (c + 4) w r 0 (uset_prefix (firstn 3 w) zeroURN) o)) with (cs' := (c + 2)%N) (fo := None) (fe := 0%N) (pb' := 0) (u' := zeroURN);
    [reflexivity | lia | lia | lia | destruct Hc as [->|[->| ->]]; dsweep
     | destruct Hc as [->|[->| ->]]; solve_erre | solve_errf | reflexivity |].
  intros b2 s2 -> Hb2.
  apply (sim_lit1 (fun w r o => At (c + 4) w r 0 (uset_prefix (firstn 3 w) zeroURN) o)) with (cs' := (c + 3)%N) (fo := None) (fe := 0%N) (pb' := 0) (u' := zeroURN);
    [reflexivity | lia | lia | lia | destruct Hc as [->|[->| ->]]; dsweep
     | destruct Hc as [->|[->| ->]]; solve_erre | solve_errf | reflexivity |].
  intros b3 s3 -> Hb3.
  apply (sim_lit1 (fun w r o => At (c + 4) w r 0 (uset_prefix (firstn 3 w) zeroURN) o)) with (cs' := (c + 4)%N) (fo := Some 2%N) (fe := 0%N) (pb' := 0) (u' := uset_prefix [b1; b2; b3] zeroURN);
    [reflexivity | lia | lia | lia | destruct Hc as [->|[->| ->]]; dsweep
     | destruct Hc as [->|[->| ->]]; solve_erre | solve_errf | |].
  - intros b s' -> _. unfold exec_opt. cbn [f_block exec_block exec_stmt].
    rewrite (text_mid start mode mset [] [b1; b2; b3] (b :: s')) by reflexivity. reflexivity.
  - intros b4 s4 -> Hb4. apply (wp_lit_nil (fun w r o => At (c + 4) w r 0 (uset_prefix (firstn 3 w) zeroURN) o)). intros o H. exact H.
Qed.

End X.

Ltac solve_eof t :=
  match goal with |- SimBase.erre _ _ _ ?cs _ =>
    let v := eval vm_compute in (eofact cs) in
    match v with Some ?b => split; [lia|exists b; split; [vm_compute; reflexivity|t]] end
  end.
Ltac solve_erre := solve_eof ltac:(apply errs_plain).
Ltac solve_errf := eexists; split; [reflexivity|intros; apply errs_plain].
Ltac solve_hxe := solve_eof ltac:(apply errs_hx).
Ltac solve_hxf := eexists; split; [reflexivity|intros; apply errs_hx].
