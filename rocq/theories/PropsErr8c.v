(* The errors of RFC 8141 mode, whole inputs: the walk of Ref.v reports exactly the
   errors of SpecErr8.v. *)
From Coq Require Import Lia.
From Verif Require Import GoBase MachineSyntax MachineTables Machine Urn Spec SpecErr SpecErr8 Ref SimBase RefSpec RefSpec8 RefSpec8b ParseThm Api PropsB PropsErr PropsErr8 PropsErr8b.
Local Open Scope Z_scope.

Lemma zlen_app (a b : bytes) : zlen (a ++ b) = zlen a + zlen b.
Proof. unfold zlen. rewrite app_length. lia. Qed.

Lemma nss8_stop z : then_mark z <-> z = [] \/ (exists r', z = "?"%byte :: r') \/ (exists r', z = "#"%byte :: r').
Proof.
  unfold then_mark, stops. split.
  - intros [->|(c & y & -> & [->| ->])]; eauto.
  - intros [->|[[r ->]|[r ->]]]; [auto|right; eauto|right; eauto].
Qed.

Lemma upto_nss p nid nss rest : urn_word p -> nid8141 nid -> nss8141 nss -> then_mark rest ->
  ref8141 PRFC8141Only (p ++ colon ++ nid ++ colon ++ nss ++ rest) =
  let prefix := if starts_urn_dash nid then firstn 3 nid else p in
  let pos := 5 + zlen nid + zlen nss in
  let finish (r q : bytes) (pos : Z) (rest : bytes) : pout :=
    match ref_tailf PRFC8141Only pos rest with
    | WErr e => OErr e
    | WNil => ONil
    | WGo f _ => OUrn (mkPub prefix nid nss (norm_pct nss) KRFC8141 None r q f)
    end in
  let qpart (e0 : errconst) (r : bytes) (pos : Z) (rest : bytes) : pout :=
    match ref_q PRFC8141Only e0 QStart pos rest with
    | WErr e => OErr e
    | WNil => ONil
    | WGo q rest => finish r q (pos + zlen q) rest
    end in
  match rest with
  | [] => finish [] [] pos rest
  | c :: rest1 =>
      if is "#" c then finish [] [] pos rest
      else
        match rest1 with
        | [] => ONil
        | d :: rest2 =>
            if is "+" d then
              match ref_r PRFC8141Only RStart (pos + 2) rest2 with
              | WErr e => OErr e
              | WNil => ONil
              | WGo r rest3 =>
                  let pos := pos + 2 + zlen r in
                  match rest3 with
                  | c3 :: _ :: rest4 => if is "?" c3 then qpart ErrHex r (pos + 2) rest4
                                        else finish r [] pos rest3
                  | _ => finish r [] pos rest3
                  end
              end
            else if is "=" d then qpart ErrHex [] (pos + 2) rest2
            else ONil
        end
  end.
Proof.
  intros Hp Hn [He Hh] Hs. apply nss8_stop in Hs. unfold ref8141.
  rewrite ref_prefix_complete by exact Hp. rewrite (ref_nid8141_complete PRFC8141Only p) by auto.
  rewrite ref_nss8_complete; [|exact He|auto|exact Hs].
  replace (firstn 3 (p ++ colon)) with p.
  2:{ apply urn_word3 in Hp. destruct Hp as (x & y & z & -> & _). reflexivity. }
  reflexivity.
Qed.

Lemma qstop_hash z : qstop z <-> then_hash z.
Proof. symmetry. apply then_hash_iff. Qed.

(* the fragment part *)
Lemma tail_err pos rest e p nid nss r q : urn_word p -> nid8141 nid -> nss8141 nss -> opt_ok r_component r -> opt_ok q_component q ->
  pos = 5 + zlen nid + zlen nss + zlen (opt_part (B "?+") r) + zlen (opt_part (B "?=") q) ->
  ref_tailf PRFC8141Only pos rest = WErr e -> qstop rest ->
  err8141 (p ++ colon ++ nid ++ colon ++ nss ++ opt_part (B "?+") r ++ opt_part (B "?=") q ++ rest) e.
Proof.
  intros Hp Hn Hs Hr Hq Hpos H [->|[t ->]]; [discriminate H|]. cbn [ref_tailf] in H.
  assert (K : ref_frag PRFC8141Only EStart (pos + 1) t = WErr e) by (destruct (ref_frag PRFC8141Only EStart (pos + 1) t); [exact H|discriminate H|discriminate H]).
  apply frag8_iff in K. destruct K as (x & y & -> & H1 & H2 & H3 & ->).
  do 5 right. exists (p ++ colon ++ nid ++ colon ++ nss ++ tail8141 r q None), p, nid, nss, r, q, x, y.
  split; [split; [reflexivity|repeat (split; auto)]|]. unfold tail8141. cbn [opt_part].
  split; [rewrite <- !app_assoc; rewrite ?app_nil_r; reflexivity|]. split; [exact H1|]. split; [exact H2|]. split; [exact H3|].
  rewrite !zlen_app. rewrite (urn_word_len p Hp). change (zlen colon) with 1. change (zlen []) with 0. f_equal. lia.
Qed.

Lemma q_part_err pos rest e p nid nss r rr : urn_word p -> nid8141 nid -> nss8141 nss -> opt_ok r_component r ->
  pos = 5 + zlen nid + zlen nss + zlen (opt_part (B "?+") r) + 2 -> (r = None \/ opens_q rest) ->
  match ref_q PRFC8141Only ErrHex QStart pos rest with
  | WErr e => OErr e
  | WNil => ONil
  | WGo q rest => match ref_tailf PRFC8141Only (pos + zlen q) rest with
    | WErr e => OErr e
    | WNil => ONil
    | WGo f _ => OUrn (mkPub (if starts_urn_dash nid then firstn 3 nid else p) nid nss (norm_pct nss) KRFC8141 None rr q f)
    end
  end = OErr e ->
  err8141 (p ++ colon ++ nid ++ colon ++ nss ++ opt_part (B "?+") r ++ B "?=" ++ rest) e.
Proof.
  intros Hp Hn Hs Hr Hpos Ho. pose proof (q_iff ErrHex pos rest) as Hq. pose proof (ref_q_sound' PRFC8141Only ErrHex pos rest) as Hqs.
  destruct (ref_q PRFC8141Only ErrHex QStart pos rest) as [e'| |q rest2]; [|discriminate|].
  - intros H. injection H as ->. destruct (proj1 (Hq e eq_refl) eq_refl) as (x & y & k & -> & H1 & H2 & H3 & ->).
    do 4 right. left. exists p, nid, nss, r, x, y, k. do 8 (split; [auto|]). split; [exact H3|]. f_equal. lia.
  - destruct Hqs as (-> & Hqc & Hst). intros H.
    apply (tail_err (pos + zlen q) rest2 e p nid nss r (Some q)); auto.
    + cbn [opt_part]. rewrite (zlen_app (B "?=")). change (zlen (B "?=")) with 2. lia.
    + destruct (ref_tailf PRFC8141Only (pos + zlen q) rest2); [injection H as ->; reflexivity|discriminate H|discriminate H].
Qed.

Lemma rest_err p nid nss rest e : urn_word p -> nid8141 nid -> nss8141 nss -> then_mark rest ->
  ref8141 PRFC8141Only (p ++ colon ++ nid ++ colon ++ nss ++ rest) = OErr e ->
  err8141 (p ++ colon ++ nid ++ colon ++ nss ++ rest) e.
Proof.
  intros Hp Hn Hs Hm. rewrite upto_nss by assumption. cbv zeta. apply nss8_stop in Hm.
  destruct rest as [|c rest1]; [discriminate|]. destruct (is "#" c) eqn:Eh.
  { apply is_eq in Eh. subst c. intros H. apply (tail_err (5 + zlen nid + zlen nss) ("#"%byte :: rest1) e p nid nss None None); auto; try exact I.
    - cbn [opt_part]. change (zlen []) with 0. lia.
    - destruct (ref_tailf PRFC8141Only (5 + zlen nid + zlen nss) ("#"%byte :: rest1)); [injection H as ->; reflexivity|discriminate H|discriminate H].
    - right; eauto. }
  destruct Hm as [Hm|[[r' Hm]|[r' Hm]]]; [discriminate Hm| |injection Hm as -> _; discriminate Eh].
  injection Hm as -> ->. destruct r' as [|d rest2]; [discriminate|]. destruct (is "+" d) eqn:Ep.
  - apply is_eq in Ep. subst d. pose proof (r_iff (5 + zlen nid + zlen nss + 2) rest2) as Hr.
    pose proof (ref_r_sound' PRFC8141Only (5 + zlen nid + zlen nss + 2) rest2) as Hrs.
    destruct (ref_r PRFC8141Only RStart (5 + zlen nid + zlen nss + 2) rest2) as [e'| |r rest3]; [|discriminate|].
    + intros H. injection H as ->. destruct (proj1 (Hr e) eq_refl) as (x & y & k & -> & H1 & H2 & H3 & ->).
      do 3 right. left. exists p, nid, nss, x, y, k. do 6 (split; [auto|]). split; [exact H3|reflexivity].
    + destruct Hrs as (-> & Hrc & Hst).
      change ("?"%byte :: "+"%byte :: r ++ rest3) with (opt_part (B "?+") (Some r) ++ rest3).
      assert (Hl : zlen (opt_part (B "?+") (Some r)) = 2 + zlen r) by (cbn [opt_part]; rewrite (zlen_app (B "?+")); reflexivity).
      assert (HT : qstop rest3 -> match ref_tailf PRFC8141Only (5 + zlen nid + zlen nss + 2 + zlen r) rest3 with
        | WErr e => OErr e | WNil => ONil
        | WGo f _ => OUrn (mkPub (if starts_urn_dash nid then firstn 3 nid else p) nid nss (norm_pct nss) KRFC8141 None r [] f) end = OErr e ->
        err8141 (p ++ colon ++ nid ++ colon ++ nss ++ opt_part (B "?+") (Some r) ++ rest3) e).
      { intros Hq H. apply (tail_err (5 + zlen nid + zlen nss + 2 + zlen r) rest3 e p nid nss (Some r) None); auto; try exact I.
        - rewrite Hl. cbn [opt_part]. change (zlen []) with 0. lia.
        - destruct (ref_tailf PRFC8141Only (5 + zlen nid + zlen nss + 2 + zlen r) rest3); [injection H as ->; reflexivity|discriminate H|discriminate H]. }
      destruct Hst as [Hst|(x & t & -> & Hx)].
      * intros H. apply HT; [exact Hst|]. destruct Hst as [->|[t ->]]; [exact H|]. destruct t; exact H.
      * intros H. change (is "?" "?"%byte) with true in H. cbv iota in H.
        change ("?"%byte :: "="%byte :: x :: t) with (B "?=" ++ x :: t). eapply (q_part_err (5 + zlen nid + zlen nss + 2 + zlen r + 2)); eauto.
        -- rewrite Hl. lia.
        -- right. apply opens_q_iff. eauto.
  - destruct (is "=" d) eqn:Ee; [|discriminate]. apply is_eq in Ee. subst d. intros H.
    apply (q_part_err (5 + zlen nid + zlen nss + 2) rest2 e p nid nss None []); auto; [exact I|]. cbn [opt_part]. change (zlen []) with 0. lia.
Qed.

Theorem ref8141_err s e : ref8141 PRFC8141Only s = OErr e <-> err8141 s e.
Proof.
  split.
  - intros H. pose proof H as H0. unfold ref8141 in H.
    pose proof (prefix_err_iff s) as H1. pose proof (ref_prefix_sound s) as H1'.
    destruct (ref_prefix s) as [e1| |pre rest]; [injection H as ->; left; apply H1; reflexivity|discriminate H|].
    destruct H1' as (p & -> & Hp & ->). clear H1.
    pose proof (nid8_iff rest) as H1. pose proof (ref_nid8141_sound PRFC8141Only p rest 4 Hp) as H1'.
    destruct (ref_nid8141 PRFC8141Only 4 rest) as [e1| |nid rest2]; [|discriminate H|].
    { injection H as ->. right; left. destruct (proj1 (H1 e) eq_refl) as (x & y & -> & K). exists p, x, y. auto. }
    destruct H1' as (-> & Hn & _). clear H1.
    pose proof (nss8_iff (5 + zlen nid) rest2) as H1.
    pose proof (ref_nss8_sound PRFC8141Only (List.length rest2) rest2 (le_n _) EStart (5 + zlen nid)) as H1'.
    destruct (ref_nss8 PRFC8141Only EStart (5 + zlen nid) rest2) as [e1| |nss rest3]; [|discriminate H|].
    { injection H as ->. right; right; left. destruct (proj1 (H1 e) eq_refl) as (x & y & k & -> & H2 & H3 & H4 & H5). exists p, nid, x, y, k. do 6 (split; [auto|]). exact H5. }
    destruct H1' as (-> & He & Hh & Hst). apply rest_err; auto; [split; auto|]. apply nss8_stop. exact Hst.
  - intros [H|[(p & x & y & -> & Hp & H)|[(p & nid & x & y & k & -> & Hp & Hn & H)|[(p & nid & nss & x & y & k & -> & Hp & Hn & Hs & H)|
      [(p & nid & nss & r & x & y & k & -> & Hp & Hn & Hs & Hr & Ho & H)|(s0 & p & nid & nss & r & q & x & y & (-> & Hp & Hn & Hs & Hr & Hq & _) & -> & H)]]]]].
    + unfold ref8141. apply prefix_err_iff in H. rewrite H. reflexivity.
    + unfold ref8141. rewrite ref_prefix_complete by exact Hp. destruct H as (H1 & H2 & H3).
      assert (K : ref_nid8141 PRFC8141Only 4 (x ++ y) = WErr e) by (apply nid8_iff; exists x, y; auto). rewrite K. reflexivity.
    + unfold ref8141. rewrite ref_prefix_complete by exact Hp. rewrite (ref_nid8141_complete PRFC8141Only p) by auto.
      destruct H as (H1 & H2 & H3 & H4).
      assert (K : ref_nss8 PRFC8141Only EStart (5 + zlen nid) (x ++ y) = WErr e) by (apply nss8_iff; exists x, y, k; auto). rewrite K. reflexivity.
    + rewrite upto_nss; auto. 2:{ right. exists "?"%byte, ("+"%byte :: x ++ y). auto. }
      cbv zeta. change (B "?+" ++ x ++ y) with ("?"%byte :: "+"%byte :: x ++ y). destruct H as (H1 & H2 & H3 & H4).
      assert (K : ref_r PRFC8141Only RStart (5 + zlen nid + zlen nss + 2) (x ++ y) = WErr e) by (apply r_iff; exists x, y, k; auto). cbv beta iota. change (is "#" "?"%byte) with false. change (is "+" "+"%byte) with true. cbv iota. rewrite K. reflexivity.
    + destruct H as (H1 & H2 & H3 & H4).
      assert (K : forall pos, pos = 5 + zlen nid + zlen nss + zlen (opt_part (B "?+") r) + 2 -> ref_q PRFC8141Only ErrHex QStart pos (x ++ y) = WErr e).
      { intros pos ->. apply q_iff; [reflexivity|]. exists x, y, k. auto. }
      destruct r as [r|].
      * destruct Ho as [Ho|Ho]; [discriminate Ho|]. rewrite upto_nss; auto. 2:{ right. eexists "?"%byte, _. split; [reflexivity|]. auto. }
        cbv zeta. change (opt_part (B "?+") (Some r) ++ B "?=" ++ x ++ y) with ("?"%byte :: "+"%byte :: r ++ B "?=" ++ x ++ y).
        cbn [opt_ok] in Hr. cbv beta iota. change (is "#" "?"%byte) with false. change (is "+" "+"%byte) with true. cbv iota.
        rewrite ref_r_complete'; [|exact Hr|apply then_q_iff; right; exists (x ++ y); auto].
        change (B "?=" ++ x ++ y) with ("?"%byte :: "="%byte :: x ++ y). cbv beta iota. change (is "?" "?"%byte) with true. cbv beta iota. rewrite K; [reflexivity|].
        cbn [opt_part]. rewrite (zlen_app (B "?+")). change (zlen (B "?+")) with 2. lia.
      * rewrite upto_nss; auto. 2:{ right. eexists "?"%byte, _. split; [reflexivity|]. auto. }
        cbv zeta. change (opt_part (B "?+") None ++ B "?=" ++ x ++ y) with ("?"%byte :: "="%byte :: x ++ y).
        cbv beta iota. change (is "#" "?"%byte) with false. change (is "+" "="%byte) with false. change (is "=" "="%byte) with true. cbv iota.
        rewrite K; [reflexivity|]. cbn [opt_part]. change (zlen []) with 0. lia.
    + destruct H as (H1 & H2 & H3 & H4).
      assert (K : forall pos, pos = 5 + zlen nid + zlen nss + zlen (opt_part (B "?+") r) + zlen (opt_part (B "?=") q) ->
        ref_tailf PRFC8141Only pos ("#"%byte :: x ++ y) = WErr e).
      { intros pos ->. cbn [ref_tailf]. assert (L : ref_frag PRFC8141Only EStart (5 + zlen nid + zlen nss + zlen (opt_part (B "?+") r) + zlen (opt_part (B "?=") q) + 1) (x ++ y) = WErr e).
        { apply frag8_iff. exists x, y. do 4 (split; [auto|]). rewrite H4. unfold tail8141. cbn [opt_part]. rewrite !zlen_app, (urn_word_len p Hp). change (zlen colon) with 1. change (zlen []) with 0. f_equal. lia. }
        rewrite L. reflexivity. }
      unfold tail8141. cbn [opt_part]. rewrite app_nil_r, <- !app_assoc. clear H1 H2 H3 H4.
      assert (HQ : forall pos rr, pos = 5 + zlen nid + zlen nss + zlen (opt_part (B "?+") r) + 2 -> forall q', q = Some q' ->
        match ref_q PRFC8141Only ErrHex QStart pos (q' ++ "#"%byte :: x ++ y) with
        | WErr e => OErr e
        | WNil => ONil
        | WGo q rest => match ref_tailf PRFC8141Only (pos + zlen q) rest with
          | WErr e => OErr e
          | WNil => ONil
          | WGo f _ => OUrn (mkPub (if starts_urn_dash nid then firstn 3 nid else p) nid nss (norm_pct nss) KRFC8141 None rr q f)
          end
        end = OErr e).
      { intros pos rr -> q' ->. rewrite ref_q_complete'; [|exact Hq|right; eauto]. rewrite K; [reflexivity|].
        cbn [opt_part]. rewrite (zlen_app (B "?=")). change (zlen (B "?=")) with 2. lia. }
      destruct r as [r|].
      * cbn [opt_ok] in Hr. rewrite upto_nss; auto. 2:{ right. eexists "?"%byte, _. split; [reflexivity|]. auto. }
        cbv zeta. cbn [opt_part] in *. rewrite (zlen_app (B "?+")) in *. change (zlen (B "?+")) with 2 in *. destruct q as [q|].
        -- change ((B "?+" ++ r) ++ opt_part (B "?=") (Some q) ++ "#"%byte :: x ++ y) with ("?"%byte :: "+"%byte :: r ++ ("?"%byte :: "="%byte :: q) ++ "#"%byte :: x ++ y).
           cbv beta iota. change (is "#" "?"%byte) with false. change (is "+" "+"%byte) with true. cbv iota. cbn [opt_ok] in Hq.
           rewrite ref_r_complete'; [|exact Hr|]. 
           2:{ right. pose proof Hq as Hq'. apply q_component_iff in Hq'. destruct Hq' as (H1 & H2 & _).
               destruct (comp_open q H1 H2) as (c & t & -> & Hx). exists c, (t ++ "#"%byte :: x ++ y). split; [reflexivity|exact Hx]. }
           cbn [app]. cbv beta iota. change (is "?" "?"%byte) with true. cbv beta iota. apply HQ; [lia|reflexivity].
        -- change ((B "?+" ++ r) ++ opt_part (B "?=") None ++ "#"%byte :: x ++ y) with ("?"%byte :: "+"%byte :: r ++ "#"%byte :: x ++ y).
           cbv beta iota. change (is "#" "?"%byte) with false. change (is "+" "+"%byte) with true. cbv iota.
           rewrite ref_r_complete'; [|exact Hr|left; right; eauto].
           cbv beta iota. change (is "?" "#"%byte) with false. cbv iota. cbn [opt_part] in K. change (zlen []) with 0 in K.
           rewrite K by lia. destruct (x ++ y); reflexivity.
      * cbn [opt_part] in *. change (zlen []) with 0 in *. cbn [app]. destruct q as [q|].
        -- rewrite upto_nss; auto. 2:{ right. eexists "?"%byte, _. split; [reflexivity|]. auto. }
           cbv zeta. change (opt_part (B "?=") (Some q) ++ "#"%byte :: x ++ y) with ("?"%byte :: "="%byte :: q ++ "#"%byte :: x ++ y).
           cbv beta iota. change (is "#" "?"%byte) with false. change (is "+" "="%byte) with false. change (is "=" "="%byte) with true. cbv iota.
           apply HQ; [lia|reflexivity].
        -- cbn [opt_part app] in *. rewrite upto_nss; auto. 2:{ right. eexists "#"%byte, _. split; [reflexivity|]. auto. }
           cbv zeta. cbv beta iota. change (is "#" "#"%byte) with true. cbv iota. change (zlen []) with 0 in K. rewrite K by lia. reflexivity.
Qed.

Theorem parse_err8141 m s m' uo eo : reachable m -> m_parsingMode m = PRFC8141Only ->
  machine_Parse m s = Ret (m', uo, eo) -> forall e, eo = Some e <-> err8141 s e.
Proof.
  intros H Hm Hp e. apply parse8141_ref in Hp; auto. apply outcome_eq in Hp. rewrite <- ref8141_err.
  destruct uo, eo; try contradiction; rewrite Hp; split; intros K; try discriminate K; injection K as ->; reflexivity.
Qed.

(* ---- columns ------------------------------------------------------------------------------------- *)
Lemma err8141_not s e : err8141 s e -> forall u, ~ parsed PRFC8141Only s u.
Proof.
  intros H u (m & m' & Hr & Hm & Hp). apply (parse_err8141 _ _ _ _ _ Hr Hm Hp) in H. discriminate H.
Qed.
Lemma acc8141 s p n x r q f : urn8141 s p n x r q f -> acc PRFC8141Only s.
Proof. intros H. destruct (parsed8141_ok s p n x r q f H) as (u & Hu & _). exists u. exact Hu. Qed.
Lemma app_split {A} (a b c d : list A) : a ++ b = c ++ d ->
  (exists l, a = c ++ l /\ d = l ++ b) \/ (exists l, c = a ++ l /\ b = l ++ d).
Proof.
  revert c. induction a as [|x a IH]; intros c H.
  - right. exists c. auto.
  - destruct c as [|y c]; [left; exists (x :: a); auto|]. cbn [app] in H. injection H as -> H.
    destruct (IH c H) as [(l & -> & ->)|(l & -> & ->)]; [left|right]; exists l; auto.
Qed.

Lemma furthest_head P x c y y' : furthest P x (c :: y) -> furthest P x (c :: y').
Proof. intros [H K]. split; [exact H|]. intros d z E. injection E as <- _. apply (K c y eq_refl). Qed.
Lemma unf_move (P Q follow : bytes -> Prop) x c y t : (forall w, P w -> Q w) ->
  furthest Q x (c :: y) -> unfinished P follow (x ++ c :: y) ->
  (forall w v, x = w ++ v -> P w -> follow (v ++ c :: t) -> follow (v ++ c :: y)) ->
  unfinished P follow (x ++ c :: t).
Proof.
  intros HPQ [_ Hf] Hu Hm w z E Hw Hz. destruct (app_split _ _ _ _ E) as [(l & -> & ->)|(l & -> & El)].
  - apply (Hu w (l ++ c :: y)); [rewrite <- app_assoc; reflexivity|exact Hw|]. apply (Hm w l); auto.
  - destruct l as [|d l]; cbn [app] in El.
    + rewrite app_nil_r in Hw. apply (Hu x (c :: y)); auto. apply (Hm x []); [symmetry; apply app_nil_r|exact Hw|]. rewrite <- El in Hz. exact Hz.
    + injection El as <- ->. apply (Hf c y eq_refl). exists l. apply HPQ. rewrite <- app_assoc. exact Hw.
Qed.
Lemma at_first P (v : bytes) c t y : at_char P (v ++ c :: t) -> at_char P (v ++ c :: y).
Proof.
  intros (d & z & E & H). destruct v as [|a v]; cbn [app] in *; injection E as <- _; [exists c, y|exists a, (v ++ c :: y)]; auto.
Qed.
Lemma stops_first P (v : bytes) c t y : stops P (v ++ c :: t) -> stops P (v ++ c :: y).
Proof. intros [H|H]; [destruct v; discriminate H|]. right. eapply at_first. exact H. Qed.
Lemma restart_head w x c y t : restart w x (c :: y) -> restart w x (c :: t).
Proof. intros [H K]. split; [exact H|]. apply (stops_first _ [] c y t K). Qed.
Lemma first_of_move w x c y t kA kB kC k : first_of (in_esc x) (restart w x (c :: y)) kA kB kC k -> first_of (in_esc x) (restart w x (c :: t)) kA kB kC k.
Proof. apply first_of_iff; [reflexivity|]. split; apply restart_head. Qed.

Lemma r_ext_eq w : r_component w -> r_component (w ++ B "?=").
Proof.
  intros ([H1 (c & r & -> & Hc)] & H2 & H3). split; [split|split].
  - apply esc_app; [exact H1|]. apply esc_plain; [reflexivity|]. apply esc_plain; [reflexivity|]. apply esc_nil.
  - exists c, (r ++ B "?="). auto.
  - intros x y E. destruct (app_split _ _ _ _ E) as [(l & E1 & E2)|(l & E1 & E2)].
    + destruct l as [|a [|b l]]; cbn [app] in E2.
      * discriminate E2.
      * injection E2 as <- E2. discriminate E2.
      * change (B "?+") with ["?"%byte; "+"%byte] in E2. injection E2 as <- <- ->. destruct (H2 x l E1) as [z ->]. eexists; reflexivity.
    + destruct l as [|a [|b [|d l]]]; discriminate E2.
  - intros x y E. destruct (app_split _ _ _ _ E) as [(l & E1 & E2)|(l & E1 & E2)].
    + destruct l as [|a [|b l]]; cbn [app] in E2.
      * injection E2 as ->. auto.
      * injection E2 as <- E2. discriminate E2.
      * change (B "?=") with ["?"%byte; "="%byte] in E2. injection E2 as <- <- ->. destruct (H3 x l E1) as [->|[[z ->]|[z ->]]].
        -- right; right. eexists; reflexivity.
        -- right; left. eexists; reflexivity.
        -- right; right. eexists; reflexivity.
    + destruct l as [|a [|b [|d l]]]; try discriminate E2. injection E2 as ->. auto.
Qed.

Lemma unf_r x c y t : furthest rlike x (c :: y) -> unfinished r_component then_q (x ++ c :: y) -> unfinished r_component then_q (x ++ c :: t).
Proof.
  intros Hf Hu. eapply unf_move; [|exact Hf|exact Hu|]; [left; assumption|].
  intros w v -> Hw [Hz|(z & Ez & Hz)]; [left; eapply stops_first; exact Hz|right].
  destruct Hf as [_ Hf]. specialize (Hf c y eq_refl). change (B "?=" ++ z) with ("?"%byte :: "="%byte :: z) in Ez.
  destruct v as [|a [|b v]]; cbn [app] in Ez.
  - injection Ez as -> ->. exfalso. apply Hf. exists (B "="). left. rewrite app_nil_r, <- app_assoc. apply r_ext_eq. exact Hw.
  - injection Ez as -> -> _. exfalso. apply Hf. exists []. left. rewrite app_nil_r, <- app_assoc. apply r_ext_eq. exact Hw.
  - injection Ez as -> -> <-. exists (v ++ c :: y). split; [reflexivity|]. eapply at_first. exact Hz.
Qed.

(* bytes read past the first offending one: a second "?", "?+" or "?=" at the start of a component *)
Definition read_on (x h : bytes) : Prop :=
  h = [] \/ exists x' o, (o = B "?+" \/ o = B "?=") /\ x = x' ++ o /\ (h = B "?" \/ h = o).

Lemma rlike_cases o (P : bytes -> Prop) x : o = B "?+" \/ o = B "?=" -> P (B "a") -> extends (fun w => P w \/ w = o) x ->
  (exists v, P (x ++ v)) \/ (exists h, x = h /\ (h = B "?" \/ h = o)).
Proof.
  intros Ho Ha [v [H|H]]; [left; eauto|]. destruct Ho as [->| ->]; (destruct x as [|a [|b x]]; [left; exists (B "a"); exact Ha| |]; cbn [app] in H).
  - injection H as -> _. right. exists (B "?"). auto.
  - injection H as -> -> H. destruct x; [|discriminate H]. right. exists (B "?+"). auto.
  - injection H as -> _. right. exists (B "?"). auto.
  - injection H as -> -> H. destruct x; [|discriminate H]. right. exists (B "?="). auto.
Qed.
Lemma comp_a : r_component (B "a") /\ q_component (B "a").
Proof.
  assert (H : component (B "a")). { split; [apply esc_plain; [reflexivity|apply esc_nil]|]. exists "a"%byte, []. split; [reflexivity|]. split; discriminate. }
  assert (K : forall x b (y : bytes), B "a" <> x ++ "?"%byte :: b :: y). { intros x b y E. destruct x as [|? x]; [discriminate E|]. destruct x; discriminate E. }
  split; (split; [exact H|]); [split|]; intros x y E; contradiction (K _ _ _ E).
Qed.

Lemma ref_r_lead pos t : exists e, ref_r PRFC8141Only RStart pos ("?"%byte :: t) = WErr e.
Proof.
  cbn [ref_r is Byte.eqb]. change (is "%" "?"%byte) with false. change (pchar "?"%byte) with false. change (is "?" "?"%byte) with true. cbv iota.
  destruct t as [|d t]; [eauto|]. destruct (is "+" d); [|eauto]. destruct t as [|x t]; [eauto|]. destruct (pchar x || one_of "%?#" x); eauto.
Qed.
Lemma ref_q_lead pos t : exists e, ref_q PRFC8141Only ErrHex QStart pos ("?"%byte :: t) = WErr e.
Proof.
  cbn [ref_q is Byte.eqb]. change (is "%" "?"%byte) with false. change (pchar "?"%byte) with false. change (is "?" "?"%byte) with true. cbv iota.
  destruct t as [|d t]; [eauto|]. destruct (is "=" d); [|eauto]. destruct t as [|x t]; [eauto|]. destruct (pchar x || one_of "%?#" x); eauto.
Qed.

Ltac part8 := first [assumption|exact I|apply comp_a].
Ltac parts8 := do 5 (split; [part8|]); part8.
Theorem column8141 s e : err8141 s e -> exists x h y, s = x ++ h ++ y /\ read_on x h /\
  (e_kind e <> Err8141InformalID -> e_col e = zlen x + zlen h) /\
  (e_kind e = Err8141InformalID -> h = [] /\ e_col e = zlen x - 1) /\
  (exists t u, parsed PRFC8141Only (x ++ t) u) /\
  (forall c z t u, h ++ y = c :: z -> ~ parsed PRFC8141Only (x ++ c :: t) u).
Proof.
  assert (Hnid : nid8141 (B "ab")).
  { apply nid8141_cons. split; [reflexivity|]. split; [reflexivity|]. split; [cbn; lia|]. split; reflexivity. }
  assert (Hnss : nss8141 (B "c")).
  { split; [apply esc_plain; [reflexivity|apply esc_nil]|]. exists "c"%byte, []. split; [reflexivity|discriminate]. }
  assert (Hsimple : forall x y, s = x ++ y -> (e_kind e <> Err8141InformalID -> e_col e = zlen x) ->
    (e_kind e = Err8141InformalID -> e_col e = zlen x - 1) -> (exists t, acc PRFC8141Only (x ++ t)) ->
    (forall c z t, y = c :: z -> exists e', err8141 (x ++ c :: t) e') ->
    exists x h y, s = x ++ h ++ y /\ read_on x h /\
      (e_kind e <> Err8141InformalID -> e_col e = zlen x + zlen h) /\
      (e_kind e = Err8141InformalID -> h = [] /\ e_col e = zlen x - 1) /\
      (exists t u, parsed PRFC8141Only (x ++ t) u) /\
      (forall c z t u, h ++ y = c :: z -> ~ parsed PRFC8141Only (x ++ c :: t) u)).
  { intros x y E H1 H2 H3 H4. exists x, [], y. split; [exact E|]. split; [left; reflexivity|]. change (zlen []) with 0.
    split; [intros K; rewrite (H1 K); lia|]. split; [intros K; split; [reflexivity|auto]|]. split; [exact H3|].
    intros c z t u K. destruct (H4 c z t K) as [e' He]. eapply err8141_not. exact He. }
  intros [(x & y & -> & Hs & ->)|[(p & x & y & -> & Hp & H1 & H2 & H3)|[(p & nid & x & y & k & -> & Hp & Hn & H1 & H2 & H3 & ->)|[(p & nid & nss & x & y & k & -> & Hp & Hn & Hs & H1 & H2 & H3 & ->)|
      [(p & nid & nss & r & x & y & k & -> & Hp & Hn & Hs & Hr & Ho & H1 & H2 & H3 & ->)|(s0 & p & nid & nss & r & q & x & y & H0 & -> & H1 & H2 & H3 & ->)]]]]].
  - (* prefix *)
    apply (Hsimple x y); [reflexivity|reflexivity|discriminate| |].
    + destruct (prefix_complete _ _ Hs) as (v & p & Hp & E). exists (v ++ B "ab:c"). rewrite app_assoc, E, <- app_assoc.
      apply (acc8141 _ p (B "ab") (B "c") None None None). split; [reflexivity|]. parts8.
    + intros c z t ->. exists (mkErr ErrPrefix (zlen x)). left. exists x, (c :: t). split; [reflexivity|]. split; [|reflexivity].
      cbn [lowers map] in *. eapply stuck_head; eauto.
  - (* NID *)
    apply (Hsimple (p ++ colon ++ x) y).
    + rewrite <- !app_assoc. reflexivity.
    + rewrite !zlen_app, (urn_word_len p Hp). change (zlen colon) with 1. destruct H3 as [[_ ->]|[_ ->]]; cbn [e_kind e_col]; [intros K; contradiction K; reflexivity|lia].
    + rewrite !zlen_app, (urn_word_len p Hp). change (zlen colon) with 1. destruct H3 as [[Hi ->]|[_ ->]]; cbn [e_kind e_col]; [|discriminate].
      destruct Hi as [(u & Hu & ->) _]. rewrite zlen_app, (urn_word_len u Hu). reflexivity.
    + destruct H1 as [(v & Hv) _]. exists (v ++ colon ++ B "c"). rewrite <- !app_assoc. rewrite (app_assoc x v).
      apply (acc8141 _ p (x ++ v) (B "c") None None None). split; [reflexivity|]. parts8.
    + intros c z t ->. rewrite <- !app_assoc.
      assert (HI : informal_here x (c :: t) <-> informal_here x (c :: z)).
      { unfold informal_here. split; intros [K1 K2]; (split; [exact K1|]); [apply (at_first _ [] c t z K2)|apply (at_first _ [] c z t K2)]. }
      exists e. right; left. exists p, x, (c :: t). split; [reflexivity|]. split; [exact Hp|]. split; [eapply furthest_head; exact H1|].
      rewrite HI. split; [|exact H3]. eapply unf_move; [|exact H1|exact H2|]; [auto|]. intros w v _ _. apply at_first.
  - (* NSS *)
    apply (Hsimple (p ++ colon ++ nid ++ colon ++ x) y).
    + rewrite <- !app_assoc. reflexivity.
    + intros _. rewrite !zlen_app, (urn_word_len p Hp). change (zlen colon) with 1. cbn [e_col]. lia.
    + cbn [e_kind]. intros ->. destruct H3 as [[_ K]|[(_ & [] & _)|(_ & _ & K)]]; discriminate K.
    + destruct H1 as [(v & Hv) _]. exists v. rewrite <- !app_assoc.
      apply (acc8141 _ p nid (x ++ v) None None None). unfold urn8141, tail8141. cbn [opt_part opt_ok]. rewrite ?app_nil_r.
      split; [rewrite <- ?app_assoc; reflexivity|]. parts8.
    + intros c z t ->. rewrite <- !app_assoc. eexists. right; right; left. exists p, nid, x, (c :: t), k. split; [reflexivity|]. do 2 (split; [assumption|]).
      split; [eapply furthest_head; exact H1|]. split; [|split; [exact H3|reflexivity]].
      eapply unf_move; [|exact H1|exact H2|]; [auto|]. intros w v _ _. apply stops_first.
  - (* r-component *)
    destruct (rlike_cases (B "?+") r_component x (or_introl eq_refl) (proj1 comp_a) (proj1 H1)) as [[v Hv]|(h & -> & Hh)].
    + apply (Hsimple (p ++ colon ++ nid ++ colon ++ nss ++ B "?+" ++ x) y).
      * rewrite <- !app_assoc. reflexivity.
      * intros _. rewrite !zlen_app, (urn_word_len p Hp). change (zlen colon) with 1. change (zlen (B "?+")) with 2. cbn [e_col]. lia.
      * cbn [e_kind]. intros ->. destruct H3 as [[_ K]|[(_ & _ & K)|(_ & _ & K)]]; discriminate K.
      * exists v. rewrite <- !app_assoc. apply (acc8141 _ p nid nss (Some (x ++ v)) None None). unfold urn8141, tail8141. cbn [opt_part opt_ok]. rewrite ?app_nil_r.
        split; [rewrite <- ?app_assoc; reflexivity|]. parts8.
      * intros c z t ->. rewrite <- !app_assoc. eexists. do 3 right; left. exists p, nid, nss, x, (c :: t), k. split; [reflexivity|]. do 3 (split; [assumption|]).
        split; [eapply furthest_head; exact H1|]. split; [eapply unf_r; [exact H1|exact H2]|].
        split; [eapply first_of_move; exact H3|reflexivity].
    + exists (p ++ colon ++ nid ++ colon ++ nss ++ B "?+"), h, y. rewrite <- !app_assoc. split; [reflexivity|].
      split; [right; exists (p ++ colon ++ nid ++ colon ++ nss), (B "?+"); rewrite <- !app_assoc; auto|].
      cbn [e_kind e_col]. split; [intros _; rewrite !zlen_app, (urn_word_len p Hp); change (zlen colon) with 1; change (zlen (B "?+")) with 2; lia|].
      split; [intros ->; destruct H3 as [[_ K]|[(_ & _ & K)|(_ & _ & K)]]; discriminate K|]. split.
      * exists (B "a"). rewrite <- !app_assoc. apply (acc8141 _ p nid nss (Some (B "a")) None None). split; [reflexivity|]. parts8.
      * intros c z t u E. rewrite <- !app_assoc. assert (c = "?"%byte) as -> by (destruct Hh as [->| ->]; injection E as <- _; reflexivity).
        destruct (ref_r_lead (5 + zlen nid + zlen nss + 2) t) as [e' He]. apply (err8141_not _ e'). apply ref8141_err.
        rewrite upto_nss; auto. 2:{ right. eexists "?"%byte, _. split; [reflexivity|]. auto. }
        cbv zeta. change (B "?+" ++ "?"%byte :: t) with ("?"%byte :: "+"%byte :: "?"%byte :: t). cbv beta iota.
        change (is "#" "?"%byte) with false. change (is "+" "+"%byte) with true. cbv beta iota. rewrite He. reflexivity.
  - (* q-component *)
    destruct (rlike_cases (B "?=") q_component x (or_intror eq_refl) (proj2 comp_a) (proj1 H1)) as [[v Hv]|(h & -> & Hh)].
    + apply (Hsimple (p ++ colon ++ nid ++ colon ++ nss ++ opt_part (B "?+") r ++ B "?=" ++ x) y).
      * rewrite <- !app_assoc. reflexivity.
      * intros _. rewrite !zlen_app, (urn_word_len p Hp). change (zlen colon) with 1. change (zlen (B "?=")) with 2. cbn [e_col]. lia.
      * cbn [e_kind]. intros ->. destruct H3 as [[_ K]|[(_ & _ & K)|(_ & _ & K)]]; discriminate K.
      * exists v. rewrite <- !app_assoc. apply (acc8141 _ p nid nss r (Some (x ++ v)) None). unfold urn8141, tail8141. cbn [opt_part opt_ok]. rewrite ?app_nil_r.
        split; [rewrite <- ?app_assoc; reflexivity|]. parts8.
      * intros c z t ->. rewrite <- !app_assoc. eexists. do 4 right; left. exists p, nid, nss, r, x, (c :: t), k. split; [reflexivity|]. do 4 (split; [assumption|]).
        split; [destruct Ho as [Ho|Ho]; [auto|right; eapply at_first; exact Ho]|].
        split; [eapply furthest_head; exact H1|]. split; [|split; [eapply first_of_move; exact H3|reflexivity]].
        eapply unf_move; [|exact H1|exact H2|]; [left; assumption|]. intros w v' _ _. apply stops_first.
    + assert (Hr0 : r = None). { destruct Ho as [Ho|(c & z & E & Hc)]; [exact Ho|]. exfalso. destruct Hh as [->| ->]; injection E as <- _; destruct Hc as [Hc|Hc]; discriminate Hc. }
      subst r. cbn [opt_part app] in *.
      exists (p ++ colon ++ nid ++ colon ++ nss ++ B "?="), h, y. rewrite <- !app_assoc. split; [reflexivity|].
      split; [right; exists (p ++ colon ++ nid ++ colon ++ nss), (B "?="); rewrite <- !app_assoc; auto|].
      cbn [e_kind e_col]. split; [intros _; rewrite !zlen_app, (urn_word_len p Hp); change (zlen colon) with 1; change (zlen (B "?=")) with 2; change (zlen []) with 0; lia|].
      split; [intros ->; destruct H3 as [[_ K]|[(_ & _ & K)|(_ & _ & K)]]; discriminate K|]. split.
      * exists (B "a"). rewrite <- !app_assoc. apply (acc8141 _ p nid nss None (Some (B "a")) None). split; [reflexivity|]. parts8.
      * intros c z t u E. rewrite <- !app_assoc. assert (c = "?"%byte) as -> by (destruct Hh as [->| ->]; injection E as <- _; reflexivity).
        destruct (ref_q_lead (5 + zlen nid + zlen nss + 2) t) as [e' He]. apply (err8141_not _ e'). apply ref8141_err.
        rewrite upto_nss; auto. 2:{ right. eexists "?"%byte, _. split; [reflexivity|]. auto. }
        cbv zeta. change (B "?=" ++ "?"%byte :: t) with ("?"%byte :: "="%byte :: "?"%byte :: t). cbv beta iota.
        change (is "#" "?"%byte) with false. change (is "+" "="%byte) with false. change (is "=" "="%byte) with true. cbv beta iota. rewrite He. reflexivity.
  - (* fragment *)
    apply (Hsimple (s0 ++ "#"%byte :: x) y).
    + rewrite <- app_assoc. reflexivity.
    + intros _. rewrite zlen_app. change ("#"%byte :: x) with (B "#" ++ x). rewrite zlen_app. change (zlen (B "#")) with 1. cbn [e_col]. lia.
    + discriminate.
    + destruct H1 as [(v & Hv) _]. exists v. destruct H0 as (-> & Hp & Hn & Hs & Hr & Hq & _).
      apply (acc8141 _ p nid nss r q (Some (x ++ v))). unfold urn8141, tail8141. cbn [opt_part opt_ok]. rewrite ?app_nil_r, <- ?app_assoc.
      split; [reflexivity|]. parts8.
    + intros c z t ->. rewrite <- app_assoc. eexists. do 5 right. exists s0, p, nid, nss, r, q, x, (c :: t). split; [exact H0|]. split; [reflexivity|].
      split; [eapply furthest_head; exact H1|]. split; [intros [_ K]; discriminate K|]. split; [exact H3|reflexivity].
Qed.
