(* Reference walk of RFC 8141 against the grammar of Spec.v: whole inputs. *)
From Coq Require Import Lia.
From Verif Require Import GoBase MachineSyntax Machine Spec Ref Exec SimBase Sim8141 RefSpec RefSpec8.
Local Open Scope Z_scope.

(* ---- component predicates of Spec.v --------------------------------------------- *)
Lemma r_component_iff w : r_component w <-> escaped alnum frag_char w /\ chead w /\ rok RStart w.
Proof.
  unfold r_component, component, rok, chead, occ, slashed, eqtail. cbn [rctx app].
  change (B "?+") with ["?"%byte; "+"%byte]. change (B "?=") with ["?"%byte; "="%byte]. cbn [app]. tauto.
Qed.
Lemma q_component_iff w : q_component w <-> escaped alnum frag_char w /\ chead w /\ occ "?" "=" slashed w.
Proof.
  unfold q_component, component, chead, occ, slashed.
  change (B "?=") with ["?"%byte; "="%byte]. cbn [app]. tauto.
Qed.

Lemma comp_open w : escaped alnum frag_char w -> chead w -> exists x r, w = x :: r /\ qopen x = true.
Proof.
  intros He (c & r & -> & H1 & H2). exists c, r. split; [reflexivity|]. unfold qopen.
  inversion He; subst; [|reflexivity].
  match goal with H : frag_char c = true |- _ => destruct (frag_inv _ H) as [Hp|[->| ->]] end;
   [rewrite Hp; reflexivity|contradiction H1; reflexivity|contradiction H2; reflexivity].
Qed.

(* ---- prefix shown ------------------------------------------------------------------- *)
Lemma starts_urn_dash_iff nid : starts_urn_dash nid = true <-> urn_dash nid (firstn 3 nid).
Proof.
  unfold urn_dash. split.
  - destruct nid as [|a [|b [|c [|d r]]]]; try discriminate. cbn [starts_urn_dash firstn]. intros H.
    apply andb_prop in H. destruct H as [H Hd]. apply andb_prop in H. destruct H as [H Hc]. apply andb_prop in H. destruct H as [Ha Hb].
    split; [apply urn_word3; exists a, b, c; auto|]. apply is_eq in Hd. subst d. exists r. reflexivity.
  - intros [Hu [r Hr]]. apply urn_word3 in Hu. destruct Hu as (a & b & c & Hw & Ha & Hb & Hc). rewrite Hw in Hr. rewrite Hr.
    cbn [app starts_urn_dash]. rewrite Ha, Hb, Hc. reflexivity.
Qed.
Lemma urn_dash_firstn nid w : urn_dash nid w -> w = firstn 3 nid.
Proof.
  intros [Hu [r Hr]]. apply urn_word3 in Hu. destruct Hu as (a & b & c & -> & _). rewrite Hr. reflexivity.
Qed.
Lemma shown_iff prefix nid out :
  shown_prefix prefix nid out <-> out = (if starts_urn_dash nid then firstn 3 nid else prefix).
Proof.
  unfold shown_prefix. destruct (starts_urn_dash nid) eqn:E.
  - apply starts_urn_dash_iff in E. split.
    + intros [H|[H _]]; [apply urn_dash_firstn; exact H|]. contradiction (H _ E).
    + intros ->. left. exact E.
  - assert (Hno : forall w, ~ urn_dash nid w).
    { intros w H. pose proof (urn_dash_firstn _ _ H) as Hw. subst w. apply starts_urn_dash_iff in H. congruence. }
    split; [intros [H|[_ H]]; [contradiction (Hno _ H)|exact H]|]. intros ->. right. auto.
Qed.

Section M.
Variable mode : Z.

(* ---- fragment failing silently -------------------------------------------------------- *)
Fixpoint lastk (k : epos) (w : bytes) : epos :=
  match w with
  | [] => k
  | c :: r => if is "%" c then match r with _ :: _ :: r' => lastk EHex r' | _ => EPlain end else lastk EPlain r
  end.

Lemma lastk_app w : escaped alnum frag_char w -> forall k v, lastk k (w ++ v) = lastk (lastk k w) v.
Proof.
  induction 1 as [|c w Hc Hw IH|a b w Ha Hb Hw IH]; intros k v; cbn [app lastk].
  - reflexivity.
  - rewrite (frag_not_pct _ Hc). apply IH.
  - rewrite is_refl. apply IH.
Qed.

Lemma lastk_hex w : escaped alnum frag_char w -> forall k, lastk k w = EHex <-> (w = [] /\ k = EHex) \/ exists g a b, w = g ++ ["%"%byte; a; b].
Proof.
  induction 1 as [|c w Hc Hw IH|a b w Ha Hb Hw IH]; intros k; cbn [lastk].
  - split; [intros ->; auto|]. intros [[_ H]|(g & a & b & H)]; [exact H|]. destruct g; discriminate H.
  - rewrite (frag_not_pct _ Hc), IH. split.
    + intros [[_ H]|(g & a & b & ->)]; [discriminate H|]. right. exists (c :: g), a, b. reflexivity.
    + intros [[H _]|(g & a & b & H)]; [discriminate H|]. right. destruct g as [|d g].
      * injection H as -> ->. discriminate Hc.
      * injection H as _ ->. exists g, a, b. reflexivity.
  - rewrite is_refl, IH. split.
    + intros [[-> _]|(g & x & y & ->)]; right; [exists [], a, b; reflexivity|]. exists ("%"%byte :: a :: b :: g), x, y. reflexivity.
    + intros [[H _]|(g & x & y & H)]; [discriminate H|].
      destruct g as [|d [|e [|f g]]].
      * injection H as _ _ ->. left. auto.
      * injection H as _ -> _ _. discriminate Ha.
      * injection H as _ _ -> _. discriminate Hb.
      * injection H as _ _ _ ->. right. exists g, x, y. reflexivity.
Qed.

Definition badfrag (k : epos) (s : bytes) : Prop :=
  exists g c h, s = g ++ c :: h /\ fragment g /\ frag_char c = false /\ c <> "%"%byte /\ lastk k g <> EHex.

Lemma ref_frag_nil n : mode = PRFC8141Only -> forall s, (List.length s <= n)%nat -> forall k pos,
  wp (ref_frag mode k pos s) (fun _ => True) (badfrag k s) (fun _ _ => True).
Proof.
  intros Hm.
  assert (Hx : forall p Q R, wp (hx_or_nil mode p) (fun _ => True) Q R).
  { intros p Q R. unfold hx_or_nil. rewrite Hm. exact I. }
  induction n as [|n IH]; intros s Hn k pos.
  { destruct s; [|cbn in Hn; lia]. exact I. }
  destruct s as [|c s1]; [exact I|].
  cbn [ref_frag List.length] in *.
  destruct (is "%" c) eqn:E.
  - apply is_eq in E. subst c. destruct s1 as [|a [|b s3]]; [apply Hx|destruct (alnum a); apply Hx|].
    destruct (alnum a) eqn:Ha; [|apply Hx]. destruct (alnum b) eqn:Hb; [|apply Hx].
    do 3 apply wp_wcons. eapply wp_mono; [apply (IH s3); cbn [List.length] in Hn; lia|auto| |auto].
    intros (g & c & h & -> & H1 & H2 & H3 & H4). exists ("%"%byte :: a :: b :: g), c, h.
    split; [reflexivity|]. split; [apply esc_pct; auto|]. auto.
  - destruct (frag_char c) eqn:Ef.
    + apply wp_wcons. eapply wp_mono; [apply (IH s1); lia|auto| |auto].
      intros (g & d & h & -> & H1 & H2 & H3 & H4). exists (c :: g), d, h.
      split; [reflexivity|]. split; [apply esc_plain; auto|]. cbn [lastk]. rewrite E. auto.
    + assert (HB : k <> EHex -> badfrag k (c :: s1)).
      { intros Hk. exists [], c, s1. split; [reflexivity|]. split; [apply esc_nil|]. split; [exact Ef|].
        split; [apply is_ne; exact E|exact Hk]. }
      destruct k; [apply HB; discriminate|apply HB; discriminate|apply Hx].
Qed.
Lemma ref_frag_nil_complete g : escaped alnum frag_char g -> forall k pos c h,
  frag_char c = false -> c <> "%"%byte -> lastk k g <> EHex -> ref_frag mode k pos (g ++ c :: h) = WNil.
Proof.
  induction 1 as [|d g Hc Hw IH|a b g Ha Hb Hw IH]; intros k pos c h H1 H2 H3; cbn [app ref_frag].
  - replace (is "%" c) with false by (symmetry; destruct (is "%" c) eqn:E; [apply is_eq in E; contradiction|reflexivity]).
    rewrite H1. cbn [lastk] in H3. destruct k; [reflexivity|reflexivity|contradiction H3; reflexivity].
  - cbn [lastk] in H3. rewrite (frag_not_pct _ Hc) in *. rewrite Hc, IH; auto.
  - cbn [lastk] in H3. rewrite is_refl in *. rewrite Ha, Hb, IH; auto.
Qed.

(* ---- whole inputs ----------------------------------------------------------------------- *)
Definition res8141 (prefix nid nss : bytes) (r q f : option bytes) : pub :=
  mkPub (if starts_urn_dash nid then firstn 3 nid else prefix) nid nss (norm_pct nss) KRFC8141 None
        (opt_val r) (opt_val q) (opt_val f).

Definition lookok (s : bytes) : Prop := mode = PRFC8141Only \/ ~ u_lookahead s.

Lemma ref_q_sound' e0 pos s : wp (ref_q mode e0 QStart pos s) (fun _ => True) False
  (fun w r => s = w ++ r /\ q_component w /\ qstop r).
Proof.
  eapply wp_mono; [apply (ref_q_sound mode e0 (List.length s)); lia|auto|auto|].
  cbn beta. intros w r (-> & H1 & H2 & H3 & H4). split; [reflexivity|]. split; [|exact H4].
  apply q_component_iff. split; [exact H1|]. split; [apply H2; reflexivity|exact H3].
Qed.
Lemma ref_r_sound' pos s : wp (ref_r mode RStart pos s) (fun _ => True) False
  (fun w r => s = w ++ r /\ r_component w /\ rstop r).
Proof.
  eapply wp_mono; [apply (ref_r_sound mode (List.length s)); [lia|exact I]|auto|auto|].
  cbn beta. intros w r (-> & H1 & H2 & H3 & H4). split; [reflexivity|]. split; [|exact H4].
  apply r_component_iff. auto.
Qed.

Theorem ref8141_sound s :
  match ref8141 mode s with
  | OUrn v => exists prefix nid nss r q f,
      urn8141 s prefix nid nss r q f /\ lookok s /\ v = res8141 prefix nid nss r q f
  | OErr _ => True
  | ONil => mode = PRFC8141Only -> silent8141 s
  end.
Proof.
  unfold ref8141. pose proof (ref_prefix_sound s) as H1.
  destruct (ref_prefix s) as [e| |pre rest]; [exact I|destruct H1|]. destruct H1 as (p & -> & Hp & ->).
  pose proof (ref_nid8141_sound mode p rest 4 Hp) as H2.
  destruct (ref_nid8141 mode 4 rest) as [e| |nid rest2]; [exact I|destruct H2|]. destruct H2 as (-> & Hn & Hla).
  pose proof (ref_nss8_sound mode (List.length rest2) rest2 (le_n _) EStart (5 + zlen nid)) as H3.
  destruct (ref_nss8 mode EStart (5 + zlen nid) rest2) as [e| |nss rest3]; [exact I|destruct H3|].
  destruct H3 as (-> & He & Hh & Hst). specialize (Hh eq_refl).
  assert (Hnss : nss8141 nss) by (split; assumption).
  replace (firstn 3 (p ++ colon)) with p.
  2:{ apply urn_word3 in Hp. destruct Hp as (x & y & z & -> & _). reflexivity. }
  (* the final part *)
  assert (Hfin : forall r q pos rest,
    opt_ok r_component r -> opt_ok q_component q -> qstop rest ->
    rest3 = opt_part (B "?+") r ++ opt_part (B "?=") q ++ rest ->
    match
      match ref_tailf mode pos rest with
      | WErr e => OErr e
      | WNil => ONil
      | WGo f _ => OUrn (mkPub (if starts_urn_dash nid then firstn 3 nid else p) nid nss (norm_pct nss) KRFC8141 None (opt_val r) (opt_val q) f)
      end
    with
    | OUrn v => exists prefix nid0 nss0 r q f,
      urn8141 (p ++ colon ++ nid ++ colon ++ nss ++ rest3) prefix nid0 nss0 r q f /\ lookok (p ++ colon ++ nid ++ colon ++ nss ++ rest3) /\ v = res8141 prefix nid0 nss0 r q f
    | OErr _ => True
    | ONil => mode = PRFC8141Only -> silent8141 (p ++ colon ++ nid ++ colon ++ nss ++ rest3)
    end).
  { intros r q pos rest Hr Hq Hs Hrest. destruct Hs as [->|[rest' ->]]; cbn [ref_tailf].
    - exists p, nid, nss, r, q, None. split; [|split; [exact Hla|reflexivity]].
      split; [rewrite Hrest; unfold tail8141; cbn [opt_part]; reflexivity|]. repeat (split; auto).
    - pose proof (ref_frag_sound mode (List.length rest') rest' (le_n _) EStart (pos + 1)) as Hf.
      pose proof (ref_frag_nil (List.length rest')) as Hfn.
      specialize (fun hm => Hfn hm rest' (le_n _) EStart (pos + 1)).
      destruct (ref_frag mode EStart (pos + 1) rest') as [e| |f r']; [exact I| |].
      + intros Hm. specialize (Hfn Hm). destruct Hfn as (g & c & h & -> & Hg & Hc & Hpc & Hlk).
        right. exists (p ++ colon ++ nid ++ colon ++ nss ++ tail8141 r q None), p, nid, nss, r, q, g, c, h.
        split; [split; [reflexivity|repeat (split; auto)]|].
        split; [rewrite Hrest; unfold tail8141; cbn [opt_part]; rewrite <- !app_assoc, ?app_nil_r; reflexivity|].
        split; [exact Hg|]. split; [exact Hc|]. split; [exact Hpc|].
        intros g' a b Hgg. apply Hlk. apply (lastk_hex g Hg). right. eauto.
      + destruct Hf as (-> & -> & Hf). exists p, nid, nss, r, q, (Some f). split; [|split; [exact Hla|reflexivity]].
        split; [rewrite Hrest; unfold tail8141; cbn [opt_part]; reflexivity|]. repeat (split; auto). }
  assert (Hq : forall e0 r pos rest,
    opt_ok r_component r -> rest3 = opt_part (B "?+") r ++ B "?=" ++ rest ->
    match
      match ref_q mode e0 QStart pos rest with
      | WErr e => OErr e
      | WNil => ONil
      | WGo q rest => 
        match ref_tailf mode (pos + zlen q) rest with
        | WErr e => OErr e
        | WNil => ONil
        | WGo f _ => OUrn (mkPub (if starts_urn_dash nid then firstn 3 nid else p) nid nss (norm_pct nss) KRFC8141 None (opt_val r) q f)
        end
      end
    with
    | OUrn v => exists prefix nid0 nss0 r q f,
      urn8141 (p ++ colon ++ nid ++ colon ++ nss ++ rest3) prefix nid0 nss0 r q f /\ lookok (p ++ colon ++ nid ++ colon ++ nss ++ rest3) /\ v = res8141 prefix nid0 nss0 r q f
    | OErr _ => True
    | ONil => mode = PRFC8141Only -> silent8141 (p ++ colon ++ nid ++ colon ++ nss ++ rest3)
    end).
  { intros e0 r pos rest Hr Hrest. pose proof (ref_q_sound' e0 pos rest) as Hqs.
    destruct (ref_q mode e0 QStart pos rest) as [e| |q rest']; [exact I|destruct Hqs|]. destruct Hqs as (-> & Hqc & Hqst).
    apply (Hfin r (Some q) (pos + zlen q) rest'); auto. }
  assert (Hsil : forall t, rest3 = "?"%byte :: t -> (forall c r, t = c :: r -> c <> "+"%byte /\ c <> "="%byte) ->
     silent8141 (p ++ colon ++ nid ++ colon ++ nss ++ rest3)).
  { intros t -> Ht. left. exists p, nid, nss, t. auto. }
  destruct rest3 as [|c rest1].
  { apply (Hfin None None _ []); cbn; auto. left; reflexivity. }
  destruct (is "#" c) eqn:Eh.
  { apply is_eq in Eh. subst c. apply (Hfin None None _ ("#"%byte :: rest1)); cbn; auto. right; eauto. }
  destruct Hst as [Hst|[[r' Hst]|[r' Hst]]]; [discriminate Hst| |injection Hst as -> _; discriminate Eh].
  injection Hst as -> <-.
  destruct rest1 as [|d rest2].
  { intros _. apply (Hsil []); [reflexivity|]. discriminate. }
  destruct (is "+" d) eqn:Ep.
  - apply is_eq in Ep. subst d.
    pose proof (ref_r_sound' (5 + zlen nid + zlen nss + 2) rest2) as Hr.
    destruct (ref_r mode RStart (5 + zlen nid + zlen nss + 2) rest2) as [e| |r rest3]; [exact I|destruct Hr|].
    destruct Hr as (-> & Hrc & [[->|[t ->]]|(x & t & -> & Hx)]).
    + apply (Hfin (Some r) None _ []); cbn; auto. left; reflexivity.
    + assert (HF := fun pos => Hfin (Some r) None pos ("#"%byte :: t)).
      destruct t as [|y t]; (apply HF; cbn; auto; right; eauto).
    + cbn [is]. apply (Hq _ (Some r)); cbn; auto.
  - destruct (is "=" d) eqn:Ee.
    + apply is_eq in Ee. subst d. apply (Hq _ None); cbn; auto.
    + intros _. apply (Hsil (d :: rest2)); [reflexivity|]. intros c r Hc. injection Hc as <- <-. split; apply is_ne; assumption.
Qed.

Lemma ref_q_complete' e0 pos q rest : q_component q -> qstop rest -> ref_q mode e0 QStart pos (q ++ rest) = WGo q rest.
Proof.
  intros H Hs. apply q_component_iff in H. destruct H as (H1 & H2 & H3).
  apply ref_q_complete; auto.
Qed.
Lemma ref_r_complete' pos r rest : r_component r -> rstop rest -> ref_r mode RStart pos (r ++ rest) = WGo r rest.
Proof.
  intros H Hs. apply r_component_iff in H. destruct H as (H1 & H2 & H3).
  apply ref_r_complete; auto.
Qed.

(* up to the fragment *)
Lemma ref8141_upto prefix nid nss r q rest :
  let s := prefix ++ colon ++ nid ++ colon ++ nss ++ opt_part (B "?+") r ++ opt_part (B "?=") q ++ rest in
  urn_word prefix -> nid8141 nid -> nss8141 nss -> opt_ok r_component r -> opt_ok q_component q -> qstop rest ->
  lookok s ->
  exists pos, ref8141 mode s =
    match ref_tailf mode pos rest with
    | WErr e => OErr e
    | WNil => ONil
    | WGo f _ => OUrn (mkPub (if starts_urn_dash nid then firstn 3 nid else prefix) nid nss (norm_pct nss) KRFC8141 None (opt_val r) (opt_val q) f)
    end.
Proof.
  intros s Hp Hn [He Hh] Hr Hq Hs Hla. subst s. unfold ref8141.
  rewrite ref_prefix_complete by exact Hp. rewrite (ref_nid8141_complete mode prefix) by auto.
  rewrite ref_nss8_complete; [|exact He|auto|].
  2:{ destruct r as [r|]; [right; left; eexists; reflexivity|]. destruct q as [q|]; [right; left; eexists; reflexivity|].
      cbn [opt_part app]. destruct Hs as [->|[t ->]]; [left; reflexivity|right; right; eauto]. }
  replace (firstn 3 (prefix ++ colon)) with prefix.
  2:{ apply urn_word3 in Hp. destruct Hp as (x & y & z & -> & _). reflexivity. }
  destruct r as [r|]; cbn [opt_part opt_val opt_ok] in *.
  - change (B "?+") with ["?"%byte; "+"%byte]. cbn [app]. cbn [is Byte.eqb]. cbn match.
    destruct q as [q|]; cbn [opt_part opt_val opt_ok] in *.
    + rewrite ref_r_complete'; [|exact Hr|].
      2:{ right. pose proof Hq as Hq'. apply q_component_iff in Hq'. destruct Hq' as (H1 & H2 & _).
          destruct (comp_open q H1 H2) as (x & t & -> & Hx). exists x, (t ++ rest). split; [reflexivity|exact Hx]. }
      change (B "?=") with ["?"%byte; "="%byte]. cbn [app is Byte.eqb]. cbn match. cbn -[Z.add zlen].
      rewrite ref_q_complete' by auto. eexists. reflexivity.
    + cbn [app]. rewrite ref_r_complete'; [|exact Hr|left; exact Hs].
      destruct Hs as [->|[t ->]]; [exists 0; reflexivity|]. eexists; destruct t; reflexivity.
  - cbn [app]. destruct q as [q|]; cbn [opt_part opt_val opt_ok] in *.
    + change (B "?=") with ["?"%byte; "="%byte]. cbn [app]. cbn [is Byte.eqb]. cbn match. cbn -[Z.add zlen].
      rewrite ref_q_complete' by auto. eexists. reflexivity.
    + cbn [app]. destruct Hs as [->|[t ->]]; [exists 0; reflexivity|]. eexists; reflexivity.
Qed.

Theorem ref8141_complete s prefix nid nss r q f :
  urn8141 s prefix nid nss r q f -> lookok s -> ref8141 mode s = OUrn (res8141 prefix nid nss r q f).
Proof.
  intros (-> & Hp & Hn & Hnss & Hr & Hq & Hf) Hla. unfold tail8141 in *.
  destruct (ref8141_upto prefix nid nss r q (opt_part (B "#") f)) as [pos H]; auto.
  { destruct f; [right; eexists; reflexivity|left; reflexivity]. }
  rewrite H. destruct f as [f|]; cbn [opt_part ref_tailf].
  - change (B "#" ++ f) with ("#"%byte :: f). cbn [ref_tailf]. rewrite (ref_frag_complete mode f Hf). reflexivity.
  - reflexivity.
Qed.

Theorem ref8141_silent s : mode = PRFC8141Only -> silent8141 s -> ref8141 mode s = ONil.
Proof.
  intros Hm [(prefix & nid & nss & t & -> & Hp & Hn & [He Hh] & Ht)|
             (s0 & prefix & nid & nss & r & q & g & c & h & (-> & Hp & Hn & Hnss & Hr & Hq & _) & -> & Hg & Hc & Hpc & Hend)].
  - unfold ref8141. rewrite ref_prefix_complete by exact Hp.
    rewrite (ref_nid8141_complete mode prefix) by auto.
    rewrite ref_nss8_complete; [|exact He|auto|right; left; eauto]. cbn.
    destruct t as [|d t]; [reflexivity|]. destruct (Ht _ _ eq_refl) as [H1 H2].
    destruct (is "+" d) eqn:E1; [apply is_eq in E1; contradiction|].
    destruct (is "=" d) eqn:E2; [apply is_eq in E2; contradiction|]. reflexivity.
  - unfold tail8141. cbn [opt_part]. rewrite app_nil_r.
    destruct (ref8141_upto prefix nid nss r q ("#"%byte :: g ++ c :: h)) as [pos H]; auto.
    { right; eauto. }
    { left; exact Hm. }
    rewrite <- !app_assoc. rewrite H. cbn [ref_tailf]. rewrite ref_frag_nil_complete; auto.
    intros HH. apply (lastk_hex g Hg) in HH. destruct HH as [[_ HH]|(g' & a & b & HH)]; [discriminate HH|].
    apply (Hend _ _ _ HH).
Qed.
End M.
