(* Parsing modes outside the three: the machine keeps the entry point of the last of the
   three that was set, but the mode tests of its actions (err_hex, the look-ahead) see a
   mode they do not know. *)
From Coq Require Import Lia.
From Verif Require Import GoBase MachineSyntax MachineTables Machine Urn Spec SpecErr SpecErr8 Ref Exec SimBase RefSpec RefSpec8 RefSpec8b ParseThm Api
  PropsA PropsB PropsErr PropsErr8 PropsErr8b PropsErr8c SpecOdd.
Local Open Scope Z_scope.
Local Open Scope list_scope.

(* ---- replacing percent-escape errors in a walk ---------------------------------------- *)
Definition sh (f : Z -> walk) (w : walk) : walk :=
  match w with
  | WErr e => match e_kind e with ErrHex => f (e_col e) | _ => w end
  | _ => w
  end.
Definition errs_only (f : Z -> walk) : Prop := forall p c, wcons c (f p) = f p.

Lemma sh_wcons f c w : errs_only f -> sh f (wcons c w) = wcons c (sh f w).
Proof. intros H. destruct w as [[[] p]| |]; cbn; try rewrite H; reflexivity. Qed.
Lemma eo_err k : errs_only (fun p => WErr (mkErr k p)).
Proof. intros p c. reflexivity. Qed.
Lemma eo_nil : errs_only (fun _ => WNil).
Proof. intros p c. reflexivity. Qed.

Section Odd.
Variable o : Z.
Hypothesis Ho : (o =? PRFC2141Only) || (o =? PRFC8141Only) = false.
Lemma hx_odd e : hx o e = e.
Proof. unfold hx. rewrite Ho. reflexivity. Qed.

Ltac split_s n Hn s := destruct s as [|? s]; [cbn; auto|cbn [List.length] in Hn].

Lemma nss_sh n : forall s, (List.length s <= n)%nat -> forall eS k pos, eS <> ErrHex ->
  ref_nss eS eS (mkErr eS) (mkErr eS) k pos s =
  sh (fun p => WErr (mkErr eS p)) (ref_nss eS ErrHex (mkErr eS) (mkErr ErrHex) k pos s).
Proof.
  induction n as [|n IH]; intros s Hn eS k pos He.
  { destruct s; [|cbn in Hn; lia]. destruct k; cbn; destruct eS; try reflexivity; contradiction. }
  assert (K : forall p, sh (fun p => WErr (mkErr eS p)) (WErr (mkErr eS p)) = WErr (mkErr eS p)).
  { intros p. cbn. destruct eS; reflexivity. }
  destruct s as [|c s1]; [destruct k; cbn [ref_nss]; rewrite ?K; reflexivity|].
  cbn [ref_nss List.length] in *. destruct (is "%" c).
  - destruct s1 as [|a s2]; [reflexivity|]. destruct (alnum a); [|reflexivity].
    destruct s2 as [|b s3]; [reflexivity|]. destruct (alnum b); [|reflexivity].
    rewrite !sh_wcons by apply eo_err. rewrite <- IH; auto. cbn [List.length] in Hn. lia.
  - destruct (sss c); [|destruct k; rewrite ?K; reflexivity].
    rewrite !sh_wcons by apply eo_err. rewrite <- IH; auto. lia.
Qed.

Lemma nss8_sh n : forall s, (List.length s <= n)%nat -> forall k pos,
  ref_nss8 o k pos s = sh (fun p => WErr (mkErr Err8141SpecificString p)) (ref_nss8 PRFC8141Only k pos s).
Proof.
  induction n as [|n IH]; intros s Hn k pos.
  { destruct s; [|cbn in Hn; lia]. destruct k; reflexivity. }
  destruct s as [|c s1]; [destruct k; reflexivity|].
  cbn [ref_nss8 List.length] in *. rewrite hx_odd. destruct (is "%" c).
  - destruct s1 as [|a s2]; [reflexivity|]. destruct (alnum a); [|reflexivity].
    destruct s2 as [|b s3]; [reflexivity|]. destruct (alnum b); [|reflexivity].
    rewrite !sh_wcons by apply eo_err. rewrite <- IH; auto. cbn [List.length] in Hn. lia.
  - destruct (pchar c); [rewrite !sh_wcons by apply eo_err; rewrite <- IH; auto; lia|].
    destruct k; [reflexivity| |]; (destruct (is "/" c); [rewrite !sh_wcons by apply eo_err; rewrite <- IH; auto; lia|]);
      destruct (is "?" c || is "#" c); reflexivity.
Qed.

Lemma frag_sh n : forall s, (List.length s <= n)%nat -> forall k pos,
  ref_frag o k pos s = sh (fun _ => WNil) (ref_frag PRFC8141Only k pos s).
Proof.
  assert (E : forall p, hx_or_nil o p = WNil) by (intros; unfold hx_or_nil; rewrite Ho; reflexivity).
  induction n as [|n IH]; intros s Hn k pos.
  { destruct s; [|cbn in Hn; lia]. destruct k; reflexivity. }
  destruct s as [|c s1]; [destruct k; reflexivity|].
  cbn [ref_frag List.length] in *. rewrite ?E. destruct (is "%" c).
  - destruct s1 as [|a s2]; [reflexivity|]. destruct (alnum a); [|reflexivity].
    destruct s2 as [|b s3]; [reflexivity|]. destruct (alnum b); [|reflexivity].
    rewrite !sh_wcons by apply eo_nil. rewrite <- IH; auto. cbn [List.length] in Hn. lia.
  - destruct (frag_char c); [rewrite !sh_wcons by apply eo_nil; rewrite <- IH; auto; lia|].
    destruct k; reflexivity.
Qed.

Lemma r_sh n : forall s, (List.length s <= n)%nat -> forall k pos,
  ref_r o k pos s = sh (fun p => WErr (mkErr Err8141MalformedRComp p)) (ref_r PRFC8141Only k pos s).
Proof.
  induction n as [|n IH]; intros s Hn k pos.
  { destruct s; [|cbn in Hn; lia]. destruct k; reflexivity. }
  destruct s as [|c s1]; [destruct k; reflexivity|].
  cbn [ref_r List.length] in *. rewrite hx_odd.
  assert (W : forall k p, wcons c (ref_r o k p s1) = sh (fun p => WErr (mkErr Err8141MalformedRComp p)) (wcons c (ref_r PRFC8141Only k p s1))).
  { intros k' p. rewrite sh_wcons by apply eo_err. rewrite <- IH; [reflexivity|lia]. }
  assert (T : forall p, match s1 with
     | d :: x :: _ => if is "=" d && (pchar x || is "%" x) then WGo [] (c :: s1) else wcons c (ref_r o RQ p s1)
     | _ => wcons c (ref_r o RQ p s1) end =
     sh (fun p => WErr (mkErr Err8141MalformedRComp p)) match s1 with
     | d :: x :: _ => if is "=" d && (pchar x || is "%" x) then WGo [] (c :: s1) else wcons c (ref_r PRFC8141Only RQ p s1)
     | _ => wcons c (ref_r PRFC8141Only RQ p s1) end).
  { intros p. destruct s1 as [|d [|x t]]; try apply W. destruct (is "=" d && (pchar x || is "%" x)); [reflexivity|apply W]. }
  destruct (is "%" c).
  - assert (P : match s1 with
      | [] => WErr (mkErr Err8141MalformedRComp (pos + 1))
      | a :: s2 => if alnum a then match s2 with
          | [] => WErr (mkErr Err8141MalformedRComp (pos + 2))
          | b :: s3 => if alnum b then wcons c (wcons a (wcons b (ref_r o RHex (pos + 3) s3)))
                       else WErr (mkErr Err8141MalformedRComp (pos + 2)) end
          else WErr (mkErr Err8141MalformedRComp (pos + 1)) end =
      sh (fun p => WErr (mkErr Err8141MalformedRComp p)) match s1 with
      | [] => WErr (mkErr ErrHex (pos + 1))
      | a :: s2 => if alnum a then match s2 with
          | [] => WErr (mkErr ErrHex (pos + 2))
          | b :: s3 => if alnum b then wcons c (wcons a (wcons b (ref_r PRFC8141Only RHex (pos + 3) s3)))
                       else WErr (mkErr ErrHex (pos + 2)) end
          else WErr (mkErr ErrHex (pos + 1)) end).
    { destruct s1 as [|a s2]; [reflexivity|]. destruct (alnum a); [|reflexivity].
      destruct s2 as [|b s3]; [reflexivity|]. destruct (alnum b); [|reflexivity].
      rewrite !sh_wcons by apply eo_err. rewrite <- IH; auto. cbn [List.length] in Hn. lia. }
    destruct k; first [exact P|reflexivity].
  - clear IH. destruct k.
    + destruct (pchar c); [apply W|]. destruct (is "?" c); [|reflexivity].
      destruct s1 as [|d [|x t]]; try reflexivity; destruct (is "+" d); try reflexivity. destruct (pchar x || one_of "%?#" x); reflexivity.
    + destruct (is "#" c); [reflexivity|]. destruct (is "?" c); [apply T|]. destruct (pchar_slash c); [apply W|reflexivity].
    + destruct (is "#" c); [reflexivity|]. destruct (is "?" c); [apply T|]. destruct (pchar_slash c); [apply W|reflexivity].
    + destruct (is "#" c); [reflexivity|]. destruct (is "+" c); [apply W|]. destruct (is "=" c); [apply W|].
      destruct (is "?" c); [apply T|]. destruct (pchar_slash c); [apply W|reflexivity].
    + destruct (is "/" c); [apply W|]. destruct (pchar c || is "?" c || is "#" c); reflexivity.
    + destruct (is "#" c); [reflexivity|]. destruct (is "?" c); [apply T|]. destruct (pchar_slash c); [apply W|reflexivity].
Qed.

Lemma q_sh n : forall s, (List.length s <= n)%nat -> forall e0 e0' k pos, k <> QStart ->
  ref_q o e0 k pos s = sh (fun p => WErr (mkErr Err8141MalformedQComp p)) (ref_q PRFC8141Only e0' k pos s).
Proof.
  induction n as [|n IH]; intros s Hn e0 e0' k pos Hk.
  { destruct s; [|cbn in Hn; lia]. destruct k; first [reflexivity|contradiction]. }
  destruct s as [|c s1]; [destruct k; first [reflexivity|contradiction]|].
  cbn [ref_q List.length] in *. rewrite hx_odd.
  assert (W : forall k p, k <> QStart -> wcons c (ref_q o e0 k p s1) = sh (fun p => WErr (mkErr Err8141MalformedQComp p)) (wcons c (ref_q PRFC8141Only e0' k p s1))).
  { intros k' p Hk'. rewrite sh_wcons by apply eo_err. rewrite (IH s1 ltac:(lia) e0 e0' k' p Hk'). reflexivity. }
  assert (P : match s1 with
      | [] => WErr (mkErr Err8141MalformedQComp (pos + 1))
      | a :: s2 => if alnum a then match s2 with
          | [] => WErr (mkErr Err8141MalformedQComp (pos + 2))
          | b :: s3 => if alnum b then wcons c (wcons a (wcons b (ref_q o e0 QHex (pos + 3) s3)))
                       else WErr (mkErr Err8141MalformedQComp (pos + 2)) end
          else WErr (mkErr Err8141MalformedQComp (pos + 1)) end =
      sh (fun p => WErr (mkErr Err8141MalformedQComp p)) match s1 with
      | [] => WErr (mkErr ErrHex (pos + 1))
      | a :: s2 => if alnum a then match s2 with
          | [] => WErr (mkErr ErrHex (pos + 2))
          | b :: s3 => if alnum b then wcons c (wcons a (wcons b (ref_q PRFC8141Only e0' QHex (pos + 3) s3)))
                       else WErr (mkErr ErrHex (pos + 2)) end
          else WErr (mkErr ErrHex (pos + 1)) end).
  { destruct s1 as [|a s2]; [reflexivity|]. destruct (alnum a); [|reflexivity].
    destruct s2 as [|b s3]; [reflexivity|]. destruct (alnum b); [|reflexivity].
    cbn [List.length] in Hn. rewrite !sh_wcons by apply eo_err. rewrite (IH s3 ltac:(lia) e0 e0' QHex) by discriminate. reflexivity. }
  destruct k; [contradiction| | | |]; destruct (is "%" c); first [exact P|idtac].
  all: first [reflexivity|idtac].
  - destruct (is "#" c); [reflexivity|]. destruct (is "?" c); [apply W; discriminate|]. destruct (pchar_slash c); [apply W; discriminate|reflexivity].
  - destruct (is "#" c); [reflexivity|]. destruct (is "?" c); [apply W; discriminate|]. destruct (pchar_slash c); [apply W; discriminate|reflexivity].
  - destruct (is "#" c); [reflexivity|]. destruct (is "=" c); [apply W; discriminate|].
    destruct (is "?" c); [apply W; discriminate|]. destruct (pchar_slash c); [apply W; discriminate|reflexivity].
  - destruct (is "/" c); [apply W; discriminate|]. destruct (pchar c || is "?" c || is "#" c); reflexivity.
Qed.

(* at the start of a q-component: e0 for its first escape *)
Definition first_esc (pos : Z) (s : bytes) (p : Z) : bool := match s with c :: _ => is "%" c && (p <=? pos + 2) | [] => false end.
Lemma q_hex_ge n : forall s, (List.length s <= n)%nat -> forall e0 k pos p,
  k <> QStart -> ref_q PRFC8141Only e0 k pos s = WErr (mkErr ErrHex p) -> pos <= p.
Proof.
  induction n as [|n IH]; intros s Hn e0 k pos p Hk H.
  { destruct s; [|cbn in Hn; lia]. destruct k; try discriminate H; contradiction. }
  destruct s as [|c s1]; [destruct k; try discriminate H; contradiction|].
  cbn [List.length] in Hn.
  assert (W : forall k p', k <> QStart -> wcons c (ref_q PRFC8141Only e0 k p' s1) = WErr (mkErr ErrHex p) -> p' <= p).
  { intros k' p' Hk' K. apply (IH s1 ltac:(lia) e0 k'); [exact Hk'|]. destruct (ref_q PRFC8141Only e0 k' p' s1); cbn in K; congruence. }
  assert (P : match s1 with
      | [] => WErr (mkErr ErrHex (pos + 1))
      | a :: s2 => if alnum a then match s2 with
          | [] => WErr (mkErr ErrHex (pos + 2))
          | b :: s3 => if alnum b then wcons c (wcons a (wcons b (ref_q PRFC8141Only e0 QHex (pos + 3) s3)))
                       else WErr (mkErr ErrHex (pos + 2)) end
          else WErr (mkErr ErrHex (pos + 1)) end = WErr (mkErr ErrHex p) -> pos <= p).
  { intros K. destruct s1 as [|a s2]; [injection K as <-; lia|]. destruct (alnum a); [|injection K as <-; lia].
    destruct s2 as [|b s3]; [injection K as <-; lia|]. destruct (alnum b); [|injection K as <-; lia].
    cbn [List.length] in Hn. assert (pos + 3 <= p); [|lia]. apply (IH s3 ltac:(lia) e0 QHex); [discriminate|].
    destruct (ref_q PRFC8141Only e0 QHex (pos + 3) s3); cbn in K; congruence. }
  cbn [ref_q] in H. destruct (is "%" c).
  { destruct k; [contradiction| | | |discriminate H]; exact (P H). }
  assert (Wp : forall k', k' <> QStart -> wcons c (ref_q PRFC8141Only e0 k' (pos + 1) s1) = WErr (mkErr ErrHex p) -> pos <= p).
  { intros k' Hk' K. specialize (W k' (pos + 1) Hk' K). lia. }
  destruct k; [contradiction| | | |].
  - destruct (is "#" c); [discriminate H|]. destruct (is "?" c); [apply (Wp QQ); [discriminate|exact H]|].
    destruct (pchar_slash c); [apply (Wp QPlain); [discriminate|exact H]|discriminate H].
  - destruct (is "#" c); [discriminate H|]. destruct (is "?" c); [apply (Wp QQ); [discriminate|exact H]|].
    destruct (pchar_slash c); [apply (Wp QPlain); [discriminate|exact H]|injection H as <-; lia].
  - destruct (is "#" c); [discriminate H|]. destruct (is "=" c); [apply (Wp QQEq); [discriminate|exact H]|].
    destruct (is "?" c); [apply (Wp QQ); [discriminate|exact H]|].
    destruct (pchar_slash c); [apply (Wp QPlain); [discriminate|exact H]|discriminate H].
  - destruct (is "/" c); [apply (Wp QPlain); [discriminate|exact H]|]. destruct (pchar c || is "?" c || is "#" c); discriminate H.
Qed.

Lemma sh_ext f g w : (forall p, w = WErr (mkErr ErrHex p) -> f p = g p) -> sh f w = sh g w.
Proof. intros H. destruct w as [[[] p]| |]; cbn; auto. Qed.

Lemma q_sh_start e0 pos s :
  ref_q o e0 QStart pos s =
  sh (fun p => WErr (mkErr (if first_esc pos s p then e0 else Err8141MalformedQComp) p)) (ref_q PRFC8141Only ErrHex QStart pos s).
Proof.
  destruct s as [|c s1]; [reflexivity|]. cbn [ref_q first_esc]. destruct (is "%" c) eqn:Ec.
  - cbn [andb]. destruct s1 as [|a s2]; [cbn [sh e_kind e_col]; rewrite (proj2 (Z.leb_le (pos + 1) (pos + 2))) by lia; reflexivity|].
    destruct (alnum a); [|cbn [sh e_kind e_col]; rewrite (proj2 (Z.leb_le (pos + 1) (pos + 2))) by lia; reflexivity].
    destruct s2 as [|b s3]; [cbn [sh e_kind e_col]; rewrite (proj2 (Z.leb_le (pos + 2) (pos + 2))) by lia; reflexivity|].
    destruct (alnum b); [|cbn [sh e_kind e_col]; rewrite (proj2 (Z.leb_le (pos + 2) (pos + 2))) by lia; reflexivity].
    rewrite !sh_wcons by (intros ? ?; reflexivity). do 3 f_equal. rewrite (q_sh (List.length s3) s3 (le_n _) e0 ErrHex) by discriminate.
    apply sh_ext. intros p K. assert (K' := q_hex_ge (List.length s3) s3 (le_n _) ErrHex QHex (pos + 3) p ltac:(discriminate) K).
    rewrite (proj2 (Z.leb_gt p (pos + 2))) by lia. reflexivity.
  - cbn [andb]. destruct (pchar c).
    + rewrite sh_wcons by (intros ? ?; reflexivity). f_equal. apply (q_sh (List.length s1)); [lia|discriminate].
    + destruct (is "?" c); [|reflexivity]. destruct s1 as [|d [|x t]]; try reflexivity; destruct (is "=" d); try reflexivity.
      destruct (pchar x || one_of "%?#" x); reflexivity.
Qed.

(* ---- what the text before an error contains ------------------------------------------------ *)
Lemma escaped_chars esc cls w : escaped esc cls w -> forall c, In c w -> cls c = true \/ c = "%"%byte \/ esc c = true.
Proof.
  induction 1 as [|d w Hd _ IH|a b w Ha Hb _ IH]; intros c Hc; [contradiction| |].
  - destruct Hc as [<-|Hc]; auto.
  - destruct Hc as [<-|[<-|[<-|Hc]]]; auto.
Qed.
Lemma pre_plain p : urn_word p -> forall c, In c p -> alnum c = false -> False.
Proof.
  intros Hp c K Hc. apply urn_word3 in Hp. destruct Hp as (a & b & d & -> & Ha & Hb & Hd). unfold isl in *.
  apply beq_eq in Ha, Hb, Hd. destruct K as [K|[K|[K|[]]]]; subst c; [destruct a|destruct b|destruct d]; discriminate.
Qed.
Lemma nss_plain x : extends nss8141 x -> ~ In "?"%byte x /\ ~ In "#"%byte x.
Proof.
  intros [v [H _]]. split; intros K; destruct (escaped_chars _ _ _ H _ (in_or_app _ v _ (or_introl K))) as [E|[E|E]]; discriminate E.
Qed.
Lemma comp_nohash x : extends component x -> ~ In "#"%byte x.
Proof.
  intros [v [H _]] K. destruct (escaped_chars _ _ _ H _ (in_or_app _ v _ (or_introl K))) as [E|[E|E]]; discriminate E.
Qed.
Lemma in_esc_pct x : in_esc x -> In "%"%byte x.
Proof. intros (w & t & -> & _). apply in_or_app. right. left. reflexivity. Qed.
Lemma ext_word P b x : extends (fun w => P w \/ w = ["?"%byte; b]) x -> in_esc x -> b <> "%"%byte -> extends P x.
Proof.
  intros [v [H|H]] He Hb; [exists v; exact H|]. exfalso. apply in_esc_pct in He.
  assert (K : In "%"%byte ["?"%byte; b]) by (rewrite <- H; apply in_or_app; auto).
  destruct K as [K|[K|[]]]; [discriminate K|]. congruence.
Qed.

Definition oout (eo : option perr) : pout := match eo with Some e => OErr e | None => ONil end.
Definition rel (s : bytes) (a b : pout) : Prop :=
  match a with
  | OErr e => exists eo, replaced s e eo /\ b = oout eo
  | _ => b = a
  end.

Lemma rel_sh s e f k : e_kind e <> ErrHex -> rel s (OErr e) match sh f (WErr e) with WErr e => OErr e | WNil => ONil | WGo w r => k w r end.
Proof. intros H. cbn. destruct e as [[] p]; cbn in *; try contradiction; (eexists (Some _); split; [left; split; [discriminate|reflexivity]|reflexivity]). Qed.
Lemma rel_keep s e : e_kind e <> ErrHex -> rel s (OErr e) (OErr e).
Proof. intros H. exists (Some e). split; [left; auto|reflexivity]. Qed.
Lemma rel_hex s x y p k : s = x ++ y -> p = zlen x -> instead x k ->
  rel s (OErr (mkErr ErrHex p)) (oout match k with Some k => Some (mkErr k p) | None => None end).
Proof. intros E -> Hk. eexists. split; [right; split; [reflexivity|]; exists x, y, k; auto|reflexivity]. Qed.

Lemma hex_kind A Bp k1 k2 k : first_of A Bp ErrHex k1 k2 k -> k1 <> ErrHex -> k2 <> ErrHex -> k = ErrHex -> A.
Proof. unfold first_of. intuition congruence. Qed.

(* the fragment *)
Lemma tail_rel s x0 rest fin : s = x0 ++ rest -> qstop rest ->
  rel s match ref_tailf PRFC8141Only (zlen x0) rest with WErr e => OErr e | WNil => ONil | WGo f _ => OUrn (fin f) end
        match ref_tailf o (zlen x0) rest with WErr e => OErr e | WNil => ONil | WGo f _ => OUrn (fin f) end.
Proof.
  intros E [->|[t ->]]; [reflexivity|]. cbn [ref_tailf]. rewrite (frag_sh (List.length t) t (le_n _)).
  pose proof (frag8_iff (zlen x0 + 1) t) as H.
  destruct (ref_frag PRFC8141Only EStart (zlen x0 + 1) t) as [e| |f r]; [|reflexivity|reflexivity].
  destruct (proj1 (H e) eq_refl) as (x & y & -> & _ & _ & _ & ->). cbn [sh e_kind e_col].
  apply (rel_hex s (x0 ++ "#"%byte :: x) y _ None).
  - rewrite E, <- app_assoc. reflexivity.
  - rewrite zlen_app, zlen_cons. lia.
  - left. split; [apply in_or_app; right; left; reflexivity|reflexivity].
Qed.

(* a text whose first mark is "?+" *)
Lemma not_q_only a r : ~ In "?"%byte a -> ~ q_only (a ++ B "?+" ++ r).
Proof.
  intros Ha (a' & b' & E' & Ha').
  assert (K : a = a').
  { clear - E' Ha Ha'. revert a' E' Ha'. induction a as [|z a IH]; intros [|z' a'] E' Ha'; [reflexivity| | |].
    - exfalso. apply Ha'. injection E' as <- _. left; reflexivity.
    - exfalso. apply Ha. injection E' as -> _. left; reflexivity.
    - injection E' as -> E'. f_equal. apply IH; [intros K; apply Ha; right; exact K|exact E'|intros K; apply Ha'; right; exact K]. }
  subst a'. apply app_inv_head in E'. discriminate E'.
Qed.
Lemma beyond a r a' b' : ~ In "?"%byte a -> a ++ B "?+" ++ r = a' ++ B "?=" ++ b' -> exists a2, r = a2 ++ B "?=" ++ b'.
Proof.
  intros Ha. revert a'. induction a as [|z a IH]; intros a' E'.
  - destruct a' as [|z1 [|z2 a']]; [discriminate E'|injection E' as <- E'; discriminate E'|].
    injection E' as <- <- E'. exists a'. exact E'.
  - destruct a' as [|z1 a'].
    + exfalso. apply Ha. injection E' as -> _. left; reflexivity.
    + injection E' as <- E'. apply (IH ltac:(intros K; apply Ha; right; exact K) a' E').
Qed.

(* the q-component; x0 is what comes before its "?=" *)
Lemma q_rel s x0 rest e0 fin : s = x0 ++ B "?=" ++ rest -> ~ In "#"%byte x0 ->
  ((~ In "?"%byte x0 /\ e0 = Err8141MalformedQComp) \/
   (exists a r, x0 = a ++ B "?+" ++ r /\ ~ In "?"%byte a /\ r_component r /\ e0 = Err8141MalformedRComp)) ->
  rel s
    match ref_q PRFC8141Only ErrHex QStart (zlen x0 + 2) rest with
    | WErr e => OErr e | WNil => ONil
    | WGo q rest => match ref_tailf PRFC8141Only (zlen x0 + 2 + zlen q) rest with WErr e => OErr e | WNil => ONil | WGo f _ => OUrn (fin q f) end
    end
    match ref_q o e0 QStart (zlen x0 + 2) rest with
    | WErr e => OErr e | WNil => ONil
    | WGo q rest => match ref_tailf o (zlen x0 + 2 + zlen q) rest with WErr e => OErr e | WNil => ONil | WGo f _ => OUrn (fin q f) end
    end.
Proof.
  intros E Hh Hx0. rewrite (q_sh_start e0). pose proof (q_iff ErrHex (zlen x0 + 2) rest) as H.
  pose proof (ref_q_sound' PRFC8141Only ErrHex (zlen x0 + 2) rest) as Hs.
  destruct (ref_q PRFC8141Only ErrHex QStart (zlen x0 + 2) rest) as [e| |q rest2]; [|reflexivity|].
  - destruct (proj1 (H e eq_refl) eq_refl) as (x & y & k & -> & H1 & _ & H3 & ->).
    destruct (e_kind (mkErr k (zlen x0 + 2 + zlen x))) eqn:Ek; try (apply rel_sh; rewrite Ek; discriminate).
    cbn [e_kind] in Ek. subst k. cbn [sh e_kind e_col].
    assert (Hx := hex_kind _ _ _ _ _ H3 ltac:(discriminate) ltac:(discriminate) eq_refl).
    assert (Hc : extends q_component x) by (apply (ext_word _ "="%byte); [exact (proj1 H1)|exact Hx|discriminate]).
    assert (Hn : ~ In "#"%byte x) by (destruct Hc as [v [Hc _]]; apply comp_nohash; exists v; exact Hc).
    set (kk := if first_esc (zlen x0 + 2) (x ++ y) (zlen x0 + 2 + zlen x) then e0 else Err8141MalformedQComp).
    apply (rel_hex s (x0 ++ B "?=" ++ x) y _ (Some kk)).
    { rewrite E, <- !app_assoc. reflexivity. }
    { rewrite !zlen_app. change (zlen (B "?=")) with 2. lia. }
    assert (Hm : ~ In "#"%byte (x0 ++ B "?=" ++ x)).
    { rewrite !in_app_iff. intros [K|[K|K]]; try tauto. destruct K as [K|[K|[]]]; discriminate K. }
    assert (Hq : In "?"%byte (x0 ++ B "?=" ++ x)).
    { rewrite !in_app_iff. right. left. left. reflexivity. }
    (* the first character of x *)
    destruct x as [|c x']; [apply in_esc_pct in Hx; contradiction|].
    assert (Hc1 : pchar c = true \/ c = "%"%byte).
    { destruct Hc as [v [[Hc Hc'] _]]. destruct Hc' as (d & r & Ed & Hd1 & Hd2). cbn [app] in Ed. injection Ed as <- _.
      inversion Hc as [|? ? Hf _|]; subst; [|auto]. unfold frag_char in Hf. apply Bool.orb_true_iff in Hf. destruct Hf as [Hf|Hf]; [auto|].
      exfalso. apply Hd1. destruct c; try discriminate Hf; [reflexivity|contradiction Hd2; reflexivity]. }
    destruct (first_esc (zlen x0 + 2) ((c :: x') ++ y) (zlen x0 + 2 + zlen (c :: x'))) eqn:Ef; subst kk.
    + cbn [app first_esc] in Ef. apply Bool.andb_true_iff in Ef. destruct Ef as [Ec Ef]. apply is_eq in Ec. subst c. apply Z.leb_le in Ef.
      destruct Hx0 as [[Hno ->]|(a & r & Ex0 & Ha & Hr & ->)].
      * right; right; left. split; [exact Hm|]. split; [exact Hq|]. split; [left; exists x0, ("%"%byte :: x'); auto|reflexivity].
      * right; right; right. split; [exact Hm|]. split; [exact Hq|].
        assert (Hlen : (List.length x' <= 1)%nat).
        { unfold zlen in Ef. cbn [List.length] in Ef. lia. }
        assert (Hx' : ~ In "?"%byte x').
        { destruct Hc as [v [[Hc Hc'] _]]. cbn [app] in Hc. inversion Hc as [|? ? Hf _|a1 b1 w1 Ha1 Hb1 Hw E1]; [discriminate Hf|].
          destruct x' as [|z [|? ?]]; [intros []| |cbn in Hlen; lia]. cbn [app] in E1. injection E1 as -> _.
          intros [K|[]]. subst z. discriminate Ha1. }
        split; [|split; [|reflexivity]].
        -- rewrite Ex0, <- !app_assoc. apply not_q_only. exact Ha.
        -- intros (a' & b' & E' & Hb'). rewrite Ex0, <- !app_assoc in E'.
           assert (K := beyond a _ a' b' Ha E').
           clear E' a'. destruct K as [a2 E'].
           assert (Hb : b' = "%"%byte :: x' \/ (exists t, b' = "?"%byte :: t) \/ (exists t, b' = "/"%byte :: t)).
           { destruct (app_eq_app _ _ _ _ E') as [l [[El Er]|[El Er]]].
             - (* the occurrence begins inside r *)
               destruct l as [|l1 [|l2 l3]].
               + cbn [app] in Er. injection Er as ->. left; reflexivity.
               + cbn [app] in Er. injection Er as _ Er. discriminate Er.
               + cbn [app] in Er. injection Er as <- <- ->. destruct Hr as (_ & _ & Hr). destruct (Hr a2 l3) as [->|[[t ->]|[t ->]]]; [exact El| | |].
                 * right; left. eexists. reflexivity.
                 * right; right. eexists. reflexivity.
                 * right; left. eexists. reflexivity.
             - destruct l as [|l1 [|l2 l3]].
               + cbn [app] in Er. injection Er as ->. left; reflexivity.
               + cbn [app] in Er. injection Er as _ Er. discriminate Er.
               + cbn [app] in Er. injection Er as _ _ Er. exfalso.
                 assert (K : In "?"%byte ("%"%byte :: x')) by (rewrite Er; apply in_or_app; right; left; reflexivity).
                 destruct K as [K|K]; [discriminate K|contradiction]. }
           destruct Hb' as [(c & t & -> & Hp)|(c & d & t & ->)].
           ++ destruct Hb as [Hb|[[t' Hb]|[t' Hb]]]; injection Hb as -> _; discriminate Hp.
           ++ destruct Hb as [Hb|[[t' Hb]|[t' Hb]]]; [|discriminate Hb|discriminate Hb]. injection Hb as <-. cbn in Hlen. lia.
    + right; right; left. split; [exact Hm|]. split; [exact Hq|]. split; [|reflexivity]. right.
      exists x0, (c :: x'). split; [reflexivity|]. destruct Hc1 as [Hc1| ->]; [left; exists c, x'; auto|right].
      cbn [app first_esc] in Ef. change (is "%" "%"%byte) with true in Ef. cbn [andb] in Ef. apply Z.leb_gt in Ef.
      unfold zlen in Ef. destruct x' as [|c1 [|c2 t]]; [cbn in Ef; lia|cbn in Ef; lia|]. exists c1, c2, t. reflexivity.
  - destruct Hs as (-> & _ & Hst). cbn [sh].
    assert (El : zlen x0 + 2 + zlen q = zlen (x0 ++ B "?=" ++ q)) by (rewrite !zlen_app; change (zlen (B "?=")) with 2; lia).
    rewrite El. apply (tail_rel s (x0 ++ B "?=" ++ q) rest2 (fin q)); [|exact Hst]. rewrite E, <- !app_assoc. reflexivity.
Qed.

(* ---- the whole text ------------------------------------------------------------------------ *)
Lemma not8141 : o <> PRFC8141Only.
Proof. apply Bool.orb_false_iff in Ho. apply Z.eqb_neq. apply Ho. Qed.

Lemma nid_odd p rest : urn_word p -> ~ u_lookahead (p ++ colon ++ rest) ->
  ref_nid8141 o 4 rest = ref_nid8141 PRFC8141Only 4 rest.
Proof.
  intros Hp Hl. unfold ref_nid8141. destruct rest as [|c s]; [reflexivity|]. destruct (alnum c); [|reflexivity].
  replace (isl "u" c && looks_urn PRFC8141Only (c :: s)) with false by (symmetry; apply andb_false_r).
  destruct (isl "u" c && looks_urn o (c :: s)) eqn:E; [|reflexivity].
  exfalso. apply Hl. apply (u_lookahead_cons o not8141); assumption.
Qed.

Theorem odd_ahead s : looks_ahead s -> ref8141 o s = OErr (mkErr ErrNoUrnWithinID 7).
Proof.
  intros (p & r & -> & Hp & Hl). unfold ref8141. rewrite ref_prefix_complete by exact Hp.
  destruct r as [|c r].
  { exfalso. destruct Hl as (c & H & _). apply urn_word3 in Hp. destruct Hp as (x & y & z & -> & _). discriminate H. }
  apply (u_lookahead_cons o not8141 p c r Hp) in Hl. unfold ref_nid8141. rewrite Hl.
  apply andb_true_iff in Hl. destruct Hl as [Hu _].
  replace (alnum c) with true; [reflexivity|]. unfold isl in Hu. apply beq_eq in Hu. destruct c; try discriminate Hu; reflexivity.
Qed.

Theorem odd_rel s : ~ looks_ahead s -> rel s (ref8141 PRFC8141Only s) (ref8141 o s).
Proof.
  intros Hl. unfold ref8141.
  pose proof (prefix_err_iff s) as H1. pose proof (ref_prefix_sound s) as H1'.
  destruct (ref_prefix s) as [e| |pre rest]; [|reflexivity|].
  { destruct (proj1 (H1 e) eq_refl) as (x & y & _ & _ & ->). exists (Some (mkErr ErrPrefix (zlen x))). split; [left; split; [discriminate|reflexivity]|reflexivity]. }
  destruct H1' as (p & -> & Hp & Es). clear H1.
  assert (Hla : ~ u_lookahead (p ++ colon ++ rest)) by (rewrite <- Es; intros K; apply Hl; exists p, rest; auto).
  rewrite (nid_odd p rest Hp Hla).
  pose proof (nid8_iff rest) as H1. pose proof (ref_nid8141_sound PRFC8141Only p rest 4 Hp) as H1'.
  destruct (ref_nid8141 PRFC8141Only 4 rest) as [e| |nid rest2]; [|reflexivity|].
  { destruct (proj1 (H1 e) eq_refl) as (x & y & _ & _ & _ & [[_ ->]|[_ ->]]);
      (eexists (Some _); split; [left; split; [discriminate|reflexivity]|reflexivity]). }
  destruct H1' as (-> & Hn & _). clear H1 Hla. cbv zeta.
  rewrite (nss8_sh (List.length rest2) rest2 (le_n _)).
  pose proof (nss8_iff (5 + zlen nid) rest2) as H1.
  pose proof (ref_nss8_sound PRFC8141Only (List.length rest2) rest2 (le_n _) EStart (5 + zlen nid)) as H1'.
  destruct (ref_nss8 PRFC8141Only EStart (5 + zlen nid) rest2) as [e| |nss rest3]; [|reflexivity|].
  { destruct (proj1 (H1 e) eq_refl) as (x & y & k & -> & H2 & _ & H4 & ->).
    destruct k; try (cbn [sh e_kind]; apply rel_keep; discriminate). cbn [sh e_kind e_col].
    apply (rel_hex s (p ++ colon ++ nid ++ colon ++ x) y _ (Some Err8141SpecificString)).
    - rewrite Es, <- !app_assoc. reflexivity.
    - rewrite !zlen_app, (urn_word_len p Hp). change (zlen colon) with 1. lia.
    - right; left. destruct (nss_plain x (proj1 H2)) as [X1 X2].
      split; [|split; [|reflexivity]]; rewrite !in_app_iff; (intros [K|[K|[K|[K|K]]]]; [| | | |tauto]).
      all: try (destruct K as [K|[]]; discriminate K).
      1,3: apply (pre_plain p Hp _ K); reflexivity.
      all: destruct Hn as (_ & Hn & _); rewrite forallb_forall in Hn; specialize (Hn _ K); discriminate Hn. }
  destruct H1' as (-> & He & Hh & Hst). cbn [sh].
  assert (Hns : nss8141 nss) by (split; auto). clear H1.
  set (x0 := p ++ colon ++ nid ++ colon ++ nss).
  assert (E0 : s = x0 ++ rest3) by (unfold x0; rewrite Es, <- !app_assoc; reflexivity).
  assert (L0 : 5 + zlen nid + zlen nss = zlen x0).
  { unfold x0. rewrite !zlen_app, (urn_word_len p Hp). change (zlen colon) with 1. lia. }
  assert (P0 : ~ In "?"%byte x0 /\ ~ In "#"%byte x0).
  { destruct (nss_plain nss) as [X1 X2]; [exists []; rewrite app_nil_r; exact Hns|]. unfold x0.
    split; rewrite !in_app_iff; (intros [K|[K|[K|[K|K]]]]; [| | | |tauto]).
    all: try (destruct K as [K|[]]; discriminate K).
    1,3: apply (pre_plain p Hp _ K); reflexivity.
    all: destruct Hn as (_ & Hn & _); rewrite forallb_forall in Hn; specialize (Hn _ K); discriminate Hn. }
  destruct P0 as [P1 P2]. rewrite L0. clearbody x0. clear Es Hl L0.
  destruct rest3 as [|c rest4]; [reflexivity|].
  destruct (is "#" c) eqn:Eh.
  { apply is_eq in Eh. subst c. apply tail_rel; [exact E0|right; eauto]. }
  assert (Hc : c = "?"%byte).
  { apply nss8_stop in Hst. destruct Hst as [Hst|(c' & t & Hst & [-> | ->])]; [discriminate Hst|injection Hst as -> _; reflexivity|].
    injection Hst as -> _. discriminate Eh. }
  subst c. clear Eh Hst. destruct rest4 as [|d rest5]; [reflexivity|]. destruct (is "+" d) eqn:Ep.
  - apply is_eq in Ep. subst d. rewrite (r_sh (List.length rest5) rest5 (le_n _)).
    pose proof (r_iff (zlen x0 + 2) rest5) as Hr. pose proof (ref_r_sound' PRFC8141Only (zlen x0 + 2) rest5) as Hrs.
    destruct (ref_r PRFC8141Only RStart (zlen x0 + 2) rest5) as [e| |r rest6]; [|reflexivity|].
    + destruct (proj1 (Hr e) eq_refl) as (x & y & k & -> & H2 & _ & H4 & ->).
      destruct k; try (cbn [sh e_kind]; apply rel_keep; discriminate). cbn [sh e_kind e_col].
      assert (Hx := hex_kind _ _ _ _ _ H4 ltac:(discriminate) ltac:(discriminate) eq_refl).
      assert (Hc : extends r_component x) by (apply (ext_word _ "+"%byte); [exact (proj1 H2)|exact Hx|discriminate]).
      apply (rel_hex s (x0 ++ B "?+" ++ x) y _ (Some Err8141MalformedRComp)).
      * rewrite E0, <- !app_assoc. reflexivity.
      * rewrite !zlen_app. change (zlen (B "?+")) with 2. lia.
      * right; right; right. split; [|split; [|split; [|split; [|reflexivity]]]].
        -- rewrite !in_app_iff. intros [K|[K|K]]; [contradiction|destruct K as [K|[K|[]]]; discriminate K|].
           destruct Hc as [v [Hc _]]. apply (comp_nohash x); [exists v; exact Hc|exact K].
        -- rewrite !in_app_iff. right. left. left. reflexivity.
        -- apply (not_q_only x0 x P1).
        -- intros (a & b & E' & Hb). destruct (beyond x0 x a b P1 E') as [a2 E2].
           destruct Hc as [v (_ & _ & Hc)]. destruct (Hc a2 (b ++ v)) as [K|[[t K]|[t K]]].
           ++ rewrite E2, <- !app_assoc. reflexivity.
           ++ destruct Hb as [(c & t & -> & _)|(c & d & t & ->)]; discriminate K.
           ++ destruct Hb as [(c & t' & -> & Hp')|(c & d & t' & ->)]; [|discriminate K]. injection K as -> _. discriminate Hp'.
           ++ destruct Hb as [(c & t' & -> & Hp')|(c & d & t' & ->)]; [|discriminate K]. injection K as -> _. discriminate Hp'.
    + destruct Hrs as (-> & Hrc & Hst). cbn [sh]. rewrite hx_odd.
      assert (L : zlen x0 + 2 + zlen r = zlen (x0 ++ B "?+" ++ r)) by (rewrite !zlen_app; change (zlen (B "?+")) with 2; lia).
      assert (E1 : s = (x0 ++ B "?+" ++ r) ++ rest6) by (rewrite E0, <- !app_assoc; reflexivity).
      assert (HT : qstop rest6 -> rel s
          match ref_tailf PRFC8141Only (zlen x0 + 2 + zlen r) rest6 with WErr e => OErr e | WNil => ONil
          | WGo f _ => OUrn (mkPub (if starts_urn_dash nid then firstn 3 nid else firstn 3 (p ++ colon)) nid nss (norm_pct nss) KRFC8141 None r [] f) end
          match ref_tailf o (zlen x0 + 2 + zlen r) rest6 with WErr e => OErr e | WNil => ONil
          | WGo f _ => OUrn (mkPub (if starts_urn_dash nid then firstn 3 nid else firstn 3 (p ++ colon)) nid nss (norm_pct nss) KRFC8141 None r [] f) end).
      { intros Hq. rewrite L. apply (tail_rel s _ rest6 (fun f => mkPub _ _ _ _ _ _ _ _ f) E1 Hq). }
      destruct Hst as [Hst|(x & t & -> & Hx)].
      * specialize (HT Hst). destruct Hst as [->|[t ->]]; [exact HT|]. destruct t; exact HT.
      * change (is "?" "?"%byte) with true. cbv iota. rewrite L.
        apply (q_rel s (x0 ++ B "?+" ++ r) (x :: t) Err8141MalformedRComp (fun q f => mkPub _ _ _ _ _ _ _ q f)); [exact E1| |].
        -- rewrite !in_app_iff. intros [K|[K|K]]; [contradiction|destruct K as [K|[K|[]]]; discriminate K|].
           destruct Hrc as [Hc _]. apply (comp_nohash r); [exists []; rewrite app_nil_r; exact Hc|exact K].
        -- right. exists x0, r. auto.
  - destruct (is "=" d) eqn:Ee; [|reflexivity]. apply is_eq in Ee. subst d. rewrite hx_odd.
    apply (q_rel s x0 rest5 Err8141MalformedQComp (fun q f => mkPub _ _ _ _ _ _ _ q f)); auto.
Qed.
End Odd.

(* ---- RFC 2141 and SCIM entry points ------------------------------------------------------------ *)
Definition to_ss (a : pout) : pout :=
  match a with OErr (mkErr ErrHex p) => OErr (mkErr ErrSpecificString p) | _ => a end.
Lemma odd2141 o s : (o =? PRFC2141Only) || (o =? PRFC8141Only) = false -> ref2141 o s = to_ss (ref2141 PRFC2141Only s).
Proof.
  intros Ho. unfold ref2141. pose proof (prefix_err_iff s) as H1.
  destruct (ref_prefix s) as [e| |pre rest]; [|reflexivity|].
  { destruct (proj1 (H1 e) eq_refl) as (x & y & _ & _ & ->). reflexivity. }
  assert (N : ref_nid2141 o 4 rest = ref_nid2141 PRFC2141Only 4 rest).
  { unfold ref_nid2141, looks_urn. rewrite (proj2 (Z.eqb_neq o PRFC8141Only) (not8141 o Ho)). reflexivity. }
  assert (W : forall n t pos e, ref_nidw n pos t = WErr e -> e_kind e <> ErrHex).
  { clear. induction n as [|n IH]; intros [|c t] pos e H; cbn [ref_nidw] in H; try (injection H as <-; discriminate).
    - destruct (is ":" c); [discriminate H|]. destruct (nid_char c); injection H as <-; discriminate.
    - destruct (is ":" c); [discriminate H|]. destruct (nid_char c); [|injection H as <-; discriminate].
      destruct (ref_nidw n (pos + 1) t) eqn:E; try discriminate H. cbn in H. injection H as <-. eapply IH. exact E. }
  rewrite N. destruct (ref_nid2141 PRFC2141Only 4 rest) as [e| |nid rest2] eqn:En; [|reflexivity|].
  { assert (K : e_kind e <> ErrHex).
    { unfold ref_nid2141 in En. destruct rest as [|c t]; [injection En as <-; discriminate|]. destruct (alnum c); [|injection En as <-; discriminate].
      destruct (isl "u" c && looks_urn PRFC2141Only (c :: t)); [injection En as <-; discriminate|].
      destruct (ref_nidw 31 (4 + 1) t) eqn:E; try discriminate En. cbn in En. injection En as <-. eapply W. exact E. }
    destruct e as [[] p]; try reflexivity. contradiction K. reflexivity. }
  unfold ref_nss2141. rewrite (hx_odd o Ho). change (hx PRFC2141Only ErrSpecificString) with ErrHex.
  rewrite (nss_sh (List.length rest2) rest2 (le_n _)) by discriminate.
  destruct (ref_nss _ _ _ _ _ _ rest2) as [[[] p]| |]; reflexivity.
Qed.
Lemma oddscim o s : (o =? PRFC2141Only) || (o =? PRFC8141Only) = false -> ref_scim o s = ref_scim PRFC7643Only s.
Proof.
  intros Ho. unfold ref_scim.
  assert (E : ref_other o = ref_other PRFC7643Only) by (unfold ref_other, hx; rewrite Ho; reflexivity).
  rewrite E. reflexivity.
Qed.

(* ---- machines ------------------------------------------------------------------------------------ *)
Lemma not_three_b o : ~ three o -> (o =? PRFC2141Only) || (o =? PRFC8141Only) = false.
Proof.
  intros H. apply Bool.orb_false_iff. split; apply Z.eqb_neq; intros ->; apply H; unfold three; auto.
Qed.
Definition entry (x : Z) : N := if x =? PRFC2141Only then 1%N else if x =? PRFC8141Only then 83%N else 44%N.
Lemma since_reach x m : since x m -> reachable m.
Proof. induction 1; [apply reach_mode; assumption|apply reach_mode; assumption|eapply reach_parse; eassumption]. Qed.
Lemma never_reach m : never m -> reachable m.
Proof. induction 1; [apply reach_zero|apply reach_mode; assumption|eapply reach_parse; eassumption]. Qed.
Lemma since_three x m : since x m -> three x.
Proof. induction 1; assumption. Qed.
Lemma odd_start m y : ~ three y -> m_startParsingAt (machine_WithParsingMode y m) = m_startParsingAt m.
Proof.
  intros H. unfold machine_WithParsingMode. cbn [m_startParsingAt].
  destruct (Z.eqb_spec y PRFC2141Only) as [->|_]; [contradiction H; left; reflexivity|].
  destruct (Z.eqb_spec y PRFC8141Only) as [->|_]; [contradiction H; right; right; reflexivity|].
  destruct (Z.eqb_spec y PRFC7643Only) as [->|_]; [contradiction H; right; left; reflexivity|]. reflexivity.
Qed.
Lemma since_start x m : since x m -> m_startParsingAt m = entry x.
Proof.
  induction 1 as [m Hr [-> |[-> | ->]]|m y H IH Hy|m s m' uo eo H IH Hp]; try reflexivity.
  - rewrite odd_start by exact Hy. exact IH.
  - destruct (parse_reach_inv _ _ _ _ _ (since_reach _ _ H) Hp) as (_ & (E & _) & _). congruence.
Qed.
Lemma never_start m : never m -> m_startParsingAt m = 0%N.
Proof.
  induction 1 as [|m y H IH Hy|m s m' uo eo H IH Hp]; [reflexivity| |].
  - rewrite odd_start by exact Hy. exact IH.
  - destruct (parse_reach_inv _ _ _ _ _ (never_reach _ H) Hp) as (_ & (E & _) & _). congruence.
Qed.
Lemma three_dec x : three x \/ ~ three x.
Proof. unfold three. lia. Qed.
Lemma since_or_never m : reachable m -> never m \/ exists x, since x m.
Proof.
  induction 1 as [|m y H IH|m s m' uo eo H IH Hp].
  - left. apply never_zero.
  - destruct (three_dec y) as [Hy|Hy]; [right; exists y; apply since_set; assumption|].
    destruct IH as [IH|[x IH]]; [left; apply never_odd; assumption|right; exists x; apply since_odd; assumption].
  - destruct IH as [IH|[x IH]]; [left; eapply never_parse; eassumption|right; exists x; eapply since_parse; eassumption].
Qed.
Lemma since_mode x m : since x m -> three (m_parsingMode m) -> m_parsingMode m = x.
Proof.
  induction 1 as [m Hr Hx|m y H IH Hy|m s m' uo eo H IH Hp]; intros T; [reflexivity|contradiction|].
  destruct (parse_reach_inv _ _ _ _ _ (since_reach _ _ H) Hp) as (_ & (_ & E & _) & _). rewrite E in *. auto.
Qed.

Lemma pub_alike u v : pub_of u = pub_of v -> alike u v.
Proof.
  unfold pub_of. intros H. injection H as H1 H2 H3 H4 H5 H6 H7 H8 H9. unfold alike.
  unfold URN_String, Normalize, Equal, RFC, IsSCIM, URN_SCIM, RComponent, QComponent, FComponent.
  rewrite H5. do 2 (split; [assumption|]). split; [rewrite H1, H2, H3, H7, H8, H9; reflexivity|].
  split; [intros uni; cbn; rewrite ?H1, ?H2, ?H3, ?H4, ?H7, ?H8, ?H9; reflexivity|].
  split; [intros uni x; cbn; rewrite ?H1, ?H2, ?H3, ?H4, ?H7, ?H8, ?H9; reflexivity|].
  split; [intros uni x; cbn; rewrite ?H1, ?H2, ?H3, ?H4, ?H7, ?H8, ?H9; reflexivity|].
  split; [reflexivity|]. split; [reflexivity|]. split; [|auto].
  destruct (negb (u_kind v =? KRFC7643)); [reflexivity|exact H6].
Qed.

Lemma both x m s : since x m -> exists m1 uo eo m2 uo' eo',
  machine_Parse (NewMachine [x]) s = Ret (m1, uo, eo) /\ machine_Parse m s = Ret (m2, uo', eo') /\
  outcome uo eo (ref_parse (entry x) x s) /\ outcome uo' eo' (ref_parse (entry x) (m_parsingMode m) s).
Proof.
  intros H. assert (Hx := since_three _ _ H).
  assert (H0 : since x (NewMachine [x])) by (apply (since_set x zero_machine reach_zero Hx)).
  destruct (parse_reach _ s (since_reach _ _ H0)) as (m1 & uo & eo & P1 & _ & _ & _ & O1).
  destruct (parse_reach _ s (since_reach _ _ H)) as (m2 & uo' & eo' & P2 & _ & _ & _ & O2).
  rewrite (since_start _ _ H0) in O1. rewrite (since_start _ _ H) in O2.
  exists m1, uo, eo, m2, uo', eo'. auto.
Qed.
Lemma outcome_same uo eo uo' eo' a : outcome uo eo a -> outcome uo' eo' a -> alike_opt uo uo' /\ eo' = eo.
Proof.
  destruct a as [v|e|]; cbn.
  - intros (u & -> & -> & E) (u' & -> & -> & E'). split; [apply pub_alike; congruence|reflexivity].
  - intros [-> ->] [-> ->]. split; [exact I|reflexivity].
  - intros [-> ->] [-> ->]. split; [exact I|reflexivity].
Qed.

Theorem odd_never m s : never m -> exists m', machine_Parse m s = Ret (m', None, None).
Proof.
  intros H. destruct (parse_reach m s (never_reach _ H)) as (m' & uo & eo & Hp & _ & _ & _ & Ho).
  rewrite (never_start _ H) in Ho. cbn in Ho. destruct Ho as [-> ->]. eauto.
Qed.
Theorem odd_scim_parse m s : since PRFC7643Only m -> exists m1 uo eo m2 uo',
  machine_Parse (NewMachine [PRFC7643Only]) s = Ret (m1, uo, eo) /\ machine_Parse m s = Ret (m2, uo', eo) /\ alike_opt uo uo'.
Proof.
  intros H. destruct (both _ _ s H) as (m1 & uo & eo & m2 & uo' & eo' & P1 & P2 & O1 & O2).
  assert (K : alike_opt uo uo' /\ eo' = eo).
  { apply (outcome_same _ _ _ _ _ O1). destruct (three_dec (m_parsingMode m)) as [T|T].
    - rewrite (since_mode _ _ H T) in O2. exact O2.
    - cbn [entry] in *. unfold ref_parse in *. cbn in O2 |- *. rewrite oddscim in O2 by (apply not_three_b; exact T). exact O2. }
  destruct K as [K ->]. exists m1, uo, eo, m2, uo'. auto.
Qed.
Theorem odd_2141_parse m s : since PRFC2141Only m -> ~ three (m_parsingMode m) -> exists m1 uo eo m2 uo' eo',
  machine_Parse (NewMachine [PRFC2141Only]) s = Ret (m1, uo, eo) /\ machine_Parse m s = Ret (m2, uo', eo') /\ alike_opt uo uo' /\
  (forall e, eo' = Some e <-> (eo = Some e /\ e_kind e <> ErrHex) \/
                              (e_kind e = ErrSpecificString /\ eo = Some (mkErr ErrHex (e_col e)))).
Proof.
  intros H T. destruct (both _ _ s H) as (m1 & uo & eo & m2 & uo' & eo' & P1 & P2 & O1 & O2).
  exists m1, uo, eo, m2, uo', eo'. split; [exact P1|]. split; [exact P2|].
  change (ref_parse (entry PRFC2141Only) PRFC2141Only s) with (ref2141 PRFC2141Only s) in O1.
  change (ref_parse (entry PRFC2141Only) (m_parsingMode m) s) with (ref2141 (m_parsingMode m) s) in O2.
  rewrite odd2141 in O2 by (apply not_three_b; exact T).
  destruct (ref2141 PRFC2141Only s) as [v|e|]; cbn in O1, O2.
  - destruct O1 as (u & -> & -> & E). destruct O2 as (u' & -> & -> & E'). split; [apply pub_alike; congruence|].
    intros e. split; [discriminate|intros [[K _]|[_ K]]; discriminate K].
  - destruct O1 as [-> ->]. destruct e as [k p].
    assert (D : k = ErrHex \/ k <> ErrHex) by (destruct k; auto; right; discriminate). destruct D as [->|D].
    + destruct O2 as [-> ->]. split; [exact I|]. intros e. split.
      * intros K. injection K as <-. right. split; reflexivity.
      * intros [[K K']|[K K']]; [injection K as <-; contradiction K'; reflexivity|]. destruct e as [k p']. cbn in *. injection K' as ->. rewrite K. reflexivity.
    + assert (O2' : uo' = None /\ eo' = Some (mkErr k p)) by (destruct k; first [exact O2|contradiction]). clear O2. destruct O2' as [-> ->].
      split; [exact I|]. intros e. split.
      * intros K. injection K as <-. left. split; [reflexivity|exact D].
      * intros [[K _]|[_ K]]; [exact K|injection K as K _; contradiction].
  - destruct O1 as [-> ->], O2 as [-> ->]. split; [exact I|]. intros e. split; [discriminate|intros [[K _]|[_ K]]; discriminate K].
Qed.
Theorem odd_8141_parse m s : since PRFC8141Only m -> ~ three (m_parsingMode m) -> exists m1 uo eo m2 uo' eo',
  machine_Parse (NewMachine [PRFC8141Only]) s = Ret (m1, uo, eo) /\ machine_Parse m s = Ret (m2, uo', eo') /\
  ((looks_ahead s -> uo' = None /\ eo' = Some (mkErr ErrNoUrnWithinID 7)) /\
   (~ looks_ahead s -> alike_opt uo uo' /\
      match eo with None => eo' = None | Some e => replaced s e eo' end)).
Proof.
  intros H T. destruct (both _ _ s H) as (m1 & uo & eo & m2 & uo' & eo' & P1 & P2 & O1 & O2).
  exists m1, uo, eo, m2, uo', eo'. split; [exact P1|]. split; [exact P2|].
  change (ref_parse (entry PRFC8141Only) PRFC8141Only s) with (ref8141 PRFC8141Only s) in O1.
  change (ref_parse (entry PRFC8141Only) (m_parsingMode m) s) with (ref8141 (m_parsingMode m) s) in O2.
  apply not_three_b in T. split; intros L.
  - rewrite (odd_ahead _ T s L) in O2. exact O2.
  - assert (R := odd_rel _ T s L). destruct (ref8141 PRFC8141Only s) as [v|e|]; cbn [rel] in R.
    + rewrite R in O2. destruct (outcome_same _ _ _ _ _ O1 O2) as [K ->]. destruct O1 as (u & -> & -> & _). auto.
    + destruct O1 as [-> ->]. destruct R as (eo2 & R & E). rewrite E in O2. destruct eo2 as [e2|]; destruct O2 as [-> ->]; split; auto; exact I.
    + rewrite R in O2. destruct O1 as [-> ->], O2 as [-> ->]. split; [exact I|reflexivity].
Qed.
