(* Before the end of the NSS: what the positions collected in tolower can be. *)
From Coq Require Import Lia.
From Verif Require Import GoBase MachineSyntax MachineTables Machine Spec Conc ConcBase ConcInv.
Local Open Scope Z_scope.

Lemma index_nth {A} (s : list A) i c : index s i = Ret c -> 0 <= i < zlen s /\ nth_error s (Z.to_nat i) = Some c.
Proof.
  unfold index. destruct ((0 <=? i) && (i <? zlen s)) eqn:E; [|discriminate].
  apply andb_prop in E. destruct E as [E1 E2]. apply Z.leb_le in E1. apply Z.ltb_lt in E2.
  destruct (nth_error s (Z.to_nat i)); [|discriminate]. intros [= <-]. auto.
Qed.
Lemma nth_index {A} (s : list A) i c : nth_error s i = Some c -> index s (Z.of_nat i) = Ret c.
Proof.
  intros H. unfold index. assert (L : (i < List.length s)%nat) by (apply nth_error_Some; congruence).
  replace ((0 <=? Z.of_nat i) && (Z.of_nat i <? zlen s)) with true
    by (symmetry; apply andb_true_intro; split; [apply Z.leb_le; lia|apply Z.ltb_lt; unfold zlen; lia]).
  rewrite Nat2Z.id, H. reflexivity.
Qed.
Lemma nth_firstn {A} (s : list A) n i : (i < n)%nat -> nth_error (firstn n s) i = nth_error s i.
Proof.
  revert n s; induction i as [|i IH]; intros [|n] [|a s] L; try lia; try reflexivity. cbn. apply IH. lia.
Qed.
Lemma in_firstn {A} (s : list A) n a : List.In a (firstn n s) -> exists i, (i < n)%nat /\ nth_error s i = Some a.
Proof.
  intros H. apply In_nth_error in H. destruct H as [i H]. exists i.
  assert (L : (i < List.length (firstn n s))%nat) by (apply nth_error_Some; congruence).
  rewrite firstn_length in L. split; [lia|]. rewrite nth_firstn in H by lia. exact H.
Qed.

(* an upper-case letter after a percent sign, before "?" and "#" *)
Lemma not_plain s p c k : index s p = Ret c -> upper c = true ->
  (forall j d, 0 <= j < p -> index s j = Ret d -> d <> "?"%byte /\ d <> "#"%byte) ->
  k = 1 \/ k = 2 -> index s (p - k) = Ret "%"%byte -> ~ plain_escapes s.
Proof.
  intros Hc Hu Hq Hk Hp Hs. apply index_nth in Hc. destruct Hc as [Hr Hc].
  apply index_nth in Hp. destruct Hp as [Hr' Hp].
  assert (K : forall x, x = "?"%byte \/ x = "#"%byte -> ~ List.In x (firstn (S (Z.to_nat p)) s)).
  { intros x Hx Hi. apply in_firstn in Hi. destruct Hi as (i & L & Hi).
    destruct (Nat.eq_dec i (Z.to_nat p)) as [->|Hne].
    - rewrite Hc in Hi. injection Hi as ->. destruct Hx as [->| ->]; discriminate Hu.
    - destruct (Hq (Z.of_nat i) x) as [K1 K2]; [lia|apply nth_index; exact Hi|]. destruct Hx; congruence. }
  pose proof (Hs _ _ (eq_sym (firstn_skipn (S (Z.to_nat p)) s)) (K _ (or_introl eq_refl)) (K _ (or_intror eq_refl))) as Hn.
  specialize (Hn (Z.to_nat p) c). rewrite nth_firstn in Hn by lia. specialize (Hn Hc).
  rewrite Hn in Hu; [discriminate Hu|].
  destruct Hk as [-> | ->].
  - left. exists (Z.to_nat (p - 1)). split; [lia|]. rewrite nth_firstn by lia. exact Hp.
  - right. exists (Z.to_nat (p - 2)). split; [lia|]. rewrite nth_firstn by lia. exact Hp.
Qed.

Lemma eof_write_fall a b m u m' u' c : eof_block a = Some b -> writes_at a = true ->
  exec_block b (m, u) = Ret ((m', u'), c) -> c = Fall.
Proof.
  intros Hb Hw H. unfold writes_at in Hw. cbn in Hw. rewrite !orb_true_iff, !N.eqb_eq in Hw.
  destruct Hw as [->|[->|[->|[->|Hw]]]]; [| | | |discriminate Hw]; injection Hb as <-;
    cbn [exec_block exec_stmt] in H;
    repeat (cbn [bind] in H; match type of H with
      | context [u_scim ?v] => destruct (u_scim v)
      | context [slice ?d ?a ?b] => destruct (slice d a b)
      | context [text ?v] => destruct (text v)
      | context [for_tolower ?a ?b ?c ?d] => destruct (for_tolower a b c d) end);
    cbn [bind] in H; try discriminate H; injection H as <- <- <-; reflexivity.
Qed.

Section Early.
Variable s : bytes.

Record Gp (cs : N) (p pb : Z) (u : URN) : Prop := {
  g_H : inH cs = true;
  g_low : lowb cs <= p;
  g_pb : 0 <= pb <= p;
  g_Q : inQ cs = true -> 3 <= pb;
  g_pos : forall i, List.In i (u_tolower u) -> 0 <= i;
  g_T : inQ cs = false -> u_tolower u = [];
  g_norm : u_norm u = [];
  g_SS : u_SS u = [];
  g_plain : plain_escapes s -> u_tolower u = [];
  g_E1 : inE1 cs = true -> index s (p - 1) = Ret "%"%byte;
  g_E2 : inE2 cs = true -> index s (p - 2) = Ret "%"%byte;
  g_q : forall j d, 0 <= j < p -> index s j = Ret d -> d <> "?"%byte /\ d <> "#"%byte
}.

Definition early (l : label) (x : st) : Prop :=
  let '(m, u) := x in
  match l with
  | LEnter | LResume | LTestEof => Gp (m_cs m) (m_p m) (m_pb m) u
  | LTr n => Gp (m_cs m) (m_p m) (m_pb m) u /\
      exists c, index s (m_p m) = Ret c /\ resume_switch (m_cs m) (Byte.to_N c) = TTr n
  | LF f => exists cs0 c n, Gp cs0 (m_p m) (m_pb m) u /\ index s (m_p m) = Ret c /\
      resume_switch cs0 (Byte.to_N c) = TTr n /\ tr_block n = Some (m_cs m, Some f)
  | LAgain => Gp (m_cs m) (m_p m + 1) (m_pb m) u
  | LOut => True
  end.

Definition MI (l : label) (x : st) : Prop := m_data (fst x) = s /\ (late l x \/ early l x).

(* the step runs a set_nss block *)
Definition writer (l : label) (x : st) : Prop :=
  3 <= m_pb (fst x) /\ (forall i, List.In i (u_tolower (snd x)) -> 0 <= i) /\
  (plain_escapes s -> u_tolower (snd x) = []) /\
  exists pre post, block_of l (fst x) = Some (nss_writes pre post) /\
    forallb side pre = true /\ forallb side post = true.

Lemma Gp_io cs p pb u u' : Gp cs p pb u -> u_norm u' = u_norm u -> u_SS u' = u_SS u -> u_tolower u' = u_tolower u ->
  Gp cs p pb u'.
Proof. intros G E1 E2 E3. destruct G. split; rewrite ?E1, ?E2, ?E3; auto. Qed.

(* reading byte c in state cs0 and going to cs *)
Lemma Gp_edge cs0 p pb u c n cs fo : Gp cs0 p pb u -> index s p = Ret c ->
  resume_switch cs0 (Byte.to_N c) = TTr n -> tr_block n = Some (cs, fo) -> inH cs = true ->
  fo_is 38 fo = false /\
  (forall u', u_norm u' = [] -> u_SS u' = [] -> (u_tolower u' = u_tolower u \/
       (fo_is 9 fo = true /\ u_tolower u' = u_tolower u ++ [p - pb])) ->
   forall pb', pb' = pb \/ (fo_marks fo = true /\ pb' = p) -> (fo_is 4 fo = true -> pb' = p) ->
   Gp cs (p + 1) pb' u').
Proof.
  intros G Hc Hr Ht Hh. pose proof (inH_bound _ (g_H _ _ _ _ G)) as [_ Hb].
  pose proof (edge_fact cs0 c Hb) as K. unfold edge_ok in K. rewrite Hr, Ht, (g_H _ _ _ _ G), Hh in K.
  cbn [negb orb] in K.
  apply andb_prop in K. destruct K as [K K38].
  apply andb_prop in K. destruct K as [K K9].
  apply andb_prop in K. destruct K as [K KQ].
  apply andb_prop in K. destruct K as [K KE2].
  apply andb_prop in K. destruct K as [K KE1].
  apply andb_prop in K. destruct K as [K Klow].
  apply andb_prop in K. destruct K as [K Kf38].
  apply andb_prop in K. destruct K as [K63 K35].
  apply negb_true_iff in Kf38, K63, K35. apply Z.leb_le in Klow. apply N.eqb_neq in K63, K35.
  split; [exact Kf38|]. intros u' Hn HS HT pb' Hpb H4.
  pose proof (g_low _ _ _ _ G). pose proof (g_pb _ _ _ _ G). pose proof (lowb_pos cs0).
  assert (Hup : fo_is 9 fo = true -> upper c = true /\ inQ cs0 = true /\ (inE1 cs0 = true \/ inE2 cs0 = true)).
  { intros E. rewrite E in K9. cbn [negb orb] in K9. rewrite !andb_true_iff, orb_true_iff in K9.
    destruct K9 as [[A1 A2] A3]. split; [|auto]. exact A2. }
  assert (Hpl : plain_escapes s -> fo_is 9 fo = true -> False).
  { intros Hp H9. destruct (Hup H9) as (A1 & _ & A2).
    destruct A2 as [A2|A2].
    - exact (not_plain s p c 1 Hc A1 (g_q _ _ _ _ G) (or_introl eq_refl) (g_E1 _ _ _ _ G A2) Hp).
    - exact (not_plain s p c 2 Hc A1 (g_q _ _ _ _ G) (or_intror eq_refl) (g_E2 _ _ _ _ G A2) Hp). }
  split.
  - exact Hh.
  - lia.
  - destruct Hpb as [->|[_ ->]]; lia.
  - intros HQ. destruct (inQ cs0) eqn:E0.
    + rewrite HQ in KQ. cbn in KQ. apply negb_true_iff in KQ.
      destruct Hpb as [->|[A _]]; [exact (g_Q _ _ _ _ G E0)|congruence].
    + rewrite HQ in KQ. cbn [negb orb] in KQ. apply andb_prop in KQ. destruct KQ as [Q1 Q2]. apply Z.leb_le in Q2.
      rewrite (H4 Q1). lia.
  - intros i Hi. destruct HT as [HT|[_ HT]]; rewrite HT in Hi; [exact (g_pos _ _ _ _ G i Hi)|].
    apply in_app_or in Hi. destruct Hi as [Hi|[<-|[]]]; [exact (g_pos _ _ _ _ G i Hi)|lia].
  - intros HQ. destruct (inQ cs0) eqn:E0.
    + rewrite HQ in KQ. discriminate KQ.
    + destruct HT as [HT|[A _]]; [rewrite HT; exact (g_T _ _ _ _ G E0)|]. destruct (Hup A) as (_ & A1 & _). congruence.
  - exact Hn.
  - exact HS.
  - intros Hp. destruct HT as [HT|[A _]]; [rewrite HT; exact (g_plain _ _ _ _ G Hp)|destruct (Hpl Hp A)].
  - intros HE. rewrite HE in KE1. cbn [negb orb] in KE1. replace (p + 1 - 1) with p by lia. rewrite Hc. f_equal.
    apply N.eqb_eq in KE1. change 37%N with (Byte.to_N "%"%byte) in KE1.
    apply (f_equal Byte.of_N) in KE1. rewrite !Byte.of_to_N in KE1. injection KE1 as ->. reflexivity.
  - intros HE. rewrite HE in KE2. cbn [negb orb] in KE2. replace (p + 1 - 2) with (p - 1) by lia.
    exact (g_E1 _ _ _ _ G KE2).
  - intros j d Hj Hd. destruct (Z.eq_dec j p) as [->|Hne].
    + rewrite Hc in Hd. injection Hd as <-. split; intros ->; [apply K63|apply K35]; reflexivity.
    + apply (g_q _ _ _ _ G j d); [lia|exact Hd].
Qed.

Lemma quiet_exec l m u m' u' c : u_tolower u = [] -> forallb noLow l = true ->
  exec_block l (m, u) = Ret ((m', u'), c) -> m_data m' = m_data m.
Proof.
  intros HT Hl H.
  enough (K : m_data (fst (m', u')) = m_data (fst (m, u))) by exact K.
  remember (m', u') as y eqn:Ey. clear Ey m' u'. assert (HT' : u_tolower (snd (m, u)) = []) by exact HT.
  revert HT' H. generalize (m, u). clear HT. revert c y.
  enough (Q : forall n l, (bsize l <= n)%nat -> forallb noLow l = true -> forall c y x,
     u_tolower (snd x) = [] -> exec_block l x = Ret (y, c) ->
     m_data (fst y) = m_data (fst x)) by (intros; eapply (Q (bsize l)); eauto).
  clear. induction n as [|n IH]; intros l Hn Hl c y x HT H.
  - destruct l as [|a l]; [|cbn in Hn; pose proof (ssize_pos a); lia]. injection H as <- <-. reflexivity.
  - destruct l as [|a l]; [injection H as <- <-; reflexivity|]. cbn [bsize] in Hn. pose proof (ssize_pos a).
    cbn [forallb] in Hl. apply andb_prop in Hl. destruct Hl as [Ha Hl]. cbn [exec_block] in H.
    destruct (match a with SGotoAgain | SIf _ _ _ | SForTolower _ => true | _ => false end) eqn:Es.
    + destruct a; try discriminate Es.
      * destruct x as [m u]. cbn [exec_stmt snd] in *. rewrite HT in H. cbn in H.
        apply (IH l ltac:(lia) Hl) in H; [exact H|exact HT].
      * destruct x as [m u]. injection H as <- <-. reflexivity.
      * rewrite exec_if in H. destruct (eval_cond c0 x) as [b| |]; cbn [bind] in H; try discriminate H.
        assert (H' : exec_block ((if b then t else e) ++ l) x = Ret (y, c)) by (rewrite exec_app; exact H).
        apply (IH ((if b then t else e) ++ l)) in H'; [exact H'| | |exact HT].
        -- rewrite bsize_app. rewrite ssize_if in Hn. destruct b; lia.
        -- rewrite forallb_app, Hl, andb_true_r. cbn [noLow] in Ha. apply andb_prop in Ha. destruct b; tauto.
    + destruct (exec_stmt a x) as [[y1 c1]| |] eqn:E1; cbn [bind] in H; try discriminate H.
      destruct (exec_plain a x y1 c1) as (-> & K1 & K2); [destruct a; try discriminate Es; exact I|exact E1|].
      apply (IH l ltac:(lia) Hl) in H; [congruence|rewrite (K2 Ha); exact HT].
Qed.

Lemma side_noLow l : forallb side l = true -> forallb noLow l = true.
Proof. induction l as [|a l IH]; [reflexivity|]. cbn. intros H. apply andb_prop in H. destruct a; destruct H; try discriminate; auto. Qed.
Lemma writes_noLow pre post : forallb side pre = true -> forallb side post = true ->
  forallb noLow (nss_writes pre post) = true.
Proof. intros H1 H2. unfold nss_writes. rewrite forallb_app, (side_noLow _ H1). cbn. apply side_noLow. exact H2. Qed.

Lemma MI_step l x l' x' : MI l x -> l <> LOut -> step l x = Ret (l', x') ->
  (calm l x x' /\ MI l' x') \/
  (writer l x /\ early l x /\ (l' = LOut \/ late l' x') /\ (plain_escapes s -> MI l' x')).
Proof.
  intros [Hd HM] Hn H. destruct HM as [HL|HE].
  { left. destruct (late_step _ _ _ _ HL Hn H) as [K1 K2]. split; [exact K2|]. split; [|left; exact K1].
    destruct K2 as [[K2 _] _]. rewrite K2. exact Hd. }
  destruct x as [m u]. cbn [fst] in Hd. unfold calm. cbn [fst].
  destruct l; try contradiction; cbn [early] in HE.
  - left. cbn [step] in H. assert (Hx : x' = (m, u) /\ (l' = LTestEof \/ l' = LOut \/ l' = LResume)).
    { destruct (m_p m =? m_pe m); [|destruct (N.eqb (m_cs m) 0)]; injection H as <- <-; auto. }
    destruct Hx as [-> Hx]. split; [split; [repeat split|exact I]|]. split; [exact Hd|].
    right. destruct Hx as [->|[->| ->]]; try exact HE. exact I.
  - left. cbn [step] in H. pose proof (inH_bound _ (g_H _ _ _ _ HE)) as [B1 B2].
    replace (N.eqb (m_cs m) 0) with false in H by (symmetry; apply N.eqb_neq; lia).
    replace (N.ltb 193 (m_cs m)) with false in H by (symmetry; apply N.ltb_ge; lia).
    destruct (index (m_data m) (m_p m)) as [c| |] eqn:Ec; cbn [bind] in H; try discriminate H.
    rewrite Hd in Ec.
    destruct (resume_switch (m_cs m) (Byte.to_N c)) as [n|] eqn:Er; injection H as <- <-;
      (split; [split; [repeat split|exact I]|]); (split; [exact Hd|]); right; cbn [early]; eauto.
  - left. destruct HE as (G & c & Hc & Hr). cbn [step] in H.
    destruct (tr_block n) as [[cs' fo]|] eqn:Et; [|discriminate H].
    destruct fo as [f|]; injection H as <- <-; (split; [split; [repeat split|exact I]|]); (split; [exact Hd|]).
    + right. cbn [early set_cs m_p m_pb m_cs]. exists (m_cs m), c, n. auto.
    + destruct (inH cs') eqn:Eh.
      * right. cbn [early set_cs m_p m_pb m_cs].
        destruct (Gp_edge _ _ _ _ _ _ _ _ G Hc Hr Et Eh) as [_ K].
        apply K; [apply (g_norm _ _ _ _ G)|apply (g_SS _ _ _ _ G)|left; reflexivity|left; reflexivity|discriminate].
      * left. split; [exact Eh|exact I].
  - destruct HE as (cs0 & c & n1 & G & Hc & Hr & Ht). cbn [step] in H.
    destruct (f_block n) as [b|] eqn:Eb; [|discriminate H].
    destruct (exec_block b (m, u)) as [[[m' u'] c']| |] eqn:Ee; cbn [bind] in H; try discriminate H.
    destruct c'; [discriminate H|]. injection H as <- <-.
    destruct (N.eq_dec n 38) as [->|H38].
    + right. pose proof (f38_write _ Eb) as ->.
      pose proof (inH_bound _ (g_H _ _ _ _ G)) as [_ Bd].
      pose proof (edge_fact cs0 c Bd) as K. unfold edge_ok in K. rewrite Hr, Ht, (g_H _ _ _ _ G) in K.
      apply andb_prop in K. destruct K as [_ K]. cbn [fo_is N.eqb Pos.eqb negb orb] in K.
      apply andb_prop in K. destruct K as [KQ KH]. apply negb_true_iff in KH.
      assert (Hw : writer (LF 38) (m, u)).
      { split; [exact (g_Q _ _ _ _ G KQ)|]. split; [exact (g_pos _ _ _ _ G)|]. split; [exact (g_plain _ _ _ _ G)|].
        exists [], [SGotoAgain]. repeat split. }
      assert (Hl : late LAgain (m', u')).
      { split; [|exact I]. cbn [fst].
        assert (Hcs : m_cs m' = m_cs m).
        { clear -Ee. unfold nss_writes in Ee. cbn [app exec_block exec_stmt] in Ee. 
          repeat (cbn [bind] in Ee; match type of Ee with
            | context [text ?v] => destruct (text v)
            | context [for_tolower ?a ?b ?c ?d] => destruct (for_tolower a b c d) end); cbn [bind] in Ee; try discriminate Ee.
          injection Ee as <- <-. reflexivity. }
        rewrite Hcs. exact KH. }
      split; [exact Hw|]. split; [cbn [early]; exists cs0, c, n1; auto|]. split; [right; exact Hl|].
      intros Hp. split; [|left; exact Hl]. cbn [fst]. rewrite <- Hd.
      eapply quiet_exec; [exact (g_plain _ _ _ _ G Hp)| |exact Ee]. reflexivity.
    + left. destruct (N.eq_dec n 9) as [->|H9].
      * destruct (f9_eff _ _ _ _ _ b Eb Ee) as (_ & K1 & -> & K2 & K3). cbn [block_of]. rewrite Eb.
        split; [auto|]. split; [exact Hd|].
        destruct (inH (m_cs m)) eqn:Eh; [right|left; split; [exact Eh|exact I]].
        cbn [early]. destruct (Gp_edge _ _ _ _ _ _ _ _ G Hc Hr Ht Eh) as [_ K]. destruct K1 as (_ & K4 & K5). cbn [snd] in *.
        apply K; [rewrite K4; apply (g_norm _ _ _ _ G)|rewrite K5; apply (g_SS _ _ _ _ G)|right; split; [reflexivity|exact K2]|left; reflexivity|discriminate].
      * destruct (f_eff _ _ _ _ _ _ _ Eb H9 H38 Ee) as [(K1 & K2 & K3) K4]. cbn [block_of]. rewrite Eb.
        split; [auto|]. pose proof K1 as (K5 & K6 & K7). cbn [fst snd] in *. split; [cbn [fst]; congruence|].
        destruct K3 as [K3|(K3 & K8 & K9)]; [left; split; [cbn [fst]; rewrite K3; reflexivity|exact I]|].
        destruct (inH (m_cs m)) eqn:Eh; [right|left; split; [cbn [fst]; congruence|exact I]].
        cbn [early]. rewrite K3, K8. destruct (Gp_edge _ _ _ _ _ _ _ _ G Hc Hr Ht Eh) as [_ K].
        apply K; [rewrite K6; apply (g_norm _ _ _ _ G)|rewrite K7; apply (g_SS _ _ _ _ G)|left; exact K2|exact K9|].
        cbn [fo_is]. intros E4. apply N.eqb_eq in E4. subst n. injection Eb as <-. cbn in Ee. injection Ee as <- <-. reflexivity.
  - left. cbn [step] in H. cbn [block_of].
    destruct (index to_state_actions (Z.of_N (m_cs m))) as [a| |]; cbn [bind] in H; try discriminate H.
    destruct (to_state_block a) as [b|] eqn:Eb.
    + destruct (exec_block b (m, u)) as [[[m' u'] c]| |] eqn:Ee; cbn [bind] in H; try discriminate H.
      destruct c; [discriminate H|]. injection H as <- <-.
      destruct (to_state_eff _ _ _ _ _ _ _ Eb Ee) as (K1 & K2 & K3). split; [auto|].
      split; [destruct K1 as [K1 _]; cbn [fst] in *; congruence|]. left. split; [cbn [fst]; rewrite K2; reflexivity|exact I].
    + destruct (N.eqb (m_cs m) 0); [injection H as <- <-; split; [split; [repeat split|exact I]|split; [exact Hd|right; exact I]]|].
      destruct (m_p (set_p (m_p m + 1) m) =? m_pe (set_p (m_p m + 1) m)); injection H as <- <-;
        (split; [split; [repeat split|exact I]|split; [exact Hd|right; exact HE]]).
  - cbn [step] in H. cbn [block_of].
    destruct (m_p m =? m_eof m) eqn:Ep.
    2:{ left. injection H as <- <-. split; [split; [repeat split|exact I]|split; [exact Hd|right; exact I]]. }
    destruct (index eof_actions (Z.of_N (m_cs m))) as [a| |] eqn:Ea; cbn [bind] in H; try discriminate H.
    destruct (eof_block a) as [b|] eqn:Eb.
    2:{ left. injection H as <- <-. split; [split; [repeat split|exact I]|split; [exact Hd|right; exact I]]. }
    destruct (exec_block b (m, u)) as [[[m' u'] c]| |] eqn:Ee; cbn [bind] in H; try discriminate H.
    destruct (writes_at a) eqn:Ew.
    + right. pose proof Eb as Eb0. destruct (eof_write _ _ Eb Ew) as (pre & post & -> & S1 & S2 & S3).
      pose proof (eof_fact _ _ Ea Ew) as KQ.
      assert (Hc : c = Fall) by exact (eof_write_fall _ _ _ _ _ _ _ Eb0 Ew Ee).
      subst c. injection H as <- <-.
      split.
      { split; [exact (g_Q _ _ _ _ HE KQ)|]. split; [exact (g_pos _ _ _ _ HE)|]. split; [exact (g_plain _ _ _ _ HE)|].
        cbn [block_of fst]. rewrite Ep, Ea, Eb. eauto. }
      split; [exact HE|]. split; [left; reflexivity|].
      intros Hp. split; [|right; exact I]. cbn [fst]. rewrite <- Hd.
      eapply quiet_exec; [exact (g_plain _ _ _ _ HE Hp)|exact (writes_noLow _ _ S1 S2)|exact Ee].
    + left. destruct (eof_eff _ _ _ _ _ _ _ Eb Ew Ee) as (K1 & K2 & K3).
      pose proof K1 as (K4 & _). cbn [fst] in K4.
      destruct c; injection H as <- <-; (split; [auto|split; [cbn [fst]; congruence|]]).
      * right. exact I.
      * left. split; [cbn [fst]; rewrite (K2 eq_refl); reflexivity|exact I].
Qed.
End Early.
