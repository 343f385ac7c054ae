(* JSON methods (C27-C30). *)
From Coq Require Import Lia.
From Verif Require Import GoBase MachineSyntax MachineTables Machine Urn Json Spec Ref Exec SimBase
  ParseThm RefSpec RefSpec8 RefSpec8b Api PropsA PropsB.
Local Open Scope Z_scope.

(* ---- decoding what was encoded --------------------------------------------------------- *)
(* what becomes of a string on the way through JSON: bytes that are not UTF-8 are replaced *)
Fixpoint sanit (fuel : nat) (s : bytes) : bytes :=
  match fuel with
  | O => []
  | S fuel =>
      match s with
      | [] => []
      | b :: r =>
          if (Byte.to_N b <? 128)%N then b :: sanit fuel r
          else match utf8_len s with
               | O => repl ++ sanit fuel r
               | n => firstn n s ++ sanit fuel (skipn n s)
               end
      end
  end.

Lemma dec_ascii newer b f s : (Byte.to_N b <? 128)%N = true ->
  jdec (S f) (jenc1 newer b ++ s) = ocat [b] (jdec f s).
Proof. destruct b; intros H; try discriminate H; destruct newer; reflexivity. Qed.

Lemma utf8_hi s : utf8_len s <> O -> exists b r, s = b :: r /\ (Byte.to_N b <? 128)%N = false.
Proof.
  destruct s as [|a r]; [intros H; contradiction H; reflexivity|]. intros H. exists a, r. split; [reflexivity|].
  destruct (Byte.to_N a <? 128)%N eqn:E; [|reflexivity]. exfalso. apply H. clear H.
  assert (K : forall lo hi, (128 <= lo)%N -> rng lo hi a = false).
  { intros lo hi Hl. unfold rng. apply N.ltb_lt in E. replace (lo <=? Byte.to_N a)%N with false; [reflexivity|]. symmetry. apply N.leb_gt. lia. }
  cbn [utf8_len]. rewrite !K by lia. cbn [andb orb]. destruct r as [|b [|c [|d r]]]; reflexivity.
Qed.
Lemma utf8_app s n : utf8_len s = S n -> (S n <= List.length s)%nat /\ forall t, utf8_len (firstn (S n) s ++ t) = S n.
Proof.
  intros H. cbn [utf8_len] in H. destruct s as [|a [|b r]]; try discriminate H. cbn [utf8_len] in H.
  destruct (rng 194 223 a && rng 128 191 b) eqn:E2.
  { injection H as <-. split; [cbn; lia|]. intros t. cbn. rewrite E2. reflexivity. }
  destruct r as [|c r]; [discriminate H|].
  match type of H with (if ?x then _ else _) = _ => destruct x eqn:E3 end.
  { injection H as <-. split; [cbn; lia|]. intros t. cbn -[rng]. rewrite E2, E3. reflexivity. }
  destruct r as [|d r]; [discriminate H|].
  match type of H with (if ?x then _ else _) = _ => destruct x eqn:E4 end; [|discriminate H].
  injection H as <-. split; [cbn; lia|]. intros t. cbn -[rng]. rewrite E2, E3, E4. reflexivity.
Qed.
Lemma hi_not b : (Byte.to_N b <? 128)%N = false ->
  Byte.eqb b "034" = false /\ Byte.eqb b "\" = false /\ (Byte.to_N b <? 32)%N = false.
Proof. destruct b; intros H; try discriminate H; repeat split. Qed.
Lemma dec_multi s n f t : utf8_len s = S n ->
  jdec (S f) (firstn (S n) s ++ t) = ocat (firstn (S n) s) (jdec f t).
Proof.
  intros H. destruct (utf8_app s n H) as [Hl Hu]. specialize (Hu t).
  destruct (utf8_hi s) as (b & r & E & Hb); [congruence|]. destruct (hi_not b Hb) as (H1 & H2 & H3).
  assert (Hf : firstn (S n) s = b :: firstn n r) by (rewrite E; reflexivity).
  assert (L : List.length (firstn (S n) s) = S n) by (rewrite firstn_length; lia).
  assert (K : firstn (S n) (firstn (S n) s ++ t) = firstn (S n) s /\ skipn (S n) (firstn (S n) s ++ t) = t).
  { split; [rewrite firstn_app, L, Nat.sub_diag, firstn_O, app_nil_r; rewrite firstn_firstn, Nat.min_id; reflexivity|].
    rewrite skipn_app, L, Nat.sub_diag. rewrite skipn_all2 by lia. reflexivity. }
  destruct K as [K1 K2]. remember (firstn (S n) s ++ t) as z eqn:Ez.
  assert (Hz : z = b :: firstn n r ++ t) by (rewrite Ez, Hf; reflexivity).
  rewrite Hz. cbn [jdec]. rewrite H1, H2, H3, Hb. rewrite <- Hz, Hu, K1, K2. reflexivity.
Qed.

Lemma jdec_jenc newer n : forall w, (List.length w <= n)%nat -> forall f t, (n < f)%nat ->
  jdec f (jenc newer n w ++ "034"%byte :: t) = Some (sanit n w, t).
Proof.
  induction n as [|n IH]; intros w Hn f t Hf; (destruct f as [|f]; [lia|]).
  { destruct w; [|cbn in Hn; lia]. reflexivity. }
  destruct w as [|b r]; [reflexivity|]. cbn [jenc sanit]. cbn [List.length] in Hn. destruct (Byte.to_N b <? 128)%N eqn:Eb.
  - rewrite <- app_assoc, dec_ascii by exact Eb. rewrite IH by lia. reflexivity.
  - destruct (utf8_len (b :: r)) as [|k] eqn:Ek.
    + rewrite <- app_assoc. assert (G : forall g, jdec (S f) ((B "\u" ++ B "fffd") ++ g) = ocat repl (jdec f g)) by (intros; reflexivity).
      rewrite G. rewrite IH by lia. reflexivity.
    + destruct (utf8_app _ _ Ek) as [Hl _]. cbn [List.length] in Hl.
      assert (Hs : (List.length (skipn (S k) (b :: r)) <= n)%nat) by (rewrite skipn_length; cbn [List.length]; lia).
      assert (G : forall g, jdec (S f) ((if bytes_eqb (firstn (S k) (b :: r)) [xe2; x80; xa8] then B "\u" ++ B "2028"
                       else if bytes_eqb (firstn (S k) (b :: r)) [xe2; x80; xa9] then B "\u" ++ B "2029"
                       else firstn (S k) (b :: r)) ++ g) = ocat (firstn (S k) (b :: r)) (jdec f g)).
      { intros g. destruct (bytes_eqb (firstn (S k) (b :: r)) [xe2; x80; xa8]) eqn:E1; [apply bytes_eqb_eq in E1; rewrite E1; reflexivity|].
        destruct (bytes_eqb (firstn (S k) (b :: r)) [xe2; x80; xa9]) eqn:E2; [apply bytes_eqb_eq in E2; rewrite E2; reflexivity|].
        apply dec_multi. exact Ek. }
      rewrite <- app_assoc, G, IH by (auto; lia). reflexivity.
Qed.

Definition ascii (s : bytes) : Prop := forallb is_ascii s = true.
Lemma sanit_ascii n : forall w, (List.length w <= n)%nat -> ascii w -> sanit n w = w.
Proof.
  induction n as [|n IH]; intros w Hn Ha; (destruct w as [|b r]; [reflexivity|]); [cbn in Hn; lia|].
  unfold ascii in *. cbn [forallb] in Ha. apply andb_true_iff in Ha as [Hb Ha]. cbn [sanit]. unfold is_ascii in Hb. rewrite Hb.
  f_equal. apply IH; [cbn in Hn; lia|exact Ha].
Qed.
Lemma sanit_bad n : forall w, (List.length w <= n)%nat -> ~ ascii w -> ~ ascii (sanit n w).
Proof.
  unfold ascii. induction n as [|n IH]; intros w Hn Ha; (destruct w as [|b r]; [contradiction Ha; reflexivity|]); [cbn in Hn; lia|].
  cbn [sanit]. cbn [List.length] in Hn. destruct (Byte.to_N b <? 128)%N eqn:Eb.
  - cbn [forallb] in *. unfold is_ascii at 1 in Ha. unfold is_ascii at 1. rewrite Eb in *. cbn [andb] in *. apply IH; [lia|exact Ha].
  - destruct (utf8_len (b :: r)) as [|k]; [cbn; discriminate|]. cbn [firstn app forallb]. unfold is_ascii at 1. rewrite Eb. discriminate.
Qed.

Lemma jtrim_quote s : jtrim ("034"%byte :: s) = "034"%byte :: s.
Proof. reflexivity. Qed.
Lemma unmarshal_marshal newer w : exists w', json_Unmarshal (json_Marshal newer w) = Some w' /\
  (ascii w -> w' = w) /\ (~ ascii w -> ~ ascii w').
Proof.
  exists (sanit (List.length w) w). unfold json_Unmarshal, json_Marshal. cbn [app]. rewrite jtrim_quote.
  change (Byte.eqb "034" "034") with true. cbv iota.
  assert (H : forall f, (List.length w < f)%nat -> jdec f (jenc newer (List.length w) w ++ ["034"%byte]) = Some (sanit (List.length w) w, [])).
  { intros f Hf. apply jdec_jenc; [lia|exact Hf]. }
  split.
  - assert (Hl : forall n w, (List.length w <= n)%nat -> (List.length w <= List.length (jenc newer n w))%nat).
    { clear. induction n as [|n IH]; intros w Hn; (destruct w as [|b r]; [cbn; lia|]); [cbn in Hn; lia|].
      cbn [jenc List.length] in *. destruct (Byte.to_N b <? 128)%N eqn:Eb.
      - rewrite app_length. specialize (IH r ltac:(lia)).
        assert (1 <= List.length (jenc1 newer b))%nat by (destruct b, newer; cbn; lia). lia.
      - destruct (utf8_len (b :: r)) as [|k] eqn:Ek.
        + rewrite app_length. specialize (IH r ltac:(lia)). cbn. lia.
        + destruct (utf8_app _ _ Ek) as [Hl _]. cbn [List.length] in Hl.
          rewrite app_length. specialize (IH (skipn (S k) (b :: r))). rewrite skipn_length in IH. cbn [List.length] in IH. specialize (IH ltac:(lia)).
          assert (S k <= 4)%nat.
          { clear -Ek. cbn [utf8_len] in Ek. repeat match type of Ek with (match ?x with _ => _ end) = _ => destruct x end; try discriminate Ek; injection Ek as <-; lia. }
          assert (S k <= List.length (if bytes_eqb (firstn (S k) (b :: r)) [xe2; x80; xa8] then B "\u" ++ B "2028"
                       else if bytes_eqb (firstn (S k) (b :: r)) [xe2; x80; xa9] then B "\u" ++ B "2029"
                       else firstn (S k) (b :: r)))%nat.
          { destruct (bytes_eqb _ _); [cbn; lia|]. destruct (bytes_eqb _ _); [cbn; lia|]. rewrite firstn_length. cbn [List.length]. lia. }
          lia. }
    rewrite H; [reflexivity|]. rewrite app_length. specialize (Hl (List.length w) w (Nat.le_refl _)). cbn. lia.
  - split; [apply sanit_ascii; lia|apply sanit_bad; lia].
Qed.

(* ---- Parse and parsed ----------------------------------------------------------------------- *)
Lemma Parse_mode mode s : three mode -> forall options, m_parsingMode (NewMachine options) = mode -> forall u,
  Parse s options = Ret (s, Some u, true) <-> parsed mode s u.
Proof.
  intros Ht options Hm u. unfold Parse. destruct (parse_reach (NewMachine options) s (reach_new _)) as (m' & uo & eo & Hp & Hd & _).
  rewrite Hp. cbn [bind]. rewrite Hd. split.
  - intros H. destruct eo; [discriminate H|]. injection H as ->. exists (NewMachine options), m'. split; [apply reach_new|]. auto.
  - intros (m & m2 & Hr & Hm2 & Hp2). rewrite (parse_mode_eq m (NewMachine options)) in Hp2; [|exact Hr|apply reach_new|congruence|rewrite Hm2; exact Ht].
    rewrite Hp in Hp2. injection Hp2 as _ -> ->. reflexivity.
Qed.
Lemma Parse_err mode s : mode = PRFC2141Only \/ mode = PRFC7643Only -> forall options, m_parsingMode (NewMachine options) = mode ->
  (exists u, parsed mode s u /\ Parse s options = Ret (s, Some u, true)) \/
  ((forall u, ~ parsed mode s u) /\ Parse s options = Ret (s, None, false)).
Proof.
  intros Hm options Ho. assert (Ht : three mode) by (unfold three; tauto).
  destruct (Parse_total s options) as (uo & ok & Hp).
  pose proof (Parse_ok s options uo ok) as K. rewrite Ho in K. specialize (K Hm Hp).
  destruct uo as [u|].
  - left. exists u. assert (ok = true) as -> by (apply K; discriminate). split; [|exact Hp]. apply (Parse_mode mode s Ht options Ho u). exact Hp.
  - right. split.
    + intros u Hu. apply (Parse_mode mode s Ht options Ho u) in Hu. rewrite Hp in Hu. discriminate Hu.
    + rewrite Hp. destruct ok; [exfalso; apply (proj1 K eq_refl); reflexivity|reflexivity].
Qed.
Lemma parsed_det mode s u u' : three mode -> parsed mode s u -> parsed mode s u' -> u = u'.
Proof.
  intros Ht H H'. assert (Hm : m_parsingMode (NewMachine [mode]) = mode) by reflexivity.
  apply (Parse_mode mode s Ht [mode] Hm) in H, H'. rewrite H in H'. injection H' as ->. reflexivity.
Qed.
Lemma url_ascii s : forallb url_char s = true -> ascii s.
Proof.
  unfold ascii. rewrite !forallb_forall. intros H c Hc. specialize (H c Hc). destruct c; try discriminate H; reflexivity.
Qed.
Lemma parsed_ascii mode s u : three mode -> parsed mode s u -> ascii s.
Proof. intros Ht H. apply url_ascii. exact (chars_parsed mode s u H Ht). Qed.

(* ---- C30: all or nothing ---------------------------------------------------------------------- *)
Lemma URN_unmarshal u b :
  match json_Unmarshal b with
  | None => URN_UnmarshalJSON u b = Ret (u, Some JJson)
  | Some w => (exists u', parsed PRFC2141Only w u' /\ URN_UnmarshalJSON u b = Ret (u', None)) \/
              ((forall u', ~ parsed PRFC2141Only w u') /\ URN_UnmarshalJSON u b = Ret (u, Some (JInvalid "invalid URN: %s" w)))
  end.
Proof.
  unfold URN_UnmarshalJSON. destruct (json_Unmarshal b) as [w|]; [|reflexivity].
  destruct (Parse_err PRFC2141Only w (or_introl eq_refl) [] eq_refl) as [(u' & H & ->)|[H ->]]; cbn [bind negb]; [left; eauto|right; auto].
Qed.
Lemma URN8141_unmarshal u b :
  match json_Unmarshal b with
  | None => URN8141_UnmarshalJSON u b = Ret (u, Some JJson)
  | Some w => (exists u', parsed PRFC8141Only w u' /\ URN8141_UnmarshalJSON u b = Ret (Some u', None)) \/
              (silent8141 w /\ URN8141_UnmarshalJSON u b = Ret (None, None)) \/
              ((forall u', ~ parsed PRFC8141Only w u') /\ ~ silent8141 w /\
                 URN8141_UnmarshalJSON u b = Ret (u, Some (JInvalid "invalid URN per RFC 8141: %s" w)))
  end.
Proof.
  unfold URN8141_UnmarshalJSON. destruct (json_Unmarshal b) as [w|]; [|reflexivity].
  unfold Parse. destruct (reach_mach PRFC8141Only) as [Hr Hm]. destruct (parse_reach (NewMachine [PRFC8141Only]) w Hr) as (m' & uo & eo & Hp & Hd & _).
  pose proof (nilnil8141 _ _ _ _ _ Hr Hm Hp) as Hs. rewrite Hp. cbn [bind]. rewrite Hd.
  pose proof (parse8141_ref _ _ _ _ _ Hr Hm Hp) as Ho. apply outcome_eq in Ho.
  assert (Hn : forall u', parsed PRFC8141Only w u' -> uo = Some u').
  { intros u' Hu. apply (Parse_mode PRFC8141Only w ltac:(unfold three; auto) [PRFC8141Only] Hm u') in Hu. unfold Parse in Hu.
    rewrite Hp in Hu. cbn [bind] in Hu. destruct eo; [discriminate Hu|]. injection Hu as _ ->. reflexivity. }
  destruct uo as [u'|], eo as [e|]; cbn [negb]; try contradiction.
  - left. exists u'. split; [|reflexivity]. exists (NewMachine [PRFC8141Only]), m'. auto.
  - right; right. split; [intros u' Hu; apply Hn in Hu; discriminate Hu|]. split; [|reflexivity]. intros K. apply Hs in K. destruct K as [_ K]; discriminate K.
  - right; left. split; [apply Hs; auto|reflexivity].
Qed.
Lemma SCIM_unmarshal s b :
  match json_Unmarshal b with
  | None => SCIM_UnmarshalJSON s b = Ret (s, Some JJson)
  | Some w => (exists u' s', parsed PRFC7643Only w u' /\ URN_SCIM u' = Some s' /\ SCIM_UnmarshalJSON s b = Ret (s', None)) \/
              ((forall u', ~ parsed PRFC7643Only w u') /\ SCIM_UnmarshalJSON s b = Ret (s, Some (JInvalid "invalid SCIM URN: %s" w)))
  end.
Proof.
  unfold SCIM_UnmarshalJSON. destruct (json_Unmarshal b) as [w|]; [|reflexivity].
  destruct (Parse_err PRFC7643Only w (or_intror eq_refl) [PRFC7643Only] eq_refl) as [(u' & H & ->)|[H ->]]; cbn [bind negb]; [left|right; auto].
  destruct (scim_string_parsed w u' H) as (sc & p & r & Hsc & _). exists u', sc. split; [exact H|]. split; [exact Hsc|].
  unfold RFC. unfold URN_SCIM in *. destruct (u_kind u' =? KRFC7643); cbn [negb] in *; [|discriminate Hsc]. rewrite Hsc. reflexivity.
Qed.

(* ---- C27-C29: round trips ------------------------------------------------------------------------ *)
(* For any URN value: what comes back is the parse of its String, or an error *)
Theorem URN_roundtrip newer u v :
  (exists u', parsed PRFC2141Only (URN_String u) u' /\ URN_UnmarshalJSON v (URN_MarshalJSON newer u) = Ret (u', None)) \/
  ((forall u', ~ parsed PRFC2141Only (URN_String u) u') /\
   exists w, URN_UnmarshalJSON v (URN_MarshalJSON newer u) = Ret (v, Some (JInvalid "invalid URN: %s" w)) /\ (ascii (URN_String u) -> w = URN_String u)).
Proof.
  unfold URN_MarshalJSON. destruct (unmarshal_marshal newer (URN_String u)) as (w & Hw & H1 & H2).
  pose proof (URN_unmarshal v (json_Marshal newer (URN_String u))) as K. rewrite Hw in K.
  assert (Ha : forall s u', parsed PRFC2141Only s u' -> ascii s) by (intros s u'; apply parsed_ascii; left; reflexivity).
  assert (D : ascii (URN_String u) \/ ~ ascii (URN_String u)) by (unfold ascii; destruct (forallb is_ascii (URN_String u)); auto).
  destruct K as [(u' & Hp & ->)|[Hp ->]].
  - left. exists u'. split; [|reflexivity]. destruct D as [D|D]; [rewrite <- (H1 D); exact Hp|]. exfalso. apply (H2 D). eauto.
  - right. split; [|exists w; split; [reflexivity|exact H1]]. intros u' Hu. destruct D as [D|D]; [rewrite (H1 D) in Hp; apply (Hp u' Hu)|]. apply D. eauto.
Qed.
Theorem URN_roundtrip_parsed newer s u v : parsed PRFC2141Only s u ->
  URN_UnmarshalJSON v (URN_MarshalJSON newer u) = Ret (u, None).
Proof.
  intros H. destruct (URN_roundtrip newer u v) as [(u' & Hp & E)|[Hn _]].
  - rewrite E. apply reparse2141 in H. rewrite (parsed_det PRFC2141Only (URN_String u) u u'); auto. left; reflexivity.
  - exfalso. apply (Hn u). apply reparse2141 in H. exact H.
Qed.

(* the only character of a URN that encoding/json escapes *)
Definition amp_esc (c : byte) : bytes := if Byte.eqb c "&" then B "\u" ++ B "0026" else [c].
Lemma jenc_plain newer n : forall s, (List.length s <= n)%nat -> forallb url_char s = true ->
  jenc newer n s = flat_map amp_esc s.
Proof.
  induction n as [|n IH]; intros s Hn Hs; (destruct s as [|b r]; [reflexivity|]); [cbn in Hn; lia|].
  cbn [forallb] in Hs. apply andb_true_iff in Hs as [Hb Hs]. cbn [jenc flat_map List.length] in *.
  replace (Byte.to_N b <? 128)%N with true by (destruct b; try discriminate Hb; reflexivity).
  rewrite IH by (auto; lia). f_equal. destruct b; try discriminate Hb; destruct newer; reflexivity.
Qed.
Lemma marshal_url newer s : forallb url_char s = true ->
  json_Marshal newer s = ["034"%byte] ++ flat_map amp_esc s ++ ["034"%byte].
Proof. intros H. unfold json_Marshal. rewrite jenc_plain by auto. reflexivity. Qed.
Lemma no_amp s : forallb url_char s = true -> ~ In "&"%byte s ->
  flat_map amp_esc s = s.
Proof.
  induction s as [|c s IH]; intros H Ha; [reflexivity|]. cbn [flat_map forallb] in *. apply andb_true_iff in H as [_ H].
  unfold amp_esc at 1. destruct (Byte.eqb c "&") eqn:E; [apply beq_eq in E; subst c; contradiction Ha; left; reflexivity|].
  cbn [app]. f_equal. apply IH; [exact H|]. intros K. apply Ha. right. exact K.
Qed.
Lemma amp2141 mode s u : mode = PRFC2141Only \/ mode = PRFC7643Only -> parsed mode s u -> ~ In "&"%byte s.
Proof.
  assert (E : forall w, escaped alnum sss w -> ~ In "&"%byte w).
  { induction 1 as [|c w Hc _ IH|a b w Ha Hb _ IH]; [intros []| |].
    - intros [K|K]; [subst c; discriminate Hc|exact (IH K)].
    - intros [K|[K|[K|K]]]; [discriminate K|subst a; discriminate Ha|subst b; discriminate Hb|exact (IH K)]. }
  assert (P : forall w, urn_word w -> ~ In "&"%byte w).
  { intros w H Hi. apply (in_map low) in Hi. unfold urn_word, lowers in H. rewrite H in Hi. cbn in Hi. repeat (destruct Hi as [Hi|Hi]; [discriminate Hi|]); contradiction. }
  intros [->| ->] H.
  - destruct (parts2141 s u H) as (p & (-> & Hp & (_ & _ & Hn & _) & _ & He) & _).
    rewrite !in_app_iff. cbn [colon In]. intros [K|[[K|[]]|[K|[[K|[]]|K]]]]; try discriminate K; [apply (P p Hp K)| |apply (E _ He K)].
    rewrite forallb_forall in Hn. apply Hn in K. discriminate K.
  - destruct (partsscim s u H) as (p & t & sc & (-> & Hp & Ht & Hn & Ho) & _).
    rewrite !in_app_iff. cbn [colon In]. intros [K|[[K|[]]|[K|[[K|[]]|K]]]]; try discriminate K; [apply (P p Hp K)| |apply (E _ (scim_ss_esc _ _ _ Ht Hn Ho) K)].
    cbn in K. repeat (destruct K as [K|K]; [discriminate K|]); contradiction.
Qed.

Theorem URN_json_text newer s u : parsed PRFC2141Only s u -> URN_MarshalJSON newer u = ["034"%byte] ++ s ++ ["034"%byte].
Proof.
  intros H. unfold URN_MarshalJSON. rewrite (String2141 s u H). rewrite marshal_url; [|apply (chars_parsed _ _ _ H); left; reflexivity].
  rewrite no_amp; [reflexivity|apply (chars_parsed _ _ _ H); left; reflexivity|]. apply (amp2141 PRFC2141Only s u); auto.
Qed.

Theorem URN8141_roundtrip newer s u v : parsed PRFC8141Only s u ->
  exists t u', URN8141_MarshalJSON newer (Some u) = Ret t /\
    t = ["034"%byte] ++ flat_map amp_esc (URN_String u) ++ ["034"%byte] /\
    URN8141_UnmarshalJSON v t = Ret (Some u', None) /\ parsed PRFC8141Only (URN_String u) u' /\ pub_of u' = pub_of u.
Proof.
  intros H. destruct (reparse8141 s u H) as (u' & Hp & K).
  assert (T : three PRFC8141Only) by (unfold three; auto).
  exists (json_Marshal newer (URN_String u)), u'. split; [reflexivity|]. split; [apply marshal_url; apply (chars_parsed _ _ _ Hp T)|].
  split; [|auto]. destruct (unmarshal_marshal newer (URN_String u)) as (w & Hw & H1 & _).
  specialize (H1 (parsed_ascii _ _ _ T Hp)). subst w.
  pose proof (URN8141_unmarshal v (json_Marshal newer (URN_String u))) as J. rewrite Hw in J.
  destruct J as [(u2 & Hu2 & J)|[[Hs _]|[Hn _]]].
  - rewrite (parsed_det _ _ _ _ T Hp Hu2). exact J.
  - exfalso. destruct Hp as (m & m' & Hr & Hm & Hp). apply (nilnil8141 _ _ _ _ _ Hr Hm Hp) in Hs. destruct Hs as [Hs _]; discriminate Hs.
  - exfalso. apply (Hn u' Hp).
Qed.

Theorem SCIM_roundtrip newer sc v : s_Type sc = TSchemas \/ s_Type sc = TAPI \/ s_Type sc = TParam -> scim_name (s_Name sc) ->
  s_Other sc = [] \/ scim_other (s_Other sc) ->
  SCIM_MarshalJSON newer sc = ["034"%byte] ++ SCIM_String sc ++ ["034"%byte] /\
  exists sc', SCIM_UnmarshalJSON v (SCIM_MarshalJSON newer sc) = Ret (sc', None) /\
    s_Type sc' = s_Type sc /\ s_Name sc' = s_Name sc /\ s_Other sc' = s_Other sc.
Proof.
  intros Ht Hn Ho. destruct (scim_string_rt sc Ht Hn Ho) as (u & sc' & Hp & Hs & E1 & E2 & E3).
  assert (T : three PRFC7643Only) by (unfold three; auto). split.
  - unfold SCIM_MarshalJSON. rewrite marshal_url, no_amp; [reflexivity| | |]; try apply (chars_parsed _ _ _ Hp T).
    apply (amp2141 PRFC7643Only _ u); auto.
  - exists sc'. split; [|auto]. unfold SCIM_MarshalJSON. destruct (unmarshal_marshal newer (SCIM_String sc)) as (w & Hw & H1 & _).
    specialize (H1 (parsed_ascii _ _ _ T Hp)). subst w.
    pose proof (SCIM_unmarshal v (json_Marshal newer (SCIM_String sc))) as J. rewrite Hw in J.
    destruct J as [(u2 & sc2 & Hu2 & Hsc2 & J)|[Hx _]].
    + rewrite (parsed_det _ _ _ _ T Hp Hu2) in Hs. rewrite Hs in Hsc2. injection Hsc2 as <-. exact J.
    + exfalso. apply (Hx u Hp).
Qed.
