(* The JSON decoder and encoder against the grammar of SpecJson.v (C53). *)
From Coq Require Import Lia ZifyBool.
From Verif Require Import GoBase MachineSyntax MachineTables Machine Urn Json Spec Ref Exec SimBase ParseThm RefSpec RefSpec8 RefSpec8b Api PropsA PropsB PropsJson SpecJson.
Local Open Scope N_scope.
Local Open Scope list_scope.

Lemma to_N_lt b : Byte.to_N b < 256.
Proof. destruct b; reflexivity. Qed.
Lemma to_N_inj a b : Byte.to_N a = Byte.to_N b -> a = b.
Proof. intros H. apply (f_equal Byte.of_N) in H. rewrite !Byte.of_to_N in H. congruence. Qed.
Lemma nb_to_N n : n < 256 -> Byte.to_N (nb n) = n.
Proof.
  intros H. unfold nb. destruct (Byte.of_N n) as [b|] eqn:E; [apply Byte.to_of_N_iff in E; exact E|].
  exfalso. apply Byte.of_N_None_iff in E. lia.
Qed.
Lemma to_N_nb b : nb (Byte.to_N b) = b.
Proof. unfold nb. rewrite Byte.of_to_N. reflexivity. Qed.

(* ---- UTF-8 ------------------------------------------------------------------------------- *)
Lemma utf8_enc_spec n : scalar n -> utf8 n (utf8_enc n).
Proof.
  intros Hs. split; [exact Hs|]. unfold utf8_enc. destruct Hs as [Hn Hs].
  destruct (N.ltb_spec n 128); [left; exists (nb n); rewrite nb_to_N by lia; auto|].
  destruct (N.ltb_spec n 2048).
  { right; left. exists (nb (192 + n / 64)), (nb (128 + n mod 64)), (n / 64), (n mod 64).
    assert (n / 64 < 32) by (apply N.div_lt_upper_bound; lia). assert (n mod 64 < 64) by (apply N.mod_lt; lia).
    pose proof (N.div_mod n 64 ltac:(lia)). unfold cont. rewrite !nb_to_N by lia. repeat split; lia. }
  destruct (N.ltb_spec n 65536).
  { right; right; left. exists (nb (224 + n / 4096)), (nb (128 + n / 64 mod 64)), (nb (128 + n mod 64)), (n / 4096), (n / 64 mod 64), (n mod 64).
    assert (n / 4096 < 16) by (apply N.div_lt_upper_bound; lia). assert (n mod 64 < 64) by (apply N.mod_lt; lia).
    assert (n / 64 mod 64 < 64) by (apply N.mod_lt; lia).
    pose proof (N.div_mod n 64 ltac:(lia)). pose proof (N.div_mod (n / 64) 64 ltac:(lia)).
    assert (n / 64 / 64 = n / 4096) by (rewrite N.div_div by lia; reflexivity).
    unfold cont. rewrite !nb_to_N by lia. repeat split; lia. }
  right; right; right.
  exists (nb (240 + n / 262144)), (nb (128 + n / 4096 mod 64)), (nb (128 + n / 64 mod 64)), (nb (128 + n mod 64)),
    (n / 262144), (n / 4096 mod 64), (n / 64 mod 64), (n mod 64).
  assert (n / 262144 < 5) by (apply N.div_lt_upper_bound; lia). assert (n mod 64 < 64) by (apply N.mod_lt; lia).
  assert (n / 64 mod 64 < 64) by (apply N.mod_lt; lia). assert (n / 4096 mod 64 < 64) by (apply N.mod_lt; lia).
  pose proof (N.div_mod n 64 ltac:(lia)). pose proof (N.div_mod (n / 64) 64 ltac:(lia)). pose proof (N.div_mod (n / 4096) 64 ltac:(lia)).
  assert (n / 64 / 64 = n / 4096) by (rewrite N.div_div by lia; reflexivity).
  assert (n / 4096 / 64 = n / 262144) by (rewrite N.div_div by lia; reflexivity).
  unfold cont. rewrite !nb_to_N by lia. repeat split; lia.
Qed.
Lemma utf8_fun n v v' : utf8 n v -> utf8 n v' -> v = v'.
Proof.
  intros [_ H] [_ H']. unfold cont in *.
  destruct H as [(a & -> & H)|[(a & b & x & y & -> & H)|[(a & b & c & x & y & z & -> & H)|(a & b & c & d & x & y & z & t & -> & H)]]];
  destruct H' as [(a' & -> & H')|[(a' & b' & x' & y' & -> & H')|[(a' & b' & c' & x' & y' & z' & -> & H')|(a' & b' & c' & d' & x' & y' & z' & t' & -> & H')]]];
  try lia; repeat (f_equal; try (apply to_N_inj; lia)).
Qed.

(* the decoder's test *)
Lemma utf8_len_sound s k : utf8_len s = S k -> exists n, utf8 n (firstn (S k) s) /\ 128 <= n.
Proof.
  intros H. destruct s as [|a [|b r]]; try discriminate H. cbn [utf8_len] in H. unfold rng in H. cbv beta zeta in H.
  pose proof (to_N_lt a). pose proof (to_N_lt b).
  match type of H with (if ?x then _ else _) = _ => destruct x eqn:E2 end.
  { injection H as <-. cbn [firstn]. exists ((Byte.to_N a - 192) * 64 + (Byte.to_N b - 128)). split; [|lia].
    split; [unfold scalar, surrogate; lia|]. right; left.
    exists a, b, (Byte.to_N a - 192), (Byte.to_N b - 128). unfold cont. repeat split; lia. }
  destruct r as [|c r]; [discriminate H|]. pose proof (to_N_lt c).
  match type of H with (if ?x then _ else _) = _ => destruct x eqn:E3 end.
  { injection H as <-. cbn [firstn]. exists (((Byte.to_N a - 224) * 64 + (Byte.to_N b - 128)) * 64 + (Byte.to_N c - 128)). split; [|lia].
    split; [unfold scalar, surrogate; lia|]. right; right; left.
    exists a, b, c, (Byte.to_N a - 224), (Byte.to_N b - 128), (Byte.to_N c - 128). unfold cont. repeat split; lia. }
  destruct r as [|d r]; [discriminate H|]. pose proof (to_N_lt d).
  match type of H with (if ?x then _ else _) = _ => destruct x eqn:E4 end; [|discriminate H].
  injection H as <-. cbn [firstn].
  exists ((((Byte.to_N a - 240) * 64 + (Byte.to_N b - 128)) * 64 + (Byte.to_N c - 128)) * 64 + (Byte.to_N d - 128)). split; [|lia].
  split; [unfold scalar, surrogate; lia|]. right; right; right.
  exists a, b, c, d, (Byte.to_N a - 240), (Byte.to_N b - 128), (Byte.to_N c - 128), (Byte.to_N d - 128). unfold cont. repeat split; lia.
Qed.
Lemma utf8_len_complete n v z : utf8 n v -> 128 <= n -> utf8_len (v ++ z) = List.length v.
Proof.
  intros [[Hn Hs] H] Hn'. unfold surrogate, cont in *.
  destruct H as [(a & -> & H)|[(a & b & x & y & -> & H)|[(a & b & c & x & y & u & -> & H)|(a & b & c & d & x & y & u & t & -> & H)]]]; [lia| | |];
    cbn [app utf8_len List.length]; unfold rng; cbv beta zeta.
  - match goal with |- (if ?x then _ else _) = _ => destruct x eqn:E2 end; [reflexivity|lia].
  - match goal with |- (if ?x then _ else _) = _ => destruct x eqn:E2 end; [lia|].
    match goal with |- (if ?x then _ else _) = _ => destruct x eqn:E3 end; [reflexivity|lia].
  - match goal with |- (if ?x then _ else _) = _ => destruct x eqn:E2 end; [lia|].
    match goal with |- (if ?x then _ else _) = _ => destruct x eqn:E3 end; [lia|].
    match goal with |- (if ?x then _ else _) = _ => destruct x eqn:E4 end; [reflexivity|lia].
Qed.

(* ---- \u escapes ---------------------------------------------------------------------------- *)
Lemma hexv_digit b n : hexv b = Some n <-> digit b n.
Proof.
  unfold hexv, digit, rng. pose proof (to_N_lt b).
  repeat match goal with |- context [if ?x then _ else _] => destruct x eqn:?E end; split; intros K;
    try (injection K as <-; lia); try discriminate K; try lia; f_equal; lia.
Qed.
Lemma hex4_four s n r : hex4 s = Some (n, r) <-> exists h, s = h ++ r /\ four h n.
Proof.
  split.
  - intros H. unfold hex4 in H. destruct s as [|a [|b [|c [|d s]]]]; try discriminate H.
    destruct (hexv a) as [x|] eqn:Ea; [|discriminate H]. destruct (hexv b) as [y|] eqn:Eb; [|discriminate H].
    destruct (hexv c) as [z|] eqn:Ec; [|discriminate H]. destruct (hexv d) as [t|] eqn:Ed; [|discriminate H].
    apply hexv_digit in Ea, Eb, Ec, Ed. exists [a; b; c; d]. 
    assert (En : ((x * 16 + y) * 16 + z) * 16 + t = n) by congruence. assert (Er : s = r) by congruence. subst n s. split; [reflexivity|].
    exists a, b, c, d, x, y, z, t. auto 10.
  - intros (h & -> & (a & b & c & d & x & y & z & t & -> & Ha & Hb & Hc & Hd & ->)). cbn [app hex4].
    apply hexv_digit in Ha, Hb, Hc, Hd. rewrite Ha, Hb, Hc, Hd. reflexivity.
Qed.
Lemma four_lt h n : four h n -> n < 65536.
Proof. intros (a & b & c & d & x & y & z & t & -> & Ha & Hb & Hc & Hd & ->). unfold digit in *. lia. Qed.
Lemma four_fun h n m : four h n -> four h m -> n = m.
Proof.
  intros H H'. assert (K := proj2 (hex4_four h n []) (ex_intro _ h (conj (eq_sym (app_nil_r h)) H))).
  assert (K' := proj2 (hex4_four h m []) (ex_intro _ h (conj (eq_sym (app_nil_r h)) H'))). congruence.
Qed.
Lemma four_len h n : four h n -> List.length h = 4%nat.
Proof. intros (a & b & c & d & x & y & z & t & -> & _). reflexivity. Qed.

Lemma four_head h h' n n' r r' : four h n -> four h' n' -> h ++ r = h' ++ r' -> h = h' /\ r = r' /\ n = n'.
Proof.
  intros H H' E. assert (K : h = h' /\ r = r').
  { destruct H as (a & b & c & d & x & y & z & t & -> & _). destruct H' as (a' & b' & c' & d' & x' & y' & z' & t' & -> & _).
    cbn [app] in E. injection E as -> -> -> -> ->. auto. }
  destruct K as [-> ->]. split; [reflexivity|]. split; [reflexivity|]. eapply four_fun; eauto.
Qed.

Definition joined (n m : N) : N := 65536 + (n - 55296) * 1024 + (m - 56320).
Lemma beq_true a b : Byte.eqb a b = true -> a = b.
Proof. apply Byte.byte_dec_bl. Qed.
Lemma beq_same a : Byte.eqb a a = true.
Proof. apply Byte.byte_dec_lb. reflexivity. Qed.

Lemma junicode_inv s w r : junicode s = Some (w, r) -> exists h n r0, s = h ++ r0 /\ four h n /\
  ((~ surrogate n /\ r = r0 /\ w = utf8_enc n) \/
   (55296 <= n <= 56319 /\ exists h' m, r0 = u_escape h' ++ r /\ four h' m /\ 56320 <= m <= 57343 /\ w = utf8_enc (joined n m)) \/
   (surrogate n /\ ~ pair_after n r0 /\ r = r0 /\ w = repl)).
Proof.
  unfold junicode. destruct (hex4 s) as [[n r0]|] eqn:E; [|discriminate]. apply hex4_four in E. destruct E as (h & -> & Hf).
  intros H. exists h, n, r0. split; [reflexivity|]. split; [exact Hf|]. unfold surrogate.
  destruct ((n <? 55296) || (57343 <? n)) eqn:En; [left; split; [lia|]; split; congruence|].
  assert (Hn : 55296 <= n <= 57343) by lia. clear En.
  assert (Lone : ~ pair_after n r0 -> Some (repl, r0) = Some (w, r) ->
    55296 <= n <= 57343 /\ ~ pair_after n r0 /\ r = r0 /\ w = repl) by (intros K E; split; [exact Hn|]; split; [exact K|]; split; congruence).
  destruct r0 as [|x [|y r']].
  - right; right. apply Lone; [|exact H]. intros (_ & h' & m & z & K & _). discriminate K.
  - right; right. apply Lone; [|exact H]. intros (_ & h' & m & z & K & _). discriminate K.
  - destruct (Byte.eqb x "\" && Byte.eqb y "u") eqn:Exy.
    + apply andb_true_iff in Exy. destruct Exy as [Ex Ey]. apply beq_true in Ex, Ey. subst x y.
      destruct (hex4 r') as [[m r2]|] eqn:E4.
      * apply hex4_four in E4. destruct E4 as (h' & -> & Hf').
        destruct ((n <? 56320) && (56320 <=? m) && (m <=? 57343)) eqn:Ec.
        -- right; left. split; [lia|]. exists h', m. unfold joined. split; [|split; [exact Hf'|split; [lia|congruence]]].
           unfold u_escape. cbn [app]. congruence.
        -- right; right. apply Lone; [|exact H]. intros (Hhi & h2 & m2 & z & K & Hf2 & Hlo).
           injection K as K. destruct (four_head _ _ _ _ _ _ Hf' Hf2 K) as (_ & _ & ->). lia.
      * right; right. apply Lone; [|exact H]. intros (Hhi & h2 & m2 & z & K & Hf2 & Hlo). injection K as K.
        assert (X := proj2 (hex4_four r' m2 z) (ex_intro _ h2 (conj K Hf2))). congruence.
    + right; right. apply Lone; [|exact H]. intros (_ & h2 & m2 & z & K & _). injection K as -> -> _. discriminate Exy.
Qed.

Lemma junicode_plain h n r : four h n -> ~ surrogate n -> junicode (h ++ r) = Some (utf8_enc n, r).
Proof.
  intros Hf Hs. unfold junicode. rewrite (proj2 (hex4_four (h ++ r) n r) (ex_intro _ h (conj eq_refl Hf))).
  unfold surrogate in Hs. replace ((n <? 55296) || (57343 <? n)) with true by lia. reflexivity.
Qed.
Lemma junicode_pair h n h' m r : four h n -> 55296 <= n <= 56319 -> four h' m -> 56320 <= m <= 57343 ->
  junicode (h ++ u_escape h' ++ r) = Some (utf8_enc (joined n m), r).
Proof.
  intros Hf Hn Hf' Hm. unfold junicode. rewrite (proj2 (hex4_four _ n _) (ex_intro _ h (conj eq_refl Hf))).
  replace ((n <? 55296) || (57343 <? n)) with false by lia. unfold u_escape. cbn [app]. rewrite !beq_same. cbn [andb].
  rewrite (proj2 (hex4_four (h' ++ r) m r) (ex_intro _ h' (conj eq_refl Hf'))).
  replace ((n <? 56320) && (56320 <=? m) && (m <=? 57343)) with true by lia. reflexivity.
Qed.
Lemma junicode_lone h n r : four h n -> surrogate n -> ~ pair_after n r -> junicode (h ++ r) = Some (repl, r).
Proof.
  intros Hf Hs Hp. destruct (junicode (h ++ r)) as [[w r']|] eqn:E.
  - destruct (junicode_inv _ _ _ E) as (h2 & n2 & r0 & E2 & Hf2 & K). destruct (four_head _ _ _ _ _ _ Hf Hf2 E2) as (<- & <- & <-).
    destruct K as [(K & _)|[(K & h' & m & K1 & K2 & K3 & _)|(_ & _ & -> & ->)]]; [contradiction| |reflexivity].
    exfalso. apply Hp. split; [exact K|]. exists h', m, r'. auto.
  - exfalso. unfold junicode in E. rewrite (proj2 (hex4_four (h ++ r) n r) (ex_intro _ h (conj eq_refl Hf))) in E.
    repeat match type of E with (match ?x with _ => _ end) = _ => destruct x end; discriminate E.
Qed.

(* ---- string literals -------------------------------------------------------------------------- *)
Lemma before_quote p z t r : ~ In x22 p -> p ++ z = t ++ x22 :: r -> exists z', t = p ++ z'.
Proof.
  revert t. induction p as [|c p IH]; intros t Hp E; [exists t; reflexivity|].
  destruct t as [|d t]; [injection E as -> _; exfalso; apply Hp; left; reflexivity|].
  injection E as -> E. destruct (IH t) as [z' ->]; [intros K; apply Hp; right; exact K|exact E|]. exists z'. reflexivity.
Qed.
Lemma digit_noquote b n : digit b n -> b <> x22.
Proof. intros H ->. unfold digit in H. change (Byte.to_N x22) with 34 in H. lia. Qed.
Lemma four_noquote h n : four h n -> ~ In x22 h.
Proof.
  intros (a & b & c & d & x & y & z & t & -> & Ha & Hb & Hc & Hd & _) K.
  destruct K as [K|[K|[K|[K|[]]]]]; subst; match goal with H : digit x22 _ |- _ => exact (digit_noquote _ _ H eq_refl) end.
Qed.
Lemma u_noquote h n : four h n -> ~ In x22 (u_escape h).
Proof. intros H [K|[K|K]]; [discriminate K|discriminate K|]. eapply four_noquote; eauto. Qed.
Lemma utf8_high n v : utf8 n v -> 128 <= n -> forall b, In b v -> 128 <= Byte.to_N b.
Proof.
  intros [_ H] Hn b K. unfold cont in *.
  destruct H as [(a & -> & H)|[(a & b1 & x & y & -> & H)|[(a & b1 & c & x & y & z & -> & H)|(a & b1 & c & d & x & y & z & t & -> & H)]]]; [lia| | |].
  - destruct K as [<-|[<-|[]]]; lia.
  - destruct K as [<-|[<-|[<-|[]]]]; lia.
  - destruct K as [<-|[<-|[<-|[<-|[]]]]]; lia.
Qed.
Lemma utf8_noquote n v : utf8 n v -> 128 <= n -> ~ In x22 v.
Proof. intros H Hn K. apply (utf8_high n v H Hn) in K. cbn in K. lia. Qed.
Lemma utf8_first n v c t : utf8 n v -> (exists z, c :: t = v ++ z) -> 128 <= Byte.to_N c -> 128 <= n.
Proof.
  intros [_ H] (z & E) Hc. destruct H as [(a & -> & H)|[(a & b & x & y & -> & H)|[(a & b & d & x & y & u & -> & H)|(a & b & d & e & x & y & u & w & -> & H)]]]; try lia.
  injection E as -> _. lia.
Qed.
Lemma pair_quote n t r : pair_after n (t ++ x22 :: r) -> pair_after n t.
Proof.
  intros (H & h & m & z & E & Hf & Hm). split; [exact H|].
  destruct (before_quote (u_escape h) z t r) as [z' ->]; [eapply u_noquote; eauto|symmetry; exact E|]. exists h, m, z'. auto.
Qed.
Lemma pair_more n t r : pair_after n t -> pair_after n (t ++ r).
Proof. intros (H & h & m & z & -> & Hf & Hm). split; [exact H|]. exists h, m, (z ++ r). rewrite <- app_assoc. auto. Qed.

Lemma jescape_short e d : jescape e = Some d <-> short e d.
Proof.
  unfold short. split.
  - intros H. destruct e; try discriminate H; injection H as <-; tauto.
  - intros H. repeat (destruct H as [[-> ->]|H]; [reflexivity|]). destruct H as [-> ->]. reflexivity.
Qed.

Lemma utf8_nonempty n v : utf8 n v -> v <> [].
Proof. intros [_ H] ->. repeat (destruct H as [H|H]); decompose [ex and] H; discriminate. Qed.

Lemma jdec_sound f : forall s w r, jdec f s = Some (w, r) -> exists t, s = t ++ [x22] ++ r /\ body t w.
Proof.
  induction f as [|f IH]; intros s w r H; [discriminate H|]. cbn [jdec] in H. destruct s as [|c s]; [discriminate H|].
  destruct (Byte.eqb c "034") eqn:E1.
  { apply beq_true in E1. subst c. injection H as <- <-. exists []. split; [reflexivity|constructor]. }
  assert (OC : forall v k w r, ocat v k = Some (w, r) -> exists w', k = Some (w', r) /\ w = v ++ w').
  { clear. intros v [[w' r']|] w r H; [|discriminate H]. injection H as <- <-. eauto. }
  destruct (Byte.eqb c "\") eqn:E2.
  { apply beq_true in E2. subst c. destruct s as [|e s]; [discriminate H|]. destruct (Byte.eqb e "u") eqn:E3.
    - apply beq_true in E3. subst e. destruct (junicode s) as [[v s']|] eqn:Eu; [|discriminate H].
      destruct (OC _ _ _ _ H) as (w' & K & ->). destruct (IH _ _ _ K) as (t & -> & Hb).
      destruct (junicode_inv _ _ _ Eu) as (h & n & r0 & -> & Hf & [(Hn & E & ->)|[(Hn & h' & m & E & Hf' & Hm & ->)|(Hn & Hp & E & ->)]]).
      + exists (u_escape h ++ t). split; [rewrite <- E, <- app_assoc; reflexivity|]. eapply body_u; eauto. apply utf8_enc_spec.
        split; [|exact Hn]. apply four_lt in Hf. lia.
      + exists (u_escape h ++ u_escape h' ++ t). split; [rewrite E, <- !app_assoc; reflexivity|]. eapply body_pair; eauto. apply utf8_enc_spec.
        unfold joined, scalar, surrogate. lia.
      + exists (u_escape h ++ t). split; [rewrite <- E, <- app_assoc; reflexivity|]. eapply body_lone; eauto.
        intros K'. apply Hp. rewrite <- E. apply pair_more. exact K'.
    - destruct (jescape e) as [d|] eqn:Ed; [|discriminate H]. destruct (OC _ _ _ _ H) as (w' & K & ->).
      destruct (IH _ _ _ K) as (t & -> & Hb). exists ("\"%byte :: e :: t). split; [reflexivity|]. apply body_short; [|exact Hb].
      apply jescape_short. exact Ed. }
  destruct (Byte.to_N c <? 32) eqn:E3; [discriminate H|]. destruct (Byte.to_N c <? 128) eqn:E4.
  { destruct (OC _ _ _ _ H) as (w' & K & ->). destruct (IH _ _ _ K) as (t & -> & Hb). exists (c :: t). split; [reflexivity|].
    apply body_ascii; [lia| | |exact Hb]; intros ->; discriminate. }
  destruct (utf8_len (c :: s)) as [|k] eqn:Ek.
  - destruct (OC _ _ _ _ H) as (w' & K & ->). destruct (IH _ _ _ K) as (t & -> & Hb). exists (c :: t). split; [reflexivity|].
    apply body_bad; [lia| |exact Hb]. intros n v z Hv Ez.
    assert (Hn : 128 <= n) by (eapply utf8_first; [exact Hv|exists z; exact Ez|lia]).
    assert (X := utf8_len_complete n v (z ++ [x22] ++ r) Hv Hn). rewrite app_assoc in X. rewrite <- Ez in X. cbn [app] in X, Ek. rewrite Ek in X.
    apply utf8_nonempty in Hv. destruct v as [|? ?]; [contradiction|discriminate X].
  - destruct (utf8_len_sound _ _ Ek) as (n & Hv & Hn). destruct (OC _ _ _ _ H) as (w' & K & ->). destruct (IH _ _ _ K) as (t & E & Hb).
    exists (firstn (S k) (c :: s) ++ t). split; [rewrite <- app_assoc, <- E; symmetry; apply firstn_skipn|]. eapply body_utf8; eauto.
Qed.

Lemma jdec_complete t w : body t w -> forall f r, (List.length t < f)%nat -> jdec f (t ++ [x22] ++ r) = Some (w, r).
Proof.
  induction 1 as [|c t w Hc H1 H2 Hb IH|n v t w Hv Hn Hb IH|c t w Hc Hbad Hb IH|e d t w Hs Hb IH|n h v t w Hf Hv Hb IH|
    n m h h' v t w Hf Hn Hf' Hm Hv Hb IH|n h t w Hf Hs Hp Hb IH]; intros f r Hl; (destruct f as [|f]; [lia|]); cbn [List.length] in Hl.
  - reflexivity.
  - cbn [app jdec]. destruct (Byte.eqb c "034") eqn:E1; [apply beq_true in E1; contradiction|].
    destruct (Byte.eqb c "\") eqn:E2; [apply beq_true in E2; contradiction|].
    replace (Byte.to_N c <? 32) with false by lia. replace (Byte.to_N c <? 128) with true by lia.
    change (t ++ x22 :: r) with (t ++ [x22] ++ r). rewrite IH by lia. reflexivity.
  - assert (Hne := utf8_nonempty n v Hv). assert (Hh := utf8_high n v Hv Hn).
    assert (X := utf8_len_complete n v (t ++ [x22] ++ r) Hv Hn). rewrite app_length in Hl.
    rewrite <- app_assoc. destruct v as [|c v]; [contradiction|]. cbn [List.length] in *.
    assert (X1 : firstn (S (List.length v)) ((c :: v) ++ t ++ [x22] ++ r) = c :: v).
    { change (S (List.length v)) with (List.length (c :: v)). rewrite firstn_app, Nat.sub_diag, firstn_O, app_nil_r. apply firstn_all. }
    assert (X2 : skipn (S (List.length v)) ((c :: v) ++ t ++ [x22] ++ r) = t ++ [x22] ++ r).
    { change (S (List.length v)) with (List.length (c :: v)). rewrite skipn_app, Nat.sub_diag, skipn_all. reflexivity. }
    cbn [app] in X, X1, X2 |- *. cbn [jdec]. specialize (Hh c (or_introl eq_refl)).
    destruct (Byte.eqb c "034") eqn:E1; [apply beq_true in E1; subst c; cbn in Hh; lia|].
    destruct (Byte.eqb c "\") eqn:E2; [apply beq_true in E2; subst c; cbn in Hh; lia|].
    replace (Byte.to_N c <? 32) with false by lia. replace (Byte.to_N c <? 128) with false by lia.
    rewrite X, X1, X2. change (t ++ x22 :: r) with (t ++ [x22] ++ r). rewrite IH by lia. reflexivity.
  - assert (X : utf8_len (c :: t ++ [x22] ++ r) = O).
    { destruct (utf8_len (c :: t ++ [x22] ++ r)) as [|k] eqn:Ek; [reflexivity|]. exfalso.
      destruct (utf8_len_sound _ _ Ek) as (n & Hv & Hn).
      destruct (before_quote (firstn (S k) (c :: t ++ [x22] ++ r)) (skipn (S k) (c :: t ++ [x22] ++ r)) (c :: t) r) as [z E].
      - eapply utf8_noquote; eauto.
      - apply firstn_skipn.
      - exact (Hbad n _ z Hv E). }
    cbn [app] in *. cbn [jdec].
    destruct (Byte.eqb c "034") eqn:E1; [apply beq_true in E1; subst c; cbn in Hc; lia|].
    destruct (Byte.eqb c "\") eqn:E2; [apply beq_true in E2; subst c; cbn in Hc; lia|].
    replace (Byte.to_N c <? 32) with false by lia. replace (Byte.to_N c <? 128) with false by lia.
    rewrite X. rewrite IH by lia. reflexivity.
  - cbn [app jdec]. change (Byte.eqb "\" "034") with false. change (Byte.eqb "\" "\") with true. cbv iota.
    destruct (Byte.eqb e "u") eqn:E3.
    { apply beq_true in E3. subst e. exfalso. apply jescape_short in Hs. discriminate Hs. }
    apply jescape_short in Hs. rewrite Hs. change (t ++ x22 :: r) with (t ++ [x22] ++ r). rewrite IH by lia. reflexivity.
  - rewrite <- app_assoc. unfold u_escape. cbn [app jdec]. change (Byte.eqb "\" "034") with false. change (Byte.eqb "\" "\") with true. change (Byte.eqb "u" "u") with true. cbv iota.
    rewrite (junicode_plain h n) by (auto; destruct Hv as [[_ Hv] _]; exact Hv).
    rewrite (utf8_fun n (utf8_enc n) v); [|apply utf8_enc_spec; apply Hv|exact Hv].
    unfold u_escape in Hl. rewrite app_length in Hl. cbn [List.length] in Hl.
    change (t ++ x22 :: r) with (t ++ [x22] ++ r). rewrite IH by lia. reflexivity.
  - rewrite <- !app_assoc. unfold u_escape at 1. cbn [app jdec]. change (Byte.eqb "\" "034") with false. change (Byte.eqb "\" "\") with true. change (Byte.eqb "u" "u") with true. cbv iota.
    rewrite (junicode_pair h n h' m) by auto. unfold joined.
    rewrite (utf8_fun (65536 + (n - 55296) * 1024 + (m - 56320)) (utf8_enc (65536 + (n - 55296) * 1024 + (m - 56320))) v); [|apply utf8_enc_spec; apply Hv|exact Hv].
    unfold u_escape in Hl. rewrite !app_length in Hl. cbn [List.length] in Hl.
    change (t ++ x22 :: r) with (t ++ [x22] ++ r). rewrite IH by lia. reflexivity.
  - rewrite <- app_assoc. unfold u_escape. cbn [app jdec]. change (Byte.eqb "\" "034") with false. change (Byte.eqb "\" "\") with true. change (Byte.eqb "u" "u") with true. cbv iota.
    rewrite (junicode_lone h n) by (auto; intros K; apply Hp; eapply pair_quote; exact K).
    unfold u_escape in Hl. rewrite app_length in Hl. cbn [List.length] in Hl.
    change (t ++ x22 :: r) with (t ++ [x22] ++ r). rewrite IH by lia. reflexivity.
Qed.

(* ---- documents ------------------------------------------------------------------------------------ *)
Lemma jspace_iff c : jspace c = true <-> (c = " "%byte \/ c = x09 \/ c = x0a \/ c = x0d).
Proof.
  unfold jspace. rewrite !Bool.orb_true_iff. split.
  - intros [[[H|H]|H]|H]; apply beq_true in H; auto.
  - intros [->|[->|[->| ->]]]; auto.
Qed.
Lemma jtrim_white s : exists l, s = l ++ jtrim s /\ white l.
Proof.
  induction s as [|c s [l [E Hl]]]; [exists []; split; [reflexivity|constructor]|]. cbn [jtrim]. destruct (jspace c) eqn:Ec.
  - exists (c :: l). split; [cbn; congruence|]. constructor; [apply jspace_iff; exact Ec|exact Hl].
  - exists []. split; [reflexivity|constructor].
Qed.
Lemma jtrim_head l c s : white l -> jspace c = false -> jtrim (l ++ c :: s) = c :: s.
Proof.
  intros Hl Hc. induction Hl as [|d l Hd _ IH]; cbn [app jtrim]; [rewrite Hc; reflexivity|]. apply jspace_iff in Hd. rewrite Hd. exact IH.
Qed.
Lemma jtrim_all l : white l <-> jtrim l = [].
Proof.
  split.
  - intros Hl. induction Hl as [|d l Hd _ IH]; [reflexivity|]. cbn [jtrim]. apply jspace_iff in Hd. rewrite Hd. exact IH.
  - intros H. destruct (jtrim_white l) as (l' & E & Hl). rewrite H, app_nil_r in E. subst l'. exact Hl.
Qed.

Theorem unmarshal_doc b w : json_Unmarshal b = Some w <-> string_doc b w \/ (null_doc b /\ w = []).
Proof.
  unfold json_Unmarshal. split.
  - destruct (jtrim_white b) as (l & E & Hl). destruct (jtrim b) as [|c r]; [discriminate|].
    destruct (Byte.eqb c "034") eqn:E1.
    + apply beq_true in E1. subst c. destruct (jdec (S (List.length r)) r) as [[w' rest]|] eqn:Ed; [|discriminate].
      destruct (jtrim rest) eqn:Et; [|discriminate]. intros H. injection H as <-. left.
      destruct (jdec_sound _ _ _ _ Ed) as (t & -> & Hb). exists l, t, rest. split; [exact E|]. split; [exact Hl|]. split; [|exact Hb].
      apply jtrim_all. exact Et.
    + destruct (bytes_eqb (firstn 4 (c :: r)) (B "null")) eqn:En; [|discriminate]. apply bytes_eqb_eq in En.
      destruct (jtrim (skipn 4 (c :: r))) eqn:Et; [|discriminate]. intros H. injection H as <-. right. split; [|reflexivity].
      exists l, (skipn 4 (c :: r)). rewrite <- En, firstn_skipn. split; [exact E|]. split; [exact Hl|]. apply jtrim_all. exact Et.
  - intros [(l & t & r & -> & Hl & Hr & Hb)|[(l & r & -> & Hl & Hr) ->]].
    + cbn [app]. rewrite jtrim_head by (auto; reflexivity). change (Byte.eqb x22 "034") with true. cbv iota.
      change (t ++ x22 :: r) with (t ++ [x22] ++ r). rewrite (jdec_complete t w Hb).
      * apply jtrim_all in Hr. rewrite Hr. reflexivity.
      * rewrite app_length. lia.
    + change (B "null" ++ r) with ("n"%byte :: "u"%byte :: "l"%byte :: "l"%byte :: r). rewrite jtrim_head by (auto; reflexivity).
      change (Byte.eqb "n" "034") with false. cbv iota. cbn [firstn skipn].
      change (bytes_eqb ["n"%byte; "u"%byte; "l"%byte; "l"%byte] (B "null")) with true. cbv iota. apply jtrim_all in Hr. rewrite Hr. reflexivity.
Qed.

(* ---- encoding ---------------------------------------------------------------------------------------- *)
Lemma ascii_utf8 b : Byte.to_N b < 128 -> utf8 (Byte.to_N b) [b].
Proof. intros H. split; [unfold scalar, surrogate; lia|]. left. exists b. auto. Qed.
Lemma sanit_clean n : forall s, (List.length s <= n)%nat -> clean s (sanit n s).
Proof.
  induction n as [|n IH]; intros s Hn.
  { destruct s; [constructor|cbn in Hn; lia]. }
  destruct s as [|b r]; [constructor|]. cbn [List.length sanit] in *. destruct (Byte.to_N b <? 128) eqn:Eb.
  - apply (clean_utf8 (Byte.to_N b) [b]); [apply ascii_utf8; lia|apply IH; lia].
  - destruct (utf8_len (b :: r)) as [|k] eqn:Ek.
    + apply clean_bad; [|apply IH; lia]. intros m v z Hv E.
      assert (Hm : 128 <= m) by (eapply utf8_first; [exact Hv|exists z; exact E|lia]).
      assert (X := utf8_len_complete m v z Hv Hm). rewrite <- E, Ek in X. apply utf8_nonempty in Hv. destruct v; [contradiction|discriminate X].
    + destruct (utf8_len_sound _ _ Ek) as (m & Hv & Hm). destruct (utf8_app _ _ Ek) as [Hl _].
      rewrite <- (firstn_skipn (S k) (b :: r)) at 1. eapply clean_utf8; [exact Hv|]. apply IH. rewrite skipn_length. cbn [List.length]. lia.
Qed.
Lemma utf8_prefix n m v v' z z' : utf8 n v -> utf8 m v' -> v ++ z = v' ++ z' -> v = v' /\ z = z'.
Proof.
  intros H H' E. assert (L : List.length v = List.length v').
  { destruct (N.lt_ge_cases n 128) as [Hn|Hn], (N.lt_ge_cases m 128) as [Hm|Hm].
    - destruct H as [_ H], H' as [_ H']. destruct H as [(a & -> & H)|[(a & b & x & y & -> & H)|[(a & b & c & x & y & u & -> & H)|(a & b & c & d & x & y & u & t & -> & H)]]]; try lia.
      destruct H' as [(a' & -> & H')|[(a' & b' & x' & y' & -> & H')|[(a' & b' & c' & x' & y' & u' & -> & H')|(a' & b' & c' & d' & x' & y' & u' & t' & -> & H')]]]; try lia. reflexivity.
    - exfalso. assert (Hh := utf8_high m v' H' Hm). destruct H as [_ [(a & -> & H)|[(a & b & x & y & -> & H)|[(a & b & c & x & y & u & -> & H)|(a & b & c & d & x & y & u & t & -> & H)]]]]; try lia.
      destruct v' as [|a' v']; [apply utf8_nonempty in H'; contradiction|]. injection E as -> _. specialize (Hh a' (or_introl eq_refl)). lia.
    - exfalso. assert (Hh := utf8_high n v H Hn). destruct H' as [_ [(a & -> & H')|[(a & b & x & y & -> & H')|[(a & b & c & x & y & u & -> & H')|(a & b & c & d & x & y & u & t & -> & H')]]]]; try lia.
      destruct v as [|a' v]; [apply utf8_nonempty in H; contradiction|]. injection E as -> _. specialize (Hh a (or_introl eq_refl)). lia.
    - assert (X := utf8_len_complete n v z H Hn). assert (X' := utf8_len_complete m v' z' H' Hm). rewrite E in X. congruence. }
  clear H H'. revert v' L E. induction v as [|c v IH]; intros [|c' v'] L E; try discriminate L; [auto|].
  injection E as -> E. injection L as L. destruct (IH v' L E) as [-> ->]. auto.
Qed.
Lemma clean_fun s w : clean s w -> forall w', clean s w' -> w = w'.
Proof.
  induction 1 as [|n v s w Hv H IH|c s w Hb H IH]; intros w' H'.
  - inversion H' as [|n' v' s' w1 Hv' Hc' E|]; subst; [reflexivity|]. apply app_eq_nil in E. destruct E as [E _]. apply utf8_nonempty in Hv'. contradiction.
  - inversion H' as [E E'|n' v' s' w1 Hv' Hc' E E'|c s' w1 Hb' Hc' E E'].
    + symmetry in E. apply app_eq_nil in E. destruct E as [E _]. apply utf8_nonempty in Hv. contradiction.
    + destruct (utf8_prefix _ _ _ _ _ _ Hv Hv' (eq_sym E)) as [<- <-]. f_equal. apply IH. exact Hc'.
    + exfalso. eapply Hb'; [exact Hv|exact E].
  - inversion H' as [E E'|n' v' s' w1 Hv' Hc' E E'|c' s' w1 Hb' Hc' E E'].
    + exfalso. eapply Hb; [exact Hv'|symmetry; exact E].
    + subst. f_equal. apply IH. exact Hc'.
Qed.
Lemma clean_text s : utf8_text s -> clean s s.
Proof. induction 1 as [|n v s Hv _ IH]; [constructor|eapply clean_utf8; eauto]. Qed.
Lemma ascii_text s : forallb is_ascii s = true -> utf8_text s.
Proof.
  induction s as [|c s IH]; intros H; [constructor|]. cbn [forallb] in H. apply andb_true_iff in H. destruct H as [Hc H].
  apply (text_cons (Byte.to_N c) [c]); [apply ascii_utf8; unfold is_ascii in Hc; lia|auto].
Qed.

(* bytes json.Marshal never writes: control characters and, for HTML, <, > and & *)
Definition harmless (c : byte) : Prop := 32 <= Byte.to_N c /\ c <> "<"%byte /\ c <> ">"%byte /\ c <> "&"%byte.
Lemma jenc1_harmless newer b : Byte.to_N b < 128 -> Forall harmless (jenc1 newer b).
Proof.
  intros H. apply N.ltb_lt in H. destruct b; try discriminate H; destruct newer; repeat constructor; try discriminate; cbn; lia.
Qed.
Lemma jenc_harmless newer n : forall s, Forall harmless (jenc newer n s).
Proof.
  induction n as [|n IH]; intros s; [constructor|]. destruct s as [|b r]; [constructor|]. cbn [jenc]. destruct (Byte.to_N b <? 128) eqn:Eb.
  - apply Forall_app. split; [apply jenc1_harmless; lia|apply IH].
  - destruct (utf8_len (b :: r)) as [|k] eqn:Ek; (apply Forall_app; split; [|apply IH]).
    + repeat constructor; try discriminate; cbn; lia.
    + destruct (bytes_eqb _ _); [repeat constructor; try discriminate; cbn; lia|].
      destruct (bytes_eqb _ _); [repeat constructor; try discriminate; cbn; lia|].
      destruct (utf8_len_sound _ _ Ek) as (m & Hv & Hm). apply Forall_forall. intros c Hc.
      pose proof (utf8_high m _ Hv Hm c Hc). split; [lia|]. repeat split; intros ->; cbn in *; lia.
Qed.

Lemma jenc_text newer n : forall s, (List.length s <= n)%nat -> utf8_text (jenc newer n s).
Proof.
  assert (App : forall a b, utf8_text a -> utf8_text b -> utf8_text (a ++ b)).
  { intros a b Ha Hb. induction Ha as [|n' v s Hv _ IH]; [exact Hb|]. rewrite <- app_assoc. eapply text_cons; eauto. }
  induction n as [|n IH]; intros s Hn; [constructor|]. destruct s as [|b r]; [constructor|]. cbn [List.length jenc] in *. destruct (Byte.to_N b <? 128) eqn:Eb.
  - apply App; [|apply IH; lia]. apply ascii_text. destruct b; try discriminate Eb; destruct newer; reflexivity.
  - destruct (utf8_len (b :: r)) as [|k] eqn:Ek.
    + apply App; [apply ascii_text; reflexivity|apply IH; lia].
    + destruct (utf8_len_sound _ _ Ek) as (m & Hv & Hm). destruct (utf8_app _ _ Ek) as [Hl _]. cbn [List.length] in Hl.
      apply App; [|apply IH; rewrite skipn_length; cbn [List.length]; lia].
      destruct (bytes_eqb _ _); [apply ascii_text; reflexivity|]. destruct (bytes_eqb _ _); [apply ascii_text; reflexivity|].
      rewrite <- (app_nil_r (firstn (S k) (b :: r))). eapply text_cons; [exact Hv|constructor].
Qed.

Theorem marshal_doc newer s : exists t w, json_Marshal newer s = [x22] ++ t ++ [x22] /\ body t w /\ clean s w /\
  Forall harmless t /\ utf8_text t.
Proof.
  exists (jenc newer (List.length s) s), (sanit (List.length s) s). split; [reflexivity|]. split; [|split; [apply sanit_clean; lia|split; [apply jenc_harmless|apply jenc_text; lia]]].
  assert (H := jdec_jenc newer (List.length s) s (Nat.le_refl _) (S (List.length s)) [] ltac:(lia)).
  destruct (jdec_sound _ _ _ _ H) as (t & E & Hb). apply app_inj_tail in E. destruct E as [-> _]. exact Hb.
Qed.

(* ---- the three UnmarshalJSON methods ------------------------------------------------------------------ *)
Definition denotes (b w : bytes) : Prop := string_doc b w \/ (null_doc b /\ w = []).
Lemma denotes_fun b w w' : denotes b w -> denotes b w' -> w = w'.
Proof. intros H H'. apply unmarshal_doc in H, H'. congruence. Qed.
Lemma no_empty mode u : three mode -> ~ parsed mode [] u.
Proof.
  intros T H. apply (Parse_mode mode [] T [mode]) in H; [|destruct T as [->|[->| ->]]; reflexivity].
  destruct T as [->|[->| ->]]; vm_compute in H; discriminate H.
Qed.
Lemma denotes_string mode b w u : three mode -> denotes b w -> parsed mode w u -> string_doc b w.
Proof. intros T [H|[_ ->]] Hp; [exact H|]. exfalso. eapply no_empty; eauto. Qed.
Lemma denotes_dec b : (exists w, denotes b w /\ json_Unmarshal b = Some w) \/ ((forall w, ~ denotes b w) /\ json_Unmarshal b = None).
Proof.
  destruct (json_Unmarshal b) as [w|] eqn:E; [left; exists w; split; [apply unmarshal_doc; exact E|reflexivity]|].
  right. split; [|reflexivity]. intros w K. apply unmarshal_doc in K. congruence.
Qed.

Theorem URN_doc u b :
  (exists w u', string_doc b w /\ parsed PRFC2141Only w u' /\ URN_UnmarshalJSON u b = Ret (u', None)) \/
  (exists w, denotes b w /\ (forall u', ~ parsed PRFC2141Only w u') /\ URN_UnmarshalJSON u b = Ret (u, Some (JInvalid "invalid URN: %s" w))) \/
  ((forall w, ~ denotes b w) /\ URN_UnmarshalJSON u b = Ret (u, Some JJson)).
Proof.
  pose proof (URN_unmarshal u b) as K. destruct (denotes_dec b) as [(w & Hd & E)|[Hd E]]; rewrite E in K.
  - destruct K as [(u' & Hp & K)|[Hp K]].
    + left. exists w, u'. split; [eapply (denotes_string PRFC2141Only); eauto; unfold three; auto|auto].
    + right; left. exists w. auto.
  - right; right. auto.
Qed.
Theorem URN8141_doc u b :
  (exists w u', string_doc b w /\ parsed PRFC8141Only w u' /\ URN8141_UnmarshalJSON u b = Ret (Some u', None)) \/
  (exists w, string_doc b w /\ silent8141 w /\ URN8141_UnmarshalJSON u b = Ret (None, None)) \/
  (exists w, denotes b w /\ (forall u', ~ parsed PRFC8141Only w u') /\ ~ silent8141 w /\
     URN8141_UnmarshalJSON u b = Ret (u, Some (JInvalid "invalid URN per RFC 8141: %s" w))) \/
  ((forall w, ~ denotes b w) /\ URN8141_UnmarshalJSON u b = Ret (u, Some JJson)).
Proof.
  pose proof (URN8141_unmarshal u b) as K. destruct (denotes_dec b) as [(w & Hd & E)|[Hd E]]; rewrite E in K.
  - destruct K as [(u' & Hp & K)|[[Hs K]|(Hp & Hs & K)]].
    + left. exists w, u'. split; [eapply (denotes_string PRFC8141Only); eauto; unfold three; auto|auto].
    + right; left. exists w. split; [|auto]. destruct Hd as [Hd|[_ ->]]; [exact Hd|]. exfalso.
      destruct (reach_mach PRFC8141Only) as [Hr Hm]. destruct (parse_reach (NewMachine [PRFC8141Only]) [] Hr) as (m' & uo & eo & Hp & _).
      apply (nilnil8141 _ _ _ _ _ Hr Hm Hp) in Hs. destruct Hs as [-> ->]. vm_compute in Hp. discriminate Hp.
    + right; right; left. exists w. auto.
  - right; right; right. auto.
Qed.
Theorem SCIM_doc s b :
  (exists w u' s', string_doc b w /\ parsed PRFC7643Only w u' /\ URN_SCIM u' = Some s' /\ SCIM_UnmarshalJSON s b = Ret (s', None)) \/
  (exists w, denotes b w /\ (forall u', ~ parsed PRFC7643Only w u') /\ SCIM_UnmarshalJSON s b = Ret (s, Some (JInvalid "invalid SCIM URN: %s" w))) \/
  ((forall w, ~ denotes b w) /\ SCIM_UnmarshalJSON s b = Ret (s, Some JJson)).
Proof.
  pose proof (SCIM_unmarshal s b) as K. destruct (denotes_dec b) as [(w & Hd & E)|[Hd E]]; rewrite E in K.
  - destruct K as [(u' & s' & Hp & Hs & K)|[Hp K]].
    + left. exists w, u', s'. split; [eapply (denotes_string PRFC7643Only); eauto; unfold three; auto|auto].
    + right; left. exists w. auto.
  - right; right. auto.
Qed.
Theorem string_fun b w w' : string_doc b w -> string_doc b w' -> w = w'.
Proof. intros H H'. apply (denotes_fun b); left; assumption. Qed.
Theorem string_not_null b w : string_doc b w -> ~ null_doc b.
Proof.
  intros (l & t & r & -> & Hl & _) (l' & r' & E & Hl' & _). change (B "null" ++ r') with ("n"%byte :: B "ull" ++ r') in E.
  apply (f_equal jtrim) in E. cbn [app] in E. rewrite !jtrim_head in E by (auto; reflexivity). discriminate E.
Qed.
Theorem marshal_unmarshal newer s w : json_Unmarshal (json_Marshal newer s) = Some w <-> clean s w.
Proof.
  destruct (marshal_doc newer s) as (t & w0 & E & Hb & Hc & _).
  assert (K : json_Unmarshal (json_Marshal newer s) = Some w0).
  { apply unmarshal_doc. left. exists [], t, []. split; [rewrite E; reflexivity|]. split; [constructor|]. split; [constructor|exact Hb]. }
  rewrite K. split; [intros H; injection H as <-; exact Hc|]. intros H. f_equal. eapply clean_fun; eauto.
Qed.
