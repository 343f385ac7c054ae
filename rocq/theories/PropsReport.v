(* Proofs for C63: the errors each mode can report, with their columns. *)
From Coq Require Import Lia.
From Verif Require Import GoBase MachineSyntax MachineTables Machine Errors Urn Spec SpecErr SpecErr8 SpecReport Ref ParseThm Api PropsErr PropsErrB PropsErr8 PropsErr8c.
Local Open Scope Z_scope.

(* some reachable machine in the mode reports k at column c *)
Definition reported (mode : Z) (k : errconst) (c : Z) : Prop :=
  exists m s m' uo, reachable m /\ m_parsingMode m = mode /\ machine_Parse m s = Ret (m', uo, Some (mkErr k c)).

(* ---- from the relations of C25 to reports --------------------------------------------- *)
Lemma report_of mode (R : bytes -> perr -> Prop) s k c :
  (forall m s m' uo eo, reachable m -> m_parsingMode m = mode -> machine_Parse m s = Ret (m', uo, eo) ->
     forall e, eo = Some e <-> R s e) -> R s (mkErr k c) -> reported mode k c.
Proof.
  intros HR H. destruct (reach_mach mode) as [Hr Hm]. destruct (parse_reach _ s Hr) as (m' & uo & eo & K & _).
  exists (NewMachine [mode]), s, m', uo. split; [exact Hr|]. split; [exact Hm|].
  rewrite (proj2 (HR _ _ _ _ _ Hr Hm K _) H) in K. exact K.
Qed.

Lemma mkErr_inv k c k' c' : mkErr k c = mkErr k' c' -> k = k' /\ c = c'.
Proof. intros E. split; [exact (f_equal e_kind E)|exact (f_equal e_col E)]. Qed.
Lemma zlen_app (a b : bytes) : zlen (a ++ b) = zlen a + zlen b.
Proof. unfold zlen. rewrite app_length. lia. Qed.
Lemma zlen_ge (a : bytes) : 0 <= zlen a. Proof. unfold zlen. lia. Qed.
Lemma zlen_pos (a : bytes) : a <> [] -> 1 <= zlen a.
Proof. destruct a; [congruence|]. intros _. unfold zlen. cbn [List.length]. lia. Qed.
Lemma lowers_len w : zlen (lowers w) = zlen w.
Proof. unfold lowers, zlen. rewrite map_length. reflexivity. Qed.
Lemma stuck_len words x y n : stuck words x y -> (forall w, In w words -> zlen w <= n) -> zlen x < n.
Proof.
  intros [(w & v & Hw & E & Hv) _] H. specialize (H w Hw). rewrite E, zlen_app in H. pose proof (zlen_pos v Hv). lia.
Qed.
Lemma prefix_col s k c : prefix_err s (mkErr k c) -> k = ErrPrefix /\ 0 <= c <= 3.
Proof.
  intros (x & y & -> & H & E). apply mkErr_inv in E as [-> ->]. split; [reflexivity|]. pose proof (zlen_ge x).
  apply (stuck_len _ _ _ 4) in H; [rewrite lowers_len in H; lia|]. intros w [<-|[]]. cbv. discriminate.
Qed.
Lemma half_len cls x : half_esc cls x -> 1 <= zlen x.
Proof. intros (w & t & -> & _). rewrite zlen_app. pose proof (zlen_ge w). unfold zlen at 2. cbn [List.length]. lia. Qed.
Lemma ends_len x : ends_esc x -> 3 <= zlen x.
Proof. intros (w & a & b & ->). rewrite zlen_app. pose proof (zlen_ge w). unfold zlen at 2. cbn [List.length]. lia. Qed.
Lemma in_esc_len x : in_esc x -> 1 <= zlen x.
Proof. intros (w & t & -> & _). rewrite zlen_app. pose proof (zlen_ge w). unfold zlen at 2. cbn [List.length]. lia. Qed.

(* ---- the errors lie in the table ------------------------------------------------------- *)
Lemma in2141 s k c : err2141 s (mkErr k c) -> reports2141 k c.
Proof.
  intros [H|[(p & r & _ & _ & _ & E)|[(p & x & y & _ & _ & _ & H & E)|(p & nid & x & y & why & _ & _ & _ & (Hn & _) & H & E)]]].
  - apply prefix_col in H as [-> H]. exact H.
  - apply mkErr_inv in E as [-> ->]. reflexivity.
  - apply mkErr_inv in E as [-> ->]. pose proof (zlen_ge x). cbn [reports2141]. destruct H as [[-> _]|(_ & _ & H & _)]; [cbv; split; discriminate|].
    unfold zlen in *. lia.
  - apply mkErr_inv in E as [-> ->]. pose proof (zlen_ge x). assert (1 <= zlen nid) by (unfold zlen; lia).
    destruct why; cbn [reports2141 esc_stuck] in H |- *; try lia; destruct H as [H H']; try (apply half_len in H); try lia.
    destruct H' as [H' _]. apply ends_len in H'. lia.
Qed.
Lemma type_len t : scim_type t -> 3 <= zlen t.
Proof. intros [->|[->| ->]]; cbv; discriminate. Qed.
Lemma inscim s k c : errscim s (mkErr k c) -> reportsscim k c.
Proof.
  intros [H|[(p & x & y & _ & _ & H & E)|[(p & x & y & _ & _ & H & E)|[(p & t & x & y & _ & _ & Ht & _ & _ & E)|
    (p & t & name & x & y & why & _ & _ & Ht & (Hn & _) & H & E)]]]].
  - apply prefix_col in H as [-> H]. exact H.
  - apply mkErr_inv in E as [-> ->]. pose proof (zlen_ge x). apply (stuck_len _ _ _ 17) in H; [cbn [reportsscim]; lia|]. intros w [<-|[]]. cbv. discriminate.
  - apply mkErr_inv in E as [-> ->]. pose proof (zlen_ge x). apply (stuck_len _ _ _ 8) in H; [cbn [reportsscim]; lia|].
    intros w [<-|[<-|[<-|[]]]]; cbv; discriminate.
  - apply mkErr_inv in E as [-> ->]. pose proof (zlen_ge x). apply type_len in Ht. cbn [reportsscim]. lia.
  - apply zlen_pos in Hn. apply type_len in Ht. pose proof (zlen_ge x). destruct why; apply mkErr_inv in E as [-> ->]; cbn [reportsscim]; lia.
Qed.
Lemma nss8_len w : nss8141 w -> 1 <= zlen w.
Proof. intros (_ & c & r & -> & _). apply zlen_pos. discriminate. Qed.
Lemma restart_len w x y : restart w x y -> zlen w <= zlen x.
Proof. intros [(v & ->) _]. rewrite zlen_app. pose proof (zlen_ge v). lia. Qed.
Lemma in8141 s k c : err8141 s (mkErr k c) -> reports8141 k c.
Proof.
  intros [H|[(p & x & y & _ & _ & [(v & Hx & _) _] & _ & H)|[(p & nid & x & y & k' & _ & _ & (Hn & _) & _ & _ & H & E)|
    [(p & nid & nss & x & y & k' & _ & _ & (Hn & _) & Hs & _ & _ & H & E)|
    [(p & nid & nss & r & x & y & k' & _ & _ & (Hn & _) & Hs & _ & _ & _ & _ & H & E)|
     (s0 & p & nid & nss & r & q & x & y & H0 & _ & _ & _ & H & E)]]]]].
  - apply prefix_col in H as [-> H]. exact H.
  - destruct H as [[_ E]|[_ E]]; apply mkErr_inv in E as [-> ->]; [reflexivity|]. cbn [reports8141]. rewrite app_length in Hx. unfold zlen. lia.
  - apply mkErr_inv in E as [-> ->]. pose proof (zlen_ge x). assert (2 <= zlen nid) by (unfold zlen; lia).
    destruct H as [[H ->]|[(_ & [] & _)|(_ & _ & ->)]]; [apply in_esc_len in H|]; cbn [reports8141]; lia.
  - apply mkErr_inv in E as [-> ->]. pose proof (zlen_ge x). assert (2 <= zlen nid) by (unfold zlen; lia). apply nss8_len in Hs.
    destruct H as [[H ->]|[(_ & H & ->)|(_ & _ & ->)]]; [apply in_esc_len in H|apply restart_len in H; change (zlen (B "?+")) with 2 in H|]; cbn [reports8141]; lia.
  - apply mkErr_inv in E as [-> ->]. pose proof (zlen_ge x). assert (2 <= zlen nid) by (unfold zlen; lia). apply nss8_len in Hs.
    pose proof (zlen_ge (opt_part (B "?+") r)).
    destruct H as [[H ->]|[(_ & H & ->)|(_ & _ & ->)]]; [apply in_esc_len in H|apply restart_len in H; change (zlen (B "?=")) with 2 in H|]; cbn [reports8141]; lia.
  - apply mkErr_inv in E as [-> ->]. apply in_esc_len in H. destruct H0 as (E0 & Hp & (Hn & _) & Hs & _). apply nss8_len in Hs.
    assert (Hp3 : zlen p = 3) by (rewrite <- lowers_len, Hp; reflexivity).
    assert (2 <= zlen nid) by (unfold zlen; lia). unfold tail8141 in E0. rewrite E0. unfold colon. rewrite !zlen_app.
    pose proof (zlen_ge p). pose proof (zlen_ge (opt_part (B "?+") r)). pose proof (zlen_ge (opt_part (B "?=") q)).
    change (zlen [":"%byte]) with 1. cbn [reports8141]. pose proof (zlen_ge (opt_part (B "#") None)). lia.
Qed.

(* ---- every entry of the table is reported ---------------------------------------------- *)
Definition errconst_dec (a b : errconst) : {a = b} + {a <> b}. Proof. decide equality. Defined.
Definition says (mode : Z) (k : errconst) (c : Z) (s : bytes) : bool :=
  match machine_Parse (NewMachine [mode]) s with
  | Ret (_, _, Some e) => (if errconst_dec (e_kind e) k then true else false) && (e_col e =? c)
  | _ => false
  end.
Lemma says_ok mode k c s : says mode k c s = true -> reported mode k c.
Proof.
  unfold says. destruct (machine_Parse (NewMachine [mode]) s) as [[[m' uo] [[k' c']|]]| |] eqn:E; try discriminate. cbn [e_kind e_col].
  destruct (errconst_dec k' k) as [->|]; [|discriminate]. intros H. apply Z.eqb_eq in H. subst c'.
  destruct (reach_mach mode). exists (NewMachine [mode]), s, m', uo. auto.
Qed.
Lemma says_range mode k lo n (w : nat -> bytes) :
  forallb (fun i => says mode k (lo + Z.of_nat i) (w i)) (seq 0 n) = true ->
  forall c, lo <= c < lo + Z.of_nat n -> reported mode k c.
Proof.
  intros H c Hc. apply (says_ok mode k c (w (Z.to_nat (c - lo)))).
  assert (K : In (Z.to_nat (c - lo)) (seq 0 n)) by (apply in_seq; lia).
  pose proof (proj1 (forallb_forall _ _) H _ K) as H'. cbv beta in H'.
  replace (lo + Z.of_nat (Z.to_nat (c - lo))) with c in H' by lia. exact H'.
Qed.

Definition as_ (n : nat) : bytes := repeat "a"%byte n.
Lemma as_len n : zlen (as_ n) = Z.of_nat n.
Proof. unfold zlen, as_. rewrite repeat_length. reflexivity. Qed.
Lemma as_in n c : In c (as_ n) -> c = "a"%byte.
Proof. apply repeat_spec. Qed.
Lemma as_escaped esc cls n : cls "a"%byte = true -> escaped esc cls (as_ n).
Proof. intros H. induction n; [apply esc_nil|]. apply esc_plain; assumption. Qed.
Lemma as_forallb cls n : cls "a"%byte = true -> forallb cls (as_ n) = true.
Proof. intros H. apply forallb_forall. intros c Hc. apply as_in in Hc. subst. exact H. Qed.
Lemma as_ends n : ~ ends_esc (as_ n).
Proof. intros (w & a & b & E). assert (In "%"%byte (as_ n)) by (rewrite E; apply in_or_app; right; left; reflexivity). apply as_in in H. discriminate H. Qed.
Lemma as_esc cls n v : escaped alnum cls (as_ n ++ v) -> escaped alnum cls v.
Proof. induction n as [|n IH]; [auto|]. intros H. apply IH. apply esc_c in H; [tauto|discriminate]. Qed.

Ltac at_col c lo := replace c with (lo + Z.of_nat (Z.to_nat (c - lo))) by lia; generalize (Z.to_nat (c - lo)); clear; intros n.

Lemma out2141 k c : reports2141 k c -> reported PRFC2141Only k c.
Proof.
  destruct k; cbn [reports2141]; try contradiction; intros H.
  - apply (says_range _ _ 0 4 (fun i => firstn i (B "urn:"))); [vm_compute; reflexivity|lia].
  - apply (says_range _ _ 4 33 (fun i => B "urn:" ++ as_ i)); [vm_compute; reflexivity|lia].
  - at_col c 6. eapply (report_of _ err2141 (B "urn" ++ colon ++ B "a" ++ colon ++ as_ n ++ [""""%byte])); [exact parse_err2141|].
    right; right; right. exists (B "urn"), (B "a"), (as_ n), [""""%byte], Illegal. split; [reflexivity|]. split; [reflexivity|].
    split; [intros (b & E & L & _); injection E as <-; discriminate L|]. split; [|split].
    + split; [cbn; lia|]. split; [exists "a"%byte, []; auto|]. split; [reflexivity|discriminate].
    + split; [apply as_escaped; reflexivity|]. split; [apply as_ends|]. exists """"%byte, []. split; [reflexivity|]. split; [discriminate|reflexivity].
    + rewrite as_len. reflexivity.
  - subst. apply (says_ok _ _ _ (B "urn:urn:a")). vm_compute. reflexivity.
  - at_col c 7. eapply (report_of _ err2141 (B "urn" ++ colon ++ B "a" ++ colon ++ (as_ n ++ ["%"%byte]) ++ [])); [exact parse_err2141|].
    right; right; right. exists (B "urn"), (B "a"), (as_ n ++ ["%"%byte]), [], CutEsc. split; [reflexivity|]. split; [reflexivity|].
    split; [intros (b & E & L & _); injection E as <-; discriminate L|]. split; [|split].
    + split; [cbn; lia|]. split; [exists "a"%byte, []; auto|]. split; [reflexivity|discriminate].
    + split; [|reflexivity]. exists (as_ n), []. split; [reflexivity|]. split; [apply as_escaped; reflexivity|left; reflexivity].
    + rewrite zlen_app, as_len. f_equal. change (zlen (B "a")) with 1. change (zlen ["%"%byte]) with 1. lia.
Qed.

Lemma outscim k c : reportsscim k c -> reported PRFC7643Only k c.
Proof.
  destruct k; cbn [reportsscim]; try contradiction; intros H.
  - apply (says_range _ _ 0 4 (fun i => firstn i (B "urn:"))); [vm_compute; reflexivity|lia].
  - apply (says_range _ _ 4 17 (fun i => B "urn:" ++ firstn i (B "ietf:params:scim:"))); [vm_compute; reflexivity|lia].
  - apply (says_range _ _ 21 8 (fun i => B "urn:ietf:params:scim:" ++ firstn i (B "schemas:"))); [vm_compute; reflexivity|lia].
  - at_col c 25. eapply (report_of _ errscim (B "urn" ++ colon ++ scim_nid ++ colon ++ B "api" ++ colon ++ as_ n ++ [""""%byte])); [exact parse_errscim|].
    right; right; right; left. exists (B "urn"), (B "api"), (as_ n), [""""%byte]. split; [reflexivity|]. split; [reflexivity|].
    split; [right; left; reflexivity|]. split; [apply as_forallb; reflexivity|]. split.
    + destruct n; [left; split; [reflexivity|]; right|right; split; [discriminate|]]; exists """"%byte, []; split; try reflexivity. split; [reflexivity|discriminate].
    + rewrite as_len. reflexivity.
  - at_col c 27. eapply (report_of _ errscim (B "urn" ++ colon ++ scim_nid ++ colon ++ B "api" ++ colon ++ B "a" ++ colon ++ as_ n ++ [""""%byte])); [exact parse_errscim|].
    right; right; right; right. exists (B "urn"), (B "api"), (B "a"), (as_ n), [""""%byte], Illegal. split; [reflexivity|]. split; [reflexivity|].
    split; [right; left; reflexivity|]. split; [split; [discriminate|reflexivity]|]. split; [|rewrite as_len; reflexivity].
    split; [apply as_escaped; reflexivity|]. split; [apply as_ends|]. exists """"%byte, []. split; [reflexivity|]. split; [discriminate|reflexivity].
  - at_col c 26. eapply (report_of _ errscim (B "urn" ++ colon ++ scim_nid ++ colon ++ B "api" ++ colon ++ as_ (S n) ++ colon ++ [] ++ [])); [exact parse_errscim|].
    right; right; right; right. exists (B "urn"), (B "api"), (as_ (S n)), [], [], Missing. split; [reflexivity|]. split; [reflexivity|].
    split; [right; left; reflexivity|]. split; [split; [discriminate|apply as_forallb; reflexivity]|]. split; [split; reflexivity|].
    rewrite as_len. f_equal. change (zlen (B "api")) with 3. change (zlen (@nil byte)) with 0. lia.
Qed.

(* RFC 8141 *)
Lemma nid_ab : nid8141 (B "ab").
Proof.
  split; [cbn; lia|]. split; [reflexivity|]. split; [exists "a"%byte, (B "b"); auto|]. split; [exists "b"%byte, (B "a"); auto|].
  intros (u & c & r & E & _). destruct u as [|u1 [|u2 [|u3 u]]]; discriminate E.
Qed.
Lemma as_nss n : nss8141 (as_ (S n)).
Proof. split; [apply as_escaped; reflexivity|]. exists "a"%byte, (as_ n). split; [reflexivity|discriminate]. Qed.
Lemma as_ext v n : nss8141 v -> nss8141 (as_ n ++ v).
Proof.
  destruct n as [|n]; [auto|]. intros [H _]. split.
  - induction (S n) as [|i IH]; [exact H|]. apply esc_plain; [reflexivity|exact IH].
  - exists "a"%byte, (as_ n ++ v). split; [reflexivity|discriminate].
Qed.
Lemma split_in (w z s : bytes) b : s = w ++ z -> then_mark z -> (forall c, In c s -> c <> "?"%byte /\ c <> "#"%byte) -> In b s -> z = [] /\ w = s.
Proof.
  intros E [->|(c & y & -> & Hc)] H _; [rewrite app_nil_r in E; auto|]. exfalso.
  assert (In c s) by (rewrite E; apply in_or_app; right; left; reflexivity). destruct (H c H0), Hc; contradiction.
Qed.
Lemma comp_nil : ~ component [].
Proof. intros [_ (c & r & E & _)]. discriminate E. Qed.
Lemma comp_q w : ~ component ("?"%byte :: w).
Proof. intros [_ (c & r & E & _ & H)]. injection E as <- _. contradiction. Qed.
Lemma furthest_end (P : bytes -> Prop) x v : P (x ++ v) -> furthest P x [].
Proof. intros H. split; [exists v; exact H|discriminate]. Qed.
Lemma unfin_nil (P F : bytes -> Prop) : (forall w, P w -> component w) -> unfinished P F [].
Proof. intros H w z E Hw _. destruct w; [|discriminate E]. apply (comp_nil (H _ Hw)). Qed.
Lemma unfin_q (P F : bytes -> Prop) s : (forall w, P w -> component w) -> unfinished P F ("?"%byte :: s).
Proof.
  intros H w z E Hw _. destruct w as [|c w]; [apply (comp_nil (H _ Hw))|]. injection E as <- _. apply (comp_q w (H _ Hw)).
Qed.
Lemma not_esc_2 a b : a <> "%"%byte -> b <> "%"%byte -> ~ in_esc [a; b].
Proof. intros Ha Hb H. apply in_esc_plain in H; [|exact Ha]. apply in_esc_plain in H; [|exact Hb]. exact (in_esc_nil H). Qed.
Lemma as_esc_in n : in_esc (as_ n) -> False.
Proof. intros (w & t & E & _). assert (In "%"%byte (as_ n)) by (rewrite E; apply in_or_app; right; left; reflexivity). apply as_in in H. discriminate H. Qed.

Lemma out8141 k c : reports8141 k c -> reported PRFC8141Only k c.
Proof.
  destruct k; cbn [reports8141]; try contradiction; intros H.
  - apply (says_range _ _ 0 4 (fun i => firstn i (B "urn:"))); [vm_compute; reflexivity|lia].
  - at_col c 8. eapply (report_of _ err8141 (B "urn" ++ colon ++ B "ab" ++ colon ++ (as_ n ++ ["%"%byte]) ++ [])); [exact parse_err8141|].
    right; right; left. exists (B "urn"), (B "ab"), (as_ n ++ ["%"%byte]), [], ErrHex. split; [reflexivity|]. split; [reflexivity|].
    split; [exact nid_ab|]. split; [|split; [|split]].
    + apply (furthest_end _ _ (B "aa")). rewrite <- app_assoc. apply as_ext. split; [|exists "%"%byte, (B "aa"); split; [reflexivity|discriminate]].
      apply esc_pct; [reflexivity|reflexivity|apply esc_nil].
    + rewrite app_nil_r. intros w z E [Hw _] Hz. apply (split_in w z _ "%"%byte) in E; [|exact Hz| |apply in_or_app; right; left; reflexivity].
      * destruct E as [_ ->]. apply as_esc in Hw. apply esc_p in Hw; [|reflexivity]. destruct Hw as (a & b & r & E & _). discriminate E.
      * intros c Hc. apply in_app_or in Hc as [Hc|[<-|[]]]; [apply as_in in Hc; subst|]; split; discriminate.
    + left. split; [|reflexivity]. exists (as_ n), []. split; [reflexivity|cbn; lia].
    + rewrite zlen_app, as_len. f_equal. change (zlen (B "ab")) with 2. change (zlen ["%"%byte]) with 1. lia.
  - subst. apply (says_ok _ _ _ (B "urn:urn-a")). vm_compute. reflexivity.
  - at_col c 7. eapply (report_of _ err8141 (B "urn" ++ colon ++ B "ab" ++ colon ++ as_ n ++ [""""%byte])); [exact parse_err8141|].
    right; right; left. exists (B "urn"), (B "ab"), (as_ n), [""""%byte], Err8141SpecificString. split; [reflexivity|]. split; [reflexivity|].
    split; [exact nid_ab|].
    assert (Hbad : forall v, ~ escaped alnum pchar_slash (as_ n ++ """"%byte :: v)).
    { intros v Hv. apply as_esc in Hv. apply esc_c in Hv; [|discriminate]. destruct Hv as [Hv _]. discriminate Hv. }
    split; [|split; [|split]].
    + split; [exists (B "a"); apply as_ext, (as_nss 0)|]. intros b y' E [v [Hv _]]. injection E as <- <-.
      rewrite <- app_assoc in Hv. exact (Hbad v Hv).
    + intros w z E [Hw _] Hz. apply (split_in w z _ """"%byte) in E; [|exact Hz| |apply in_or_app; right; left; reflexivity].
      * destruct E as [_ ->]. exact (Hbad [] Hw).
      * intros c Hc. apply in_app_or in Hc as [Hc|[<-|[]]]; [apply as_in in Hc; subst|]; split; discriminate.
    + right; right. split; [intros Hc; exact (as_esc_in n Hc)|]. split; [tauto|reflexivity].
    + rewrite as_len. reflexivity.
  - apply (says_range _ _ 4 33 (fun i => B "urn:" ++ as_ i)); [vm_compute; reflexivity|lia].
  - at_col c 12. eapply (report_of _ err8141 (B "urn" ++ colon ++ B "ab" ++ colon ++ as_ (S n) ++ B "?+" ++ B "?+" ++ [])); [exact parse_err8141|].
    right; right; right; left. exists (B "urn"), (B "ab"), (as_ (S n)), (B "?+"), [], Err8141RComponentStart. split; [reflexivity|]. split; [reflexivity|].
    split; [exact nid_ab|]. split; [apply as_nss|]. split; [|split; [|split]].
    + apply (furthest_end _ _ []). right. reflexivity.
    + apply unfin_q. intros w [Hw _]. exact Hw.
    + right; left. split; [apply not_esc_2; discriminate|]. split; [|reflexivity]. split; [exists []; reflexivity|left; reflexivity].
    + rewrite as_len. f_equal. change (zlen (B "ab")) with 2. change (zlen (B "?+")) with 2. lia.
  - at_col c 12. eapply (report_of _ err8141 (B "urn" ++ colon ++ B "ab" ++ colon ++ as_ (S n) ++ opt_part (B "?+") None ++ B "?=" ++ B "?=" ++ [])); [exact parse_err8141|].
    right; right; right; right; left. exists (B "urn"), (B "ab"), (as_ (S n)), None, (B "?="), [], Err8141QComponentStart. split; [reflexivity|]. split; [reflexivity|].
    split; [exact nid_ab|]. split; [apply as_nss|]. split; [exact I|]. split; [left; reflexivity|]. split; [|split; [|split]].
    + apply (furthest_end _ _ []). right. reflexivity.
    + apply unfin_q. intros w [Hw _]. exact Hw.
    + right; left. split; [apply not_esc_2; discriminate|]. split; [|reflexivity]. split; [exists []; reflexivity|left; reflexivity].
    + rewrite as_len. f_equal. change (zlen (B "ab")) with 2. change (zlen (B "?=")) with 2. change (zlen (opt_part (B "?+") None)) with 0. lia.
  - at_col c 10. eapply (report_of _ err8141 (B "urn" ++ colon ++ B "ab" ++ colon ++ as_ (S n) ++ B "?+" ++ [] ++ [])); [exact parse_err8141|].
    right; right; right; left. exists (B "urn"), (B "ab"), (as_ (S n)), [], [], Err8141MalformedRComp. split; [reflexivity|]. split; [reflexivity|].
    split; [exact nid_ab|]. split; [apply as_nss|]. split; [|split; [|split]].
    + apply (furthest_end _ _ (B "?+")). right. reflexivity.
    + apply unfin_nil. intros w [Hw _]. exact Hw.
    + right; right. split; [exact in_esc_nil|]. split; [|reflexivity]. intros Hc. apply restart_len in Hc. revert Hc. cbv. auto.
    + rewrite as_len. f_equal. change (zlen (B "ab")) with 2. change (zlen (@nil byte)) with 0. lia.
  - at_col c 10. eapply (report_of _ err8141 (B "urn" ++ colon ++ B "ab" ++ colon ++ as_ (S n) ++ opt_part (B "?+") None ++ B "?=" ++ [] ++ [])); [exact parse_err8141|].
    right; right; right; right; left. exists (B "urn"), (B "ab"), (as_ (S n)), None, [], [], Err8141MalformedQComp. split; [reflexivity|]. split; [reflexivity|].
    split; [exact nid_ab|]. split; [apply as_nss|]. split; [exact I|]. split; [left; reflexivity|]. split; [|split; [|split]].
    + apply (furthest_end _ _ (B "?=")). right. reflexivity.
    + apply unfin_nil. intros w [Hw _]. exact Hw.
    + right; right. split; [exact in_esc_nil|]. split; [|reflexivity]. intros Hc. apply restart_len in Hc. revert Hc. cbv. auto.
    + rewrite as_len. f_equal. change (zlen (B "ab")) with 2. change (zlen (@nil byte)) with 0. change (zlen (opt_part (B "?+") None)) with 0. lia.
Qed.

Lemma report2141 k c : reported PRFC2141Only k c <-> reports2141 k c.
Proof.
  split; [|apply out2141]. intros (m & s & m' & uo & Hr & Hm & Hp). apply (in2141 s).
  apply (parse_err2141 m s m' uo _ Hr Hm Hp). reflexivity.
Qed.
Lemma reportscim k c : reported PRFC7643Only k c <-> reportsscim k c.
Proof.
  split; [|apply outscim]. intros (m & s & m' & uo & Hr & Hm & Hp). apply (inscim s).
  apply (parse_errscim m s m' uo _ Hr Hm Hp). reflexivity.
Qed.
Lemma report8141 k c : reported PRFC8141Only k c <-> reports8141 k c.
Proof.
  split; [|apply out8141]. intros (m & s & m' & uo & Hr & Hm & Hp). apply (in8141 s).
  apply (parse_err8141 m s m' uo _ Hr Hm Hp). reflexivity.
Qed.

Lemma report_used k :
  (exists mode c m s m' uo, (mode = PRFC2141Only \/ mode = PRFC7643Only \/ mode = PRFC8141Only) /\
     reachable m /\ m_parsingMode m = mode /\ machine_Parse m s = Ret (m', uo, Some (mkErr k c))) /\
  (forall m s m' uo c m2 s2 m2' uo2 c2, reachable m -> reachable m2 ->
     machine_Parse m s = Ret (m', uo, Some (mkErr k c)) -> machine_Parse m2 s2 = Ret (m2', uo2, Some (mkErr k c2)) ->
     1 <= m_parsingMode m <= 3 -> 1 <= m_parsingMode m2 <= 3 -> m_parsingMode m <> m_parsingMode m2 -> k = ErrPrefix \/ k = ErrHex).
Proof.
  split.
  - assert (T : forall mode c, mode = PRFC2141Only \/ mode = PRFC7643Only \/ mode = PRFC8141Only -> reported mode k c ->
      exists mode c m s m' uo, (mode = PRFC2141Only \/ mode = PRFC7643Only \/ mode = PRFC8141Only) /\
        reachable m /\ m_parsingMode m = mode /\ machine_Parse m s = Ret (m', uo, Some (mkErr k c))).
    { intros mode c Hm (m & s & m' & uo & H). exists mode, c, m, s, m', uo. auto. }
    assert (A1 : forall c, reports2141 k c -> reported PRFC2141Only k c) by (intros c; apply out2141).
    assert (A2 : forall c, reportsscim k c -> reported PRFC7643Only k c) by (intros c; apply outscim).
    assert (A3 : forall c, reports8141 k c -> reported PRFC8141Only k c) by (intros c; apply out8141).
    destruct k;
      first [ eapply T; [left; reflexivity|apply (A1 7); cbn; lia] | eapply T; [left; reflexivity|apply (A1 0); cbn; lia]
            | eapply T; [right; left; reflexivity|apply (A2 4); cbn; lia] | eapply T; [right; left; reflexivity|apply (A2 27); cbn; lia]
            | eapply T; [right; left; reflexivity|apply (A2 21); cbn; lia]
            | eapply T; [right; right; reflexivity|apply (A3 7); cbn; lia] | eapply T; [right; right; reflexivity|apply (A3 12); cbn; lia] ].
  - intros m s m' uo c m2 s2 m2' uo2 c2 Hr Hr2 Hp Hp2 Hm Hm2 Hne.
    assert (A : forall m s m' uo c, reachable m -> machine_Parse m s = Ret (m', uo, Some (mkErr k c)) -> 1 <= m_parsingMode m <= 3 ->
      (m_parsingMode m = 1 /\ reports2141 k c) \/ (m_parsingMode m = 2 /\ reportsscim k c) \/ (m_parsingMode m = 3 /\ reports8141 k c)).
    { clear. intros m s m' uo c Hr Hp Hm. assert (D : m_parsingMode m = 1 \/ m_parsingMode m = 2 \/ m_parsingMode m = 3) by lia.
      destruct D as [D|[D|D]]; [left|right; left|right; right]; (split; [exact D|]).
      - apply report2141. exists m, s, m', uo. auto.
      - apply reportscim. exists m, s, m', uo. auto.
      - apply report8141. exists m, s, m', uo. auto. }
    apply A in Hp; [|assumption..]. apply A in Hp2; [|assumption..].
    destruct Hp as [[E Hk]|[[E Hk]|[E Hk]]], Hp2 as [[E2 Hk2]|[[E2 Hk2]|[E2 Hk2]]]; try congruence;
      destruct k; cbn in Hk, Hk2; auto; contradiction.
Qed.
