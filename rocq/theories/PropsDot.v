(* The drawing of docs/urn.dot and machine.go (lemmas for C61).
   The drawing jumps behind the prefix and has err_parse behind other error actions; the same
   table without both (plain_nodes) passes the check of PropsRagel.v against machine.go. *)
From Coq Require Import Lia Arith Strings.String.
From Verif Require Import GoBase MachineSyntax MachineTables Machine RagelSem RagelRl PropsRagel DotTables Dot ParseThm Api.
Local Open Scope Z_scope.

(* ---- two tables with the same runs -------------------------------------------------------- *)
Section Same.
  Context (block : list N) (G H : list (node (list stmt))) (failed : N -> bool) (good : N -> bool).
  Definition does (e : N * list stmt) (m : machine) (u : URN) : res st :=
    do r <- exec_block (snd e) (set_cs (fst e) m, u); Ret (fst r).
  Definition edge_same (e f : N * list stmt) : Prop :=
    forall m u, does e m u = does f m u /\ forall y, does e m u = Ret y -> good (m_cs (fst y)) = true.
  Definition eof_same (c d : list stmt) : Prop :=
    forall x, good (m_cs (fst x)) = true ->
      exec_block c x = exec_block d x /\ forall y k, exec_block c x = Ret (y, k) -> good (m_cs (fst y)) = true.
  Definition node_same (a b : node (list stmt)) : Prop :=
    n_final a = n_final b /\ n_to a = [] /\ n_to b = [] /\ eof_same (n_eof a) (n_eof b) /\ Forall2 edge_same (n_edges a) (n_edges b).
  Context (SAME : forall k, good k = true -> exists a b, node_at G k = Ret a /\ node_at H k = Ret b /\ node_same a b).

  Lemma Forall2_len {S T} (R : S -> T -> Prop) l k : Forall2 R l k -> List.length l = List.length k.
  Proof. induction 1; cbn; congruence. Qed.
  Lemma index_same {S T} (R : S -> T -> Prop) (l : list S) (k : list T) i : Forall2 R l k ->
    match index l i, index k i with Ret a, Ret b => R a b | Panic, Panic => True | _, _ => False end.
  Proof.
    intros F. unfold index, zlen. rewrite (Forall2_len _ _ _ F). destruct (_ && _); [|exact I].
    generalize (Z.to_nat i). induction F as [|a b l k Q F IH]; intros [|n]; cbn [nth_error]; try exact I; [exact Q|apply IH].
  Qed.

  Lemma step_same l x : good (m_cs (fst x)) = true ->
    rl_step block G l x = rl_step block H l x /\ forall l' y, rl_step block G l x = Ret (l', y) -> good (m_cs (fst y)) = true.
  Proof.
    intros Gd. destruct x as [m u]. cbn [fst] in Gd.
    destruct (SAME _ Gd) as (a & b & Ha & Hb & Hf & Ta & Tb & E & F). destruct l; cbn [rl_step].
    - rewrite Ha, Hb. cbn [bind]. destruct (index (m_data m) (m_p m)) as [c| |]; cbn [bind]; try (split; [reflexivity|discriminate]).
      destruct (index block _) as [k| |]; cbn [bind]; try (split; [reflexivity|discriminate]).
      pose proof (index_same _ _ _ (Z.of_N k) F) as Q.
      destruct (index (n_edges a) (Z.of_N k)) as [[to c1]| |], (index (n_edges b) (Z.of_N k)) as [[to' c2]| |]; cbn [bind]; try contradiction;
        try (split; [reflexivity|discriminate]).
      destruct (Q m u) as [Q1 Q2]. unfold does in Q1, Q2. cbn [fst snd] in Q1, Q2.
      destruct (exec_block c1 _) as [r1| |], (exec_block c2 _) as [r2| |]; cbn [bind] in *; try discriminate Q1; try (split; [reflexivity|discriminate]).
      split; [congruence|]. intros l' y E'. apply Q2. congruence.
    - rewrite Ha, Hb. cbn [bind]. rewrite Ta, Tb. cbn [exec_block bind]. split; [reflexivity|]. intros l' y.
      destruct (N.eqb _ _); intros [= <- <-]; cbn [fst m_cs set_p]; exact Gd.
    - rewrite Ha, Hb. cbn [bind]. destruct (E (m, u) Gd) as [E1 E2]. rewrite E1 in *.
      destruct (exec_block (n_eof b) (m, u)) as [[y c]| |]; cbn [bind]; try (split; [reflexivity|discriminate]).
      split; [reflexivity|]. intros l' y' [= <- <-]. eapply E2. reflexivity.
    - split; [reflexivity|]. intros l' y [= <- <-]. exact Gd.
  Qed.
  Lemma run_same fuel : forall l x, good (m_cs (fst x)) = true ->
    rl_run block G fuel l x = rl_run block H fuel l x /\ forall y, rl_run block G fuel l x = Ret y -> good (m_cs (fst y)) = true.
  Proof.
    induction fuel as [|f IH]; intros l x Gd; destruct l; cbn [rl_run];
      try (split; [reflexivity|discriminate]); try (split; [reflexivity|intros y [= <-]; exact Gd]);
      match goal with |- context [rl_step _ _ ?l _] => destruct (step_same l x Gd) as [E1 E2] end; rewrite E1 in *;
      destruct (rl_step block H _ x) as [[l' x']| |]; cbn [bind]; try (split; [reflexivity|discriminate]);
      apply IH; eapply E2; reflexivity.
  Qed.
  Lemma parse_same cs mode input : good cs = true -> rl_Parse block G failed cs mode input = rl_Parse block H failed cs mode input.
  Proof.
    intros Gd. unfold rl_Parse.
    match goal with |- context [rl_run _ _ ?f ?l ?x] => destruct (run_same f l x Gd) as [E1 E2] end.
    rewrite E1 in *. destruct (rl_run block H _ _ _) as [[m u]| |]; cbn [bind]; try reflexivity.
    destruct (SAME _ (E2 _ eq_refl)) as (a & b & Ha & Hb & Hf & _). cbn [fst] in Ha, Hb. rewrite Ha, Hb. cbn [bind]. rewrite Hf. reflexivity.
  Qed.
End Same.

(* ---- code --------------------------------------------------------------------------------- *)
(* a block that reaches goto _again whatever the state *)
Definition leaves (l : list stmt) : bool := existsb (fun s => match s with SGotoAgain => true | _ => false end) l.
Lemma exec_leaves l d : forall x, leaves l = true -> exec_block (l ++ d) x = exec_block l x.
Proof.
  induction l as [|s l IH]; intros x E; [discriminate|]. cbn [app exec_block]. cbn [leaves existsb] in E.
  destruct (exec_stmt s x) as [[y []]| |] eqn:X; cbn [bind]; try reflexivity.
  apply IH. destruct s; cbn [orb] in E; try exact E. destruct x as [m u]. discriminate X.
Qed.
Lemma exec_app2 l d : forall x, exec_block (l ++ d) x =
  match exec_block l x with Ret (y, Fall) => exec_block d y | r => r end.
Proof.
  induction l as [|s l IH]; intros x; cbn [app exec_block]; [reflexivity|].
  destruct (exec_stmt s x) as [[y []]| |]; cbn [bind]; try reflexivity. apply IH.
Qed.

(* where a block of statements can leave m.cs *)
Section Goes.
  Context (P : N -> bool).
  Fixpoint goes (s : stmt) : bool :=
    match s with
    | SSetCS n => P n
    | SIf _ t e => forallb goes t && forallb goes e
    | _ => true
    end.
  Lemma goes_block n : forall l, (lsz l <= n)%nat -> forallb goes l = true ->
    forall x, P (m_cs (fst x)) = true -> forall y c, exec_block l x = Ret (y, c) -> P (m_cs (fst y)) = true.
  Proof.
    induction n as [|n IH]; intros [|s l] Hn Hg x Px y c E; try (cbn in E; injection E as <- <-; exact Px).
    - cbn [lsz] in Hn. pose proof (ssz_pos s). lia.
    - cbn [lsz] in Hn. pose proof (ssz_pos s) as Hp. cbn [forallb] in Hg. apply andb_prop in Hg. destruct Hg as [Hs Hl].
      cbn [exec_block] in E. destruct (exec_stmt s x) as [[y1 c1]| |] eqn:X; cbn [bind] in E; try discriminate E.
      assert (Q : P (m_cs (fst y1)) = true).
      { destruct s as [| | | | | | | | |k| |c0 t e| | | | | | | | | | |];
          try (destruct x as [m u]; cbn [exec_stmt] in X; unfold text in X; cbn [fst] in Px;
               repeat match type of X with
               | context [slice ?a ?b ?c] => destruct (slice a b c); cbn [bind] in X
               | context [for_tolower ?a ?b ?c ?d] => destruct (for_tolower a b c d); cbn [bind] in X
               | context [u_scim ?v] => destruct (u_scim v)
               end; try discriminate X; injection X as <- <-; cbn [fst m_cs set_data set_p set_pb set_err set_cs]; exact Px).
        - destruct x as [m u]. cbn [exec_stmt] in X. injection X as <- <-. exact Hs.
        - rewrite exec_if' in X. destruct (eval_cond c0 x) as [b| |]; cbn [bind] in X; try discriminate X.
          rewrite ssz_if in Hn. cbn [goes] in Hs. apply andb_prop in Hs. destruct Hs as [Ht He].
          destruct b; [eapply (IH t)|eapply (IH e)]; try eassumption; lia. }
      destruct c1; [|injection E as <- <-; exact Q]. eapply (IH l); try eassumption; lia.
  Qed.
  Lemma goes_exec l x y c : forallb goes l = true -> P (m_cs (fst x)) = true -> exec_block l x = Ret (y, c) -> P (m_cs (fst y)) = true.
  Proof. intros Hg Px E. exact (goes_block _ l (le_n _) Hg x Px y c E). Qed.
End Goes.

(* ---- the table without jumps and err_parse -------------------------------------------------- *)
(* the three states behind the prefix are left by the jump before anything is read in them *)
Definition good (k : N) : bool := N.ltb k 96 && negb (existsb (N.eqb k) [87; 90; 94]%N).
Definition known (a : dact) : bool := match a with Named _ => true | _ => false end.
Definition plain_edge (e : N * list dact) : N * list dact :=
  match e with
  | (_, [Named a_set_pre; Inline line _]) => (entry_of (if N.eqb line 229 then "scim" else "urn"), [Named a_set_pre])
  | (to, c) => (to, filter known c)
  end.
Definition plain_of (k : N) : N := if N.eqb k 87 then 5 else if N.eqb k 90 then 5 else if N.eqb k 94 then 48 else k.
Definition plain_node (k : N) : node (list stmt) :=
  mkNode (map (fun b => coded [] (plain_edge (dot_edge k b))) all_bytes)
    (existsb (N.eqb k) dot_finals) (dot_code [] (filter known (acts_at k dot_eofs))) [].
Definition plain_nodes : list (node (list stmt)) := map (fun k => plain_node (plain_of (N.of_nat k))) (seq 0 96).
Definition dot_go : list N :=
  map N.of_nat ([0] ++ seq 1 43 ++ seq 1 4 ++ seq 48 35 ++ seq 44 4 ++ [5; 172; 173; 5; 174; 175; 176; 48; 193])%nat.
Lemma plain_ok : check all_bytes all_bytes plain_nodes dot_go 95 (N.eqb 95) = true.
Proof. vm_cast_no_check (@eq_refl bool true). Qed.

(* what makes the two tables the same: names only, or names that end the block and err_parse
   behind them, or the jump *)
Definition safe (c : list dact) : bool := forallb known c && forallb (goes good) (dot_code [] c).
Definition acts_ok (c : list dact) : bool :=
  safe c ||
  match rev c with
  | ErrParse :: r => let d := rev r in safe d && leaves (dot_code [] d)
  | _ => false
  end.
Definition edge_fine (e : N * list dact) : bool :=
  match e with
  | (_, [Named a_set_pre; Inline line _]) => good (entry_of (if N.eqb line 229 then "scim" else "urn"))
  | (to, c) => good to && acts_ok c
  end.
Definition fine (k : N) : bool := forallb (fun b => edge_fine (dot_edge k b)) all_bytes && acts_ok (acts_at k dot_eofs).
Lemma all_fine_true : forallb (fun k => if good k then fine k else true) (map N.of_nat (seq 0 96)) = true.
Proof. vm_cast_no_check (@eq_refl bool true). Qed.

Section ErrParse.
  Context (err_parse : list stmt).
  Lemma code_known c : forallb known c = true -> dot_code err_parse c = dot_code [] c.
  Proof.
    induction c as [|a c IH]; cbn [forallb dot_code flat_map]; intros E; [reflexivity|]. apply andb_prop in E. destruct E as [E1 E2].
    destruct a; try discriminate E1. f_equal. apply IH, E2.
  Qed.
  Lemma filter_known c : forallb known c = true -> filter known c = c.
  Proof.
    induction c as [|a c IH]; cbn [forallb filter]; intros E; [reflexivity|]. apply andb_prop in E. destruct E as [-> E2]. f_equal. apply IH, E2.
  Qed.
  Lemma acts_same c x : acts_ok c = true -> good (m_cs (fst x)) = true ->
    exec_block (dot_code err_parse c) x = exec_block (dot_code [] (filter known c)) x /\
    forall y k, exec_block (dot_code err_parse c) x = Ret (y, k) -> good (m_cs (fst y)) = true.
  Proof.
    intros E Gx. unfold acts_ok in E. apply orb_prop in E. destruct E as [E|E].
    - apply andb_prop in E. destruct E as [E1 E2]. rewrite (code_known c E1), (filter_known c E1). split; [reflexivity|].
      intros y k. apply goes_exec; assumption.
    - destruct (rev c) as [|[a| |l q] r] eqn:R; try discriminate E. apply andb_prop in E. destruct E as [E L].
      apply andb_prop in E. destruct E as [E1 E2].
      assert (Hc : c = rev r ++ [ErrParse]). { rewrite <- (rev_involutive c), R. reflexivity. }
      assert (F : dot_code err_parse c = dot_code [] (rev r) ++ err_parse).
      { rewrite Hc. unfold dot_code at 1. rewrite flat_map_app. cbn [flat_map dot_body]. rewrite app_nil_r. f_equal. apply code_known, E1. }
      assert (F2 : filter known c = rev r).
      { rewrite Hc, filter_app. cbn [filter known]. rewrite app_nil_r. apply filter_known, E1. }
      rewrite F, F2, (exec_leaves _ err_parse x L). split; [reflexivity|]. intros y k. apply goes_exec; assumption.
  Qed.
  Lemma jump_same (m : machine) (u : URN) to k : good k = true ->
    does (to, [SSetPrefix] ++ [SSetCS k; SGotoAgain]) m u = does (k, [SSetPrefix]) m u /\
    (forall y, does (to, [SSetPrefix] ++ [SSetCS k; SGotoAgain]) m u = Ret y -> good (m_cs (fst y)) = true).
  Proof.
    intros Gk. unfold does. cbn [fst snd app exec_block exec_stmt bind]. unfold text. cbn [m_data m_pb m_p set_cs].
    destruct (slice (m_data m) (m_pb m) (m_p m)) as [t| |]; cbn [bind]; (split; [reflexivity|]); try discriminate.
    intros y E. injection E as <-. exact Gk.
  Qed.
  Lemma edge_plain e : edge_fine e = true -> edge_same good (coded err_parse e) (coded [] (plain_edge e)).
  Proof.
    destruct e as [to c]. intros E m u.
    assert (D : (exists line col, c = [Named a_set_pre; Inline line col]) \/ (plain_edge (to, c) = (to, filter known c) /\ good to && acts_ok c = true)).
    { destruct c as [|[[]| |] [|[| |l q] [|]]]; try (right; split; [reflexivity|exact E]). left. eauto. }
    destruct D as [(line & col & ->)|[-> F]].
    - cbn [edge_fine] in E. cbn [plain_edge coded]. destruct (jump_same m u to _ E) as [J1 J2]. split; [exact J1|exact J2].
    - apply andb_prop in F. destruct F as [F1 F2]. cbn [coded]. unfold does. cbn [fst snd].
      destruct (acts_same c (set_cs to m, u) F2 F1) as [A1 A2]. rewrite A1 in *. split; [reflexivity|].
      clear A1. intros y. destruct (exec_block (dot_code [] (filter known c)) _) as [[y' k]| |]; cbn [bind fst]; try discriminate. intros E'. injection E' as <-. eapply A2. reflexivity.
  Qed.
  Lemma node_at_map (f : N -> node (list stmt)) k : (k < 96)%N -> node_at (map (fun i => f (N.of_nat i)) (seq 0 96)) k = Ret (f k).
  Proof.
    intros H. unfold node_at, index, zlen. rewrite map_length, seq_length.
    replace (0 <=? Z.of_N k) with true by (symmetry; apply Z.leb_le; lia).
    replace (Z.of_N k <? Z.of_nat 96) with true by (symmetry; apply Z.ltb_lt; lia). cbn [andb].
    rewrite nth_error_map. replace (Z.to_nat (Z.of_N k)) with (N.to_nat k) by lia.
    rewrite (nth_error_nth' _ O) by (rewrite seq_length; lia). rewrite seq_nth by lia. cbn [option_map Nat.add]. rewrite N2Nat.id. reflexivity.
  Qed.
  Lemma all_at (P : N -> bool) k : forallb P (map N.of_nat (seq 0 96)) = true -> (k < 96)%N -> P k = true.
  Proof.
    intros A L. rewrite forallb_forall in A. apply A. apply in_map_iff. exists (N.to_nat k). split; [lia|]. apply in_seq. lia.
  Qed.
  Lemma good_lt k : good k = true -> (k < 96)%N.
  Proof. unfold good. intros Gk. apply andb_prop in Gk. apply N.ltb_lt, (proj1 Gk). Qed.
  Lemma fine_at k : good k = true -> fine k = true.
  Proof.
    intros Gk. pose proof (all_at _ k all_fine_true (good_lt k Gk)) as A. cbv beta in A. rewrite Gk in A. exact A.
  Qed.
  Lemma good_plain k : good k = true -> plain_of k = k.
  Proof.
    intros Gk. unfold good in Gk. apply andb_prop in Gk. destruct Gk as [_ Gk]. cbn [existsb] in Gk. unfold plain_of.
    destruct (N.eqb k 87), (N.eqb k 90), (N.eqb k 94); try discriminate Gk. reflexivity.
  Qed.
  Lemma edges_same k l : (forall b, In b l -> edge_fine (dot_edge k b) = true) ->
    Forall2 (edge_same good) (map (fun b => coded err_parse (dot_edge k b)) l) (map (fun b => coded [] (plain_edge (dot_edge k b))) l).
  Proof.
    induction l as [|b l IH]; intros Hl; cbn [map]; constructor.
    - apply edge_plain, Hl. left. reflexivity.
    - apply IH. intros b' Ib. apply Hl. right. exact Ib.
  Qed.
  Lemma node_plain k : fine k = true -> node_same good (dot_node err_parse k) (plain_node k).
  Proof.
    unfold fine. intros A. apply andb_prop in A. destruct A as [A1 A2]. rewrite forallb_forall in A1. unfold node_same, dot_node, plain_node.
    cbn [n_final n_to n_eof n_edges]. split; [reflexivity|]. split; [reflexivity|]. split; [reflexivity|]. split.
    - intros x Gx. apply acts_same; assumption.
    - apply edges_same, A1.
  Qed.
  Lemma nodes_same k : good k = true -> exists a b, node_at (dot_nodes err_parse) k = Ret a /\ node_at plain_nodes k = Ret b /\ node_same good a b.
  Proof.
    intros Gk. pose proof (good_lt k Gk) as L.
    exists (dot_node err_parse k), (plain_node k). split; [|split].
    - unfold dot_nodes. replace (S (N.to_nat dot_last)) with 96%nat by (vm_compute; reflexivity). apply (node_at_map (dot_node err_parse) k L).
    - unfold plain_nodes. rewrite (node_at_map (fun k => plain_node (plain_of k)) k L), (good_plain k Gk). reflexivity.
    - apply node_plain, fine_at, Gk.
  Qed.

  (* ---- Parse ------------------------------------------------------------------------------- *)
  Lemma dot_plain name mode s : good (entry_of name) = true ->
    dot_Parse err_parse name mode s = rl_Parse all_bytes plain_nodes (N.eqb 95) (entry_of name) mode s.
  Proof.
    intros H. unfold dot_Parse. replace (entry_of "fail") with 95%N by (vm_compute; reflexivity).
    apply (parse_same all_bytes _ _ (N.eqb 95) good nodes_same). exact H.
  Qed.
  Lemma dot_machine m s name m' u e :
    In (m_startParsingAt m, name) [(en_main, "main"); (en_main, "urn_only"); (en_scim_only, "scim_only")]%string ->
    machine_Parse m s = Ret (m', u, e) -> dot_Parse err_parse name (m_parsingMode m) s = Ret (m_data m', u, e).
  Proof.
    intros I P. assert (Q : good (entry_of name) = true /\ valid dot_go (entry_of name) /\ m_startParsingAt m = to_go dot_go (entry_of name)).
    { cbn [In] in I. destruct I as [E|[E|[E|[]]]]; apply pair_equal_spec in E; destruct E as [<- <-];
        (split; [vm_compute; reflexivity|]; split; [vm_compute; reflexivity|vm_compute; reflexivity]). }
    destruct Q as (Q1 & Q2 & Q3). rewrite (dot_plain name _ s Q1).
    exact (parse_sim all_bytes all_bytes plain_nodes dot_go 95 (N.eqb 95) plain_ok m s (entry_of name) m' u e Q2 Q3 P).
  Qed.
End ErrParse.

Lemma dot_modes : forall err_parse s mode name,
  In (mode, name) [(PRFC2141Only, "main"); (PRFC2141Only, "urn_only"); (PRFC7643Only, "scim_only")]%string ->
  exists m' u e, machine_Parse (NewMachine [mode]) s = Ret (m', u, e) /\ dot_Parse err_parse name mode s = Ret (m_data m', u, e).
Proof.
  intros ep s mode name H. destruct (parse_reach (NewMachine [mode]) s (reach_new _)) as (m' & u & e & P & _). exists m', u, e. split; [exact P|].
  cbn [In] in H. destruct H as [E|[E|[E|[]]]]; apply pair_equal_spec in E; destruct E as [<- <-].
  - exact (dot_machine ep (NewMachine [PRFC2141Only]) s "main" m' u e (or_introl eq_refl) P).
  - exact (dot_machine ep (NewMachine [PRFC2141Only]) s "urn_only" m' u e (or_intror (or_introl eq_refl)) P).
  - exact (dot_machine ep (NewMachine [PRFC7643Only]) s "scim_only" m' u e (or_intror (or_intror (or_introl eq_refl))) P).
Qed.

(* a text with a fragment: no way through the drawing *)
Definition no_record (r : res (bytes * option URN * option perr)) : bool := match r with Ret (_, None, _) => true | _ => false end.
Lemma dot_fragment err_parse mode name : In name (map fst dot_entries) -> no_record (dot_Parse err_parse name mode (B "urn:ab:c#f")) = true.
Proof.
  intros I. cbn [map fst dot_entries In] in I.
  repeat (destruct I as [<-|I]); [..|contradiction]; rewrite dot_plain by (vm_compute; reflexivity);
    (destruct mode as [|[[]|[]|]|]; vm_compute; reflexivity).
Qed.
