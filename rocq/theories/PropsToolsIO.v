(* Proofs about ToolsIO.v (C56). *)
From Coq Require Import Lia.
From Verif Require Import GoBase Spec Tools SpecTools PropsTools ToolsIO.
Local Open Scope list_scope.

(* ---- the two transformations commute ----------------------------------------------------------- *)
Lemma capital_not d : alnum d = true -> lower (capital d) = false /\ alnum (capital d) = true.
Proof. destruct d; cbn; intros H; try discriminate H; split; reflexivity. Qed.
Lemma alnum_ws d : alnum d = true -> ws d = false.
Proof. destruct d; cbn; intros H; try discriminate H; reflexivity. Qed.
Lemma ws_plain c : ws c = true -> Byte.eqb c uscore = false /\ lower c = false /\ digit c = false.
Proof. destruct c; cbn; intros H; try discriminate H; repeat split; reflexivity. Qed.
Lemma alnum_dot' d : alnum d = true -> dot (capital d) = true /\ dot d = true.
Proof. destruct d; cbn; intros H; try discriminate H; split; reflexivity. Qed.
Lemma alnum_cls d : alnum d = (lower d || upper d || digit d)%bool.
Proof. destruct d; reflexivity. Qed.

(* a predicate that no alphanumeric decides *)
Lemma camel_forall (p : byte -> bool) (b : bool) :
  (forall d, alnum d = true -> p d = b) -> (b = true \/ p uscore = false) ->
  forall n l L, (List.length l <= n)%nat -> forallb p (camel L l) = true -> (b = true -> p uscore = true) -> forallb p l = true.
Proof.
  intros Ha Hu. induction n as [|n IH]; intros [|c l] L Hn H Hb; try (cbn in Hn; lia); try reflexivity.
  cbn [camel] in H. destruct (Byte.eqb c uscore && L) eqn:E.
  - apply andb_prop in E as [E _]. apply Byte.byte_dec_bl in E. subst c. destruct l as [|d l]; [exact H|].
    destruct (alnum d) eqn:Ed.
    + cbn [forallb] in H |- *. apply andb_prop in H as [H1 H2]. destruct (capital_not d Ed) as [_ Hc].
      rewrite (Ha _ Hc) in H1. rewrite (Ha _ Ed). rewrite H1, (Hb H1). cbn. cbn in Hn. eapply IH; [lia|exact H2|exact Hb].
    + cbn [forallb] in H. apply andb_prop in H as [H1 H2]. cbn [forallb]. rewrite H1. cbn [andb].
      change (p d && forallb p l)%bool with (forallb p (d :: l)). cbn in Hn. eapply (IH (d :: l) false); [cbn; lia|exact H2|exact Hb].
  - cbn [forallb] in H |- *. apply andb_prop in H as [-> H]. cbn in Hn. cbn [andb]. eapply IH; [lia|exact H|exact Hb].
Qed.
Lemma camel_forall' (p : byte -> bool) (b : bool) :
  (forall d, alnum d = true -> p d = b) ->
  forall n l L, (List.length l <= n)%nat -> forallb p l = true -> forallb p (camel L l) = true.
Proof.
  intros Ha. induction n as [|n IH]; intros [|c l] L Hn H; try (cbn in Hn; lia); try reflexivity.
  cbn [forallb] in H. apply andb_prop in H as [H1 H2].
  cbn [camel]. destruct (Byte.eqb c uscore && L) eqn:E.
  - destruct l as [|d l]; [cbn; rewrite H1; reflexivity|]. destruct (alnum d) eqn:Ed.
    + cbn [forallb] in H2 |- *. apply andb_prop in H2 as [H2 H3]. destruct (capital_not d Ed) as [_ Hc].
      rewrite (Ha _ Hc), <- (Ha _ Ed), H2. cbn [andb]. cbn in Hn. apply IH; [lia|exact H3].
    + cbn [forallb]. rewrite H1. cbn [andb]. cbn in Hn. apply IH; [cbn; lia|exact H2].
  - cbn [forallb]. rewrite H1. cbn [andb]. cbn in Hn. apply IH; [lia|exact H2].
Qed.

Lemma camel_blank l L : blank (camel L l) <-> blank l.
Proof.
  unfold blank. split.
  - intros H. apply (camel_forall ws false) with (n := List.length l) (L := L); auto using alnum_ws.
  - apply (camel_forall' ws false) with (n := List.length l); auto using alnum_ws.
Qed.
Lemma camel_dot l L : forallb dot l = true -> forallb dot (camel L l) = true.
Proof. apply (camel_forall' dot true) with (n := List.length l); auto. intros d Hd. apply alnum_dot', Hd. Qed.

Lemma camel_ws w : forallb ws w = true -> forall c r L, ws c = true -> camel L (c :: w ++ r) = c :: w ++ camel false r.
Proof.
  induction w as [|d w IH]; intros Hw c r L Hc; destruct (ws_plain c Hc) as (E1 & E2 & E3); cbn [camel app]; rewrite E1, E2, E3; [reflexivity|].
  cbn in Hw. apply andb_prop in Hw as [Hd Hw]. cbn [andb orb]. f_equal.
  change (camel false (d :: w ++ r) = d :: w ++ camel false r). apply IH; assumption.
Qed.
Lemma camel_ws' w r : forallb ws w = true -> camel false (w ++ r) = w ++ camel false r.
Proof. destruct w as [|c w]; [reflexivity|]. cbn [forallb]. intros H. apply andb_prop in H as [Hc Hw]. apply camel_ws; assumption. Qed.
Lemma camel_line x : camel false (B "//line" ++ x) = B "//line" ++ camel true x.
Proof. reflexivity. Qed.

(* a byte of the result that is no capital, no digit and no underscore was there before *)
Lemma camel_first L l c y : camel L l = c :: y -> digit c = false -> upper c = false -> Byte.eqb c uscore = false ->
  exists r, l = c :: r /\ y = camel (lower c) r.
Proof.
  intros H Hd Hu Hs. destruct l as [|d l]; [discriminate|]. cbn [camel] in H.
  destruct (Byte.eqb d uscore && L) eqn:E.
  - exfalso. apply andb_prop in E as [E _]. apply Byte.byte_dec_bl in E. subst d. destruct l as [|d l].
    + injection H as <- <-. discriminate Hs.
    + destruct (alnum d) eqn:Ed.
      * apply (f_equal (fun l => hd_error l)) in H. cbn [hd_error] in H. assert (Ec : capital d = c) by congruence. subst c.
        destruct (capital_not d Ed) as [E1 E2]. rewrite alnum_cls, E1, Hu, Hd in E2. discriminate E2.
      * apply (f_equal (fun l => hd_error l)) in H. cbn [hd_error] in H. assert (Ec : uscore = c) by congruence. subst c. discriminate Hs.
  - assert (Ec : d = c) by congruence. subst d. exists l. split; [reflexivity|].
    rewrite Hd, andb_false_l, orb_false_r in H. congruence.
Qed.
Lemma camel_prefix w : forallb (fun c => negb (digit c) && negb (upper c) && negb (Byte.eqb c uscore))%bool w = true ->
  forall L l y, camel L l = w ++ y -> exists r, l = w ++ r.
Proof.
  induction w as [|c w IH]; intros H L l y E; [exists l; reflexivity|]. cbn [forallb] in H.
  apply andb_prop in H as [H1 H]. apply andb_prop in H1 as [H1 H3]. apply andb_prop in H1 as [H1 H2].
  apply negb_true_iff in H1, H2, H3. cbn [app] in E. apply camel_first in E as (r & -> & E); auto.
  symmetry in E. destruct (IH H _ _ _ E) as (r' & ->). exists r'. reflexivity.
Qed.
Lemma camel_directive l : directive (camel false l) <-> directive l.
Proof.
  split; intros (w & x & E & Hw).
  - rewrite app_assoc in E. apply camel_prefix in E as (r & ->).
    + exists w, r. split; [symmetry; apply app_assoc|exact Hw].
    + rewrite forallb_app. apply andb_true_intro. split; [|reflexivity].
      rewrite forallb_forall in *. intros c Hc. apply Hw in Hc. destruct c; try discriminate Hc; reflexivity.
  - exists w, (camel true x). split; [|exact Hw]. rewrite E, camel_ws' by exact Hw. rewrite camel_line. reflexivity.
Qed.

Lemma camel_concat ls : good ls -> camel false (List.concat ls) = List.concat (map (camel false) ls).
Proof.
  induction 1 as [|v Hv Hn|v ls Hv H IH]; [reflexivity|cbn; rewrite !app_nil_r; reflexivity|].
  cbn [List.concat map]. rewrite <- app_assoc. cbn [app]. rewrite camel_nl, IH.
  pose proof (camel_nl v [] false) as E. cbn [camel] in E. rewrite E, <- app_assoc. reflexivity.
Qed.
Lemma camel_good ls : good ls -> good (map (camel false) ls).
Proof.
  induction 1 as [|v Hv Hn|v ls Hv H IH]; cbn [map]; [constructor| |].
  - constructor; [apply camel_dot, Hv|]. destruct v as [|c v]; [congruence|]. cbn [camel]. rewrite andb_false_r. discriminate.
  - pose proof (camel_nl v [] false) as E. cbn [camel] in E. rewrite E. constructor; [apply camel_dot, Hv|exact IH].
Qed.
Lemma lines_camel s : lines (camel false s) = map (camel false) (lines s).
Proof.
  pose proof (lines_good (List.length s) s (Nat.le_refl _)) as G.
  rewrite <- (lines_concat s) at 1. rewrite camel_concat by exact G. apply good_lines, camel_good, G.
Qed.

Lemma cleaned_map f : (forall l, blank (f l) <-> blank l) -> (forall l, directive (f l) <-> directive l) ->
  forall ls ls', cleaned ls ls' -> cleaned (map f ls) (map f ls').
Proof.
  intros Hb Hd. induction 1 as [|bs d ls ls' B1 D1 H IH|l ls ls' Hk H IH]; [constructor| |].
  - rewrite map_app. cbn [map]. apply cleaned_drop; [|apply Hd, D1|exact IH].
    apply Forall_map. eapply Forall_impl; [|exact B1]. intros a. apply Hb.
  - cbn [map]. apply cleaned_keep; [|exact IH]. intros bs d r E B1 D1.
    change (f l :: map f ls) with (map f (l :: ls)) in E. apply map_eq_app in E as (bs' & r' & E & <- & E2).
    apply map_eq_cons in E2 as (d' & r'' & -> & <- & _).
    apply (Hk bs' d' r'' E); [|apply Hd, D1]. rewrite Forall_map in B1. eapply Forall_impl; [|exact B1]. intros a. apply Hb.
Qed.

Lemma tools_commute s a b : removeComments s = Ret a -> snake2camel a = Ret b ->
  exists a', snake2camel s = Ret a' /\ removeComments a' = Ret b.
Proof.
  intros Ha Hb. rewrite snake_spec in Hb. injection Hb as <-. exists (camel false s). split; [apply snake_spec|].
  apply remove_lines in Ha. apply remove_spec. exists (lines (camel false a)). split; [|symmetry; apply lines_concat].
  rewrite !lines_camel. apply cleaned_map; [intros l; apply camel_blank|apply camel_directive|exact Ha].
Qed.

(* ---- the programs ------------------------------------------------------------------------------- *)
Lemma path_refl p : path_eqb p p = true.
Proof. unfold path_eqb. destruct (list_eq_dec _ p p); [reflexivity|congruence]. Qed.
Lemma path_ne p q : q <> p -> path_eqb q p = false.
Proof. unfold path_eqb. destruct (list_eq_dec _ q p); [congruence|reflexivity]. Qed.
Lemma set_same f p c : set_file f p c p = Some c.
Proof. unfold set_file. rewrite path_refl. reflexivity. Qed.
Lemma set_other f p c q : q <> p -> set_file f p c q = f q.
Proof. intros H. unfold set_file. rewrite path_ne by exact H. reflexivity. Qed.

Inductive tool := Removecomments | Snake2camel.
Definition main_of (t : tool) : run_env -> io unit :=
  match t with Removecomments => removecomments_main | Snake2camel => snake2camel_main end.
(* what each is for, in the terms of SpecTools.v *)
Definition effect (t : tool) (c c' : bytes) : Prop :=
  match t with Removecomments => cleaned (lines c) (lines c') | Snake2camel => c' = camel false c end.
Definition usage : bytes := B "must be called with the file path as the only argument".
Definition complaint (m : bytes) : bytes := B "error: " ++ m ++ [newline; newline].

Definition fails (m : bytes) (f : files) (w : world) : option (N * world) := Some (1%N, mkWorld f (w_stderr w ++ complaint m)).

Definition closed_form (T : bytes -> bytes) (e : run_env) (w : world) : option (N * world) :=
  match os_Args e with
  | [_; path] =>
      match on_read e, w_files w path with
      | Some m, _ => fails m (w_files w) w
      | None, None => fails (no_file e) (w_files w) w
      | None, Some c =>
          match on_write e with
          | WDone => Some (0%N, mkWorld (set_file (w_files w) path (T c)) (w_stderr w))
          | WRefused m => fails m (w_files w) w
          | WBroke n m => fails m (set_file (w_files w) path (firstn n (T c))) w
          end
      end
  | _ => fails usage (w_files w) w
  end.
Definition any_main (f : bytes -> res bytes) (e : run_env) : io unit :=
  bind (if negb (Nat.eqb (List.length (os_Args e)) 2) then exitWithError usage else ret tt) (fun _ =>
  bind (arg1 e) (fun path =>
  bind (bind (ReadFile e path) (fun '(content, err) =>
    match err with
    | Some _ => ret err
    | None => bind (lift (f content)) (fun updated => WriteFile e path updated)
    end)) (fun err =>
  match err with Some m => exitWithError m | None => ret tt end))).
Lemma exit_ok m w : exitWithError m w = OExit 1 (mkWorld (w_files w) (w_stderr w ++ complaint m)).
Proof.
  unfold exitWithError, bind, Fprintln_stderr, os_Exit, complaint. cbn [w_files w_stderr]. rewrite <- !app_assoc. reflexivity.
Qed.
Lemma any_main_ok f T : (forall c, f c = Ret (T c)) -> forall e w, process (any_main f e) w = closed_form T e w.
Proof.
  intros H e w. unfold process, any_main, closed_form, fails.
  destruct (os_Args e) as [|a0 [|path [|a2 al]]] eqn:Ea; cbn [List.length Nat.eqb negb]; unfold bind at 1; try (rewrite exit_ok; reflexivity).
  unfold ret at 1. unfold bind at 1, arg1. rewrite Ea. unfold bind at 1. unfold bind at 1. unfold ReadFile.
  destruct (on_read e) as [m|]; [unfold ret at 1; rewrite exit_ok; reflexivity|].
  destruct (w_files w path) as [c|]; [|unfold ret at 1; rewrite exit_ok; reflexivity].
  unfold bind, lift. rewrite H. unfold WriteFile. destruct (on_write e) as [|m|n m]; [reflexivity|rewrite exit_ok; reflexivity|rewrite exit_ok; reflexivity].
Qed.
Lemma tool_runs t : exists T, (forall c, effect t c (T c)) /\ forall e w, process (main_of t e) w = closed_form T e w.
Proof.
  destruct t.
  - exists (fun c => match removeComments c with Ret r => r | _ => [] end). split.
    + intros c. cbn [effect]. destruct (removeComments_ok c) as (ls & H & _). apply remove_lines. rewrite H. reflexivity.
    + exact (any_main_ok removeComments _ (fun c => match removeComments_ok c with
        | ex_intro _ ls (conj H _) => eq_trans H (f_equal (fun r => Ret (match r with Ret r => r | _ => [] end)) (eq_sym H)) end)).
  - exists (camel false). split; [reflexivity|]. exact (any_main_ok snake2camel _ snake_spec).
Qed.

(* the conditions under which a run succeeds, and the text it then leaves *)
Definition goes_well (e : run_env) (w : world) : Prop :=
  exists prog path c, os_Args e = [prog; path] /\ on_read e = None /\ w_files w path = Some c /\ on_write e = WDone.

Lemma tool_status t e w : exists n w', process (main_of t e) w = Some (n, w') /\ (n = 0 \/ n = 1)%N /\ (n = 0%N <-> goes_well e w).
Proof.
  destruct (tool_runs t) as (T & _ & H). rewrite H. clear H. unfold closed_form, fails, goes_well.
  destruct (os_Args e) as [|a0 [|path [|a2 al]]] eqn:Ea;
    try (do 2 eexists; split; [reflexivity|]; split; [right; reflexivity|]; split; [discriminate|intros (? & ? & ? & E & _); discriminate E]).
  destruct (on_read e) as [m|];
    [do 2 eexists; split; [reflexivity|]; split; [right; reflexivity|]; split; [discriminate|intros (? & ? & ? & _ & E & _); discriminate E]|].
  destruct (w_files w path) as [c|] eqn:Ep;
    [|do 2 eexists; split; [reflexivity|]; split; [right; reflexivity|]; split; [discriminate|intros (? & ? & ? & E & _ & E2 & _); congruence]].
  destruct (on_write e) as [|m|n m];
    [|do 2 eexists; split; [reflexivity|]; split; [right; reflexivity|]; split; [discriminate|intros (? & ? & ? & _ & _ & _ & E); discriminate E]..].
  do 2 eexists. split; [reflexivity|]. split; [left; reflexivity|]. split; [intros _|reflexivity]. exists a0, path, c. auto.
Qed.
Lemma tool_success t e w w' : process (main_of t e) w = Some (0%N, w') ->
  exists prog path c c', os_Args e = [prog; path] /\ w_files w path = Some c /\ w_files w' path = Some c' /\ effect t c c' /\
    (forall q, q <> path -> w_files w' q = w_files w q) /\ w_stderr w' = w_stderr w.
Proof.
  destruct (tool_runs t) as (T & HT & H). rewrite H. clear H. unfold closed_form, fails.
  destruct (os_Args e) as [|a0 [|path [|a2 al]]] eqn:Ea; try discriminate.
  destruct (on_read e) as [m|]; [discriminate|]. destruct (w_files w path) as [c|] eqn:Ep; [|discriminate].
  destruct (on_write e) as [|m|n m]; try discriminate. intros E. injection E as <-. cbn [w_files w_stderr].
  exists a0, path, c, (T c). repeat split; auto; [apply set_same|]. intros q Hq. apply set_other, Hq.
Qed.
(* a run that fails says why; a file is touched only by a write that breaks *)
Lemma tool_failure t e w n w' : process (main_of t e) w = Some (n, w') -> n <> 0%N ->
  exists m, w_stderr w' = w_stderr w ++ complaint m /\
  ((w_files w' = w_files w /\
     ((List.length (os_Args e) <> 2 /\ m = usage) \/
      (on_read e = Some m) \/
      (exists prog path, os_Args e = [prog; path] /\ w_files w path = None /\ m = no_file e) \/
      (on_write e = WRefused m))) \/
   (exists prog path c c' k, os_Args e = [prog; path] /\ w_files w path = Some c /\ effect t c c' /\ on_write e = WBroke k m /\
      w_files w' path = Some (firstn k c') /\ (forall q, q <> path -> w_files w' q = w_files w q)))%nat.
Proof.
  destruct (tool_runs t) as (T & HT & H). rewrite H. clear H. unfold closed_form, fails.
  destruct (os_Args e) as [|a0 [|path [|a2 al]]] eqn:Ea;
    try (intros E _; injection E as <- <-; exists usage; split; [reflexivity|left]; split; [reflexivity|left]; split; [discriminate|reflexivity]).
  destruct (on_read e) as [m|];
    [intros E _; injection E as <- <-; exists m; split; [reflexivity|left]; split; [reflexivity|right; left; reflexivity]|].
  destruct (w_files w path) as [c|] eqn:Ep;
    [|intros E _; injection E as <- <-; exists (no_file e); split; [reflexivity|left]; split; [reflexivity|right; right; left]; eauto].
  destruct (on_write e) as [|m|k m]; [intros E N; injection E as <- _; congruence| |];
    intros E _; injection E as <- <-; exists m; (split; [reflexivity|]).
  - left. split; [reflexivity|]. right. right. right. reflexivity.
  - right. exists a0, path, c, (T c), k. cbn [w_files]. repeat split; auto; [apply set_same|]. intros q Hq. apply set_other, Hq.
Qed.

(* ---- the recipe ----------------------------------------------------------------------------------- *)
Lemma cleaned_remove c a : cleaned (lines c) (lines a) -> removeComments c = Ret a.
Proof. intros H. apply remove_spec. exists (lines a). split; [exact H|symmetry; apply lines_concat]. Qed.
Lemma recipe_ok e1 e2 w w' p1 p2 path :
  os_Args e1 = [p1; path] -> os_Args e2 = [p2; path] -> recipe e1 e2 w = Some (0%N, w') ->
  exists c a c', w_files w path = Some c /\ w_files w' path = Some c' /\
    cleaned (lines c) (lines a) /\ c' = camel false a /\
    (forall q, q <> path -> w_files w' q = w_files w q) /\ w_stderr w' = w_stderr w.
Proof.
  intros A1 A2. unfold recipe. destruct (process (removecomments_main e1) w) as [[[|n] w1]|] eqn:E; try discriminate.
  intros E2. destruct (tool_success Removecomments _ _ _ E) as (q1 & pa & c & a & B1 & B2 & B3 & B4 & B5 & B6).
  destruct (tool_success Snake2camel _ _ _ E2) as (q2 & pb & c2 & c' & D1 & D2 & D3 & D4 & D5 & D6).
  assert (pa = path) by congruence. assert (pb = path) by congruence. subst pa pb.
  assert (c2 = a) by congruence. subst c2. exists c, a, c'. repeat split; auto; [|congruence].
  intros q Hq. rewrite D5, B5 by exact Hq. reflexivity.
Qed.
Lemma recipe_stable s a b : removeComments s = Ret a -> snake2camel a = Ret b -> removeComments b = Ret b /\ snake2camel b = Ret b.
Proof.
  intros Ha Hb. split; [|eapply snake_idem, Hb]. destruct (tools_commute s a b Ha Hb) as (a' & _ & H). eapply remove_idem, H.
Qed.
