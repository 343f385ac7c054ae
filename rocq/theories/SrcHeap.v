(* The objects of Heap.v as objects of a Go heap, and its operations as calls of the text. *)
From Coq Require Import Lia.
From Verif Require Import GoAst.
From Verif Require Import GoBase MachineSyntax MachineTables Machine Urn Json.
From Verif Require GoPackage.
From Verif Require Heap.
From Verif Require Import GoSem SrcRender SrcSim SrcSim2 SrcFacts SrcSim4 SrcSim5 Api PropsSrc SrcApi SrcApi2 SrcApi3 SrcApi4 SrcApi5.
Import ListNotations.
Local Open Scope string_scope.
Local Open Scope list_scope.

(* ---- objects ------------------------------------------------------------------------------------ *)
(* where the objects of each kind are *)
Record locs := mkLocs { l_u : list loc; l_s : list loc; l_e : list loc; l_m : list loc }.
Definition no_locs : locs := mkLocs [] [] [] [].
(* the value of a pointer; t: what it points to, "" for the interface Machine *)
Definition pv (t : string) (L : list loc) (p : Heap.ptr) : val :=
  match p with None => VNil t | Some a => match nth_error L a with Some l => VPtr l | None => VNil t end end.
Definition each {A} (P : loc -> A -> Prop) (L : list loc) (X : list A) : Prop :=
  NoDup L /\ List.length L = List.length X /\ forall a l x, nth_error L a = Some l -> nth_error X a = Some x -> P l x.
(* the Go heap h holds the objects of H, at the places r says.  The slice tolower of a URN and
   the slice data of a machine are not looked at. *)
Definition rel (r : locs) (H : Heap.heap) (h : heap) : Prop :=
  vars h /\
  each (fun l c => Heap.held (Heap.h_scims H) (Heap.c_scim c) /\
    exists lv, get h l = Some (Cell (uval (pv "SCIM" (l_s r) (Heap.c_scim c)) lv (Heap.c_urn c)))) (l_u r) (Heap.h_urns H) /\
  each (fun l s => get h l = Some (Cell (sval s))) (l_s r) (Heap.h_scims H) /\
  each (fun l p => Heap.held (Heap.h_urns H) p /\ get h l = Some (Cell (val8141 (pv "URN" (l_u r) p)))) (l_e r) (Heap.h_8141s H) /\
  each (fun l m => reachable m /\ exists dv, get h l = Some (Cell (mval dv m))) (l_m r) (Heap.h_machines H).
Definition prefix {A} (a b : list A) : Prop := exists k, b = a ++ k.
Definition grows (r r' : locs) : Prop := prefix (l_u r) (l_u r') /\ prefix (l_s r) (l_s r') /\ prefix (l_e r) (l_e r') /\ prefix (l_m r) (l_m r').

Lemma pre_refl {A} (a : list A) : prefix a a. Proof. exists []. symmetry. apply app_nil_r. Qed.
Lemma pre_app {A} (a k : list A) : prefix a (a ++ k). Proof. exists k. reflexivity. Qed.
Lemma grows_refl r : grows r r. Proof. repeat split; apply pre_refl. Qed.

Lemma each_mono {A} (P Q : loc -> A -> Prop) L X : each P L X -> (forall a l x, nth_error L a = Some l -> nth_error X a = Some x -> P l x -> Q l x) -> each Q L X.
Proof. intros (N & E & F) M. split; [exact N|]. split; [exact E|]. intros a l x A1 A2. eapply M; eauto. Qed.
Lemma update_len {A} a (x : A) X : List.length (Heap.update a x X) = List.length X.
Proof. revert a. induction X as [|y X IH]; intros [|a]; cbn; auto. Qed.
Lemma nth_update {A} a b (x : A) X : nth_error (Heap.update a x X) b = if Nat.eqb a b then match nth_error X b with Some _ => Some x | None => None end else nth_error X b.
Proof.
  revert a b. induction X as [|y X IH]; intros [|a] [|b]; cbn; try reflexivity.
  - destruct (Nat.eqb a b); reflexivity.
  - apply IH.
Qed.
Lemma each_update {A} (P Q : loc -> A -> Prop) L X a l x : each P L X -> nth_error L a = Some l ->
  (forall b l' y, l' <> l -> nth_error L b = Some l' -> nth_error X b = Some y -> P l' y -> Q l' y) -> Q l x -> each Q L (Heap.update a x X).
Proof.
  intros (N & E & F) A1 M QX. split; [exact N|]. split; [rewrite update_len; exact E|]. intros b l' y B1 B2. rewrite nth_update in B2.
  destruct (Nat.eqb a b) eqn:AB.
  - apply Nat.eqb_eq in AB. subst b. rewrite A1 in B1. injection B1 as <-. destruct (nth_error X a); [|discriminate]. injection B2 as <-. exact QX.
  - apply Nat.eqb_neq in AB. eapply M; eauto. intros ->. apply AB. eapply NoDup_nth_error; [exact N| |congruence].
    apply nth_error_Some. congruence.
Qed.
Lemma each_snoc {A} (P Q : loc -> A -> Prop) L X l x : each P L X -> ~ In l L ->
  (forall a l x, nth_error L a = Some l -> nth_error X a = Some x -> P l x -> Q l x) -> Q l x -> each Q (L ++ [l]) (X ++ [x]).
Proof.
  intros (N & E & F) NI M QX. split; [|split].
  - apply NoDup_rev in N. rewrite <- (rev_involutive (L ++ [l])). apply NoDup_rev. rewrite rev_app_distr. cbn. constructor; [|exact N]. rewrite <- in_rev. exact NI.
  - rewrite !app_length, E. reflexivity.
  - intros a l' y A1 A2. destruct (Nat.ltb a (List.length L)) eqn:LT.
    + apply Nat.ltb_lt in LT. rewrite nth_error_app1 in A1, A2 by lia. eapply M; eauto.
    + apply Nat.ltb_ge in LT. rewrite nth_error_app2 in A1, A2 by lia. rewrite E in A1.
      destruct (a - List.length X) as [|[|?]]; try discriminate. cbn in A1, A2. congruence.
Qed.
Lemma each_at {A} (P : loc -> A -> Prop) L X a x : each P L X -> nth_error X a = Some x -> exists l, nth_error L a = Some l /\ P l x.
Proof.
  intros (_ & E & F) B. assert (a < List.length L) by (rewrite E; apply nth_error_Some; congruence).
  destruct (nth_error L a) as [l|] eqn:Q; [exists l; eauto|]. apply nth_error_None in Q. lia.
Qed.
Lemma pv_app t L k {A} (X : list A) p : List.length L = List.length X -> Heap.held X p -> pv t (L ++ k) p = pv t L p.
Proof. intros E Hp. destruct p as [a|]; [|reflexivity]. cbn in *. rewrite nth_error_app1 by lia. reflexivity. Qed.
Lemma pv_last t L l : pv t (L ++ [l]) (Some (List.length L)) = VPtr l.
Proof. cbn. rewrite nth_error_app2 by lia. rewrite PeanoNat.Nat.sub_diag. reflexivity. Qed.
Lemma held_app {A} (X k : list A) p : Heap.held X p -> Heap.held (X ++ k) p.
Proof. destruct p; cbn; [rewrite app_length; lia|auto]. Qed.
Lemma held_update {A} (X : list A) a x p : Heap.held X p -> Heap.held (Heap.update a x X) p.
Proof. destruct p; cbn; [rewrite update_len|]; auto. Qed.

(* ---- frames ------------------------------------------------------------------------------------------ *)
(* every variable of h is as it was, that at l0 perhaps not *)
Definition cells (h h' : heap) : Prop := forall l v, get h l = Some (Cell v) -> get h' l = Some (Cell v).
Definition cells_but (l0 : loc) (h h' : heap) : Prop := forall l v, l <> l0 -> get h l = Some (Cell v) -> get h' l = Some (Cell v).
Lemma cells_ext h h' : extends h h' -> cells h h'. Proof. intros E l v. apply E. Qed.
Lemma rel_cells r H h h' : rel r H h -> cells h h' -> vars h' -> rel r H h'.
Proof.
  intros (V & U & S & E & M) K V'. split; [exact V'|]. split; [|split; [|split]].
  - eapply each_mono; [exact U|]. intros a l x _ _ (A1 & lv & G). split; [exact A1|]. exists lv. apply K, G.
  - eapply each_mono; [exact S|]. intros a l x _ _ G. apply K, G.
  - eapply each_mono; [exact E|]. intros a l x _ _ (A1 & G). split; [exact A1|]. apply K, G.
  - eapply each_mono; [exact M|]. intros a l x _ _ (A1 & dv & G). split; [exact A1|]. exists dv. apply K, G.
Qed.
Lemma rel_ext r H h h' : rel r H h -> extends h h' -> rel r H h'.
Proof. intros R E. eapply rel_cells; [exact R|apply cells_ext, E|]. eapply vars_ext; [exact E|]. apply R. Qed.

Definition input (h : heap) (v : val) (w : bytes) : Prop := data_at h v w /\ ~ In 0 (arr v) /\ ~ In 1 (arr v).

Lemma put_urn_rel r H h h' a l c lv : rel r H h -> nth_error (l_u r) a = Some l -> cells_but l h h' -> vars h' -> Heap.held (Heap.h_scims H) (Heap.c_scim c) ->
  get h' l = Some (Cell (uval (pv "SCIM" (l_s r) (Heap.c_scim c)) lv (Heap.c_urn c))) -> a < List.length (Heap.h_urns H) -> rel r (Heap.put_urn H a c) h'.
Proof.
  intros (V & U & S & E & M) A1 K V' HD G' LT. destruct (nth_error (Heap.h_urns H) a) as [c0|] eqn:N0; [|apply nth_error_None in N0; lia].
  assert (exists sv lv u, get h l = Some (Cell (uval sv lv u))) as (sv0 & lv0 & u0 & G0) by (destruct U as (_ & _ & F); destruct (F _ _ _ A1 N0) as (_ & x & G); eauto).
  split; [exact V'|]. split; [|split; [|split]]; cbn [Heap.put_urn Heap.h_urns Heap.h_scims Heap.h_8141s Heap.h_machines].
  - eapply each_update; [exact U|exact A1| |eauto]. intros b l' y NE _ _ (B1 & x & G). split; [exact B1|]. exists x. apply K; assumption.
  - eapply each_mono; [exact S|]. intros b l' x _ _ G. apply K; [|exact G]. intros ->. rewrite G0 in G. discriminate G.
  - eapply each_mono; [exact E|]. intros b l' x _ _ (B1 & G). split; [apply held_update, B1|]. apply K; [|exact G]. intros ->. rewrite G0 in G. discriminate G.
  - eapply each_mono; [exact M|]. intros b l' x _ _ (B1 & dv & G). split; [exact B1|]. exists dv. apply K; [|exact G]. intros ->. rewrite G0 in G. discriminate G.
Qed.
Lemma put_scim_rel r H h h' a l s : rel r H h -> nth_error (l_s r) a = Some l -> cells_but l h h' -> vars h' ->
  get h' l = Some (Cell (sval s)) -> a < List.length (Heap.h_scims H) -> rel r (Heap.put_scim H a s) h'.
Proof.
  intros (V & U & S & E & M) A1 K V' G' LT. destruct (nth_error (Heap.h_scims H) a) as [c0|] eqn:N0; [|apply nth_error_None in N0; lia].
  assert (exists s, get h l = Some (Cell (sval s))) as (s0 & G0) by (destruct S as (_ & _ & F); eauto).
  split; [exact V'|]. split; [|split; [|split]]; cbn [Heap.put_scim Heap.h_urns Heap.h_scims Heap.h_8141s Heap.h_machines].
  - eapply each_mono; [exact U|]. intros b l' x _ _ (B1 & lv & G). split; [apply held_update, B1|]. exists lv. apply K; [|exact G]. intros ->. rewrite G0 in G. discriminate G.
  - eapply each_update; [exact S|exact A1| |exact G']. intros b l' y NE _ _ G. apply K; assumption.
  - eapply each_mono; [exact E|]. intros b l' x _ _ (B1 & G). split; [exact B1|]. apply K; [|exact G]. intros ->. rewrite G0 in G. discriminate G.
  - eapply each_mono; [exact M|]. intros b l' x _ _ (B1 & dv & G). split; [exact B1|]. exists dv. apply K; [|exact G]. intros ->. rewrite G0 in G. discriminate G.
Qed.
Lemma put_8141_rel r H h h' a l p : rel r H h -> nth_error (l_e r) a = Some l -> cells_but l h h' -> vars h' -> Heap.held (Heap.h_urns H) p ->
  get h' l = Some (Cell (val8141 (pv "URN" (l_u r) p))) -> a < List.length (Heap.h_8141s H) -> rel r (Heap.put_8141 H a p) h'.
Proof.
  intros (V & U & S & E & M) A1 K V' HD G' LT. destruct (nth_error (Heap.h_8141s H) a) as [c0|] eqn:N0; [|apply nth_error_None in N0; lia].
  assert (exists v, get h l = Some (Cell (val8141 v))) as (s0 & G0) by (destruct E as (_ & _ & F); destruct (F _ _ _ A1 N0); eauto).
  split; [exact V'|]. split; [|split; [|split]]; cbn [Heap.put_8141 Heap.h_urns Heap.h_scims Heap.h_8141s Heap.h_machines].
  - eapply each_mono; [exact U|]. intros b l' x _ _ (B1 & lv & G). split; [exact B1|]. exists lv. apply K; [|exact G]. intros ->. rewrite G0 in G. discriminate G.
  - eapply each_mono; [exact S|]. intros b l' x _ _ G. apply K; [|exact G]. intros ->. rewrite G0 in G. discriminate G.
  - eapply each_update; [exact E|exact A1| |split; [exact HD|exact G']]. intros b l' y NE _ _ (B1 & G). split; [exact B1|]. apply K; assumption.
  - eapply each_mono; [exact M|]. intros b l' x _ _ (B1 & dv & G). split; [exact B1|]. exists dv. apply K; [|exact G]. intros ->. rewrite G0 in G. discriminate G.
Qed.
Lemma put_machine_rel r H h h' a l dv m : rel r H h -> nth_error (l_m r) a = Some l -> cells_but l h h' -> vars h' -> reachable m ->
  get h' l = Some (Cell (mval dv m)) -> a < List.length (Heap.h_machines H) -> rel r (Heap.put_machine H a m) h'.
Proof.
  intros (V & U & S & E & M) A1 K V' HD G' LT. destruct (nth_error (Heap.h_machines H) a) as [c0|] eqn:N0; [|apply nth_error_None in N0; lia].
  assert (exists dv m, get h l = Some (Cell (mval dv m))) as (dv0 & m0 & G0) by (destruct M as (_ & _ & F); destruct (F _ _ _ A1 N0) as (_ & x & G); eauto).
  split; [exact V'|]. split; [|split; [|split]]; cbn [Heap.put_machine Heap.h_urns Heap.h_scims Heap.h_8141s Heap.h_machines].
  - eapply each_mono; [exact U|]. intros b l' x _ _ (B1 & lv & G). split; [exact B1|]. exists lv. apply K; [|exact G]. intros ->. rewrite G0 in G. discriminate G.
  - eapply each_mono; [exact S|]. intros b l' x _ _ G. apply K; [|exact G]. intros ->. rewrite G0 in G. discriminate G.
  - eapply each_mono; [exact E|]. intros b l' x _ _ (B1 & G). split; [exact B1|]. apply K; [|exact G]. intros ->. rewrite G0 in G. discriminate G.
  - eapply each_update; [exact M|exact A1| |eauto]. intros b l' y NE _ _ (B1 & dv' & G). split; [exact B1|]. exists dv'. apply K; assumption.
Qed.

(* new objects *)
Lemma fresh_u r H h l : rel r H h -> get h l = None -> ~ In l (l_u r) /\ ~ In l (l_s r) /\ ~ In l (l_e r) /\ ~ In l (l_m r).
Proof.
  intros (V & U & S & E & M) G.
  assert (X : forall A (P : loc -> A -> Prop) L X, each P L X -> (forall l x, P l x -> get h l <> None) -> ~ In l L).
  { intros A P L X (_ & EL & F) PN I. apply In_nth_error in I. destruct I as (a & Q). destruct (nth_error X a) as [x|] eqn:NX.
    - exact (PN _ _ (F _ _ _ Q NX) G).
    - apply nth_error_None in NX. assert (a < List.length L) by (apply nth_error_Some; congruence). lia. }
  repeat split.
  - apply (X _ _ _ _ U). intros l' x (_ & lv & G'). congruence.
  - apply (X _ _ _ _ S). intros l' x G'. congruence.
  - apply (X _ _ _ _ E). intros l' x (_ & G'). congruence.
  - apply (X _ _ _ _ M). intros l' x (_ & lv & G'). congruence.
Qed.
Definition old (r : locs) (h : heap) : Prop := forall l, get h l = None -> ~ In l (l_u r) /\ ~ In l (l_s r) /\ ~ In l (l_e r) /\ ~ In l (l_m r).
Lemma rel_old r H h : rel r H h -> old r h.
Proof. intros R l G. eapply fresh_u; eassumption. Qed.
Definition add_u r l := mkLocs (l_u r ++ [l]) (l_s r) (l_e r) (l_m r).
Definition add_s r l := mkLocs (l_u r) (l_s r ++ [l]) (l_e r) (l_m r).
Definition add_e r l := mkLocs (l_u r) (l_s r) (l_e r ++ [l]) (l_m r).
Definition add_m r l := mkLocs (l_u r) (l_s r) (l_e r) (l_m r ++ [l]).
Lemma add_u_rel r H h l c lv : rel r H h -> ~ In l (l_u r) -> Heap.held (Heap.h_scims H) (Heap.c_scim c) ->
  get h l = Some (Cell (uval (pv "SCIM" (l_s r) (Heap.c_scim c)) lv (Heap.c_urn c))) ->
  rel (add_u r l) (Heap.mkHeap (Heap.h_urns H ++ [c]) (Heap.h_scims H) (Heap.h_8141s H) (Heap.h_machines H)) h.
Proof.
  intros (V & U & S & E & M) NI HD G. split; [exact V|]. split; [|split; [exact S|split; [|exact M]]]; cbn [add_u l_u l_s l_e l_m Heap.h_urns Heap.h_scims Heap.h_8141s Heap.h_machines].
  - eapply each_snoc; [exact U|exact NI|intros ? ? ? _ _ XQ; exact XQ|eauto].
  - eapply each_mono; [exact E|]. intros b l' x _ _ (B1 & G'). split; [apply held_app, B1|]. erewrite pv_app; [exact G'|apply U|exact B1].
Qed.
Lemma add_s_rel r H h l s : rel r H h -> ~ In l (l_s r) -> get h l = Some (Cell (sval s)) ->
  rel (add_s r l) (Heap.mkHeap (Heap.h_urns H) (Heap.h_scims H ++ [s]) (Heap.h_8141s H) (Heap.h_machines H)) h.
Proof.
  intros (V & U & S & E & M) NI G. split; [exact V|]. split; [|split; [|split; [exact E|exact M]]]; cbn [add_s l_u l_s l_e l_m Heap.h_urns Heap.h_scims Heap.h_8141s Heap.h_machines].
  - eapply each_mono; [exact U|]. intros b l' x _ _ (B1 & lv & G'). split; [apply held_app, B1|]. exists lv. erewrite pv_app; [exact G'|apply S|exact B1].
  - eapply each_snoc; [exact S|exact NI|intros ? ? ? _ _ XQ; exact XQ|exact G].
Qed.
Lemma add_e_rel r H h l p : rel r H h -> ~ In l (l_e r) -> Heap.held (Heap.h_urns H) p -> get h l = Some (Cell (val8141 (pv "URN" (l_u r) p))) ->
  rel (add_e r l) (Heap.mkHeap (Heap.h_urns H) (Heap.h_scims H) (Heap.h_8141s H ++ [p]) (Heap.h_machines H)) h.
Proof.
  intros (V & U & S & E & M) NI HD G. split; [exact V|]. split; [exact U|split; [exact S|split; [|exact M]]]; cbn [add_e l_u l_s l_e l_m Heap.h_urns Heap.h_scims Heap.h_8141s Heap.h_machines].
  eapply each_snoc; [exact E|exact NI|intros ? ? ? _ _ XQ; exact XQ|auto].
Qed.
Lemma add_m_rel r H h l dv m : rel r H h -> ~ In l (l_m r) -> reachable m -> get h l = Some (Cell (mval dv m)) ->
  rel (add_m r l) (Heap.mkHeap (Heap.h_urns H) (Heap.h_scims H) (Heap.h_8141s H) (Heap.h_machines H ++ [m])) h.
Proof.
  intros (V & U & S & E & M) NI HD G. split; [exact V|]. split; [exact U|split; [exact S|split; [exact E|]]]; cbn [add_m l_u l_s l_e l_m Heap.h_urns Heap.h_scims Heap.h_8141s Heap.h_machines].
  eapply each_snoc; [exact M|exact NI|intros ? ? ? _ _ XQ; exact XQ|eauto].
Qed.
(* the struct of a URN that Parse made: its SCIM object is new too *)
Lemma new_cell_rel r H h h' sv (u : URN) : rel r H h' -> old r h -> is_scim h' sv (u_scim u) -> (forall l, sv = VPtr l -> get h l = None) ->
  let (H', c) := Heap.new_cell H u in
  exists r', rel r' H' h' /\ grows r r' /\ l_u r' = l_u r /\ l_e r' = l_e r /\ Heap.h_urns H' = Heap.h_urns H /\ Heap.h_8141s H' = Heap.h_8141s H /\
    Heap.held (Heap.h_scims H') (Heap.c_scim c) /\ pv "SCIM" (l_s r') (Heap.c_scim c) = sv /\ forall sv lv, uval sv lv (Heap.c_urn c) = uval sv lv u.
Proof.
  intros R' R IS N. unfold Heap.new_cell. destruct (u_scim u) as [s|].
  - destruct IS as (l & -> & G). exists (add_s r l). split; [apply add_s_rel; [exact R'| |exact G]|].
    { apply (R l), N. reflexivity. }
    split; [repeat split; try apply pre_refl; apply pre_app|]. repeat (split; [reflexivity|]). cbn [Heap.h_scims Heap.c_scim Heap.c_urn].
    split; [cbn; rewrite app_length; cbn; lia|]. split; [|reflexivity]. cbn [add_s l_s].
    destruct R' as (_ & _ & (_ & EL & _) & _). rewrite <- EL. apply pv_last.
  - exists r. split; [exact R'|]. split; [apply grows_refl|]. repeat (split; [reflexivity|]). split; [|reflexivity]. cbn. symmetry. exact IS.
Qed.
(* a new URN, as [result], its slice tolower aside *)
Definition made (h h' : heap) (v : val) (u : option URN) : Prop :=
  match u with
  | None => v = VNil "URN"
  | Some u => exists lu sv lv, v = VPtr lu /\ get h lu = None /\ get h' lu = Some (Cell (uval sv lv u)) /\
      is_scim h' sv (u_scim u) /\ (forall l, sv = VPtr l -> get h l = None)
  end.
Lemma result_made h h' v u : result h h' v u -> made h h' v u.
Proof. destruct u as [u|]; [|auto]. intros (lu & sv & lv & A & B & C & D & _ & E). exists lu, sv, lv. auto. Qed.
Lemma new_urn_rel r H h h' v u : rel r H h' -> old r h -> made h h' v u ->
  let (H', p) := Heap.new_urn H u in
  exists r', rel r' H' h' /\ grows r r' /\ v = pv "URN" (l_u r') p /\ l_e r' = l_e r /\ Heap.h_8141s H' = Heap.h_8141s H /\ Heap.held (Heap.h_urns H') p.
Proof.
  intros R' R RS. destruct u as [u|]; cbn [Heap.new_urn].
  - destruct RS as (lu & sv & lv & -> & F & G & IS & N). pose proof (new_cell_rel r H h h' sv u R' R IS N) as NC.
    destruct (Heap.new_cell H u) as (H1 & c). destruct NC as (r1 & R1 & GR & LU & LE & HU & HE & HD & PV & UV).
    exists (add_u r1 lu). split; [eapply add_u_rel; [exact R1| |exact HD|]|].
    + rewrite LU. apply (R lu), F.
    + rewrite PV, UV. exact G.
    + split; [|split; [|split; [exact LE|split; [exact HE|]]]].
      * destruct GR as (A & B & C & D). repeat split; auto. cbn [add_u l_u]. rewrite LU. apply pre_app.
      * cbn [add_u l_u]. destruct R1 as (_ & (_ & EL & _) & _). rewrite <- EL. symmetry. apply pv_last.
      * cbn. rewrite app_length. cbn. lia.
  - exists r. split; [exact R'|]. split; [apply grows_refl|]. split; [exact RS|]. split; [reflexivity|]. split; [reflexivity|exact I].
Qed.
