(* Running the text of Parse's statements and running the model's statements: the same. *)
From Coq Require Import Lia.
From Verif Require Import GoAst.
From Verif Require Import GoBase MachineSyntax MachineTables Machine.
From Verif Require Import GoSem SrcRender.
Import ListNotations.
Local Open Scope string_scope.
Local Open Scope list_scope.

(* ---- heaps ------------------------------------------------------------------------------- *)
Lemma get_app h k l o : get h l = Some o -> get (h ++ k) l = Some o.
Proof.
  unfold get. intros H. rewrite nth_error_app1; [exact H|]. apply nth_error_Some. congruence.
Qed.
Lemma get_last h o : get (h ++ [o]) (List.length h) = Some o.
Proof. unfold get. rewrite nth_error_app2, PeanoNat.Nat.sub_diag by lia. reflexivity. Qed.
Lemma get_last2 h o o' : get (h ++ [o; o']) (List.length h) = Some o.
Proof. unfold get. rewrite nth_error_app2, PeanoNat.Nat.sub_diag by lia. reflexivity. Qed.
Lemma set_length {A} (s : list A) n v : List.length (set_nth n v s) = List.length s.
Proof. revert n. induction s as [|x s IH]; destruct n; cbn; auto. Qed.
Lemma set_same {A} (s : list A) n v o : nth_error s n = Some o -> nth_error (set_nth n v s) n = Some v.
Proof. revert n. induction s as [|x s IH]; destruct n; cbn; auto; intros H; discriminate H. Qed.
Lemma set_other {A} (s : list A) n k v : k <> n -> nth_error (set_nth n v s) k = nth_error s k.
Proof.
  revert n k. induction s as [|x s IH]; destruct n, k; cbn; auto; try congruence.
Qed.
Lemma get_set h l o o' : get h l = Some o -> get (set h l o') l = Some o'.
Proof. apply set_same. Qed.
Lemma get_set_ne h l l' o o' : l' <> l -> get h l' = Some o -> get (set h l o') l' = Some o.
Proof. unfold get, set. intros N H. rewrite set_other; assumption. Qed.
(* two objects that differ are at different places *)
Lemma get_ne h l l' o o' : get h l = Some o -> get h l' = Some o' -> o <> o' -> l' <> l.
Proof. intros A C D ->. congruence. Qed.
Lemma get_none h l : get h l = None <-> List.length h <= l.
Proof. apply nth_error_None. Qed.

(* ---- bytes ---------------------------------------------------------------------------------- *)
Lemma as_bytes_map w : as_bytes (map VByte w) = Some w.
Proof. induction w as [|b w IH]; cbn; [|rewrite IH]; reflexivity. Qed.
Lemma zlen_nat {A} (s : list A) : zlen s = Z.of_nat (List.length s).
Proof. reflexivity. Qed.
Lemma index_inv {A} (w : list A) i b : index w i = Ret b -> (0 <= i < zlen w)%Z /\ nth_error w (Z.to_nat i) = Some b.
Proof.
  unfold index. destruct (Z.leb_spec 0 i), (Z.ltb_spec i (zlen w)); cbn; try discriminate.
  destruct (nth_error w (Z.to_nat i)) as [x|]; intros E; inversion E; subst. split; [lia|reflexivity].
Qed.
Lemma in_bounds_ok i n : (0 <= i < Z.of_nat n)%Z -> in_bounds i n = true.
Proof. intros H. unfold in_bounds. destruct (Z.leb_spec 0 i), (Z.ltb_spec i (Z.of_nat n)); try reflexivity; lia. Qed.
Lemma nth_mid {A C} (f : C -> A) a w b i x : nth_error w i = Some x ->
  nth_error (a ++ map f w ++ b) (List.length a + i) = Some (f x).
Proof.
  intros H. rewrite nth_error_app2 by lia. replace (List.length a + i - List.length a) with i by lia.
  rewrite nth_error_app1; [|rewrite map_length; apply nth_error_Some; congruence].
  rewrite nth_error_map, H. reflexivity.
Qed.
Lemma set_mid {A C} (f : C -> A) a w b i x : i < List.length w ->
  set_nth (List.length a + i) (f x) (a ++ map f w ++ b) = a ++ map f (set_nth i x w) ++ b.
Proof.
  intros H. induction a as [|y a IH]; cbn [List.length app plus Nat.add].
  - revert i H. induction w as [|z w IH]; intros i H; [inversion H|].
    destruct i as [|i]; cbn; [reflexivity|]. f_equal. apply IH. cbn in H. lia.
  - cbn. f_equal. exact IH.
Qed.
Lemma window_mid {A C} (f : C -> A) a w b i k : i + k <= List.length w ->
  firstn k (skipn (List.length a + i) (a ++ map f w ++ b)) = map f (firstn k (skipn i w)).
Proof.
  intros H. rewrite skipn_app. rewrite (skipn_all2 a) by lia. cbn [app].
  replace (List.length a + i - List.length a) with i by lia.
  rewrite skipn_app, map_length. replace (i - List.length w) with 0 by lia. cbn [skipn].
  rewrite firstn_app, skipn_length, map_length. replace (k - (List.length w - i)) with 0 by lia. cbn [firstn].
  rewrite app_nil_r, skipn_map, firstn_map. reflexivity.
Qed.

Lemma skip_skip {A} i j (w : list A) : skipn i (skipn j w) = skipn (i + j) w.
Proof.
  revert w. induction j as [|j IH]; intros w; [rewrite PeanoNat.Nat.add_0_r; reflexivity|].
  rewrite PeanoNat.Nat.add_succ_r. destruct w as [|y w]; cbn [skipn]; [apply skipn_nil|]. apply IH.
Qed.
(* the []byte v holds w: it can be read, sliced and written *)
Definition data_at (h : heap) (v : val) (w : bytes) : Prop := (w = [] /\ v = VNil "") \/ is_bytes h v w.
Definition at_loc (v : val) (l : loc) : Prop := match v with VSlice l' _ _ => l' = l | _ => False end.
Lemma data_elem h v w i b t : data_at h v w -> index w i = Ret b -> elem v (VInt t i) h = GRet (VByte b).
Proof.
  intros D E. destruct (index_inv _ _ _ E) as (L & N). destruct D as [(-> & ->)|(l & a & z & -> & G)].
  - exfalso. unfold zlen in L. cbn [List.length Z.of_nat] in L. lia.
  - unfold elem. rewrite in_bounds_ok by (unfold zlen in L; exact L). rewrite G, (nth_mid VByte _ _ _ _ b N). reflexivity.
Qed.
Lemma slice_inv {A} (w : list A) a b t : slice w a b = Ret t ->
  (0 <= a <= b)%Z /\ (b <= zlen w)%Z /\ t = firstn (Z.to_nat (b - a)) (skipn (Z.to_nat a) w).
Proof.
  unfold slice. destruct (Z.leb_spec 0 a), (Z.leb_spec a b), (Z.leb_spec b (zlen w)); cbn; try discriminate.
  intros E. inversion E. repeat split; auto; lia.
Qed.
Lemma data_slice h v w a b t : data_at h v w -> slice w a b = Ret t ->
  exists v', subslice v (vint a) (vint b) = GRet v' /\ data_at h v' t.
Proof.
  intros D E. destruct (slice_inv _ _ _ _ E) as (L & L' & T). destruct D as [(-> & ->)|(l & x & z & -> & G)].
  - cbn [subslice vint]. assert (a = 0 /\ b = 0)%Z as (-> & ->) by (unfold zlen in L'; cbn in L'; lia). cbn in T. subst t. cbn.
    eexists. split; [reflexivity|]. left. split; reflexivity.
  - cbn [subslice vint]. replace (Z.leb 0 a && Z.leb a b && Z.leb b (Z.of_nat (List.length w)))%bool with true
      by (unfold zlen in L'; destruct (Z.leb_spec 0 a), (Z.leb_spec a b), (Z.leb_spec b (Z.of_nat (List.length w))); cbn; try reflexivity; lia).
    eexists. split; [reflexivity|]. right. unfold zlen in L'.
    exists l, (x ++ map VByte (firstn (Z.to_nat a) w)), (map VByte (skipn (Z.to_nat b) w) ++ z). split.
    + rewrite app_length, map_length, firstn_length, T, firstn_length, skipn_length. f_equal; lia.
    + rewrite G. f_equal. f_equal. rewrite <- app_assoc. f_equal. rewrite app_assoc, app_assoc. f_equal.
      rewrite <- !map_app. f_equal. subst t. rewrite <- app_assoc.
      rewrite <- (firstn_skipn (Z.to_nat a) w) at 1. f_equal.
      rewrite <- (firstn_skipn (Z.to_nat (b - a)) (skipn (Z.to_nat a) w)) at 1. f_equal.
      rewrite skip_skip. f_equal. lia.
Qed.

Lemma data_string h v w : data_at h v w -> builtin "string" [v] h = Some (GRet (h, VStr w)).
Proof.
  intros [(-> & ->)|(l & a & z & -> & G)]; [reflexivity|]. cbn. unfold window. rewrite G.
  rewrite !app_length, map_length.
  replace (Nat.leb _ _) with true by (symmetry; apply PeanoNat.Nat.leb_le; lia).
  rewrite <- (PeanoNat.Nat.add_0_r (List.length a)), window_mid by lia.
  cbn [skipn]. rewrite firstn_all, as_bytes_map. reflexivity.
Qed.
Lemma update_inv {A} (w : list A) i b w' : update w i b = Ret w' -> (0 <= i < zlen w)%Z /\ w' = set_nth (Z.to_nat i) b w.
Proof.
  unfold update. destruct (Z.leb_spec 0 i), (Z.ltb_spec i (zlen w)); cbn; try discriminate.
  intros E. inversion E. split; [lia|reflexivity].
Qed.
(* the elements of the array that are not in the slice v stay *)
Definition around (h h' : heap) (v : val) : Prop :=
  match v with
  | VSlice l off k => forall t x, get h l = Some (Arr t x) -> exists x', get h' l = Some (Arr t x') /\ firstn off x' = firstn off x /\ skipn (off + k) x' = skipn (off + k) x
  | _ => True
  end.
Lemma around_trans a b c v : around a b v -> around b c v -> around a c v.
Proof.
  destruct v; cbn; auto. intros A B t x G. destruct (A t x G) as (y & GY & F1 & S1). destruct (B t y GY) as (z & GZ & F2 & S2).
  exists z. split; [exact GZ|]. split; congruence.
Qed.
Lemma around_ext a b v : (forall l t x, at_loc v l -> get a l = Some (Arr t x) -> get b l = Some (Arr t x)) -> around a b v.
Proof. destruct v; cbn; auto. intros A t x G. exists x. split; [apply A; auto|]. split; reflexivity. Qed.
Lemma mid_first (b y : list val) : firstn (List.length b) (b ++ y) = b.
Proof. rewrite firstn_app, firstn_all2, PeanoNat.Nat.sub_diag by lia. apply app_nil_r. Qed.
Lemma mid_skip (a : list val) (w : bytes) y : skipn (List.length a + List.length w) (a ++ map VByte w ++ y) = y.
Proof.
  rewrite app_assoc, skipn_app, skipn_all2 by (rewrite app_length, map_length; lia).
  rewrite app_length, map_length, PeanoNat.Nat.sub_diag. reflexivity.
Qed.
(* nothing of the array has changed *)
Lemma around_same h h' v w : data_at h v w -> data_at h' v w -> around h h' v -> forall l, at_loc v l -> get h' l = get h l.
Proof.
  intros [(_ & ->)|(l & a & z & -> & G)] D' A k L; cbn in L; [destruct L|]. subst k.
  destruct D' as [(_ & X)|(l' & a' & z' & X & G')]; [discriminate X|]. injection X as <- L.
  destruct (A _ _ G) as (x & GX & F & S). rewrite G' in GX. injection GX as <-. rewrite G, G'. f_equal. f_equal.
  rewrite mid_first in F. rewrite L, mid_first in F. subst a'.
  f_equal. f_equal.
  rewrite !mid_skip in S. exact S.
Qed.
Lemma data_store h v w i b w' t : data_at h v w -> update w i b = Ret w' ->
  exists l o, at_loc v l /\ store (PElem v (VInt t i)) (VByte b) h = GRet (set h l o) /\
    (exists x, get h l = Some (Arr "byte" x)) /\ (exists x, o = Arr "byte" x) /\ data_at (set h l o) v w' /\ around h (set h l o) v.
Proof.
  intros D E. destruct (update_inv _ _ _ _ E) as (L & ->). destruct D as [(-> & ->)|(l & x & z & -> & G)].
  - exfalso. unfold zlen in L. cbn [List.length Z.of_nat] in L. lia.
  - exists l, (Arr "byte" (x ++ map VByte (set_nth (Z.to_nat i) b w) ++ z)). unfold zlen in L. split; [reflexivity|]. split; [|split; [|split]].
    + unfold store. rewrite in_bounds_ok by exact L. rewrite G, set_mid by lia. reflexivity.
    + eexists. exact G.
    + eexists. reflexivity.
    + split; [right; exists l, x, z; rewrite set_length; split; [reflexivity|]; exact (get_set _ _ _ _ G)|].
      intros t' y GY. rewrite G in GY. injection GY as <- <-. eexists. split; [exact (get_set _ _ _ _ G)|].
      split.
      * rewrite !mid_first. reflexivity.
      * rewrite mid_skip. rewrite <- (set_length w (Z.to_nat i) b) at 1. apply mid_skip.
Qed.

(* ---- the state of Parse as a heap --------------------------------------------------------------- *)
Section Sim.
(* h0: the heap Parse was called in; dv: its argument; lm: the machine, lu: the URN being
   made; cm, ci, cu: the variables m, input, output *)
Variable h0 : heap.
Variable dv : val.
Variables lm lu cm ci cu : loc.
Definition penv : env := [("output", cu); ("input", ci); ("m", cm)].

Record R (h : heap) (m : machine) (u : URN) (sv lv : val) : Prop := mkR {
  r_cm : get h cm = Some (Cell (VPtr lm));
  r_cu : get h cu = Some (Cell (VPtr lu));
  r_m : get h lm = Some (Cell (mval dv m));
  r_u : get h lu = Some (Cell (uval sv lv u));
  r_s : is_scim h sv (u_scim u);
  r_l : is_ints h lv (u_tolower u);
  r_d : data_at h dv (m_data m);
  (* Parse writes to the machine, its argument, and objects it made *)
  r_new : get h0 lu = None /\ (forall l, sv = VPtr l -> get h0 l = None) /\ List.length h0 <= List.length h;
  r_frame : forall l o, get h0 l = Some o -> l <> lm -> ~ at_loc dv l -> get h l = Some o;
  r_around : around h0 h dv
}.

Ltac ne H1 H2 := eapply (get_ne _ _ _ _ _ H1 H2); (discriminate || congruence).

Lemma keep_scim h l o o' v s : is_scim h v s -> get h l = Some o -> (forall s, o <> Cell (sval s)) -> is_scim (set h l o') v s.
Proof.
  destruct s as [s|]; cbn; [|auto]. intros (k & -> & G) N D. exists k. split; [reflexivity|].
  apply get_set_ne; [|exact G]. intros ->. rewrite N in G. inversion G. subst. exact (D s eq_refl).
Qed.
Lemma keep_ints h l o o' v w : is_ints h v w -> get h l = Some o -> (forall x, o <> Arr "int" x) -> is_ints (set h l o') v w.
Proof.
  intros (k & -> & G) N D. exists k. split; [reflexivity|].
  apply get_set_ne; [|exact G]. intros ->. rewrite N in G. inversion G. subst. exact (D _ eq_refl).
Qed.
Lemma keep_data h l o o' v w : data_at h v w -> get h l = Some o -> (forall x, o <> Arr "byte" x) -> data_at (set h l o') v w.
Proof.
  intros [H|(k & a & z & -> & G)] N D; [left; exact H|]. right. exists k, a, z. split; [reflexivity|].
  apply get_set_ne; [|exact G]. intros ->. rewrite N in G. inversion G. subst. exact (D _ eq_refl).
Qed.
Lemma app_scim h k v s : is_scim h v s -> is_scim (h ++ k) v s.
Proof. destruct s as [s|]; cbn; [|auto]. intros (l & -> & G). exists l. split; [reflexivity|]. apply get_app, G. Qed.
Lemma app_ints h k v w : is_ints h v w -> is_ints (h ++ k) v w.
Proof. intros (l & -> & G). exists l. split; [reflexivity|]. apply get_app, G. Qed.
Lemma app_data h k v w : data_at h v w -> data_at (h ++ k) v w.
Proof. intros [H|(l & a & z & -> & G)]; [left; exact H|]. right. exists l, a, z. split; [reflexivity|]. apply get_app, G. Qed.

Lemma keep_around h l o o' : get h l = Some (Cell o) -> around h0 h dv -> around h0 (set h l (Cell o')) dv.
Proof.
  intros G A. eapply around_trans; [exact A|]. apply around_ext. intros k t x _ K. apply get_set_ne; [congruence|exact K].
Qed.
Lemma R_app h k m u sv lv : R h m u sv lv -> R (h ++ k) m u sv lv.
Proof.
  intros []. constructor; auto using get_app, app_scim, app_ints, app_data.
  - destruct r_new0 as (A & C & D). split; [exact A|]. split; [exact C|]. rewrite app_length. lia.
  - eapply around_trans; [exact r_around0|]. apply around_ext. intros l t x _ G. apply get_app, G.
Qed.
Lemma set_len h l o : List.length (set h l o) = List.length h.
Proof. apply set_length. Qed.
Lemma R_setm h m u sv lv m' : R h m u sv lv -> m_data m' = m_data m -> R (set h lm (Cell (mval dv m'))) m' u sv lv.
Proof.
  intros [] E. constructor.
  - apply get_set_ne; [ne r_m0 r_cm0|assumption].
  - apply get_set_ne; [ne r_m0 r_cu0|assumption].
  - exact (get_set _ _ _ _ r_m0).
  - apply get_set_ne; [ne r_m0 r_u0|assumption].
  - eapply keep_scim; eauto. discriminate.
  - eapply keep_ints; eauto. discriminate.
  - rewrite E. eapply keep_data; eauto. discriminate.
  - rewrite set_len. exact r_new0.
  - intros l o G N A. apply get_set_ne; auto.
  - eapply keep_around; eassumption.
Qed.
Lemma R_setu h m u sv lv u' sv' lv' : R h m u sv lv -> is_scim h sv' (u_scim u') -> is_ints h lv' (u_tolower u') ->
  (forall l, sv' = VPtr l -> get h0 l = None) ->
  R (set h lu (Cell (uval sv' lv' u'))) m u' sv' lv'.
Proof.
  intros [] S L F. destruct r_new0 as (A & C & D). constructor.
  - apply get_set_ne; [ne r_u0 r_cm0|assumption].
  - apply get_set_ne; [ne r_u0 r_cu0|assumption].
  - apply get_set_ne; [ne r_u0 r_m0|assumption].
  - exact (get_set _ _ _ _ r_u0).
  - eapply keep_scim; eauto. discriminate.
  - eapply keep_ints; eauto. discriminate.
  - eapply keep_data; eauto. discriminate.
  - rewrite set_len. auto.
  - intros l o G N N'. apply get_set_ne; auto. congruence.
  - eapply keep_around; eassumption.
Qed.
Lemma R_sets h m u sv lv l s s' : R h m u sv lv -> u_scim u = Some s -> sv = VPtr l ->
  R (set h l (Cell (sval s'))) m (uset_scim (Some s') u) sv lv.
Proof.
  intros [] E ->. rewrite E in r_s0. destruct r_s0 as (l' & E' & G). inversion E'. subst l'. clear E'.
  destruct r_new0 as (A & C & D). constructor.
  - apply get_set_ne; [ne G r_cm0|assumption].
  - apply get_set_ne; [ne G r_cu0|assumption].
  - apply get_set_ne; [ne G r_m0|assumption].
  - apply get_set_ne; [ne G r_u0|assumption].
  - exists l. split; [reflexivity|]. exact (get_set _ _ _ _ G).
  - eapply keep_ints; eauto. discriminate.
  - eapply keep_data; eauto. discriminate.
  - rewrite set_len. auto.
  - intros k o K N N'. apply get_set_ne; auto. intros ->. rewrite (C l eq_refl) in K. discriminate.
  - eapply keep_around; eassumption.
Qed.
Lemma R_setd h m u sv lv l x x' w' : R h m u sv lv -> at_loc dv l -> get h l = Some (Arr "byte" x) ->
  data_at (set h l (Arr "byte" x')) dv w' -> around h (set h l (Arr "byte" x')) dv ->
  get (set h l (Arr "byte" x')) lm = Some (Cell (mval dv m)) /\
  R (set h l (Arr "byte" x')) (set_data w' m) u sv lv.
Proof.
  intros [] A G K AR. assert (Q : get (set h l (Arr "byte" x')) lm = Some (Cell (mval dv m))) by (apply get_set_ne; [ne G r_m0|assumption]).
  split; [exact Q|]. constructor.
  - apply get_set_ne; [ne G r_cm0|assumption].
  - apply get_set_ne; [ne G r_cu0|assumption].
  - exact Q.
  - apply get_set_ne; [ne G r_u0|assumption].
  - eapply keep_scim; eauto. discriminate.
  - eapply keep_ints; eauto. discriminate.
  - exact K.
  - rewrite set_len. exact r_new0.
  - intros k o N N' N''. apply get_set_ne; auto. intros ->. exact (N'' A).
  - eapply around_trans; eassumption.
Qed.
End Sim.
