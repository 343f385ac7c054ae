(* The goto program started at the SCIM entry computes ref_scim. *)
From Coq Require Import Lia.
From Verif Require Import GoBase MachineSyntax MachineTables Machine Spec Ref Exec SimBase SimPrefix SimEsc Sim2141.
Local Open Scope Z_scope.
Local Opaque Exec.At.

Section X.
Variables (start : N) (mode : Z) (mset : bool).
Notation cfg := (cfg start mode mset).
Notation ecfg := (ecfg start mode mset).
Notation At := (At start mode mset).
Notation errf := (errf start mode mset).
Notation erre := (erre start mode mset).

(* a chain of states reading a fixed word *)
Fixpoint chain (fe : N) (e : errconst) (cs : N) (l : list (byte * N)) : Prop :=
  match l with
  | [] => True
  | (c, cs') :: l' =>
      (0 < cs <= 193)%N /\ (0 < cs' <= 193)%N /\ cs' <> 171%N /\
      (forall b, delta cs b = if is c b then Some (cs', None) else Some (0%N, Some fe)) /\
      erre cs e /\ chain fe e cs' l'
  end.
Fixpoint chain_end (cs : N) (l : list (byte * N)) : N :=
  match l with [] => cs | (_, cs') :: l' => chain_end cs' l' end.

Lemma sim_chain (T : bytes -> bytes -> pout -> Prop) fe e ps2 u pb l : forall cs pos pre rest,
  errf fe e -> chain fe e cs l -> pos = zlen pre ->
  (forall r, wp (ref_lit e ps2 (pos + zlen l) r)
     (fun er => At (chain_end cs l) (pre ++ map fst l) r pb u (OErr er)) False
     (fun w r' => forall o, T ((pre ++ map fst l) ++ w) r' o -> At (chain_end cs l) (pre ++ map fst l) r pb u o)) ->
  wp (ref_lit e (map is (map fst l) ++ ps2) pos rest)
     (fun er => At cs pre rest pb u (OErr er)) False
     (fun w r => forall o, T (pre ++ w) r o -> At cs pre rest pb u o).
Proof.
  induction l as [|[c cs'] l IH]; intros cs pos pre rest Hf Hc -> HT.
  - cbn [map app]. specialize (HT rest). cbn [map] in HT. rewrite app_nil_r, zlen_nil, Z.add_0_r in HT. exact HT.
  - destruct Hc as (H1 & H2 & H3 & H4 & H5 & Hc). cbn [map fst app].
    eapply (sim_lit1 start mode mset T); [reflexivity|exact H1|exact H2|exact H3|exact H4|exact H5|exact Hf|reflexivity|].
    intros b s' -> Hb. apply is_eq in Hb. subst b.
    apply (IH cs'); [exact Hf|exact Hc|zl|].
    intros r. specialize (HT r). cbn [map fst] in HT.
    replace (zlen pre + zlen ((c, cs') :: l)) with (zlen pre + 1 + zlen l) in HT by zl.
    replace (pre ++ c :: map fst l) with ((pre ++ [c]) ++ map fst l) in HT by (rewrite <- app_assoc; reflexivity).
    exact HT.
Qed.

Ltac solve_chain := cbn [chain]; repeat (split; [lia|]; split; [lia|]; split; [lia|]; split; [dsweep|]; split; [solve_erre|]); exact I.

(* "ietf:params:scim:" *)
Definition ns_chain : list (byte * N) :=
  [("e",50);("t",51);("f",52);(":",53);("p",54);("a",55);("r",56);("a",57);("m",58);("s",59);(":",60);("s",61);("c",62);("i",63);("m",64)]%byte%N.

Lemma sim_ns pos pre rest pb u :
  pos = zlen pre ->
  wp (ref_lit ErrSCIMNamespace (map is (B "ietf:params:scim:")) pos rest)
     (fun er => At 48 pre rest pb u (OErr er)) False
     (fun w r => forall o, At 65 (pre ++ w) r (zlen pre) (uset_scim (Some zeroSCIM) (uset_ID scim_nid u)) o ->
                 At 48 pre rest pb u o).
Proof.
  intros ->.
  pose (T := fun (w r : bytes) o => At 65 w r (zlen pre) (uset_scim (Some zeroSCIM) (uset_ID scim_nid u)) o).
  replace (map is (B "ietf:params:scim:")) with (is "i" :: map is (map fst ns_chain) ++ [is ":"]) by reflexivity.
  apply (sim_lit1 start mode mset T) with (cs' := 49%N) (fo := Some 4%N) (fe := 11%N) (pb' := zlen pre) (u' := u);
  [ reflexivity | lia | lia | lia | dsweep | solve_erre | solve_errf | intros; apply x_mark | ].
  intros b s' -> Hb. apply is_eq in Hb. subst b.
  apply sim_chain with (fe := 11%N); [solve_errf|unfold ns_chain; solve_chain|zl|].
  intros r. change (chain_end 49 ns_chain) with 64%N.
  replace ((pre ++ ["i"%byte]) ++ map fst ns_chain) with (pre ++ scim_nid) by (rewrite <- app_assoc; reflexivity).
  apply (sim_lit1 start mode mset T) with (cs' := 65%N) (fo := Some 12%N) (fe := 11%N) (pb' := zlen pre) (u' := uset_scim (Some zeroSCIM) (uset_ID scim_nid u));
  [ rewrite zlen_app; cbn; lia | lia | lia | lia | dsweep | solve_erre | solve_errf | | ].
  - intros b s2 -> _. unfold exec_opt. cbn [f_block exec_block exec_stmt].
    rewrite (text_mid' start mode mset pre scim_nid (b :: s2)) by reflexivity. reflexivity.
  - intros b s2 -> Hb. apply wp_lit_nil. intros o H. exact H.
Qed.


(* the type word *)
Definition scim_set_type (t : bytes) (s : SCIM) : SCIM := mkSCIM (TypeFromString t) (s_Name s) (s_Other s) (s_pos s).

Lemma sim_type_word c cs0 l t pre rest pb u sc :
  u_scim u = Some sc ->
  t = c :: map fst l ->
  (0 < cs0 <= 193)%N -> cs0 <> 171%N ->
  delta 65 c = Some (cs0, Some 4%N) -> chain 13 ErrSCIMType cs0 l -> chain_end cs0 l = 68%N ->
  wp (wcons c (ref_lit ErrSCIMType (map is (map fst l) ++ [is ":"]) (zlen pre + 1) rest))
     (fun er => At 65 pre (c :: rest) pb u (OErr er)) False
     (fun w r => w = t ++ colon /\ forall o, At 69 (pre ++ w) r (zlen pre) (uset_scim (Some (scim_set_type t sc)) u) o ->
                 At 65 pre (c :: rest) pb u o).
Proof.
  intros Hsc Ht Hcs H171 Hd Hch He.
  assert (Hstep : forall o, At cs0 (pre ++ [c]) rest (zlen pre) u o -> At 65 pre (c :: rest) pb u o).
  { intros o HA. eapply At_byte; [| | |exact Hd|apply x_mark|exact HA]; lia. }
  apply wp_wcons.
  pose proof (sim_chain (fun w r o => w = pre ++ t ++ colon -> At 69 w r (zlen pre) (uset_scim (Some (scim_set_type t sc)) u) o)
    13 ErrSCIMType [is ":"] u (zlen pre) l cs0 (zlen pre + 1) (pre ++ [c]) rest) as K.
  assert (Hw : wp (ref_lit ErrSCIMType (map is (map fst l) ++ [is ":"]) (zlen pre + 1) rest) (fun _ => True) True (fun w r => c :: w = t ++ colon)).
  { subst t. clear. generalize (zlen pre + 1). revert rest. induction (map fst l) as [|x m IH]; intros rest z; cbn [map app ref_lit].
    - destruct rest as [|y rest]; [exact I|]. destruct (is ":" y) eqn:E; [|exact I]. apply is_eq in E. subst y. reflexivity.
    - destruct rest as [|y rest]; [exact I|]. destruct (is x y) eqn:E; [|exact I]. apply is_eq in E. subst y.
      apply wp_wcons. eapply wp_mono; [apply IH|auto|auto|]. cbn beta. intros w r H. cbn [app] in *.
      injection H as H. rewrite H. reflexivity. }
  rewrite He in K.
  assert (K' : wp (ref_lit ErrSCIMType (map is (map fst l) ++ [is ":"]) (zlen pre + 1) rest)
     (fun er => At cs0 (pre ++ [c]) rest (zlen pre) u (OErr er)) False
     (fun w r => forall o, ((pre ++ [c]) ++ w = pre ++ t ++ colon -> At 69 ((pre ++ [c]) ++ w) r (zlen pre) (uset_scim (Some (scim_set_type t sc)) u) o) ->
                 At cs0 (pre ++ [c]) rest (zlen pre) u o)).
  { apply K; [solve_errf|exact Hch|zl|].
    intros r. replace ((pre ++ [c]) ++ map fst l) with (pre ++ t) by (subst t; rewrite <- app_assoc; reflexivity).
    apply (sim_lit1 start mode mset (fun w r o => w = pre ++ t ++ colon -> At 69 w r (zlen pre) (uset_scim (Some (scim_set_type t sc)) u) o))
      with (cs' := 69%N) (fo := Some 14%N) (fe := 13%N) (pb' := zlen pre) (u' := uset_scim (Some (scim_set_type t sc)) u);
    [ subst t; rewrite zlen_app, zlen_cons; unfold zlen; rewrite map_length; lia | lia | lia | lia | dsweep | solve_erre | solve_errf | | ].
    - intros b s2 -> _. unfold exec_opt. cbn [f_block exec_block exec_stmt].
      rewrite (text_mid' start mode mset pre t (b :: s2)) by reflexivity. cbn [bind u_scim]. rewrite Hsc. reflexivity.
    - intros b s2 -> Hb. apply is_eq in Hb. subst b. cbn. intros o H. rewrite app_nil_r in H. apply H. rewrite <- app_assoc. reflexivity. }
  destruct (ref_lit ErrSCIMType (map is (map fst l) ++ [is ":"]) (zlen pre + 1) rest) as [er| |w r]; cbn [wp] in *.
  - apply Hstep. exact K'.
  - exact K'.
  - split; [exact Hw|]. intros o HA. apply Hstep, K'. intros Heq.
    rewrite <- app_assoc. exact HA.
Qed.

Definition api_chain : list (byte * N) := [("p",67);("i",68)]%byte%N.
Definition param_chain : list (byte * N) := [("a",74);("r",75);("a",76);("m",68)]%byte%N.
Definition schemas_chain : list (byte * N) := [("c",78);("h",79);("e",80);("m",81);("a",82);("s",68)]%byte%N.

Lemma sim_type pre rest pb u sc :
  u_scim u = Some sc ->
  wp (ref_scimtype (zlen pre) rest)
     (fun er => At 65 pre rest pb u (OErr er)) False
     (fun w r => (exists t, w = t ++ colon /\ scim_type t) /\
                 forall o, At 69 (pre ++ w) r (zlen pre) (uset_scim (Some (scim_set_type (removelast w) sc)) u) o ->
                 At 65 pre rest pb u o).
Proof.
  intros Hsc. unfold ref_scimtype. destruct rest as [|c s']. { cbn. apply At_erre. solve_erre. }
  assert (Hd : delta 65 c = if is "a" c then Some (66%N, Some 4%N) else if is "p" c then Some (73%N, Some 4%N)
     else if is "s" c then Some (77%N, Some 4%N) else Some (0%N, Some 13%N)) by (revert c; dsweep).
  assert (Hgo : forall (k : walk) t, scim_type t ->
     wp k (fun er => At 65 pre (c :: s') pb u (OErr er)) False
     (fun w r => w = t ++ colon /\ forall o, At 69 (pre ++ w) r (zlen pre) (uset_scim (Some (scim_set_type t sc)) u) o ->
                 At 65 pre (c :: s') pb u o) ->
     wp k (fun er => At 65 pre (c :: s') pb u (OErr er)) False
     (fun w r => (exists t, w = t ++ colon /\ scim_type t) /\
                 forall o, At 69 (pre ++ w) r (zlen pre) (uset_scim (Some (scim_set_type (removelast w) sc)) u) o ->
                 At 65 pre (c :: s') pb u o)).
  { intros k t Ht HK. eapply wp_mono; [exact HK|auto|auto|]. cbn beta. intros w r [-> H]. split; [exists t; auto|].
    unfold colon. rewrite removelast_last. exact H. }
  destruct (is "a" c) eqn:Ea; [|destruct (is "p" c) eqn:Ep; [|destruct (is "s" c) eqn:Es]].
  - apply is_eq in Ea. subst c. apply (Hgo _ (B "api")); [unfold scim_type; auto|].
    apply (sim_type_word "a" 66 api_chain); [exact Hsc|reflexivity|lia|lia|exact Hd|unfold api_chain; solve_chain|reflexivity].
  - apply is_eq in Ep. subst c. apply (Hgo _ (B "param")); [unfold scim_type; auto|].
    apply (sim_type_word "p" 73 param_chain); [exact Hsc|reflexivity|lia|lia|exact Hd|unfold param_chain; solve_chain|reflexivity].
  - apply is_eq in Es. subst c. apply (Hgo _ (B "schemas")); [unfold scim_type; auto|].
    apply (sim_type_word "s" 77 schemas_chain); [exact Hsc|reflexivity|lia|lia|exact Hd|unfold schemas_chain; solve_chain|reflexivity].
  - cbn. eapply At_errf; [lia|exact Hd|solve_errf].
Qed.

(* the name: first character from 69, then 174 *)
Definition scim_at (p : Z) (s : SCIM) : SCIM := mkSCIM (s_Type s) (s_Name s) (s_Other s) p.
Definition scim_named (n : bytes) (s : SCIM) : SCIM := mkSCIM (s_Type s) n (s_Other s) (s_pos s).
Definition scim_othered (n : bytes) (s : SCIM) : SCIM := mkSCIM (s_Type s) (s_Name s) n (s_pos s).

Lemma slice_mid' {A} (a w c : list A) : slice ((a ++ w) ++ c) (zlen a) (zlen (a ++ w)) = Ret w.
Proof. rewrite <- app_assoc, zlen_app. apply slice_mid. Qed.

(* 174 onwards; pre1: up to the type, w: type and colon, v: name read so far *)
Lemma sim_name_loop rest : forall pos pre1 w v u sc,
  pos = zlen (pre1 ++ w ++ v) -> u_scim u = Some sc -> s_pos sc = zlen (pre1 ++ w) ->
  wp (ref_name false pos rest)
     (fun er => At 174 (pre1 ++ w ++ v) rest (zlen pre1) u (OErr er)) False
     (fun n r => forall o,
        match r with
        | [] => At 174 (pre1 ++ w ++ v ++ n) [] (zlen pre1) u o
        | _ :: r' => At 70 (pre1 ++ (w ++ (v ++ n)) ++ colon) r' (zlen pre1) (uset_scim (Some (scim_named (v ++ n) sc)) u) o
        end -> At 174 (pre1 ++ w ++ v) rest (zlen pre1) u o).
Proof.
  induction rest as [|c s' IH]; intros pos pre1 w v u sc -> Hsc Hp; cbn [ref_name].
  - cbn. rewrite app_nil_r. auto.
  - assert (Hd : delta 174 c = if alnum c then Some (174%N, None) else if is ":" c then Some (70%N, Some 35%N) else Some (0%N, Some 15%N))
      by (clear; revert c; dsweep).
    destruct (alnum c) eqn:Ea.
    + apply wp_wcons. eapply wp_mono.
      * apply (IH (zlen (pre1 ++ w ++ v) + 1) pre1 w (v ++ [c]) u sc); [zl|exact Hsc|exact Hp].
      * cbn beta. intros er HA. eapply At_byte; [| | |exact Hd|reflexivity|rewrite <- !app_assoc; exact HA]; lia.
      * auto.
      * cbn beta. intros n r HA o HA'. eapply At_byte; [| | |exact Hd|reflexivity|rewrite <- !app_assoc; apply HA]; [lia|lia|lia|].
        destruct r; repeat rewrite <- app_assoc in *; exact HA'.
    + destruct (is ":" c) eqn:Ec; cbn [andb negb].
      * apply is_eq in Ec. subst c. cbn [wp]. intros o HA. rewrite app_nil_r in HA.
        eapply At_byte; [| | |exact Hd| |]; [lia| | | |].
        4:{ rewrite <- app_assoc. unfold colon in HA. rewrite <- !app_assoc in HA. rewrite <- app_assoc. exact HA. }
        { lia. } { lia. }
        unfold exec_opt. cbn [f_block exec_block exec_stmt]. rewrite Hsc.
        cbn [m_data m_p Exec.cfg]. rewrite Hp.
        rewrite (app_assoc pre1 w v). rewrite slice_mid'. cbn [bind]. rewrite <- Hp. reflexivity.
      * cbn. eapply At_errf; [lia|exact Hd|solve_errf].
Qed.


Lemma sim_name pre1 w rest u sc :
  u_scim u = Some sc ->
  wp (ref_name true (zlen (pre1 ++ w)) rest)
     (fun er => At 69 (pre1 ++ w) rest (zlen pre1) u (OErr er)) False
     (fun n r => forall o,
        match r with
        | [] => At 174 (pre1 ++ w ++ n) [] (zlen pre1) (uset_scim (Some (scim_at (zlen (pre1 ++ w)) sc)) u) o
        | _ :: r' => At 70 (pre1 ++ (w ++ n) ++ colon) r' (zlen pre1)
                       (uset_scim (Some (scim_named n (scim_at (zlen (pre1 ++ w)) sc))) u) o
        end -> At 69 (pre1 ++ w) rest (zlen pre1) u o).
Proof.
  intros Hsc. destruct rest as [|c s']; cbn [ref_name]. { cbn. apply At_erre. solve_erre. }
  assert (Hd : delta 69 c = if alnum c then Some (174%N, Some 16%N) else Some (0%N, Some 15%N))
    by (clear; revert c; dsweep).
  destruct (alnum c) eqn:Ea.
  2:{ rewrite andb_false_r. cbn. eapply At_errf; [lia|exact Hd|solve_errf]. }
  assert (Hstep : forall o, At 174 (pre1 ++ w ++ [c]) s' (zlen pre1) (uset_scim (Some (scim_at (zlen (pre1 ++ w)) sc)) u) o ->
      At 69 (pre1 ++ w) (c :: s') (zlen pre1) u o).
  { intros o HA. eapply At_byte; [| | |exact Hd| |rewrite <- app_assoc; exact HA]; [lia|lia|lia|].
    unfold exec_opt. cbn [f_block exec_block exec_stmt]. rewrite Hsc. reflexivity. }
  apply wp_wcons. eapply wp_mono.
  - apply (sim_name_loop s' (zlen (pre1 ++ w) + 1) pre1 w [c] (uset_scim (Some (scim_at (zlen (pre1 ++ w)) sc)) u) (scim_at (zlen (pre1 ++ w)) sc));
      [zl|reflexivity|reflexivity].
  - cbn beta. intros er HA. apply Hstep, HA.
  - auto.
  - cbn beta. intros n r HA o HA'. apply Hstep, HA. exact HA'.
Qed.

Lemma eof_35 pre1 w n u sc :
  u_scim u = Some sc -> s_pos sc = zlen (pre1 ++ w) ->
  escaped alnum notpct (w ++ n) -> u_tolower u = upos 0 (w ++ n) ->
  At 174 (pre1 ++ w ++ n) [] (zlen pre1) u
    (OUrn (usetNSS KRFC7643 (w ++ n) (uset_scim (Some (scim_named n sc)) u))).
Proof.
  intros Hsc Hp Hw Ht.
  eapply At_eof_ok with (blk := [SScimName; SSetSS; SForTolower 32; SSetNorm; SForTolower (-32); SSetKind KRFC7643]).
  - lia.
  - vm_compute; reflexivity.
  - rewrite exec_block_cons. cbn [exec_stmt]. rewrite Hsc. cbn [m_data m_p Exec.cfg]. rewrite Hp.
    assert (Hsl : slice ((pre1 ++ w ++ n) ++ []) (zlen (pre1 ++ w)) (zlen (pre1 ++ w ++ n)) = Ret n).
    { rewrite (app_assoc pre1 w n). apply slice_mid'. }
    rewrite Hsl. cbn [bind].
    rewrite <- app_assoc. rewrite (x_setnss start mode mset alnum pre1 (w ++ n) [] 174%N); [|exact Hw|exact Ht].
    reflexivity.
  - rewrite <- app_assoc. cbn [fin]. cbn. repeat (split; [reflexivity|]). reflexivity.
Qed.

Lemma eof_37 cs pre1 w n u sc :
  (cs = 175 \/ cs = 176)%N ->
  u_scim u = Some sc -> s_pos sc = zlen (pre1 ++ w) ->
  escaped alnum notpct (w ++ n) -> u_tolower u = upos 0 (w ++ n) ->
  At cs (pre1 ++ w ++ n) [] (zlen pre1) u
    (OUrn (usetNSS KRFC7643 (w ++ n) (uset_scim (Some (scim_othered n sc)) u))).
Proof.
  intros Hcs Hsc Hp Hw Ht.
  eapply At_eof_ok with (blk := [SScimOther; SSetSS; SForTolower 32; SSetNorm; SForTolower (-32); SSetKind KRFC7643]).
  - lia.
  - destruct Hcs as [->| ->]; vm_compute; reflexivity.
  - rewrite exec_block_cons. cbn [exec_stmt]. rewrite Hsc. cbn [m_data m_p Exec.cfg]. rewrite Hp.
    assert (Hsl : slice ((pre1 ++ w ++ n) ++ []) (zlen (pre1 ++ w)) (zlen (pre1 ++ w ++ n)) = Ret n).
    { rewrite (app_assoc pre1 w n). apply slice_mid'. }
    rewrite Hsl. cbn [bind].
    rewrite <- app_assoc. rewrite (x_setnss start mode mset alnum pre1 (w ++ n) [] cs); [|exact Hw|exact Ht].
    reflexivity.
  - rewrite <- app_assoc. cbn [fin]. cbn. repeat (split; [reflexivity|]).
    split; [|split; reflexivity]. destruct Hcs as [->| ->]; reflexivity.
Qed.

Lemma errf_17 : errf 17 ErrSCIMOther.
Proof.
  eexists; split; [reflexivity|]. intros d cs p pb u Hp. xcbn.
  replace (p =? zlen d) with false by (symmetry; apply Z.eqb_neq; exact Hp).
  xcbn. rewrite Z.add_0_r. reflexivity.
Qed.
Lemma errf_19 : errf 19 (hx mode ErrSCIMOther).
Proof.
  eexists; split; [reflexivity|]. intros d cs p pb u Hp. unfold hx. xcbn.
  destruct (mode =? PRFC2141Only); [|destruct (mode =? PRFC8141Only)]; cbn [orb];
  [xcbn; rewrite Z.add_0_r; reflexivity | xcbn; rewrite Z.add_0_r; reflexivity |].
  xcbn. replace (p =? zlen d) with false by (symmetry; apply Z.eqb_neq; exact Hp).
  xcbn. rewrite Z.add_0_r. reflexivity.
Qed.

Definition inc (pos : Z) : perr := mkErr ErrSCIMOtherIncomplete (pos - 1).
Definition inch (pos : Z) : perr :=
  if (mode =? PRFC2141Only) || (mode =? PRFC8141Only) then mkErr ErrHex pos else inc pos.

Lemma eof_18 pre pb u : At 70 pre [] pb u (OErr (inc (zlen pre))).
Proof.
  eapply At_eof_err with (blk := [SIf CPEqPe [SSetErr ErrSCIMOtherIncomplete (-1)] [SSetErr ErrSCIMOther 0]; SDecP; SSetCS 193; SGotoAgain]).
  - lia.
  - vm_compute; reflexivity.
  - xcbn. replace (zlen pre =? zlen (pre ++ [])) with true by (symmetry; apply Z.eqb_eq; zl). xcbn. reflexivity.
Qed.
Lemma eof_20 cs pre pb u : (cs = 71 \/ cs = 72)%N -> At cs pre [] pb u (OErr (inch (zlen pre))).
Proof.
  intros Hcs.
  eapply At_eof_err with (blk := [SIf (COr (CModeEq PRFC2141Only) (CModeEq PRFC8141Only)) [SSetErr ErrHex 0; SDecP; SSetCS 193; SGotoAgain] [];
     SIf CPEqPe [SSetErr ErrSCIMOtherIncomplete (-1)] [SSetErr ErrSCIMOther 0]; SDecP; SSetCS 193; SGotoAgain]).
  - lia.
  - destruct Hcs as [->| ->]; vm_compute; reflexivity.
  - unfold inch. xcbn.
    destruct (mode =? PRFC2141Only); [|destruct (mode =? PRFC8141Only)]; cbn [orb];
    [xcbn; rewrite Z.add_0_r; reflexivity | xcbn; rewrite Z.add_0_r; reflexivity |].
    xcbn. replace (zlen pre =? zlen (pre ++ [])) with true by (symmetry; apply Z.eqb_eq; zl). xcbn. reflexivity.
Qed.

(* the last part; w: everything from the type to the colon *)
Lemma sim_other pre1 w rest u sc :
  u_scim u = Some sc -> escaped alnum notpct w -> u_tolower u = upos 0 w ->
  wp (ref_other mode (zlen (pre1 ++ w)) rest)
     (fun er => At 70 (pre1 ++ w) rest (zlen pre1) u (OErr er)) False
     (fun n r => At 70 (pre1 ++ w) rest (zlen pre1) u
        (OUrn (usetNSS KRFC7643 (w ++ n) (uset_scim (Some (scim_othered n (scim_at (zlen (pre1 ++ w)) sc))) u)))).
Proof.
  intros Hsc Hw Ht. 
  change (ref_other mode (zlen (pre1 ++ w)) rest) with (ref_nss ErrSCIMOther (hx mode ErrSCIMOther) inc inch EStart (zlen (pre1 ++ w)) rest).
  set (eH := hx mode ErrSCIMOther).
  pose proof (ref_nss_escaped ErrSCIMOther eH inc inch (List.length rest) rest (le_n _) EStart (zlen (pre1 ++ w))) as Hesc.
  assert (D70 : forall b, delta 70 b = if is "%" b then Some (71%N, Some 18%N) else if sss b then Some (175%N, Some 18%N) else Some (0%N, Some 17%N)) by dsweep.
  assert (D175 : forall b, delta 175 b = if is "%" b then Some (71%N, None) else if sss b then Some (175%N, None) else Some (0%N, Some 17%N)) by dsweep.
  assert (D176 : forall b, delta 176 b = if is "%" b then Some (71%N, None) else if sss b then Some (175%N, None) else Some (0%N, Some 19%N)) by dsweep.
  assert (D71 : forall b, delta 71 b = hexdelta 71 72 19 b) by dsweep.
  assert (D72 : forall b, delta 72 b = hexdelta 72 176 19 b) by dsweep.
  assert (X1 : forall pre pb u, At 71 pre [] pb u (OErr (inch (zlen pre)))) by (intros; apply eof_20; auto).
  assert (X2 : forall pre pb u, At 72 pre [] pb u (OErr (inch (zlen pre)))) by (intros; apply eof_20; auto).
  remember (uset_scim (Some (scim_at (zlen (pre1 ++ w)) sc)) u) as u1 eqn:Eu1.
  assert (Hsc1 : u_scim u1 = Some (scim_at (zlen (pre1 ++ w)) sc)) by (subst u1; reflexivity).
  assert (Ht1 : u_tolower u1 = upos 0 w) by (subst u1; exact Ht).
  assert (Hfin : forall n, escaped alnum notpct (w ++ n) -> forall k', At (lst 175 176 k') (pre1 ++ w ++ n) [] (zlen pre1) (uset_tolower (upos 0 (w ++ n)) u1)
     (OUrn (usetNSS KRFC7643 (w ++ n) (uset_scim (Some (scim_othered n (scim_at (zlen (pre1 ++ w)) sc))) u)))).
  { intros n Hn k'.
    replace (usetNSS KRFC7643 (w ++ n) (uset_scim (Some (scim_othered n (scim_at (zlen (pre1 ++ w)) sc))) u))
      with (usetNSS KRFC7643 (w ++ n) (uset_scim (Some (scim_othered n (scim_at (zlen (pre1 ++ w)) sc))) (uset_tolower (upos 0 (w ++ n)) u1))) by (subst u1; reflexivity).
    apply eof_37; [destruct k'; auto|exact Hsc1|reflexivity|exact Hn|reflexivity]. }
  assert (Hx18 : forall b s' cs', exec_opt (Some 18%N) (cfg ((pre1 ++ w) ++ b :: s') cs' (zlen (pre1 ++ w)) (zlen pre1), u)
     = Ret ((cfg ((pre1 ++ w) ++ b :: s') cs' (zlen (pre1 ++ w)) (zlen pre1), u1), Again)).
  { intros. unfold exec_opt. cbn [f_block exec_block exec_stmt]. rewrite Hsc, Eu1. reflexivity. }
  destruct rest as [|c s1]. { cbn. apply eof_18. }
  cbn [ref_nss] in *. specialize (D70 c). destruct (is "%" c) eqn:Epc.
  - apply is_eq in Epc. subst c.
    pose proof (sim_hexloop start mode mset 175 71 72 176 19 eH inch ltac:(lia) ltac:(lia) ltac:(lia) ltac:(lia) ltac:(lia) ltac:(lia) ltac:(lia) ltac:(lia) D71 D72 errf_19 X1 X2 pre1 w s1 u1 Hw Ht1) as K.
    cbn zeta in K.
    replace (zlen (pre1 ++ w) + 1) with (zlen (pre1 ++ w ++ ["%"%byte])) in * by zl.
    replace (zlen (pre1 ++ w) + 2) with (zlen (pre1 ++ w ++ ["%"%byte]) + 1) in * by zl.
    assert (Hstep : forall o, At 71 (pre1 ++ w ++ ["%"%byte]) s1 (zlen pre1) u1 o -> At 70 (pre1 ++ w) ("%"%byte :: s1) (zlen pre1) u o).
    { intros o HA. eapply At_byte; [| | |exact D70|apply Hx18|rewrite <- app_assoc; exact HA]; lia. }
    destruct s1 as [|a [|b s3]]; [cbn; auto|destruct (alnum a); cbn; auto|].
    destruct (alnum a) eqn:Ha; [|cbn; auto]. destruct (alnum b) eqn:Hb; [|cbn; auto].
    destruct K as [Hw' K].
    pose proof (sim_loop start mode mset 175 71 72 176 17 19 ErrSCIMOther eH inc inch
      ltac:(lia) ltac:(lia) ltac:(lia) ltac:(lia) ltac:(lia) ltac:(lia) ltac:(lia) ltac:(lia) D175 D176 D71 D72 errf_17 errf_19 X1 X2
      (List.length s3) s3 (le_n _) EHex (zlen (pre1 ++ w) + 3) pre1 (w ++ ["%"%byte; a; b]) (uset_tolower (upos 0 (w ++ ["%"%byte; a; b])) u1)
      ltac:(discriminate) ltac:(zl) Hw' eq_refl) as L.
    destruct (ref_nss ErrSCIMOther eH inc inch EHex (zlen (pre1 ++ w) + 3) s3) as [er| |w' r]; cbn [wp wcons] in *.
    + apply Hstep, K, L.
    + exact L.
    + destruct L as [-> L]. destruct Hesc as (_ & _ & Hesc & _). apply escaped_sss in Hesc.
      rewrite <- app_assoc in L. cbn [app] in L.
      assert (Hall : escaped alnum notpct (w ++ "%"%byte :: a :: b :: w')) by (apply escaped_app; assumption).
      apply Hstep, K. apply L; [exact Hall|]. intros k'. apply (Hfin _ Hall k').
  - destruct (sss c) eqn:Es.
    + assert (Hstep : forall o, At 175 (pre1 ++ w ++ [c]) s1 (zlen pre1) u1 o -> At 70 (pre1 ++ w) (c :: s1) (zlen pre1) u o).
      { intros o HA. eapply At_byte; [| | |exact D70|apply Hx18|rewrite <- app_assoc; exact HA]; lia. }
      assert (Hw1 : escaped alnum notpct (w ++ [c])).
      { apply escaped_app; [exact Hw|]. apply esc_plain; [apply sss_notpct; exact Es|apply esc_nil]. }
      pose proof (sim_loop start mode mset 175 71 72 176 17 19 ErrSCIMOther eH inc inch
        ltac:(lia) ltac:(lia) ltac:(lia) ltac:(lia) ltac:(lia) ltac:(lia) ltac:(lia) ltac:(lia) D175 D176 D71 D72 errf_17 errf_19 X1 X2
        (List.length s1) s1 (le_n _) EPlain (zlen (pre1 ++ w) + 1) pre1 (w ++ [c]) u1
        ltac:(discriminate) ltac:(zl) Hw1
        ltac:(rewrite (upos_app alnum) by exact Hw; rewrite Ht1; cbn [upos]; rewrite Epc; rewrite app_nil_r; reflexivity)) as L.
      destruct (ref_nss ErrSCIMOther eH inc inch EPlain (zlen (pre1 ++ w) + 1) s1) as [er| |w' r]; cbn [wp wcons] in *.
      * apply Hstep, L.
      * exact L.
      * destruct L as [-> L]. destruct Hesc as (_ & _ & Hesc & _). apply escaped_sss in Hesc.
        rewrite <- app_assoc in L. cbn [app] in L.
        assert (Hall : escaped alnum notpct (w ++ c :: w')) by (apply escaped_app; assumption).
        apply Hstep. apply L; [exact Hall|]. intros k'. apply (Hfin _ Hall k').
    + cbn. eapply At_errf; [lia|exact D70|exact errf_17].
Qed.

Lemma plain_escaped w : forallb notpct w = true -> escaped alnum notpct w.
Proof. apply escaped_all. Qed.
Lemma upos_plain w : forallb notpct w = true -> forall k, upos k w = [].
Proof.
  induction w as [|c w IH]; cbn; intros H k; [reflexivity|]. apply andb_prop in H. destruct H as [Hc Hw].
  unfold notpct in Hc. apply negb_true_iff in Hc. rewrite Hc. auto.
Qed.

Lemma ref_name_alnum s : forall f pos, wp (ref_name f pos s) (fun _ => True) False
  (fun n r => forallb alnum n = true /\ (f = true -> n <> []) /\ s = n ++ r /\ (r = [] \/ exists r', r = ":"%byte :: r')).
Proof.
  induction s as [|c s IH]; intros f pos; cbn [ref_name].
  - destruct f; cbn; auto. repeat split; auto. discriminate.
  - destruct (alnum c) eqn:Ea.
    + apply wp_wcons. eapply wp_mono; [apply IH|auto|auto|]. cbn beta. intros n r (H1 & H2 & H3 & H4).
      cbn [forallb]. rewrite Ea, H1, H3. repeat split; auto. discriminate.
    + destruct (is ":" c) eqn:Ec; destruct f; cbn; auto. apply is_eq in Ec. subst c.
      repeat split; auto; [discriminate|]. right. eexists; reflexivity.
Qed.

Theorem sim_scim s : At 44 [] s 0 zeroURN (ref_scim mode s).
Proof.
  unfold ref_scim. pose proof (sim_prefix start mode mset 44 s (or_intror (or_introl eq_refl))) as K.
  assert (Hlen : match ref_prefix s with WGo pre _ => zlen pre = 4 | _ => True end) by apply ref_prefix_len.
  destruct (ref_prefix s) as [e| |pre rest]; cbn [wp] in K; [exact K|contradiction|].
  change (44 + 4)%N with 48%N in K.
  pose proof (sim_ns 4 pre rest 0 (uset_prefix (firstn 3 pre) zeroURN) (eq_sym Hlen)) as K2.
  pose proof (ref_lit_len ErrSCIMNamespace (map is (B "ietf:params:scim:")) 4 rest) as Hl2.
  destruct (ref_lit ErrSCIMNamespace (map is (B "ietf:params:scim:")) 4 rest) as [e| |ns rest2]; cbn [wp] in K2; [apply K, K2|contradiction|].
  change (zlen (map is (B "ietf:params:scim:"))) with 17 in Hl2.
  set (u2 := uset_scim (Some zeroSCIM) (uset_ID scim_nid (uset_prefix (firstn 3 pre) zeroURN))) in *.
  pose proof (sim_type (pre ++ ns) rest2 (zlen pre) u2 zeroSCIM eq_refl) as K3.
  replace (zlen (pre ++ ns)) with 21 in K3 at 1 by (rewrite zlen_app; lia).
  destruct (ref_scimtype 21 rest2) as [e| |tc rest3]; cbn [wp] in K3; [apply K, K2, K3|contradiction|].
  destruct K3 as [(t & -> & Ht) K3].
  rewrite (removelast_last t ":"%byte : removelast (t ++ colon) = t) in *. cbn zeta.
  set (u3 := uset_scim (Some (scim_set_type t zeroSCIM)) u2) in *.
  pose proof (sim_name (pre ++ ns) (t ++ colon) rest3 u3 (scim_set_type t zeroSCIM) eq_refl) as K4.
  pose proof (ref_name_alnum rest3 true (21 + zlen (t ++ colon))) as Hn.
  replace (zlen ((pre ++ ns) ++ t ++ colon)) with (21 + zlen (t ++ colon)) in K4 at 1 by (rewrite !zlen_app; lia).
  destruct (ref_name true (21 + zlen (t ++ colon)) rest3) as [e| |n rest4]; cbn [wp] in K4, Hn; [apply K, K2, K3, K4|contradiction|].
  destruct Hn as (Hn1 & Hn2 & Hn3 & Hn4).
  assert (Htn : forallb notpct ((t ++ colon) ++ n) = true).
  { rewrite forallb_app. apply andb_true_intro. split.
    - destruct Ht as [->|[->| ->]]; reflexivity.
    - rewrite forallb_forall in *. intros x Hx. apply alnum_notpct. auto. }
  destruct rest4 as [|cc rest4].
  - apply K, K2, K3, K4.
    pose proof (eof_35 (pre ++ ns) (t ++ colon) n (uset_scim (Some (scim_at (zlen ((pre ++ ns) ++ t ++ colon)) (scim_set_type t zeroSCIM))) u3)
      (scim_at (zlen ((pre ++ ns) ++ t ++ colon)) (scim_set_type t zeroSCIM)) eq_refl eq_refl (plain_escaped _ Htn)) as E.
    rewrite (upos_plain _ Htn) in E. specialize (E eq_refl).
    unfold usetNSS, pub_of in E. cbn in E. rewrite <- !app_assoc in *. exact E.
  - destruct Hn4 as [?|[r' [= -> ->]]]; [discriminate|].
    set (sc4 := scim_named n (scim_at (zlen ((pre ++ ns) ++ t ++ colon)) (scim_set_type t zeroSCIM))) in *.
    assert (Hw : forallb notpct (((t ++ colon) ++ n) ++ colon) = true) by (rewrite forallb_app, Htn; reflexivity).
    pose proof (sim_other (pre ++ ns) (((t ++ colon) ++ n) ++ colon) r' (uset_scim (Some sc4) u3) sc4 eq_refl (plain_escaped _ Hw)) as E.
    rewrite (upos_plain _ Hw) in E. specialize (E eq_refl).
    replace (22 + zlen (t ++ colon) + zlen n) with (zlen ((pre ++ ns) ++ ((t ++ colon) ++ n) ++ colon))
      by (rewrite !zlen_app; change (zlen colon) with 1; lia).
    destruct (ref_other mode (zlen ((pre ++ ns) ++ ((t ++ colon) ++ n) ++ colon)) r') as [e| |other rest5]; cbn [wp] in E;
      [apply K, K2, K3, K4, E|contradiction|].
    apply K, K2, K3, K4.
    unfold usetNSS, pub_of in E. cbn in E. rewrite <- !app_assoc in *. exact E.
Qed.

End X.
