(* C48-C51: programs that hold pointers. *)
From Verif Require Import GoBase MachineSyntax MachineTables Machine Urn Json Spec Api Heap SpecHeap PropsHeap PropsHeap2.
Local Open Scope Z_scope.
Local Open Scope list_scope.

(* ---- C48 ---------------------------------------------------------------------------- *)
(* In any program, whatever it did before, a call panics exactly when it dereferences nil as
   spelled out in [nil_call]; every other call returns. *)
Theorem C48_panics : forall uni newer h o, runs uni newer any empty_heap h -> valid o h ->
  (exec uni newer o h = Panic <-> nil_call o h) /\
  (~ nil_call o h -> exists h' x, exec uni newer o h = Ret (h', x)).
Proof.
  intros uni newer h o R V. destruct (step_panics uni newer o h (runs_wf _ _ _ _ _ R wf_empty) V) as [[H1 H2]|[H1 (h' & x & H2)]].
  - split; [tauto|]. intros H; contradiction (H H1).
  - split; [|eauto]. split; [rewrite H2; discriminate|intros H; contradiction (H1 H)].
Qed.
Print Assumptions C48_panics.

(* So UnmarshalJSON on a pointer that is not nil returns, for any bytes. *)
Theorem C48_unmarshal : forall uni newer h p b, runs uni newer any empty_heap h ->
  ((p < List.length (h_urns h))%nat -> exists h' e, exec uni newer (Unmarshals (Some p) b) h = Ret (h', AJerr e)) /\
  ((p < List.length (h_scims h))%nat -> exists h' e, exec uni newer (SUnmarshals (Some p) b) h = Ret (h', AJerr e)) /\
  ((p < List.length (h_8141s h))%nat -> exists h' e, exec uni newer (EUnmarshals (Some p) b) h = Ret (h', AJerr e)).
Proof. exact unmarshal_returns. Qed.
Print Assumptions C48_unmarshal.

(* In any program, u.IsSCIM() and u.SCIM() agree: after IsSCIM answered true, SCIM() is a
   pointer that may be used; after false it is nil. *)
Theorem C48_scim : forall uni newer h p, runs uni newer any empty_heap h -> held (h_urns h) (Some p) ->
  (exec uni newer (IsSCIMs (Some p)) h = Ret (h, ABool true) /\
     exists t, exec uni newer (SCIMs (Some p)) h = Ret (h, ASCIM (Some t)) /\ held (h_scims h) (Some t)) \/
  (exec uni newer (IsSCIMs (Some p)) h = Ret (h, ABool false) /\ exec uni newer (SCIMs (Some p)) h = Ret (h, ASCIM None)).
Proof. intros uni newer h p R. apply scim_agree. exact (runs_wf _ _ _ _ _ R wf_empty). Qed.
Print Assumptions C48_scim.

(* A *URN8141 that is not nil is not safe to use: after an UnmarshalJSON that reported
   success, String panics. *)
Theorem C48_8141_refuted : forall uni newer, exists b h,
  program uni newer [Parses (B "urn:ab:c") [PRFC8141Only]; NewURN8141s (Some 0%nat); EUnmarshals (Some 0%nat) b] empty_heap =
    Ret (h, [AURN (Some 0%nat) true; AURN8141 (Some 0%nat); AJerr None]) /\
  exec uni newer (EStrings (Some 0%nat)) h = Panic.
Proof. intros uni newer. exists ([x22] ++ B "urn:ab:c#a#b" ++ [x22]). eexists. split; [vm_compute; reflexivity|reflexivity]. Qed.
Print Assumptions C48_8141_refuted.

(* It is safe in every program that puts no nil in a URN8141, neither itself nor by
   unmarshalling a text on which RFC 8141 parsing fails silently. *)
Theorem C48_8141_safe : forall uni newer h e o, runs uni newer no_nil empty_heap h -> e <> None -> held (h_8141s h) e ->
  o = EStrings e \/ o = EMarshals e -> exists s, exec uni newer o h = Ret (h, AText s).
Proof. exact eight_safe. Qed.
Print Assumptions C48_8141_safe.

Example C48_example : forall uni newer,
  exec uni newer (Equals None None) empty_heap = Ret (empty_heap, ABool false) /\
  exec uni newer (Unmarshals None (B "12")) empty_heap = Ret (empty_heap, AJerr (Some JJson)) /\
  exec uni newer (Unmarshals None ([x22] ++ B "urn:ab:c" ++ [x22])) empty_heap = Panic /\
  exists h, program uni newer [Parses (B "urn:ietf:params:scim:api:x") [PRFC7643Only]; SCIMs (Some 0%nat);
      SStrings (Some 0%nat); Parses (B "no") []; Strings (Some 0%nat); NewMachines [PRFC8141Only];
      MParses (Some 0%nat) (B "urn:a"); MErrors (Some 0%nat)] empty_heap =
    Ret (h, [AURN (Some 0%nat) true; ASCIM (Some 0%nat); AText (B "urn:ietf:params:scim:api:x"); AURN None false;
      AText (B "urn:ietf:params:scim:api:x"); AMachine (Some 0%nat);
      AURNerr None (Some (mkErr Err8141Identifier 5)); AnError (Some (mkErr Err8141Identifier 5))]).
Proof. intros uni newer. repeat split; try (vm_compute; reflexivity). eexists. vm_compute. reflexivity. Qed.

(* ---- C49 ---------------------------------------------------------------------------- *)
(* Looking changes nothing. *)
Theorem C49_looks : forall uni newer o h h' x, looks o -> exec uni newer o h = Ret (h', x) -> h' = h.
Proof. exact looks_keep. Qed.
Print Assumptions C49_looks.

(* Any call leaves every object it is not called on as it was. *)
Theorem C49_writes : forall uni newer o h h' x, exec uni newer o h = Ret (h', x) ->
  (forall k c, nth_error (h_urns h) k = Some c -> writes_urn o <> Some k -> nth_error (h_urns h') k = Some c) /\
  (forall k s, nth_error (h_scims h) k = Some s -> writes_scim o <> Some k -> nth_error (h_scims h') k = Some s) /\
  (forall k p, nth_error (h_8141s h) k = Some p -> writes_8141 o <> Some k -> nth_error (h_8141s h') k = Some p) /\
  (forall k m, nth_error (h_machines h) k = Some m -> writes_machine o <> Some k -> nth_error (h_machines h') k = Some m).
Proof. intros uni newer o h h' x H. destruct (step_keeps _ _ _ _ _ _ H) as ([_ H1] & [_ H2] & [_ H3] & [_ H4]). auto. Qed.
Print Assumptions C49_writes.

(* A failing UnmarshalJSON leaves everything as it was, the receiver included. *)
Theorem C49_error : forall uni newer o h h' e, exec uni newer o h = Ret (h', AJerr (Some e)) -> h' = h.
Proof. exact error_keeps. Qed.
Print Assumptions C49_error.

(* Parse, the machine's Parse and Normalize return a new object, with a new SCIM, that holds
   the value the call computes. *)
Theorem C49_fresh : forall uni newer h h' p,
  (forall s l ok, exec uni newer (Parses s l) h = Ret (h', AURN (Some p) ok) ->
     exists u, Parse s l = Ret (s, Some u, ok) /\ fresh_urn h h' p u) /\
  (forall s m eo, exec uni newer (MParses m s) h = Ret (h', AURNerr (Some p) eo) ->
     exists a x m' u, m = Some a /\ nth_error (h_machines h) a = Some x /\ machine_Parse x s = Ret (m', Some u, eo) /\
       nth_error (h_machines h') a = Some m' /\ fresh_urn h h' p u) /\
  (forall q ok, exec uni newer (Normalizes q) h = Ret (h', AURN (Some p) ok) ->
     exists a u, q = Some a /\ urn_at h a = Some u /\ fresh_urn h h' p (Normalize uni u)).
Proof.
  intros uni newer h h' p. split; [|split]; intros.
  - eapply Parses_fresh; eauto.
  - eapply MParses_fresh; eauto.
  - eapply Normalizes_fresh; eauto.
Qed.
Print Assumptions C49_fresh.

(* UnmarshalJSON through a pointer leaves there what the value models of Json.v say (C27-C30). *)
Theorem C49_unmarshal : forall uni newer h b p, runs uni newer any empty_heap h ->
  (forall u u' e, urn_at h p = Some u -> URN_UnmarshalJSON u b = Ret (u', e) ->
     exists h', exec uni newer (Unmarshals (Some p) b) h = Ret (h', AJerr e) /\ urn_at h' p = Some u') /\
  (forall s s' e, nth_error (h_scims h) p = Some s -> SCIM_UnmarshalJSON s b = Ret (s', e) ->
     exists h', exec uni newer (SUnmarshals (Some p) b) h = Ret (h', AJerr e) /\ nth_error (h_scims h') p = Some s') /\
  (forall q v v' e, nth_error (h_8141s h) p = Some q -> v = match q with None => None | Some a => urn_at h a end ->
     URN8141_UnmarshalJSON v b = Ret (v', e) ->
     exists h' q', exec uni newer (EUnmarshals (Some p) b) h = Ret (h', AJerr e) /\ nth_error (h_8141s h') p = Some q' /\
       v' = match q' with None => None | Some a => urn_at h' a end).
Proof. exact unmarshal_value. Qed.
Print Assumptions C49_unmarshal.

(* So what a *URN shows, its SCIM included, changes only by a call that writes that URN or
   the SCIM it holds. *)
Theorem C49_shows : forall uni newer o h h' x p c, runs uni newer any empty_heap h -> exec uni newer o h = Ret (h', x) ->
  nth_error (h_urns h) p = Some c -> writes_urn o <> Some p -> (forall t, c_scim c = Some t -> writes_scim o <> Some t) ->
  urn_at h' p = urn_at h p.
Proof. intros uni newer o h h' x p c R. apply view_keeps. exact (runs_wf _ _ _ _ _ R wf_empty). Qed.
Print Assumptions C49_shows.

(* What every call that only looks answers, in terms of the values behind its pointers, so that
   the properties of the value functions hold of the calls. *)
Theorem C49_answers : forall uni newer o h h' x, exec uni newer o h = Ret (h', x) -> answer uni newer h o x.
Proof. exact answers. Qed.
Print Assumptions C49_answers.

(* What literals, assignments and mode changes leave behind. *)
Theorem C49_effects : forall uni newer o h h' x, exec uni newer o h = Ret (h', x) -> effect h o h' x.
Proof. exact effects. Qed.
Print Assumptions C49_effects.

(* Parse, whether it succeeds or not. *)
Theorem C49_parse : forall uni newer s l h, exists u ok h' p,
  Parse s l = Ret (s, u, ok) /\ exec uni newer (Parses s l) h = Ret (h', AURN p ok) /\
  match u with None => p = None /\ h' = h | Some u => exists q, p = Some q /\ fresh_urn h h' q u end.
Proof. exact Parses_answer. Qed.
Print Assumptions C49_parse.

(* a URN overwritten by UnmarshalJSON, one left alone, and a failed UnmarshalJSON *)
Example C49_example : forall uni newer, exists h,
  program uni newer [Parses (B "urn:ab:c") []; Normalizes (Some 0%nat); Unmarshals (Some 0%nat) ([x22] ++ B "urn:xy:z" ++ [x22]);
      Strings (Some 0%nat); Strings (Some 1%nat); Unmarshals (Some 0%nat) ([x22] ++ B "bad" ++ [x22]); Strings (Some 0%nat)] empty_heap =
    Ret (h, [AURN (Some 0%nat) true; AURN (Some 1%nat) true; AJerr None; AText (B "urn:xy:z"); AText (B "urn:ab:c");
      AJerr (Some (JInvalid "invalid URN: %s" (B "bad"))); AText (B "urn:xy:z")]).
Proof. intros uni newer. eexists. vm_compute. reflexivity. Qed.

(* ---- C50 ---------------------------------------------------------------------------- *)
(* In a program that never copies a URN struct, two URNs never hand out the same SCIM. *)
Theorem C50_apart : forall uni newer h p q h1 h2 t, runs uni newer no_copy empty_heap h ->
  exec uni newer (SCIMs p) h = Ret (h1, ASCIM (Some t)) -> exec uni newer (SCIMs q) h = Ret (h2, ASCIM (Some t)) -> p = q.
Proof. exact scims_apart. Qed.
Print Assumptions C50_apart.

(* So a write through the SCIM of one URN is not seen by any other URN. *)
Theorem C50_isolated : forall uni newer h p q h1 t o h2 x u, runs uni newer no_copy empty_heap h ->
  exec uni newer (SCIMs (Some p)) h = Ret (h1, ASCIM (Some t)) -> writes_scim o = Some t ->
  exec uni newer o h = Ret (h2, x) -> q <> p -> urn_at h q = Some u -> urn_at h2 q = Some u.
Proof. exact scims_isolated. Qed.
Print Assumptions C50_isolated.

(* After *p = *q the two share it: a write through q's SCIM is seen through p, and q.String()
   does not follow. *)
Theorem C50_copy_refuted : forall uni newer, exists h,
  program uni newer [Parses (B "urn:ietf:params:scim:api:x") [PRFC7643Only]; NewURNs [] []; CopyURNs (Some 1%nat) (Some 0%nat);
      SCIMs (Some 0%nat); SCIMs (Some 1%nat); SetSCIMs (Some 0%nat) TParam (B "y") []; SCIMs (Some 1%nat); SStrings (Some 0%nat);
      Strings (Some 1%nat)] empty_heap =
    Ret (h, [AURN (Some 0%nat) true; AURN (Some 1%nat) true; Nothing; ASCIM (Some 0%nat); ASCIM (Some 0%nat); Nothing;
      ASCIM (Some 0%nat); AText (B "urn:ietf:params:scim:param:y"); AText (B "urn:ietf:params:scim:api:x")]).
Proof. intros uni newer. eexists. vm_compute. reflexivity. Qed.
Print Assumptions C50_copy_refuted.

Example C50_example : forall uni newer, exists h,
  program uni newer [Parses (B "urn:ietf:params:scim:api:x") [PRFC7643Only]; Parses (B "urn:ietf:params:scim:api:x") [PRFC7643Only];
      SCIMs (Some 0%nat); SCIMs (Some 1%nat); SUnmarshals (Some 0%nat) ([x22] ++ B "urn:ietf:params:scim:param:y" ++ [x22]);
      SStrings (Some 0%nat); SStrings (Some 1%nat); Equals (Some 0%nat) (Some 1%nat)] empty_heap =
    Ret (h, [AURN (Some 0%nat) true; AURN (Some 1%nat) true; ASCIM (Some 0%nat); ASCIM (Some 1%nat); AJerr None;
      AText (B "urn:ietf:params:scim:param:y"); AText (B "urn:ietf:params:scim:api:x"); ABool true]).
Proof. intros uni newer. eexists. vm_compute. reflexivity. Qed.

(* ---- C51 ---------------------------------------------------------------------------- *)
(* In a program that assigns to no field of a URN and to no SCIM of a URN, every *URN shows a
   literal, a value Parse returned, or a normalised one of these, however it went through
   copies, UnmarshalJSON, machines and URN8141. *)
Theorem C51_origin : forall uni newer h p u, runs uni newer plain empty_heap h -> urn_at h p = Some u -> made uni u.
Proof. exact origin. Qed.
Print Assumptions C51_origin.

(* In such a program the SCIM of a SCIM URN spells the URN, but for the letter case of "urn". *)
Theorem C51_scim_text : forall uni newer h p t h1 s h2, runs uni newer plain empty_heap h ->
  exec uni newer (SCIMs p) h = Ret (h1, ASCIM (Some t)) -> exec uni newer (Strings p) h = Ret (h2, AText s) ->
  exists prefix rest, s = prefix ++ rest /\ urn_word prefix /\
    exec uni newer (SStrings (Some t)) h = Ret (h, AText (lowers prefix ++ rest)).
Proof. exact scim_text. Qed.
Print Assumptions C51_scim_text.

(* With an assignment to SS both fail to hold: the URN is Equal to what it was before. *)
Theorem C51_fields_refuted : forall uni newer, exists h,
  program uni newer [Parses (B "urn:ab:c") []; Parses (B "urn:ab:c") []; SetSSs (Some 0%nat) (B "zz"); Strings (Some 0%nat);
      Strings (Some 1%nat); Equals (Some 0%nat) (Some 1%nat); Normalizes (Some 0%nat); Strings (Some 2%nat)] empty_heap =
    Ret (h, [AURN (Some 0%nat) true; AURN (Some 1%nat) true; Nothing; AText (B "urn:ab:zz"); AText (B "urn:ab:c"); ABool true;
      AURN (Some 2%nat) true; AText (B "urn:ab:c")]).
Proof. intros uni newer. eexists. vm_compute. reflexivity. Qed.
Print Assumptions C51_fields_refuted.

Example C51_example : forall uni newer, exists h, runs uni newer plain empty_heap h /\
  exec uni newer (Strings (Some 0%nat)) h = Ret (h, AText (B "uRn:ietf:params:scim:api:x")) /\
  exec uni newer (SCIMs (Some 0%nat)) h = Ret (h, ASCIM (Some 0%nat)) /\
  exec uni newer (SStrings (Some 0%nat)) h = Ret (h, AText (B "urn:ietf:params:scim:api:x")).
Proof.
  intros uni newer. eexists. split; [eapply (runs_more _ _ _ _ (Parses (B "uRn:ietf:params:scim:api:x") [PRFC7643Only]));
    [exact I|intros t c H; discriminate H|vm_compute; reflexivity|apply runs_none]|].
  repeat split; vm_compute; reflexivity.
Qed.
