(* Property theorems about errors (C24, C25). *)
From Coq Require Import Lia.
From Verif Require Import GoBase MachineSyntax MachineTables Machine Errors Urn Spec SpecErr SpecErr8 Ref ParseThm Api PropsErr PropsErrB PropsErr8c.
Local Open Scope Z_scope.

(* ================================================================ C24 *)
(* RFC 2141 mode: the input splits at the column into x and y; x can be completed to an
   accepted text, x and the next byte cannot.  For the look-ahead error the column is 7,
   the place of the colon seen by the look-ahead, and only the second half holds. *)
Theorem C24_column_2141 : forall m s m' uo e, reachable m -> m_parsingMode m = PRFC2141Only ->
  machine_Parse m s = Ret (m', uo, Some e) ->
  exists x y, s = x ++ y /\ e_col e = zlen x /\
    (e_kind e <> ErrNoUrnWithinID -> exists t u, parsed PRFC2141Only (x ++ t) u) /\
    (forall c y' t u, y = c :: y' -> ~ parsed PRFC2141Only (x ++ c :: t) u) /\
    (e_kind e = ErrNoUrnWithinID -> e_col e = 7 /\ u_lookahead s).
Proof.
  intros m s m' uo e H Hm Hp. apply column2141. apply (parse_err2141 m s m' uo (Some e)); auto.
Qed.
Print Assumptions C24_column_2141.

(* SCIM mode: the same; only "other part incomplete" is reported one byte early, for an
   input that could still be completed *)
Theorem C24_column_scim : forall m s m' uo e, reachable m -> m_parsingMode m = PRFC7643Only ->
  machine_Parse m s = Ret (m', uo, Some e) ->
  (e_kind e <> ErrSCIMOtherIncomplete -> exists x y, s = x ++ y /\ e_col e = zlen x /\
    (exists t u, parsed PRFC7643Only (x ++ t) u) /\
    (forall c y' t u, y = c :: y' -> ~ parsed PRFC7643Only (x ++ c :: t) u)) /\
  (e_kind e = ErrSCIMOtherIncomplete -> e_col e = zlen s - 1 /\ exists t u, parsed PRFC7643Only (s ++ t) u).
Proof.
  intros m s m' uo e H Hm Hp. apply columnscim. apply (parse_errscim m s m' uo (Some e)); auto.
Qed.
Print Assumptions C24_column_scim.

(* RFC 8141 mode: x is the longest beginning of the input that can be completed to an
   accepted text.  The column is the length of x, with two exceptions.  A second "?+"
   (or "?=", or a lone "?") right at the start of a component is read before the error is
   reported: h is what was read, and the column is behind it.  The informal namespace
   error is reported one byte early. *)
Theorem C24_column_8141 : forall m s m' uo e, reachable m -> m_parsingMode m = PRFC8141Only ->
  machine_Parse m s = Ret (m', uo, Some e) ->
  exists x h y, s = x ++ h ++ y /\
    (h = [] \/ exists x' o, (o = B "?+" \/ o = B "?=") /\ x = x' ++ o /\ (h = B "?" \/ h = o)) /\
    (e_kind e <> Err8141InformalID -> e_col e = zlen x + zlen h) /\
    (e_kind e = Err8141InformalID -> h = [] /\ e_col e = zlen x - 1) /\
    (exists t u, parsed PRFC8141Only (x ++ t) u) /\
    (forall c z t u, h ++ y = c :: z -> ~ parsed PRFC8141Only (x ++ c :: t) u).
Proof.
  intros m s m' uo e H Hm Hp. apply column8141. apply (parse_err8141 m s m' uo (Some e)); auto.
Qed.
Print Assumptions C24_column_8141.

Example C24_example_8141 :
  (exists m, machine_Parse (NewMachine [PRFC8141Only]) (B "urn:ab:c?+x{") = Ret (m, None, Some (mkErr Err8141MalformedRComp 11))) /\
  (exists m, machine_Parse (NewMachine [PRFC8141Only]) (B "urn:ab:c?+?+x") = Ret (m, None, Some (mkErr Err8141RComponentStart 12))) /\
  (exists m, machine_Parse (NewMachine [PRFC8141Only]) (B "urn:urn-a:c") = Ret (m, None, Some (mkErr Err8141InformalID 7))).
Proof. repeat split; eexists; vm_compute; reflexivity. Qed.

Example C24_example :
  (exists m, machine_Parse (NewMachine []) (B "urn:a-b:c{d") = Ret (m, None, Some (mkErr ErrSpecificString 9))) /\
  (exists m, machine_Parse (NewMachine [PRFC7643Only]) (B "urn:ietf:params:scim:api:x:y%4") =
     Ret (m, None, Some (mkErr ErrSCIMOtherIncomplete 29))).
Proof. split; eexists; vm_compute; reflexivity. Qed.

(* the look-ahead error is not at the first offending byte: the text up to its column
   need not be a beginning of any accepted text *)
Theorem C24_lookahead_refuted : exists s m' k, machine_Parse (NewMachine []) s = Ret (m', None, Some (mkErr ErrNoUrnWithinID k)) /\
  forall x y t u, s = x ++ y -> zlen x = k -> ~ parsed PRFC2141Only (x ++ t) u.
Proof.
  exists (B "urn:u%%:x"). eexists _, 7. split; [vm_compute; reflexivity|].
  intros x y t u E Hl. assert (x = B "urn:u%%") as ->.
  { assert (K : x = firstn 7 (B "urn:u%%:x")) by (rewrite E, firstn_app; unfold zlen in Hl;
      replace (7 - List.length x)%nat with O by lia; rewrite firstn_O, app_nil_r; symmetry; apply firstn_all2; lia). exact K. }
  destruct (u_lookahead_dec (B "urn:u%%" ++ t)) as [Hd|Hd].
  - apply (err2141_not _ (mkErr ErrNoUrnWithinID 7)). right; left. exists (B "urn"), (B "u%%" ++ t). split; [reflexivity|]. split; [reflexivity|]. split; [exact Hd|reflexivity].
  - apply (err2141_not _ (mkErr ErrIdentifier 5)). right; right; left. exists (B "urn"), (B "u"), (B "%%" ++ t).
    split; [reflexivity|]. split; [reflexivity|]. split; [exact Hd|]. split; [|reflexivity]. right.
    split; [exists "u"%byte, []; auto|]. split; [reflexivity|]. split; [cbn; lia|]. right. exists "%"%byte, ("%"%byte :: t).
    split; [reflexivity|]. split; [discriminate|left; reflexivity].
Qed.
Print Assumptions C24_lookahead_refuted.

(* ================================================================ C25 *)
(* which error, at which column: exactly those of the text-level specification *)
Theorem C25_errors_2141 : forall m s m' uo eo, reachable m -> m_parsingMode m = PRFC2141Only ->
  machine_Parse m s = Ret (m', uo, eo) -> forall e, eo = Some e <-> err2141 s e.
Proof. exact parse_err2141. Qed.
Print Assumptions C25_errors_2141.

Theorem C25_errors_scim : forall m s m' uo eo, reachable m -> m_parsingMode m = PRFC7643Only ->
  machine_Parse m s = Ret (m', uo, eo) -> forall e, eo = Some e <-> errscim s e.
Proof. exact parse_errscim. Qed.
Print Assumptions C25_errors_scim.

Theorem C25_errors_8141 : forall m s m' uo eo, reachable m -> m_parsingMode m = PRFC8141Only ->
  machine_Parse m s = Ret (m', uo, eo) -> forall e, eo = Some e <-> err8141 s e.
Proof. exact parse_err8141. Qed.
Print Assumptions C25_errors_8141.

Example C25_example_8141 :
  err8141 (B "urn:ab:c?=d#%4g%") (mkErr ErrHex 16) /\ err8141 (B "urn:ab:c?=d?=e") (mkErr Err8141QComponentStart 13) /\
  err8141 (B "urn:a:c") (mkErr Err8141Identifier 5) /\ err8141 (B "urn:ab:/c") (mkErr Err8141SpecificString 7).
Proof. repeat split; apply ref8141_err; vm_compute; reflexivity. Qed.

(* every mode and entry point: the error is that of the reference walk of Ref.v *)
Theorem C25_errors_walk : forall m s m' uo eo, reachable m -> machine_Parse m s = Ret (m', uo, eo) ->
  forall e, eo = Some e <-> ref_parse (m_startParsingAt m) (m_parsingMode m) s = OErr e.
Proof.
  intros m s m' uo eo H Hp e. apply parse_reach_inv in Hp; auto. destruct Hp as (_ & _ & _ & Hp). apply outcome_eq in Hp.
  destruct uo, eo; try contradiction; rewrite Hp; split; intros K; try discriminate K; injection K as ->; reflexivity.
Qed.
Print Assumptions C25_errors_walk.

Theorem C25_column_bounds : forall m s m' uo e, reachable m ->
  machine_Parse m s = Ret (m', uo, Some e) -> 0 <= e_col e <= zlen s.
Proof. exact column_bounds. Qed.
Print Assumptions C25_column_bounds.

Example C25_example :
  err2141 (B "urn:a-b:c%4") (mkErr ErrHex 11) /\
  errscim (B "urn:ietf:params:scim:apX") (mkErr ErrSCIMType 23) /\
  (exists m, machine_Parse (NewMachine [PRFC8141Only]) (B "urn:ab:c?+x?+y") = Ret (m, None, Some (mkErr Err8141RComponentStart 13))) /\
  perr_Error (mkErr ErrHex 11) = "expecting the percent encoded chars to be well-formed (%alnum{2}) [col 11]"%string.
Proof.
  repeat split; try (eexists; vm_compute; reflexivity).
  - apply ref2141_err. vm_compute. reflexivity.
  - apply refscim_err. vm_compute. reflexivity.
Qed.
