(* C63: the errors each mode can report, and the columns they can carry. *)
From Verif Require Import GoBase MachineSyntax MachineTables Machine Urn SpecReport Api PropsReport.
Local Open Scope Z_scope.

(* left to right: whatever the text and the history of the machine, nothing else is
   reported; right to left: every entry of the table occurs for some text *)
Theorem C63_2141 : forall k c,
  (exists m s m' uo, reachable m /\ m_parsingMode m = PRFC2141Only /\ machine_Parse m s = Ret (m', uo, Some (mkErr k c)))
  <-> reports2141 k c.
Proof. exact report2141. Qed.
Print Assumptions C63_2141.
Theorem C63_scim : forall k c,
  (exists m s m' uo, reachable m /\ m_parsingMode m = PRFC7643Only /\ machine_Parse m s = Ret (m', uo, Some (mkErr k c)))
  <-> reportsscim k c.
Proof. exact reportscim. Qed.
Print Assumptions C63_scim.
Theorem C63_8141 : forall k c,
  (exists m s m' uo, reachable m /\ m_parsingMode m = PRFC8141Only /\ machine_Parse m s = Ret (m', uo, Some (mkErr k c)))
  <-> reports8141 k c.
Proof. exact report8141. Qed.
Print Assumptions C63_8141.

(* no message of machine.go:9-27 is dead, and only two are shared between modes *)
Theorem C63_used : forall k,
  (exists mode c m s m' uo, (mode = PRFC2141Only \/ mode = PRFC7643Only \/ mode = PRFC8141Only) /\
     reachable m /\ m_parsingMode m = mode /\ machine_Parse m s = Ret (m', uo, Some (mkErr k c))) /\
  (forall m s m' uo c m2 s2 m2' uo2 c2, reachable m -> reachable m2 ->
     machine_Parse m s = Ret (m', uo, Some (mkErr k c)) -> machine_Parse m2 s2 = Ret (m2', uo2, Some (mkErr k c2)) ->
     1 <= m_parsingMode m <= 3 -> 1 <= m_parsingMode m2 <= 3 -> m_parsingMode m <> m_parsingMode m2 -> k = ErrPrefix \/ k = ErrHex).
Proof. exact report_used. Qed.
Print Assumptions C63_used.

(* entries at the edges of the tables, and the columns next to them *)
Example C63_example :
  let at_ mode s := match machine_Parse (NewMachine [mode]) s with Ret (_, _, Some e) => Some (e_kind e, e_col e) | _ => None end in
  at_ PRFC2141Only (B "urn:abcdefghijabcdefghijabcdefghij12") = Some (ErrIdentifier, 36) /\ reports2141 ErrIdentifier 36 /\ ~ reports2141 ErrIdentifier 37 /\
  at_ PRFC2141Only (B "urn:a:") = Some (ErrSpecificString, 6) /\ ~ reports2141 ErrSpecificString 5 /\
  at_ PRFC7643Only (B "urn:ietf:params:scim:api:a:") = Some (ErrSCIMOtherIncomplete, 26) /\ ~ reportsscim ErrSCIMOtherIncomplete 25 /\
  at_ PRFC7643Only (B "urn:ietf:params:scim:schemas") = Some (ErrSCIMType, 28) /\ ~ reportsscim ErrSCIMType 29 /\ ~ reportsscim ErrHex 30 /\
  at_ PRFC8141Only (B "urn:ab:c?+?+") = Some (Err8141RComponentStart, 12) /\ ~ reports8141 Err8141RComponentStart 11 /\
  at_ PRFC8141Only (B "urn:ab:c?=") = Some (Err8141MalformedQComp, 10) /\ ~ reports8141 ErrSpecificString 10.
Proof. cbv zeta. repeat split; try (vm_compute; reflexivity); try discriminate; cbn; try tauto; intros H; try (destruct H); try (apply H; reflexivity); auto. Qed.
