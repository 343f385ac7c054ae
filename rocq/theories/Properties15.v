(* C57: exactly what of func Parse is executed. *)
From Verif Require Import GoBase MachineSyntax MachineTables Machine Api Live PropsLive2.
Local Open Scope Z_scope.

(* ---- C57 ------------------------------------------------------------------------------------- *)
(* what passes says is about the calls: a call of Parse that returns m' ended at _out in m' *)
Theorem C57_calls : forall m s m' uo eo, machine_Parse m s = Ret (m', uo, eo) -> exists u, passes m s LOut (m', u).
Proof. exact parse_passes. Qed.
Print Assumptions C57_calls.

(* The cases of the switch at _resume that run, in one of the three listed modes, are those of
   the states 1 to 193 but 134 and 171; and a text can end in each of these states. *)
Theorem C57_states : forall k,
  (exists m s x, reachable m /\ In (m_parsingMode m) [PRFC2141Only; PRFC7643Only; PRFC8141Only] /\
     passes m s LResume x /\ m_cs (fst x) = k) <->
  (1 <= k <= 193)%N /\ k <> 134%N /\ k <> 171%N.
Proof. exact state_iff. Qed.
Print Assumptions C57_states.

Theorem C57_ends : forall k, k <> 0%N ->
  (exists m s x, reachable m /\ In (m_parsingMode m) [PRFC2141Only; PRFC7643Only; PRFC8141Only] /\
     passes m s LTestEof x /\ m_cs (fst x) = k) <->
  (1 <= k <= 193)%N /\ k <> 134%N /\ k <> 171%N.
Proof. exact end_iff. Qed.
Print Assumptions C57_ends.

(* in an unlisted mode too the cases 134 and 171 do not run *)
Theorem C57_dead_states : forall m s x, reachable m ->
  (passes m s LResume x -> m_cs (fst x) <> 0%N /\ ~ In (m_cs (fst x)) [134; 171]%N) /\
  (passes m s LTestEof x -> ~ In (m_cs (fst x)) [134; 171]%N).
Proof. exact states_never. Qed.
Print Assumptions C57_dead_states.

(* every label trN and every block of statements (fN, the end-of-text switch, the to-state
   switch) is executed in some call in a listed mode *)
Theorem C57_labels : forall n, tr_block n <> None -> exists m s x,
  reachable m /\ In (m_parsingMode m) [PRFC2141Only; PRFC7643Only; PRFC8141Only] /\ passes m s (LTr n) x.
Proof. exact label_all. Qed.
Print Assumptions C57_labels.

Theorem C57_blocks : forall q b, block_of q = Some b -> exists m s x,
  reachable m /\ In (m_parsingMode m) [PRFC2141Only; PRFC7643Only; PRFC8141Only] /\ executes m s q x.
Proof. exact block_all. Qed.
Print Assumptions C57_blocks.

(* Every if statement takes both ways in a listed mode, except for the outcomes in the two
   lists; those of the second list are met in a mode that is not listed, those of the first
   in no call. *)
Theorem C57_branches : forall q b p v, block_of q = Some b -> In p (ifs 0 b) ->
  ((exists m s, reachable m /\ In (m_parsingMode m) [PRFC2141Only; PRFC7643Only; PRFC8141Only] /\ takes m s q p v) <->
   ~ In (q, p, v) never /\ ~ In (q, p, v) never_listed).
Proof. exact branch_iff. Qed.
Print Assumptions C57_branches.

Theorem C57_branches_any : forall q b p v, block_of q = Some b -> In p (ifs 0 b) ->
  ((exists m s, reachable m /\ takes m s q p v) <-> ~ In (q, p, v) never).
Proof. exact branch_any_iff. Qed.
Print Assumptions C57_branches_any.

(* no if statement is missing in the above *)
Theorem C57_places : forall m s q p v, takes m s q p v -> exists b, block_of q = Some b /\ In p (ifs 0 b).
Proof. exact takes_if. Qed.
Print Assumptions C57_places.

(* ---- cases ------------------------------------------------------------------------------------- *)
(* the second if of f19 is evaluated, and to false; its other outcome is dead code *)
Example C57_example : exists b,
  f_block 19 = Some b /\ ifs 0 b = [[0%nat]; [1%nat]] /\
  ~ In (PF 19, [1%nat], false) never /\ ~ In (PF 19, [1%nat], false) never_listed /\ In (PF 19, [1%nat], true) never /\
  tr_block 249 <> None /\ tr_block 250 = None.
Proof.
  eexists. split; [reflexivity|]. split; [reflexivity|]. unfold never, never_listed. cbn [In].
  split; [intuition congruence|]. split; [intuition congruence|]. split; [auto|]. split; [discriminate|reflexivity].
Qed.
Example C57_example_calls : exists m' uo eo, machine_Parse (NewMachine []) (B "urn:a1:b") = Ret (m', uo, eo).
Proof. vm_compute. eauto. Qed.
