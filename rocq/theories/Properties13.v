(* C55: machine.go and machine.go.rl. *)
From Verif Require Import GoBase MachineSyntax MachineTables Machine Urn Api RagelSem RagelRl PropsRagel2.
Local Open Scope Z_scope.

(* ---- C55 --------------------------------------------------------------------------------- *)
(* Whatever Parse answers on a reachable machine - the record, the error and the bytes left in
   the caller's slice - the machine that ragel's semantics makes of machine.go.rl answers, from
   the entry point of the same name. *)
Theorem C55_ragel : forall m s m' u e, reachable m -> machine_Parse m s = Ret (m', u, e) ->
  exists entry,
    In (m_startParsingAt m, entry) [(0, 0); (en_main, at_main); (en_scim_only, at_scim); (en_rfc8141_only, at_8141)]%N /\
    spec_Parse entry (m_parsingMode m) s = Ret (m_data m', u, e).
Proof. exact ragel_reach. Qed.
Print Assumptions C55_ragel.

(* The three modes: both answer, and the same. *)
Theorem C55_modes : forall s mode entry,
  In (mode, entry) [(PRFC2141Only, at_main); (PRFC7643Only, at_scim); (PRFC8141Only, at_8141)] ->
  exists m' u e, machine_Parse (NewMachine [mode]) s = Ret (m', u, e) /\ spec_Parse entry mode s = Ret (m_data m', u, e).
Proof. exact ragel_modes. Qed.
Print Assumptions C55_modes.

(* The transitions of the specification's machines are labelled by blocks of bytes; no class
   of bytes in it tells the bytes of a block apart. *)
Theorem C55_blocks : forall p b, In p (flat_map classes [main; scim_only; rfc8141_only; fail]) -> (b < 256)%N ->
  exists k r, nth_error rl_block (N.to_nat b) = Some k /\ nth_error rl_sigma (N.to_nat k) = Some r /\ p b = p r.
Proof. exact (blocks_alike (flat_map classes [main; scim_only; rfc8141_only; fail])). Qed.
Print Assumptions C55_blocks.

(* The specification alone, run on a few texts: an accepted text whose escape is lowered in
   the normal form only, a SCIM name, a name with q- and f-components, and an error of each
   kind of machine; and the number of states of its machines before minimisation. *)
Definition c55_seen (r : res (bytes * option URN * option perr)) :=
  match r with
  | Ret (d, u, e) => Some (d, match u with Some v => Some (u_norm v, u_ID v, u_SS v, u_q v, u_f v) | None => None end, e)
  | _ => None
  end.
Example C55_ex :
  ((List.length f_main, List.length f_scim, List.length f_8141, List.length f_fail),
   map c55_seen [spec_Parse at_main PRFC2141Only (B "URN:nid:a%2F");
                 spec_Parse at_main PRFC2141Only (B "urn:urn:x");
                 spec_Parse at_scim PRFC7643Only (B "urn:ietf:params:scim:api:x");
                 spec_Parse at_8141 PRFC8141Only (B "urn:ab:c?=q#f");
                 spec_Parse at_8141 PRFC8141Only (B "urn:-a:c")]) =
  ((90, 59, 329, 2)%nat,
   [Some (B "URN:nid:a%2F", Some (B "a%2f", B "nid", B "a%2F", [], []), None);
    Some (B "urn:urn:x", None, Some (mkErr ErrNoUrnWithinID 7));
    Some (B "urn:ietf:params:scim:api:x", Some (B "api:x", B "ietf:params:scim", B "api:x", [], []), None);
    Some (B "urn:ab:c?=q#f", Some (B "c", B "ab", B "c", B "q", B "f"), None);
    Some (B "urn:-a:c", None, Some (mkErr Err8141Identifier 4))]).
Proof. vm_cast_no_check (eq_refl ((90, 59, 329, 2)%nat,
   [Some (B "URN:nid:a%2F", Some (B "a%2f", B "nid", B "a%2F", @nil byte, @nil byte), @None perr);
    Some (B "urn:urn:x", None, Some (mkErr ErrNoUrnWithinID 7));
    Some (B "urn:ietf:params:scim:api:x", Some (B "api:x", B "ietf:params:scim", B "api:x", [], []), None);
    Some (B "urn:ab:c?=q#f", Some (B "c", B "ab", B "c", B "q", B "f"), None);
    Some (B "urn:-a:c", None, Some (mkErr Err8141Identifier 4))])). Qed.
(* and the answers are those of the model of machine.go, as C55_modes says *)
Example C55_ex_go : exists m', machine_Parse (NewMachine [PRFC8141Only]) (B "urn:-a:c") = Ret (m', None, Some (mkErr Err8141Identifier 4)).
Proof. eexists. vm_compute. reflexivity. Qed.
