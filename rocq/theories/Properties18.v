(* Property C60: ints of fixed width and slices with spare capacity. *)
From Verif Require Import GoBase MachineSyntax MachineTables Machine MachineInt Urn Api PropsInt.
Local Open Scope Z_scope.

(* ================================================================ C60 *)
(* With ints of w bits that wrap around, and whatever bytes the backing array holds behind
   the caller's slice, a call returns what it returns with integers without bounds and a
   slice that ends at its length: the same URN, error, machine and buffer.  A slice has
   fewer than 2^(w-1) bytes, its length being an int. *)
Theorem C60_machine : forall w spare m s, reachable m -> 4 <= w -> zlen s < 2 ^ (w - 1) ->
  machine_Parse_w w spare m s = machine_Parse m s.
Proof. exact parse_int. Qed.
Print Assumptions C60_machine.

Theorem C60_Parse : forall w spare s options, 4 <= w -> zlen s < 2 ^ (w - 1) ->
  Parse_w w spare s options = Parse s options.
Proof. exact Parse_int. Qed.
Print Assumptions C60_Parse.

(* the length is a hypothesis that is met exactly: with 8 bits, a text of 127 bytes is read,
   and one of 128 bytes, whose length is no int of 8 bits, would stop with a panic *)
Example C60_example :
  let s := B "urn:ab:" ++ repeat "b"%byte 120 in
  reachable (NewMachine [PRFC8141Only]) /\ zlen s < 2 ^ (8 - 1) /\
  match machine_Parse_w 8 (B "#spare") (NewMachine [PRFC8141Only]) s with
  | Ret (_, Some u, None) => u_SS u = repeat "b"%byte 120
  | _ => False end /\
  machine_Parse_w 8 [] (NewMachine [PRFC8141Only]) (s ++ B "b") = Panic /\
  Parse_w 32 (B "%zz") (B "urn:ietf:params:scim:api:m") [PRFC7643Only] = Parse (B "urn:ietf:params:scim:api:m") [PRFC7643Only] /\
  wrap 8 127 = 127 /\ wrap 8 128 = -128.
Proof. split; [apply reach_new|]. do 5 (split; [vm_compute; reflexivity|]). vm_compute. reflexivity. Qed.

(* An overflow that is only out of reach because of where the text is: the test of the three
   bytes behind a u (machine.go:4359-4370) computes m.p + 3 and compares it with m.pe.  In the
   last places of the longest slices the sum wraps around and the comparison goes wrong; the
   block runs at the first and at the fifth byte only. *)
Theorem C60_lookahead : forall m s x, reachable m -> Live.passes m s (LF 1) x -> 0 <= m_p (fst x) <= 4.
Proof. exact lookahead_at. Qed.
Print Assumptions C60_lookahead.

Example C60_lookahead_example :
  (exists x, Live.passes (NewMachine []) (B "urn:uxyz:a") (LF 1) x /\ m_p (fst x) = 4) /\
  eval_cond_w 8 (CPosLtPe 3) (set_p 125 (parse_init (NewMachine []) (repeat "u"%byte 127)), zeroURN) = Ret true /\
  eval_cond (CPosLtPe 3) (set_p 125 (parse_init (NewMachine []) (repeat "u"%byte 127)), zeroURN) = Ret false.
Proof.
  split; [|split; reflexivity].
  assert (S : forall k l x, Live.passes (NewMachine []) (B "urn:uxyz:a") l x ->
    match nsteps k l x with Some (l', x') => Live.passes (NewMachine []) (B "urn:uxyz:a") l' x' | None => True end).
  { induction k as [|k IH]; intros l x H; cbn [nsteps]; [exact H|].
    destruct (step l x) as [[l' x']| |] eqn:E; try exact Logic.I. apply IH. eapply Live.passes_step; eassumption. }
  pose proof (S 17%nat _ _ (Live.passes_start _ _)) as H.
  destruct (nsteps 17 LEnter _) as [[l x]|] eqn:E in H; [|vm_compute in E; discriminate E].
  assert (L : l = LF 1 /\ m_p (fst x) = 4).
  { assert (Q : option_map (fun r => (fst r, m_p (fst (snd r)))) (Some (l, x)) = Some (LF 1, 4)) by (rewrite <- E; vm_compute; reflexivity).
    cbn in Q. split; congruence. }
  destruct L as [-> L]. exists x. auto.
Qed.
