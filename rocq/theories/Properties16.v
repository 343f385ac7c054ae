(* C58: NewMachine and Parse with any options. *)
From Verif Require Import GoBase MachineSyntax MachineTables Machine Urn OptFn PropsOptFn.
Local Open Scope Z_scope.

(* ---- C58 ------------------------------------------------------------------------------------- *)
(* The machine that NewMachine returns parses as one made with WithParsingMode options alone,
   for the modes that its options gave it, in order, whatever else they did. *)
Theorem C58_behaves : forall l t m, NewMachine_with l = (t, Ret m) -> forall s,
  machine_Parse m s = machine_Parse (NewMachine (flat_map (fun e => match e with EvMode x => [x] | _ => [] end) t)) s.
Proof. intros l t m H s. apply PropsA.parse_init_eq. exact (proj1 (proj2 (new_behaves l t m H))). Qed.
Print Assumptions C58_behaves.

(* Its Error method answers with the error of the last Parse inside of an option; nil when
   there was none. *)
Theorem C58_error : forall l t m, NewMachine_with l = (t, Ret m) ->
  (forall t1 s uo eo t2, t = t1 ++ EvParse s uo eo :: t2 -> (forall s' uo' eo', ~ In (EvParse s' uo' eo') t2) -> machine_Error m = eo) /\
  ((forall s uo eo, ~ In (EvParse s uo eo) t) -> machine_Error m = None).
Proof. exact new_error_last. Qed.
Print Assumptions C58_error.

(* The calls an option makes: before a mode is given Parse answers nil, nil; after that it
   answers as a machine made for the modes so far; Error repeats the last answer. *)
Theorem C58_inside : forall l t r, NewMachine_with l = (t, r) -> forall t1 e t2, t = t1 ++ e :: t2 ->
  let modes := flat_map (fun e => match e with EvMode x => [x] | _ => [] end) t1 in
  match e with
  | EvParse s uo eo => (modes = [] -> uo = None /\ eo = None) /\
                       (modes <> [] -> exists m', machine_Parse (NewMachine modes) s = Ret (m', uo, eo))
  | EvMode _ => True
  | EvError eo =>
      (forall t1' s uo eo' t2', t1 = t1' ++ EvParse s uo eo' :: t2' -> (forall s' uo' eo', ~ In (EvParse s' uo' eo') t2') -> eo = eo') /\
      ((forall s uo eo, ~ In (EvParse s uo eo) t1) -> eo = None)
  end.
Proof. exact new_inside. Qed.
Print Assumptions C58_inside.

(* NewMachine panics on a nil option, and otherwise only when an option itself panics. *)
Theorem C58_panics : forall l, exists t r, NewMachine_with l = (t, r) /\
  ((r = Panic /\ (In None l \/ exists c, In (Some c) l /\ may_panic c)) \/ (exists m, r = Ret m /\ ~ In None l)).
Proof. exact new_panics. Qed.
Print Assumptions C58_panics.

(* The function Parse with these options is Parse with the modes they give. *)
Theorem C58_parse : forall u l t m, NewMachine_with l = (t, Ret m) ->
  Parse_with u l = Parse u (flat_map (fun e => match e with EvMode x => [x] | _ => [] end) t).
Proof. exact parse_with. Qed.
Print Assumptions C58_parse.

(* the options that WithParsingMode makes *)
Theorem C58_modes : forall xs, NewMachine_with (map WithParsingMode xs) = (map EvMode xs, Ret (NewMachine xs)).
Proof. exact new_modes. Qed.
Print Assumptions C58_modes.

(* ---- cases ------------------------------------------------------------------------------------- *)
(* an option that tries a text before and after it chooses a mode, and takes another mode when
   the text is rejected *)
Definition trying (s : bytes) : client :=
  KParse s (fun _ _ => KMode PRFC2141Only (KParse s (fun _ eo => match eo with None => KReturn | Some _ => KMode PRFC8141Only KReturn end))).
Example C58_example :
  (exists e m, NewMachine_with [Some (trying (B "urn:ab:c/d"))] =
     ([EvParse (B "urn:ab:c/d") None None; EvMode PRFC2141Only; EvParse (B "urn:ab:c/d") None (Some e); EvMode PRFC8141Only], Ret m) /\
     machine_Error m = Some e /\ exists m' u, machine_Parse m (B "urn:ab:c/d") = Ret (m', Some u, None)) /\
  snd (NewMachine_with [WithParsingMode 1; None]) = Panic /\
  may_panic (KParse [] (fun uo _ => match uo with None => KPanic | Some _ => KReturn end)).
Proof.
  split; [|split; [vm_compute; reflexivity|eapply (mp_parse [] _ None None); constructor]].
  eexists _, _. split; [vm_compute; reflexivity|]. split; [reflexivity|]. eexists _, _. vm_compute. reflexivity.
Qed.
