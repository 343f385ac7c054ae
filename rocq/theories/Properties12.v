(* C54: what a machine answers, over the whole history of a program (Heap.v). *)
From Verif Require Import GoBase MachineSyntax MachineTables Machine Urn Json Heap Spec Api SpecHeap PropsHeap PropsHeap2.
Local Open Scope Z_scope.
Local Open Scope list_scope.

(* ================================================================ C54 *)
(* m.Error() repeats the error of the last m.Parse, whatever was called in between on other
   objects or to change the mode of m, and is nil before the first *)
Theorem C54_error : forall uni newer h l a, history uni newer empty_heap h l -> (a < List.length (h_machines h))%nat ->
  exec uni newer (MErrors (Some a)) h = Ret (h, AnError (last_error (Some a) l)).
Proof. exact machine_error. Qed.
Print Assumptions C54_error.

(* m.Parse answers as a new machine does that is given, in order, the modes m was given;
   nothing else in the history matters *)
Theorem C54_parse : forall uni newer h l a s, history uni newer empty_heap h l -> (a < List.length (h_machines h))%nat ->
  exists m' uo eo h' p, machine_Parse (NewMachine (modes (Some a) l)) s = Ret (m', uo, eo) /\
    exec uni newer (MParses (Some a) s) h = Ret (h', AURNerr p eo) /\
    match uo with None => p = None /\ h_urns h' = h_urns h /\ h_scims h' = h_scims h | Some u => exists q, p = Some q /\ fresh_urn h h' q u end.
Proof. exact machine_history. Qed.
Print Assumptions C54_parse.

(* every run of a program is such a history *)
Theorem C54_histories : forall uni newer ops h xs, program uni newer ops empty_heap = Ret (h, xs) ->
  (forall pre o post h1 ys, ops = pre ++ o :: post -> program uni newer pre empty_heap = Ret (h1, ys) -> valid o h1) ->
  history uni newer empty_heap h (rev (combine ops xs)).
Proof. exact program_history. Qed.
Print Assumptions C54_histories.

(* two machines, a failing and a succeeding call, a mode change *)
Definition calls : list op := [NewMachines []; MParses (Some 0%nat) (B "urn:a"); NewMachines [PRFC8141Only]; MParses (Some 1%nat) (B "urn:ab:c#f");
  MModes (Some 0%nat) PRFC7643Only].
Definition after : heap := match program (fun s => s) true calls empty_heap with Ret (h, _) => h | _ => empty_heap end.
Example C54_example : exists xs, history (fun s => s) true empty_heap after (rev (combine calls xs)) /\
  last_error (Some 0%nat) (rev (combine calls xs)) = Some (mkErr ErrIdentifier 5) /\ last_error (Some 1%nat) (rev (combine calls xs)) = None /\
  modes (Some 0%nat) (rev (combine calls xs)) = [PRFC2141Only; PRFC7643Only] /\ modes (Some 1%nat) (rev (combine calls xs)) = [PRFC8141Only].
Proof.
  assert (P : exists xs, program (fun s => s) true calls empty_heap = Ret (after, xs) /\
    xs = [AMachine (Some 0%nat); AURNerr None (Some (mkErr ErrIdentifier 5)); AMachine (Some 1%nat); AURNerr (Some 0%nat) None; Nothing]).
  { unfold after. destruct (program (fun s => s) true calls empty_heap) as [[h xs]| |] eqn:E; [|vm_compute in E; discriminate E..].
    exists xs. split; [reflexivity|]. assert (K : Ret (snd (h, xs)) = match program (fun s => s) true calls empty_heap with Ret r => Ret (snd r) | Panic => Panic | OutOfFuel => OutOfFuel end)
      by (rewrite E; reflexivity). vm_compute in K. injection K as ->. reflexivity. }
  destruct P as (xs & P & ->). eexists. split; [apply (C54_histories _ _ _ _ _ P)|repeat split].
  intros pre o post h1 ys E Hp.
  destruct pre as [|o1 pre]; [injection E as <- <-; exact I|]. injection E as <- E.
  destruct pre as [|o2 pre]; [injection E as <- <-; injection Hp as <- <-; repeat constructor|]. injection E as <- E.
  destruct pre as [|o3 pre]; [injection E as <- <-; exact I|]. injection E as <- E.
  destruct pre as [|o4 pre]; [injection E as <- <-; vm_compute in Hp; injection Hp as <- <-; repeat constructor|]. injection E as <- E.
  destruct pre as [|o5 pre]; [injection E as <- <-; vm_compute in Hp; injection Hp as <- <-; repeat constructor|]. injection E as _ E.
  destruct pre; discriminate E.
Qed.
