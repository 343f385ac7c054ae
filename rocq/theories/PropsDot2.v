(* The text of docs/urn.dot is the tables of DotTables.v. *)
From Verif Require Import GoBase DotTables DotSrc DotParse.
Lemma dot_text : read_dot urn_dot = Some (mkDrawing dot_edges dot_defs dot_eofs dot_finals dot_entries (Some 1%N)).
Proof. vm_compute. reflexivity. Qed.
Lemma dot_states : forall n, In n (flat_map (fun e => let '(a, b, _, _) := e in [a; b]) dot_edges) -> (1 <= n <= dot_last)%N.
Proof.
  intros n I. assert (forallb (fun n => (1 <=? n) && (n <=? dot_last))%N (flat_map (fun e => let '(a, b, _, _) := e in [a; b]) dot_edges) = true) as F
    by (vm_compute; reflexivity).
  rewrite forallb_forall in F. apply F in I. rewrite Bool.andb_true_iff, !N.leb_le in I. exact I.
Qed.
