(* docs/urn.dot, the drawing the makefile makes of machine.go.rl (makefile:38-40), as a
   machine: DotTables.v has the edges, this file says how they are walked. *)
From Coq Require Import Strings.String.
From Verif Require Import GoBase MachineSyntax MachineTables Machine RagelSem RagelRl DotTables.
Local Open Scope N_scope.

Section Drawing.
  (* What err_parse does is not known: machine.go.rl has no action of this name.  It is a
     parameter, and what is said below holds whatever it does. *)
  Context (err_parse : list stmt).

  (* the entry point of a name (docs/urn.dot:444-449); 0 if the drawing has none *)
  Definition entry_of (name : string) : N :=
    match find (fun e => String.eqb (fst e) name) dot_entries with Some e => snd e | None => 0 end.

  (* A named action does what machine.go.rl makes of the name (RagelRl.body).  Simplification:
     the drawing does not show the three actions written in place, on the colon behind the
     prefix of main, urn_only and scim_only (docs/urn.dot:214, 339, 422); they are read as
     jumps to the entry points urn, urn and scim, which nothing else leads to. *)
  Definition dot_body (a : dact) : list stmt :=
    match a with
    | Named a => body (entry_of "main") (entry_of "fail") a
    | ErrParse => err_parse
    | Inline line _ => [SSetCS (entry_of (if line =? 229 then "scim" else "urn")); SGotoAgain]
    end.
  Definition dot_code (l : list dact) : list stmt := flat_map dot_body l.

  Definition coded (e : N * list dact) : N * list stmt := let '(to, c) := e in (to, dot_code c).

  (* the edge drawn from k for byte b: the one whose ranges have b, else DEF, which leads to
     an error state, as does a byte without an edge *)
  Definition takes (b : N) (e : N * N * list (N * N) * list dact) : bool :=
    let '(_, _, ranges, _) := e in existsb (fun r => (fst r <=? b) && (b <=? snd r)) ranges.
  Definition of_state {T} (k : N) (l : list (N * T)) : option T :=
    match find (fun e => fst e =? k) l with Some e => Some (snd e) | None => None end.
  Definition acts_at (k : N) (l : list (N * list dact)) : list dact :=
    match of_state k l with Some c => c | None => [] end.
  Definition edges_from (k : N) : list (N * N * list (N * N) * list dact) :=
    filter (fun e => let '(from, _, _, _) := e in from =? k) dot_edges.
  Definition dot_edge (k b : N) : N * list dact :=
    match find (takes b) (edges_from k) with
    | Some (_, to, _, c) => (to, c)
    | None => (0, acts_at k dot_defs)
    end.
  (* a drawn state: an edge for each byte, double circle or not, the edge EOF; to-state actions
     are not drawn *)
  Definition dot_node (k : N) : node (list stmt) :=
    mkNode (map (fun b => coded (dot_edge k b)) all_bytes)
      (existsb (N.eqb k) dot_finals) (dot_code (acts_at k dot_eofs)) [].
  Definition dot_nodes : list (node (list stmt)) := map (fun k => dot_node (N.of_nat k)) (seq 0 (S (N.to_nat dot_last))).

  (* The drawing walked over a text from the entry point of a name, with the Go code around
     the machine as in machine.go (RagelSem.rl_Parse): every byte is a block of its own. *)
  Definition dot_Parse (name : string) (mode : Z) (input : bytes) : res (bytes * option URN * option perr) :=
    rl_Parse all_bytes dot_nodes (N.eqb (entry_of "fail")) (entry_of name) mode input.
End Drawing.
