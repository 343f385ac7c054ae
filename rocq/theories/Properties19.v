(* C61: the drawing docs/urn.dot. *)
From Coq Require Import Strings.String.
From Verif Require Import GoBase MachineSyntax MachineTables Machine Urn Api RagelSem RagelRl DotTables Dot PropsDot DotSrc DotParse PropsDot2.
Local Open Scope Z_scope.

(* ---- C61 --------------------------------------------------------------------------------- *)
(* Walking the drawing from main, urn_only or scim_only gives what Parse gives - the record,
   the error and the bytes left in the caller's slice - on any machine that starts in the RFC
   2141 or the SCIM part, in any parsing mode, whatever the action err_parse, which only the
   drawing has, would do. *)
Theorem C61_drawing : forall err_parse m s m' u e name,
  In (m_startParsingAt m, name) [(en_main, "main"); (en_main, "urn_only"); (en_scim_only, "scim_only")]%string ->
  machine_Parse m s = Ret (m', u, e) -> dot_Parse err_parse name (m_parsingMode m) s = Ret (m_data m', u, e).
Proof. exact (fun ep m s m' u e name => dot_machine ep m s name m' u e). Qed.
Print Assumptions C61_drawing.

(* The two modes: both answer, and the same. *)
Theorem C61_modes : forall err_parse s mode name,
  In (mode, name) [(PRFC2141Only, "main"); (PRFC2141Only, "urn_only"); (PRFC7643Only, "scim_only")]%string ->
  exists m' u e, machine_Parse (NewMachine [mode]) s = Ret (m', u, e) /\ dot_Parse err_parse name mode s = Ret (m_data m', u, e).
Proof. exact dot_modes. Qed.
Print Assumptions C61_modes.

(* The drawing is not one of the whole machine: Parse accepts a text in RFC 8141 mode that no
   walk from an entry point of the drawing accepts, in any mode, whatever err_parse does. *)
Theorem C61_8141_refuted : exists s,
  (exists m' u, machine_Parse (NewMachine [PRFC8141Only]) s = Ret (m', Some u, None)) /\
  forall err_parse mode name, In name (map fst dot_entries) -> exists d e, dot_Parse err_parse name mode s = Ret (d, None, e).
Proof.
  exists (B "urn:ab:c#f"). split; [vm_compute; eauto|]. intros ep mode name I. pose proof (dot_fragment ep mode name I) as H.
  destruct (dot_Parse ep name mode _) as [[[d [u|]] e]| |]; try discriminate H. eauto.
Qed.
Print Assumptions C61_8141_refuted.

(* The drawing is the text of docs/urn.dot, byte by byte in DotSrc.v, as DotParse.v reads it:
   edges, DEF and EOF edges, double circles, entry points, the start. *)
Theorem C61_text : read_dot urn_dot = Some (mkDrawing dot_edges dot_defs dot_eofs dot_finals dot_entries (Some 1%N)) /\
  (forall n, In n (flat_map (fun e => let '(a, b, _, _) := e in [a; b]) dot_edges) -> (1 <= n <= dot_last)%N).
Proof. exact (conj dot_text dot_states). Qed.
Print Assumptions C61_text.
Example C61_ex_text :
  option_map (fun d => (d_edges d, d_eofs d, d_finals d, d_entries d))
    (read_dot (B "node [ shape = doublecircle ];" ++ [x0a] ++ B "7;" ++ [x0a] ++ B "en_3 -> 3 [ label = ""x"" ];" ++ [x0a] ++
               B "3 -> 7 [ label = ""'a'..'c', 0, '\\t' / mark, 2:5"" ];" ++ [x0a] ++ B "7 -> eof_7 [ label = ""EOF / err_parse"" ];"))%list =
    Some ([(3, 7, [(97, 99); (0, 0); (9, 9)], [Named a_mark; Inline 2 5])]%N, [(7%N, [ErrParse])], [7%N], [("x"%string, 3%N)]) /\
  read_dot (B "3 -> 7 [ label = ""'a' / nothing"" ];") = None /\ read_dot (B "3 -> eof_7 [ label = ""EOF / mark"" ];") = None.
Proof. vm_compute. repeat split. Qed.

(* The drawing alone: an accepted text of each part, an error of each, and the escape that is
   complete in RFC 2141 mode only; err_parse is given something it must not do. *)
Definition c61_seen (r : res (bytes * option URN * option perr)) :=
  match r with
  | Ret (d, u, e) => Some (d, match u with Some v => Some (u_norm v, u_ID v, u_SS v, u_kind v) | None => None end, e)
  | _ => None
  end.
Example C61_ex :
  map c61_seen (let bad := [SSetCS 1; SDecP] in
    [dot_Parse bad "main" PRFC2141Only (B "URN:nid:a%2F");
     dot_Parse bad "urn_only" PRFC2141Only (B "urn:uci:x");
     dot_Parse bad "main" PRFC2141Only (B "urn:a:b%2");
     dot_Parse bad "scim_only" PRFC7643Only (B "urn:ietf:params:scim:api:x");
     dot_Parse bad "scim_only" PRFC7643Only (B "urn:ietf:params:scim:api:x:")]) =
  [Some (B "URN:nid:a%2F", Some (B "a%2f", B "nid", B "a%2F", KRFC2141), None);
   Some (B "urn:uci:x", None, Some (mkErr ErrNoUrnWithinID 7));
   Some (B "urn:a:b%2", None, Some (mkErr ErrHex 9));
   Some (B "urn:ietf:params:scim:api:x", Some (B "api:x", B "ietf:params:scim", B "api:x", KRFC7643), None);
   Some (B "urn:ietf:params:scim:api:x:", None, Some (mkErr ErrSCIMOtherIncomplete 26))].
Proof. vm_compute. reflexivity. Qed.
(* no byte has two edges from a state; all edges lead to drawn states *)
Example C61_ex_edges :
  forallb (fun k => forallb (fun b => Nat.leb (List.length (filter (takes b) (edges_from (N.of_nat k)))) 1) all_bytes) (seq 1 95) = true /\
  forallb (fun e => let '(a, b, _, _) := e in (N.ltb 0 a && N.leb a dot_last && N.ltb 0 b && N.leb b dot_last)%bool) dot_edges = true.
Proof. split; vm_compute; reflexivity. Qed.
