(* Reading docs/urn.dot: the lines ragel -V writes.  A line that is none of those below is
   refused:
     digraph x {   rankdir=LR;   }   ENTRY;   en_n;   eof_n;   err_n [ label=""];
     node [ .. ];                              how the nodes that follow are drawn
     n;                                        a node, under doublecircle: a final state
     ENTRY -> n [ label = "IN" ];   en_n -> n [ label = "name" ];
     n -> eof_n [ label = "EOF / actions" ];   n -> err_n [ label = "DEF / actions" ];
     n -> k [ label = "bytes / actions" ];     bytes: 'c', 'c'..'d', numbers, '\\t' '\\v' '\\f' *)
From Verif Require Import GoBase GoLex RlParse DotTables.
From Verif Require RagelRl RlText.
Local Open Scope string_scope.
Local Open Scope list_scope.
Notation "'get' p <- e ; k" := (match e with Some p => k | None => None end) (at level 200, p pattern, e at level 100, k at level 200).

(* around the first occurrence of sep *)
Fixpoint cut (sep s : bytes) : option (bytes * bytes) :=
  if starts sep s then Some ([], skipn (List.length sep) s)
  else match s with [] => None | c :: r => get (a, b) <- cut sep r; Some (c :: a, b) end.
Fixpoint pieces (fuel : nat) (sep s : bytes) : list bytes :=
  match fuel with
  | O => [s]
  | S n => match cut sep s with Some (a, b) => a :: pieces n sep b | None => [s] end
  end.
(* s between p and q *)
Definition inside (p q : string) (s : bytes) : option bytes :=
  if starts (B p) s then
    let r := skipn (List.length (B p)) s in
    if starts (rev (B q)) (rev r) then Some (rev (skipn (List.length (B q)) (rev r))) else None
  else None.
Definition is (w : string) (s : bytes) : bool := String.eqb w (string_of_list_byte s).
Definition number (s : bytes) : option N :=
  match s with
  | [] => None
  | _ => if forallb digit s then Some (fold_left (fun n c => 10 * n + (Byte.to_N c - 48))%N s 0%N) else None
  end.

(* bytes *)
Definition sym (s : bytes) : option N :=
  match number s with
  | Some n => Some n
  | None =>
      get r <- inside "'" "'" s;
      match r with
      | [c] => Some (Byte.to_N c)
      | _ => if is "\\t" r then Some 9%N else if is "\\v" r then Some 11%N else if is "\\f" r then Some 12%N else None
      end
  end.
Definition range_of (s : bytes) : option (N * N) :=
  match cut (B "..") s with
  | Some (a, b) => get x <- sym a; get y <- sym b; Some (x, y)
  | None => get x <- sym s; Some (x, x)
  end.
Fixpoint all {A T} (f : A -> option T) (l : list A) : option (list T) :=
  match l with [] => Some [] | x :: r => get y <- f x; get ys <- all f r; Some (y :: ys) end.
Definition list_of (s : bytes) : list bytes := pieces (List.length s) (B ", ") s.
(* an action: a name of machine.go.rl, err_parse, line:column *)
Definition act_of (s : bytes) : option dact :=
  if is "err_parse" s then Some ErrParse
  else match RlText.named (string_of_list_byte s) with
       | Some a => Some (Named a)
       | None => get (a, b) <- cut (B ":") s; get x <- number a; get y <- number b; Some (Inline x y)
       end.
Definition label_of (s : bytes) : option (bytes * list dact) :=
  match cut (B " / ") s with
  | Some (a, b) => get l <- all act_of (list_of b); Some (a, l)
  | None => Some (s, [])
  end.

Record drawing := mkDrawing {
  d_edges : list (N * N * list (N * N) * list dact);
  d_defs : list (N * list dact);
  d_eofs : list (N * list dact);
  d_finals : list N;
  d_entries : list (string * N);
  d_start : option N
}.
Definition on_edge (a b lab : bytes) (d : drawing) : option drawing :=
  let '(mkDrawing E D F L N_ St) := d in
  if is "ENTRY" a then get k <- number b; if is "IN" lab then match St with None => Some (mkDrawing E D F L N_ (Some k)) | _ => None end else None
  else match inside "en_" "" a with
  | Some a => get j <- number a; get k <- number b; if N.eqb j k then Some (mkDrawing E D F L ((string_of_list_byte lab, k) :: N_) St) else None
  | None =>
      get k <- number a; get (w, c) <- label_of lab;
      if is "EOF" w then
        get r <- inside "eof_" "" b; get j <- number r; if N.eqb j k then Some (mkDrawing E D ((k, c) :: F) L N_ St) else None
      else if is "DEF" w then
        get r <- inside "err_" "" b; get j <- number r; if N.eqb j k then Some (mkDrawing E ((k, c) :: D) F L N_ St) else None
      else get j <- number b; get rs <- all range_of (list_of w); Some (mkDrawing ((k, j, rs, c) :: E) D F L N_ St)
  end.
(* final: the nodes are double circles *)
Fixpoint p_lines (final : bool) (ls : list bytes) (d : drawing) : option drawing :=
  match ls with
  | [] => let '(mkDrawing E D F L N_ St) := d in Some (mkDrawing (rev E) (rev D) (rev F) (rev L) (rev N_) St)
  | l :: r =>
      let t := blanks (filter (fun c => negb (Byte.eqb c x0a)) l) in
      match t with
      | [] => p_lines final r d
      | _ =>
        if existsb (fun w => is w t) ["digraph urn {"; "rankdir=LR;"; "}"; "ENTRY;"] then p_lines final r d
        else match inside "node [ " " ];" t with
        | Some w => p_lines (match cut (B "shape = doublecircle") w with Some _ => true | None => false end) r d
        | None =>
          match cut (B " -> ") t with
          | Some (a, u) => get (b, u) <- cut (B " [ label = """) u; get lab <- inside "" """ ];" u; get d <- on_edge a b lab d; p_lines final r d
          | None =>
              match inside "en_" ";" t, inside "eof_" ";" t, inside "err_" " [ label=""""];" t with
              | Some w, _, _ | _, Some w, _ | _, _, Some w => get _ <- number w; p_lines final r d
              | None, None, None =>
                  get w <- inside "" ";" t; get k <- number w;
                  if final then let '(mkDrawing E D F L N_ St) := d in p_lines final r (mkDrawing E D F (k :: L) N_ St) else None
              end
          end
        end
      end
  end.
Definition read_dot (s : bytes) : option drawing := p_lines false (lines_of s) (mkDrawing [] [] [] [] [] None).
