(* What a ragel specification means: the regular expressions with embedded actions of the
   Ragel Guide (version 6, chapters 2-4), read as state machines with actions, and the run
   of such a machine on a text.  Nothing here comes from machine.go.

   Modelled are the operators machine.go.rl uses: concatenation, |, -, star, +, ?, {n},
   {0,n}, the guarded concatenations <: and :>>, and the embeddings > % (actions), @err $err
   %err, %to and %eof.  As in ragel every operator gives a deterministic machine: states are
   merged, transitions on the same byte are joined, unless a priority says that one wins.
   Simplifications: {0,n} is read as (e (e (...)?)?)?; no minimisation (it does not change
   the behaviour); a transition is labelled by a block of bytes that no class of the
   specification tells apart (ragel: by a range). *)
From Coq Require Import FMapPositive.
From Verif Require Import GoBase MachineSyntax Machine.
Local Open Scope N_scope.

(* arrays *)
Definition arr (T : Type) := PositiveMap.t T.
Fixpoint arr_from {T} (i : N) (l : list T) (t : arr T) : arr T :=
  match l with [] => t | x :: r => arr_from (N.succ i) r (PositiveMap.add (N.succ_pos i) x t) end.
Definition arr_of {T} (l : list T) : arr T := arr_from 0 l (PositiveMap.empty T).
Definition get {T} (d : T) (t : arr T) (i : N) : T := match PositiveMap.find (N.succ_pos i) t with Some x => x | None => d end.
Definition len {T} (l : list T) : N := N.of_nat (List.length l).

(* ---- expressions ----------------------------------------------------------------------- *)
Inductive embed :=
| Enter          (* >a      the transitions leaving the start state *)
| Leave          (* %a      leaving the machine: by a later byte, or at the end of the text *)
| ErrNonFinal    (* @err(a) on a byte without transition: every state that is not final *)
| ErrAll         (* $err(a) every state *)
| ErrFinal       (* %err(a) the final states *)
| ToFinal        (* %to(a)  whenever a final state is entered *)
| EofFinal.      (* %eof(a) at the end of the text in a final state *)

Inductive rx (A : Type) :=
| RByte (p : N -> bool)                     (* one byte of a class *)
| RCat (a b : rx A)
| ROr (a b : rx A)
| RMinus (a b : rx A)
| RStar (a : rx A)
| RPlus (a : rx A)
| ROpt (a : rx A)
| RTimes (n : nat) (a : rx A)               (* a{n}, n > 0 *)
| RUpTo (n : nat) (a : rx A)                (* a{0,n} *)
| RLeftGuard (a b : rx A)                   (* a <: b *)
| RFinishGuard (a b : rx A)                 (* a :>> b *)
| RWith (a : rx A) (l : list (embed * A)).  (* a with actions *)
Arguments RByte {A}. Arguments RCat {A}. Arguments ROr {A}. Arguments RMinus {A}. Arguments RStar {A}.
Arguments RPlus {A}. Arguments ROpt {A}. Arguments RTimes {A}. Arguments RUpTo {A}.
Arguments RLeftGuard {A}. Arguments RFinishGuard {A}. Arguments RWith {A}.


(* ---- blocks of bytes --------------------------------------------------------------------- *)
Fixpoint classes {A} (r : rx A) : list (N -> bool) :=
  match r with
  | RByte p => [p]
  | RCat a b | ROr a b | RMinus a b | RLeftGuard a b | RFinishGuard a b => classes a ++ classes b
  | RStar a | RPlus a | ROpt a | RTimes _ a | RUpTo _ a | RWith a _ => classes a
  end.
Definition alike (ps : list (N -> bool)) (b c : N) : bool := forallb (fun p => Bool.eqb (p b) (p c)) ps.
(* the block of b: the number of the first byte like it among those that stand for blocks *)
Fixpoint block_in (ps : list (N -> bool)) (b : N) (reps : list N) (i : N) : option N :=
  match reps with [] => None | r :: rest => if alike ps r b then Some i else block_in ps b rest (N.succ i) end.
Fixpoint blocks_from (ps : list (N -> bool)) (bs : list N) (reps : list N) : list N * list N :=
  match bs with
  | [] => ([], reps)
  | b :: r =>
      match block_in ps b reps 0 with
      | Some i => let '(l, reps') := blocks_from ps r reps in (i :: l, reps')
      | None => let '(l, reps') := blocks_from ps r (reps ++ [b]) in (len reps :: l, reps')
      end
  end.
Definition all_bytes : list N := map N.of_nat (seq 0 256).
(* for each byte its block; for each block the byte that stands for it *)
Definition blocks (ps : list (N -> bool)) : list N * list N := blocks_from ps all_bytes [].

(* ---- state machines -------------------------------------------------------------------- *)
(* actions, each with the number of its embedding; kept in that order *)
Definition acts (A : Type) := list (N * A).
Fixpoint act_add {A} (x : N * A) (l : acts A) : acts A :=
  match l with
  | [] => [x]
  | y :: r => if fst x <? fst y then x :: l else if fst x =? fst y then l else y :: act_add x r
  end.
Definition act_join {A} (a b : acts A) : acts A := fold_right act_add b a.

(* priorities: a number under a name (the names are numbered) *)
Definition prios := list (N * N).
Record tr (A : Type) := mkTr { t_to : N; t_acts : acts A; t_prio : prios }.
Arguments mkTr {A}. Arguments t_to {A}. Arguments t_acts {A}. Arguments t_prio {A}.

Record state (A : Type) := mkState {
  out : list (list (tr A));        (* for each block *)
  fin : bool;
  leave : acts A;                  (* of final states: actions for leaving *)
  errs : acts A;
  eofs : acts A;
  tos : acts A
}.
Arguments mkState {A}. Arguments out {A}. Arguments fin {A}. Arguments leave {A}.
Arguments errs {A}. Arguments eofs {A}. Arguments tos {A}.

(* the start state is number 0 *)
Definition fsm (A : Type) := list (state A).

Section Machines.
Context (sigma : list N).   (* the bytes that stand for the blocks *)
Definition no_out {A} : list (list (tr A)) := map (fun _ => []) sigma.
Definition blank {A} (f : bool) : state A := mkState no_out f [] [] [] [].
Definition start {A} (m : fsm A) : state A := match m with s :: _ => s | [] => blank false end.

(* ---- making a machine deterministic ----------------------------------------------------- *)
Fixpoint set_add (n : N) (l : list N) : list N :=
  match l with
  | [] => [n]
  | k :: r => if n <? k then n :: l else if n =? k then l else k :: set_add n r
  end.
Fixpoint seqb (a b : list N) : bool :=
  match a, b with
  | [], [] => true
  | x :: a, y :: b => (x =? y) && seqb a b
  | _, _ => false
  end.

Fixpoint prio_of (k : N) (p : prios) : option N :=
  match p with [] => None | (k', v) :: r => if k =? k' then Some v else prio_of k r end.
(* the first name with different numbers decides *)
Fixpoint prio_cmp (p q : prios) : comparison :=
  match p with
  | [] => Eq
  | (k, v) :: r =>
      match prio_of k q with
      | Some w => if v =? w then prio_cmp r q else N.compare v w
      | None => prio_cmp r q
      end
  end.
(* the transitions on one block, as one: targets, actions, priorities *)
Definition joined (A : Type) := (list N * acts A * prios)%type.
Definition join1 {A} (o : option (joined A)) (t : tr A) : option (joined A) :=
  match o with
  | None => Some ([t_to t], t_acts t, t_prio t)
  | Some (s, a, p) =>
      match prio_cmp p (t_prio t) with
      | Gt => o
      | Lt => Some ([t_to t], t_acts t, t_prio t)
      | Eq => Some (set_add (t_to t) s, act_join (t_acts t) a,
                    p ++ filter (fun x => match prio_of (fst x) p with None => true | _ => false end) (t_prio t))
      end
  end.
Definition join {A} (l : list (tr A)) : option (joined A) := fold_left join1 l None.

Fixpoint rows {A} (a b : list (list (tr A))) : list (list (tr A)) :=
  match a, b with x :: a, y :: b => (x ++ y) :: rows a b | _, _ => [] end.

(* the sets of states seen so far with their numbers, by their first element; and how many *)
Definition seen := (arr (list (list N * N)) * N)%type.
Fixpoint among (s : list N) (l : list (list N * N)) : option N :=
  match l with [] => None | (x, i) :: r => if seqb x s then Some i else among s r end.
Definition place (s : list N) (t : seen) : option N := among s (get [] (fst t) (hd 0 s)).
Definition put (s : list N) (t : seen) : seen :=
  (PositiveMap.add (N.succ_pos (hd 0 s)) ((s, snd t) :: get [] (fst t) (hd 0 s)) (fst t), N.succ (snd t)).
(* the merged transitions of one state, the sets of states not seen before *)
Fixpoint place_row {A} (l : list (list (tr A))) (t : seen) : list (list (tr A)) * list (list N) * seen :=
  match l with
  | [] => ([], [], t)
  | ts :: r =>
      match join ts with
      | None => let '(r', new, t') := place_row r t in ([] :: r', new, t')
      | Some (s, a, p) =>
          match place s t with
          | Some i => let '(r', new, t') := place_row r t in ([mkTr i a p] :: r', new, t')
          | None => let '(r', new, t') := place_row r (put s t) in ([mkTr (snd t) a p] :: r', s :: new, t')
          end
      end
  end.
(* one state for every set of states that can be reached; fuel bounds their number *)
Fixpoint explore {A} (fuel : nat) (m : arr (state A)) (final : list N -> bool) (todo : list (list N)) (t : seen) : fsm A :=
  match fuel, todo with
  | S fuel, s :: todo =>
      let at_ := get (blank false) m in
      let of {B} (f : state A -> acts B) := fold_right (fun q l => act_join (f (at_ q)) l) [] s in
      let '(o, new, t') := place_row (fold_right (fun q l => rows (out (at_ q)) l) no_out s) t in
      mkState o (final s) (if final s then of leave else []) (of errs) (of eofs) (of tos)
        :: explore fuel m final (todo ++ new) t'
  | _, _ => []
  end.
Definition max_states : nat := 2000.
Definition det_by {A} (final : list N -> bool) (m : arr (state A)) (from : N) : fsm A :=
  explore max_states m final [[from]] (put [from] (PositiveMap.empty _, 0)).
Definition det {A} (m : fsm A) (from : N) : fsm A :=
  let t := arr_of m in det_by (existsb (fun q => fin (get (blank false) t q))) t from.

(* ---- the operators ----------------------------------------------------------------------- *)
Definition on_tr {A} (f : tr A -> tr A) (s : state A) : state A :=
  mkState (map (map f) (out s)) (fin s) (leave s) (errs s) (eofs s) (tos s).
Definition shift {A} (k : N) (m : fsm A) : fsm A := map (on_tr (fun t => mkTr (t_to t + k) (t_acts t) (t_prio t))) m.
Definition add_acts {A} (a : acts A) (t : tr A) : tr A := mkTr (t_to t) (act_join a (t_acts t)) (t_prio t).
Definition add_prio {A} (k v : N) (t : tr A) : tr A := mkTr (t_to t) (t_acts t) (t_prio t ++ [(k, v)]).

(* state s also behaves as state b of the machine that follows: the transitions of b get
   the leaving actions of s *)
Definition then_ {A} (keep : bool) (s b : state A) : state A :=
  let f := keep || fin b in
  mkState (rows (out s) (out (on_tr (add_acts (leave s)) b))) f
    (if f then if fin b then act_join (leave b) (leave s) else leave s else [])
    (act_join (errs b) (errs s)) (act_join (eofs b) (eofs s)) (act_join (tos b) (tos s)).
(* both at once *)
Definition both {A} (s b : state A) : state A :=
  mkState (rows (out s) (out b)) (fin s || fin b) (act_join (leave b) (leave s))
    (act_join (errs b) (errs s)) (act_join (eofs b) (eofs s)) (act_join (tos b) (tos s)).

Definition m_byte {A} (p : N -> bool) : fsm A :=
  [mkState (map (fun n => if p n then [mkTr 1 [] []] else []) sigma) false [] [] [] []; blank true].
Definition m_cat {A} (a b : fsm A) : fsm A :=
  let b' := shift (len a) b in
  det (map (fun s => if fin s then then_ false s (start b') else s) a ++ b') 0.
(* the machines side by side, with a new start state that is both start states *)
Definition side {A} (a b : fsm A) : fsm A :=
  let b' := shift (len a) b in a ++ b' ++ [both (start a) (start b')].
Definition m_or {A} (a b : fsm A) : fsm A := det (side a b) (len a + len b).
Definition m_opt {A} (a : fsm A) : fsm A := m_or a [blank true].
Definition m_star {A} (a : fsm A) : fsm A :=
  let s := start a in
  let s' := if fin s then then_ true s s else s in
  det (map (fun q => if fin q then then_ true q s else q) a ++
       [mkState (out s') true (leave s') (errs s') (eofs s') (tos s')]) (len a).
Definition m_plus {A} (a : fsm A) : fsm A := m_cat a (m_star a).
Fixpoint m_times {A} (n : nat) (a : fsm A) : fsm A :=
  match n with S (S k as n') => m_cat (m_times n' a) a | _ => a end.
Fixpoint m_upto {A} (n : nat) (a : fsm A) : fsm A :=
  match n with
  | O => [blank true]
  | S O => m_opt a
  | S n' => m_opt (m_cat a (m_upto n' a))
  end.

(* a - b: final in a and not final in b; states from which no final state can be reached go *)
Definition final_minus {A} (a b : fsm A) : list N -> bool :=
  let n := len a in let k := len b in
  let fa := arr_of (map fin a) in let fb := arr_of (map fin b) in
  let ina q := if q <? n then get false fa q else if q <? n + k then false else fin (start a) in
  let inb q := if q <? n then false else if q <? n + k then get false fb (q - n) else fin (start b) in
  fun s => existsb ina s && negb (existsb inb s).
Definition goes {A} (live : arr bool) (ts : list (tr A)) : bool := existsb (fun t => get false live (t_to t)) ts.
Fixpoint spread {A} (fuel : nat) (m : fsm A) (live : list bool) : list bool :=
  match fuel with
  | O => live
  | S fuel =>
      let t := arr_of live in
      let live' := map (fun x => fst x || existsb (goes t) (out (snd x))) (combine live m) in
      if forallb (fun x => Bool.eqb (fst x) (snd x)) (combine live live') then live else spread fuel m live'
  end.
Definition prune {A} (m : fsm A) : fsm A :=
  let live := arr_of (spread (List.length m) m (map fin m)) in
  map (fun s => mkState (map (filter (fun t => get false live (t_to t))) (out s)) (fin s) (leave s) (errs s) (eofs s) (tos s)) m.
Definition m_minus {A} (a b : fsm A) : fsm A :=
  prune (det_by (final_minus a b) (arr_of (side a b)) (len a + len b)).

(* a start state that is never entered again *)
Definition isolate {A} (m : fsm A) : fsm A := det (m ++ [start m]) (len m).
Definition on_start {A} (f : state A -> state A) (m : fsm A) : fsm A :=
  match m with [] => [] | s :: r => f s :: r end.
Definition is_final {A} (finals : arr bool) (t : tr A) : bool := get false finals (t_to t).

Definition set_leave {A} l (s : state A) := mkState (out s) (fin s) l (errs s) (eofs s) (tos s).
Definition set_errs {A} l (s : state A) := mkState (out s) (fin s) (leave s) l (eofs s) (tos s).
Definition set_eofs {A} l (s : state A) := mkState (out s) (fin s) (leave s) (errs s) l (tos s).
Definition set_tos {A} l (s : state A) := mkState (out s) (fin s) (leave s) (errs s) (eofs s) l.

(* one embedding.  An action for entering a machine that accepts the empty text is also an
   action for leaving its start state. *)
Definition embed1 {A} (m : fsm A) (e : embed) (x : N * A) : fsm A :=
  match e with
  | Enter => on_start (fun s => let s' := on_tr (add_acts [x]) s in if fin s then set_leave (act_add x (leave s)) s' else s') (isolate m)
  | Leave => map (fun s => if fin s then set_leave (act_add x (leave s)) s else s) m
  | ErrNonFinal => map (fun s => if fin s then s else set_errs (act_add x (errs s)) s) m
  | ErrAll => map (fun s => set_errs (act_add x (errs s)) s) m
  | ErrFinal => map (fun s => if fin s then set_errs (act_add x (errs s)) s else s) m
  | ToFinal => map (fun s => if fin s then set_tos (act_add x (tos s)) s else s) m
  | EofFinal => map (fun s => if fin s then set_eofs (act_add x (eofs s)) s else s) m
  end.

(* The numbers of embeddings: for one list of actions, first those for entering, then the
   ones inside, then the others; otherwise from left to right.  Names of priorities are
   numbered from the same counter. *)
Definition entering (e : embed) : bool := match e with Enter => true | _ => false end.
Fixpoint number {A} (now : bool) (l : list (embed * A)) (k : N) : list (option N) * N :=
  match l with
  | [] => ([], k)
  | (e, _) :: r =>
      if Bool.eqb (entering e) now then let '(ns, k') := number now r (N.succ k) in (Some k :: ns, k')
      else let '(ns, k') := number now r k in (None :: ns, k')
  end.
Fixpoint embed_all {A} (m : fsm A) (l : list (embed * A)) (n1 n2 : list (option N)) : fsm A :=
  match l, n1, n2 with
  | (e, a) :: l, x :: n1, y :: n2 =>
      let o := match x with Some o => o | None => match y with Some o => o | None => 0 end end in
      embed_all (embed1 m e (o, a)) l n1 n2
  | _, _, _ => m
  end.
Fixpoint machine_of {A} (r : rx A) (k : N) : fsm A * N :=
  match r with
  | RByte p => (m_byte p, k)
  | RCat a b => let '(ma, k) := machine_of a k in let '(mb, k) := machine_of b k in (m_cat ma mb, k)
  | ROr a b => let '(ma, k) := machine_of a k in let '(mb, k) := machine_of b k in (m_or ma mb, k)
  | RMinus a b => let '(ma, k) := machine_of a k in let '(mb, k) := machine_of b k in (m_minus ma mb, k)
  | RStar a => let '(ma, k) := machine_of a k in (m_star ma, k)
  | RPlus a => let '(ma, k) := machine_of a k in (m_plus ma, k)
  | ROpt a => let '(ma, k) := machine_of a k in (m_opt ma, k)
  | RTimes n a => let '(ma, k) := machine_of a k in (m_times n ma, k)
  | RUpTo n a => let '(ma, k) := machine_of a k in (m_upto n ma, k)
  | RLeftGuard a b =>      (* the bytes of a win over the first byte of b *)
      let '(ma, k1) := machine_of a (N.succ k) in let '(mb, k2) := machine_of b k1 in
      (m_cat (map (on_tr (add_prio k 1)) ma) (on_start (on_tr (add_prio k 0)) (isolate mb)), k2)
  | RFinishGuard a b =>    (* a byte that finishes b wins over the bytes of a *)
      let '(ma, k1) := machine_of a (N.succ k) in let '(mb, k2) := machine_of b k1 in
      let finals := arr_of (map fin mb) in
      (m_cat (map (on_tr (add_prio k 0)) ma)
             (map (on_tr (fun t => if is_final finals t then add_prio k 1 t else t)) mb), k2)
  | RWith a l =>
      let '(n1, k) := number true l k in
      let '(m, k) := machine_of a k in
      let '(n2, k) := number false l k in
      (embed_all m l n1 n2, k)
  end.
Definition compile {A} (r : rx A) : fsm A := fst (machine_of r 0).
End Machines.

(* ---- running the machines of a specification -------------------------------------------- *)
(* What is executed where.  State 0 is the error state: a byte without transition leads to
   it, through the error actions.  At the end of the text a final state runs its leaving
   actions, another state its error actions, both together with the eof actions. *)
Record node (S : Type) := mkNode {
  n_edges : list (N * S);     (* for each block: the next state and what is executed *)
  n_final : bool;
  n_eof : S;
  n_to : S
}.
Arguments mkNode {S}. Arguments n_edges {S}. Arguments n_final {S}. Arguments n_eof {S}. Arguments n_to {S}.

(* an action embedded twice is executed once, the first time *)
Fixpoint first_only {A} (eqb : A -> A -> bool) (done l : list A) : list A :=
  match l with
  | [] => []
  | a :: r => if existsb (eqb a) done then first_only eqb done r else a :: first_only eqb (a :: done) r
  end.
Section Table.
  Context {A : Type} (eqb : A -> A -> bool) (body : A -> list stmt).
  Definition code (l : acts A) : list stmt := flat_map body (first_only eqb [] (map snd l)).
  (* the states of m numbered from k *)
  Definition node_of (k : N) (s : state A) : node (list stmt) :=
    mkNode
      (map (fun ts => match ts with
                      | t :: _ => (k + t_to t, code (t_acts t))
                      | [] => (0, code (errs s))
                      end) (out s))
      (fin s) (code (act_join (eofs s) (if fin s then leave s else errs s))) (code (tos s)).
  Definition nodes (k : N) (m : fsm A) : list (node (list stmt)) := map (node_of k) m.
End Table.

Section Run.
  Context (block : list N) (G : list (node (list stmt))) (failed : N -> bool).
  Definition node_at (cs : N) : res (node (list stmt)) := index G (Z.of_N cs).

  Inductive point := PResume | PAgain | PEof | PDone.
  Local Open Scope Z_scope.
  (* PResume: the next byte is read and the transition made; PAgain: a state has been
     entered; PEof: the text has ended.  An action that jumps (fgoto) makes its state the
     one entered. *)
  Definition rl_step (l : point) (x : st) : res (point * st) :=
    let '(m, u) := x in
    match l with
    | PResume =>
        do n <- node_at (m_cs m);
        do b <- index (m_data m) (m_p m);
        do k <- index block (Z.of_N (Byte.to_N b));
        do e <- index (n_edges n) (Z.of_N k);
        let '(to, c) := e in
        do r <- exec_block c (set_cs to m, u); Ret (PAgain, fst r)
    | PAgain =>
        do n <- node_at (m_cs m);
        do r <- exec_block (n_to n) x;
        let '((m', u') as x', c) := r in
        match c with
        | Again => Ret (PAgain, x')
        | Fall =>
            if N.eqb (m_cs m') 0%N then Ret (PDone, x')
            else let m'' := set_p (m_p m' + 1) m' in
                 Ret (if m_p m'' =? m_pe m'' then PEof else PResume, (m'', u'))
        end
    | PEof =>
        do n <- node_at (m_cs m);
        do r <- exec_block (n_eof n) x;
        let '(x', c) := r in Ret (match c with Again => PAgain | Fall => PDone end, x')
    | PDone => Ret (PDone, x)
    end.
  Fixpoint rl_run (fuel : nat) (l : point) (x : st) : res st :=
    match l with
    | PDone => Ret x
    | _ =>
        match fuel with
        | O => OutOfFuel
        | S f => do r <- rl_step l x; let '(l', x') := r in rl_run f l' x'
        end
    end.

  (* the text is given to the machine that starts in state cs (machine.go.rl:353-373; the
     Go code around the machine is the same as in machine.go).  The state is final when it
     is at least first_final, because ragel puts the final states last; the machine fail
     has one state after minimisation, so m.cs == en_fail says that the run ended in it:
     failed. *)
  Definition rl_Parse (cs : N) (mode : Z) (input : bytes) : res (bytes * option URN * option perr) :=
    let m := mkMachine input cs 0 (zlen input) (zlen input) 0 None cs mode true in
    do r <- rl_run (parse_fuel (List.length input)) (if zlen input =? 0 then PEof else PResume) (m, zeroURN);
    let '(m', u) := r in
    do n <- node_at (m_cs m');
    if negb (n_final n) || failed (m_cs m') then Ret (m_data m', None, m_err m') else Ret (m_data m', Some u, None).
End Run.
