(* NewMachine with any options, not only those made by WithParsingMode.
   options.go:3: type Option func(Machine); machine.go:109-123 calls them one after the other on
   the unfinished machine.  A hand-written option is client code: it may call the three methods
   of the machine as often as it likes, decide from the answers what to do next, and panic.
   Simplifications: what an option does to other objects is not described here; an option that
   does not return at all is left out (a client is a well-founded tree, which may branch over
   every answer); an option that keeps the machine for later use is covered by `reachable`
   (Api.v). *)
From Verif Require Import GoBase MachineSyntax MachineTables Machine.
Local Open Scope Z_scope.

(* client code that is given a machine *)
Inductive client :=
| KReturn
| KPanic
| KParse (input : bytes) (k : option URN -> option perr -> client)
| KMode (x : Z) (k : client)
| KError (k : option perr -> client).

(* what it did: the calls with their answers *)
Inductive event := EvParse (input : bytes) (uo : option URN) (eo : option perr) | EvMode (x : Z) | EvError (eo : option perr).

Fixpoint run_client (c : client) (m : machine) : list event * res machine :=
  match c with
  | KReturn => ([], Ret m)
  | KPanic => ([], Panic)
  | KParse s k =>
      match machine_Parse m s with
      | Ret (m', uo, eo) => let '(t, r) := run_client (k uo eo) m' in (EvParse s uo eo :: t, r)
      | Panic => ([], Panic)
      | OutOfFuel => ([], OutOfFuel)
      end
  | KMode x k => let '(t, r) := run_client k (machine_WithParsingMode x m) in (EvMode x :: t, r)
  | KError k => let '(t, r) := run_client (k (machine_Error m)) m in (EvError (machine_Error m) :: t, r)
  end.

(* options.go:5-9 func WithParsingMode; None below is a nil Option *)
Definition WithParsingMode (x : Z) : option client := Some (KMode x KReturn).

(* machine.go:114-116: for _, o := range options { o(m) }; calling a nil function panics *)
Fixpoint run_options (l : list (option client)) (m : machine) : list event * res machine :=
  match l with
  | [] => ([], Ret m)
  | None :: _ => ([], Panic)
  | Some c :: l' =>
      let '(t, r) := run_client c m in
      match r with
      | Ret m' => let '(t', r') := run_options l' m' in (t ++ t', r')
      | _ => (t, r)
      end
  end.

(* machine.go:109-123 func NewMachine *)
Definition NewMachine_with (l : list (option client)) : list event * res machine :=
  let '(t, r) := run_options l zero_machine in
  (t, do m <- r; Ret (if m_parsingModeSet m then m else machine_WithParsingMode DefaultParsingMode m)).

(* urn.go:86-93 func Parse: the caller's slice after the call, the *URN and the bool *)
Definition Parse_with (u : bytes) (l : list (option client)) : res (bytes * option URN * bool) :=
  do m <- snd (NewMachine_with l);
  do r <- machine_Parse m u;
  let '(m', urn, err) := r in
  match err with
  | Some _ => Ret (m_data m', None, false)
  | None => Ret (m_data m', urn, true)
  end.
