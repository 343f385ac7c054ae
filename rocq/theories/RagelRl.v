(* machine.go.rl: the actions and the expressions, line by line. *)
From Coq Require Import Strings.String.
From Verif Require Import GoBase MachineSyntax Machine RagelSem.
Local Open Scope N_scope.

(* the named actions, and the unnamed one of line 294 *)
Inductive action :=
| a_mark | a_tolower | a_set_pre | a_throw_pre_urn_err | a_set_nid | a_set_nss
| a_err_pre | a_err_nid | a_err_nss | a_err_urn | a_err_hex | a_base_type
| a_err_scim_nid | a_err_scim_type | a_err_scim_name | a_err_scim_other | a_scim_type
| a_create_scim | a_set_scim_type | a_mark_scim_name | a_set_scim_name | a_mark_scim_other | a_set_scim_other
| a_err_nss_8141 | a_err_nid_8141 | a_rfc8141_type | a_set_r_component | a_set_q_component | a_set_f_component
| a_informal_nid_match | a_mark_r_start | a_mark_q_start | a_err_malformed_r_component | a_err_malformed_q_component
| a_goto_main.
Scheme Equality for action.

Section Actions.
  (* the numbers of the states main and fail *)
  Context (main fail : N).
  (* fhold; fgoto fail *)
  Definition give_up : list stmt := [SDecP; SSetCS fail; SGotoAgain].
  Definition throw (e : errconst) (k : Z) : list stmt := SSetErr e k :: give_up.
  Definition body (a : action) : list stmt :=
    match a with
    | a_mark => [SMark]                                                  (* 35-37 *)
    | a_tolower => [STolower]                                            (* 39-42 *)
    | a_set_pre => [SSetPrefix]                                          (* 44-46 *)
    | a_throw_pre_urn_err =>                                             (* 48-59 *)
        [SIf (CNot (CModeEq PRFC8141Only))
           [SIf (CAnd (CAnd (CPosLtPe 3) (CDataAtEq 3 58)) (CNot CPrefixEmpty)) (throw ErrNoUrnWithinID 3) []] []]
    | a_set_nid => [SSetID]                                              (* 61-63 *)
    | a_set_nss => [SSetSS; SForTolower 32; SSetNorm; SForTolower (-32)] (* 65-76 *)
    | a_err_pre => throw ErrPrefix 0                                     (* 78-82 *)
    | a_err_nid => throw ErrIdentifier 0                                 (* 84-88 *)
    | a_err_nss => throw ErrSpecificString 0                             (* 90-94 *)
    | a_err_urn => throw ErrNoUrnWithinID 0                              (* 96-100 *)
    | a_err_hex => [SIf (COr (CModeEq PRFC2141Only) (CModeEq PRFC8141Only)) (throw ErrHex 0) []]  (* 102-108 *)
    | a_base_type => [SSetKind KRFC2141]                                 (* 110-112 *)
    | a_err_scim_nid => throw ErrSCIMNamespace 0                         (* 130-134 *)
    | a_err_scim_type => throw ErrSCIMType 0                             (* 136-140 *)
    | a_err_scim_name => throw ErrSCIMName 0                             (* 142-146 *)
    | a_err_scim_other =>                                                (* 148-156 *)
        SIf CPEqPe [SSetErr ErrSCIMOtherIncomplete (-1)] [SSetErr ErrSCIMOther 0] :: give_up
    | a_scim_type => [SSetKind KRFC7643]                                 (* 158-160 *)
    | a_create_scim => [SNewSCIM]                                        (* 162-164 *)
    | a_set_scim_type => [SScimType]                                     (* 166-168 *)
    | a_mark_scim_name => [SScimPos]                                     (* 170-172 *)
    | a_set_scim_name => [SScimName]                                     (* 174-176 *)
    | a_mark_scim_other => [SScimPos]                                    (* 178-180 *)
    | a_set_scim_other => [SScimOther]                                   (* 182-184 *)
    | a_err_nss_8141 => throw Err8141SpecificString 0                    (* 200-204 *)
    | a_err_nid_8141 => throw Err8141Identifier 0                        (* 206-210 *)
    | a_rfc8141_type => [SSetKind KRFC8141]                              (* 212-214 *)
    | a_set_r_component => [SSetR]                                       (* 216-218 *)
    | a_set_q_component => [SSetQ]                                       (* 220-222 *)
    | a_set_f_component => [SSetF]                                       (* 224-226 *)
    | a_informal_nid_match => [SDecP; SSetErr Err8141InformalID 0; SSetCS fail; SGotoAgain](* 228-232 *)
    | a_mark_r_start => [SIf CRStart (throw Err8141RComponentStart 0) []; SSetRStart](* 234-241 *)
    | a_mark_q_start => [SIf CQStart (throw Err8141QComponentStart 0) []; SSetQStart](* 243-250 *)
    | a_err_malformed_r_component => throw Err8141MalformedRComp 0       (* 252-256 *)
    | a_err_malformed_q_component => throw Err8141MalformedQComp 0       (* 258-262 *)
    | a_goto_main => [SSetCS main; SGotoAgain]                           (* 294 *)
    end.
End Actions.

(* ---- notation of the source -------------------------------------------------------------- *)
Definition rgx := rx action.
Definition inr (a b : byte) (n : N) : bool := (Byte.to_N a <=? n) && (n <=? Byte.to_N b).
(* a class: a list of ranges, [(a, b); ..] for [a-b..] *)
Definition within (l : list (byte * byte)) (n : N) : bool := existsb (fun r => inr (fst r) (snd r) n) l.
Definition cls (l : list (byte * byte)) : rgx := RByte (within l).
Definition chars (s : string) : rgx := cls (map (fun b => (b, b)) (B s)).
Fixpoint word (l : bytes) : rgx :=
  match l with
  | [] => RByte (fun _ => false)      (* not used *)
  | [b] => RByte (fun n => Byte.to_N b =? n)
  | b :: r => RCat (RByte (fun n => Byte.to_N b =? n)) (word r)
  end.
Definition lit (s : string) : rgx := word (B s).
Declare Scope rl_scope.
Notation "a ;; b" := (RCat a b) (at level 41, left associativity) : rl_scope.
Notation "a ||| b" := (ROr a b) (at level 50, left associativity) : rl_scope.
Notation "a --- b" := (RMinus a b) (at level 50, left associativity) : rl_scope.
Notation "a <: b" := (RLeftGuard a b) (at level 41, left associativity) : rl_scope.
Notation "a :>> b" := (RFinishGuard a b) (at level 41, left associativity) : rl_scope.
Notation "a 'acting' l" := (RWith a l) (at level 31, left associativity) : rl_scope.
Local Open Scope rl_scope.

(* the built-in classes (Ragel Guide, 2.4) that are used *)
Definition any : rgx := cls [(x00, xff)]%byte.
Definition digit : rgx := cls [("0", "9")]%byte.
Definition lower : rgx := cls [("a", "z")]%byte.
Definition upper : rgx := cls [("A", "Z")]%byte.
Definition alnum : rgx := cls [("0", "9"); ("a", "z"); ("A", "Z")]%byte.

(* 114 *)
Definition pre : rgx :=
  (chars "uU" acting [(ErrNonFinal, a_err_pre)] ;; chars "rR" acting [(ErrNonFinal, a_err_pre)] ;; chars "nN" acting [(ErrNonFinal, a_err_pre)])
    acting [(Enter, a_mark); (Enter, a_throw_pre_urn_err); (Leave, a_set_pre)].
(* 116 *)
Definition nid : rgx :=
  (alnum acting [(Enter, a_mark)] ;; RUpTo 31 (alnum ||| lit "-")) acting [(ErrAll, a_err_nid); (Leave, a_set_nid)].
(* 118 *)
Definition hex : rgx :=
  lit "%" ;; RTimes 2 (digit ||| lower ||| upper acting [(Enter, a_tolower)]) acting [(ErrAll, a_err_hex)].
(* 120 *)
Definition sss : rgx := alnum ||| chars "()+,-.:=@;$_!*'".
(* 122 *)
Definition nss : rgx := RPlus (sss ||| hex) acting [(ErrAll, a_err_nss)].
(* 124 *)
Definition nid_not_urn : rgx := nid --- pre acting [(ErrFinal, a_err_urn)].
(* 126 *)
Definition urn : rgx :=
  pre ;; lit ":" acting [(ErrNonFinal, a_err_pre)] ;;
  (nid_not_urn ;; lit ":" ;; nss acting [(Enter, a_mark); (Leave, a_set_nss)]) acting [(EofFinal, a_base_type)].

(* 186 *)
Definition scim_nid : rgx :=
  lit "ietf:params:scim" acting [(Enter, a_mark); (Leave, a_set_nid); (Leave, a_create_scim); (ErrAll, a_err_scim_nid)].
(* 188 *)
Definition scim_other : rgx :=
  lit ":" ;; RPlus (sss ||| hex) acting [(Enter, a_mark_scim_other); (Leave, a_set_scim_other); (ErrAll, a_err_scim_other)].
(* 190 *)
Definition scim_name : rgx :=
  RPlus alnum acting [(Enter, a_mark_scim_name); (Leave, a_set_scim_name); (ErrAll, a_err_scim_name)].
(* 192 *)
Definition scim_type : rgx :=
  (lit "schemas" ||| lit "api" ||| lit "param") acting [(Enter, a_mark); (Leave, a_set_scim_type); (ErrAll, a_err_scim_type)].
(* 194 *)
Definition scim_only : rgx :=
  pre ;; lit ":" acting [(ErrNonFinal, a_err_pre)] ;;
  (scim_nid ;; lit ":" ;; scim_type ;; lit ":" ;; scim_name ;; ROpt scim_other acting [(Leave, a_set_nss)]) acting [(EofFinal, a_scim_type)].

(* 264 *)
Definition pchar : rgx := sss ||| lit "~" ||| lit "&" ||| hex.
(* 266 *)
Definition component : rgx := pchar ;; RStar (pchar ||| lit "/" ||| lit "?").
(* 268 *)
Definition r_start : rgx := lit "?+" acting [(Leave, a_mark_r_start)].
(* 270 *)
Definition r_component : rgx :=
  r_start <: RPlus (r_start ||| component) acting [(ErrAll, a_err_malformed_r_component); (Enter, a_mark); (Leave, a_set_r_component)].
(* 272 *)
Definition q_start : rgx := lit "?=" acting [(Leave, a_mark_q_start)].
(* 274 *)
Definition q_component : rgx :=
  q_start <: RPlus (q_start ||| component) acting [(ErrAll, a_err_malformed_q_component); (Enter, a_mark); (Leave, a_set_q_component)].
(* 276 *)
Definition rq_components : rgx := r_component :>> ROpt q_component ||| q_component.
(* 278 *)
Definition fragment : rgx := RStar (pchar ||| lit "/" ||| lit "?").
(* 280 *)
Definition f_component : rgx := lit "#" ;; fragment acting [(Enter, a_mark); (Leave, a_set_f_component)].
(* 282 *)
Definition nss_rfc8141 : rgx :=
  (pchar acting [(Enter, a_mark)] ;; RStar (pchar ||| lit "/")) acting [(ErrAll, a_err_nss_8141); (Leave, a_set_nss)].
(* 284 *)
Definition nid_rfc8141 : rgx :=
  (alnum acting [(Enter, a_mark)] ;; RUpTo 30 (alnum ||| lit "-") ;; alnum) acting [(ErrAll, a_err_nid_8141); (Leave, a_set_nid)].
(* 286; the class is written [a-zA-z0] *)
Definition informal_id : rgx :=
  pre ;; (lit "-" ;; cls [("a", "z"); ("A", "z"); ("0", "0")]%byte acting [(ToFinal, a_informal_nid_match)]).
(* 288 *)
Definition nid_rfc8141_not_urn : rgx := nid_rfc8141 --- ROpt informal_id.
(* 290 *)
Definition rfc8141_only : rgx :=
  pre ;; lit ":" acting [(ErrNonFinal, a_err_pre)] ;; nid_rfc8141_not_urn ;; lit ":" ;; nss_rfc8141 ;;
  ROpt rq_components ;; ROpt f_component acting [(EofFinal, a_rfc8141_type)].
(* 294 *)
Definition fail : rgx := RStar (any --- cls [(x0a, x0a); (x0d, x0d)]%byte) acting [(ErrNonFinal, a_goto_main)].
(* 296 *)
Definition main : rgx := urn.

(* ---- the machine of the specification --------------------------------------------------- *)
(* The four instantiated machines in one table, behind the error state. *)
Definition rl_blocks : list N * list N := blocks (flat_map classes [main; scim_only; rfc8141_only; fail]).
Definition rl_block : list N := fst rl_blocks.
Definition rl_sigma : list N := snd rl_blocks.
Definition f_main := compile rl_sigma main.
Definition f_scim := compile rl_sigma scim_only.
Definition f_8141 := compile rl_sigma rfc8141_only.
Definition f_fail := compile rl_sigma fail.
Definition at_main : N := 1.
Definition at_scim : N := at_main + len f_main.
Definition at_8141 : N := at_scim + len f_scim.
Definition at_fail : N := at_8141 + len f_8141.
Definition rl_nodes : list (node (list stmt)) :=
  let n k m := nodes action_beq (body at_main at_fail) k m in
  mkNode (map (fun _ => (0, [])) rl_sigma) false [] [] :: n at_main f_main ++ n at_scim f_scim ++ n at_8141 f_8141 ++ n at_fail f_fail.
Definition rl_failed (cs : N) : bool := at_fail <=? cs.
(* m.Parse of the specification: m.startParsingAt is one of the three entry points *)
Definition spec_Parse (entry : N) (mode : Z) (input : bytes) := rl_Parse rl_block rl_nodes rl_failed entry mode input.
