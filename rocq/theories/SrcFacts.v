(* The parts of the text of Parse: where its labels are and what follows them. *)
From Coq Require Import Lia.
From Verif Require Import GoAst.
From Verif Require Import GoBase MachineSyntax MachineTables Machine.
From Verif Require Import GoSem GoPackage SrcRender SrcSim SrcSim2 SrcSim3.
From Verif Require Import Exec.
From Verif Require PropsLive.
Import ListNotations.
Local Open Scope string_scope.
Local Open Scope list_scope.
Notation nums := PropsLive.nums.

(* ---- the text ---------------------------------------------------------------------------- *)
(* machine.go:137-5033 *)
Definition parse_text : list stm :=
  Eval vm_compute in match find "machine.Parse" (p_funcs package) with Some f => f_body f | None => [] end.
(* machine.go:149-5026: the block of labels *)
Definition big : list stm := Eval vm_compute in match nth_error parse_text 8 with Some (SBlock l) => l | _ => [] end.
(* machine.go:156-: the statements after _resume, _again, _testEof *)
Definition resume_text : list stm := Eval vm_compute in match after_label "_resume" big with Some l => l | None => [] end.
Definition resume_cases : list (list expr * list stm) :=
  Eval vm_compute in match resume_text with SSwitch [_] cs :: _ => cs | _ => [] end.
Definition tr183_text : list stm := Eval vm_compute in match after_label "tr183" big with Some l => l | None => [] end.
Definition again_text : list stm := Eval vm_compute in match after_label "_again" big with Some l => l | None => [] end.
Definition to_cases : list (list expr * list stm) :=
  Eval vm_compute in match again_text with SSwitch [_] cs :: _ => cs | _ => [] end.
Definition eof_text : list stm := Eval vm_compute in match after_label "_testEof" big with Some l => l | None => [] end.
Definition eof_cases : list (list expr * list stm) :=
  Eval vm_compute in match eof_text with _ :: GoAst.SIf [] _ [SSwitch [_] cs] [] :: _ => cs | _ => [] end.

Definition parse_head : list stm := [
  set_ (M "data") (EId "input"); set_ (M "p") (EInt 0); set_ (M "pb") (EInt 0);
  set_ (M "pe") (ECall (EId "len") [EId "input"] false); set_ (M "eof") (ECall (EId "len") [EId "input"] false);
  set_ (M "err") (EId "nil"); set_ (M "cs") (M "startParsingAt");
  SDefine ["output"] [EUn "&" (ELit (TyName "URN") [("tolower", ELit (TySlice (TyName "int")) [])])]].
Definition parse_tail : list stm := [
  GoAst.SIf [] (EBin "||" (EBin "<" (M "cs") (EId "firstFinal")) (EBin "==" (M "cs") (EId "enFail")))
    [SReturn [EId "nil"; M "err"]] [];
  SReturn [EId "output"; EId "nil"]].
Lemma parse_parts : parse_text = parse_head ++ [SBlock big] ++ parse_tail.
Proof. reflexivity. Qed.
Lemma parse_func : find "machine.Parse" (p_funcs package) = Some (mkFunc "" (Some (TyPtr (TyName "machine")))
  [("m", TyPtr (TyName "machine"), false); ("input", TySlice (TyName "byte"), false)] [TyPtr (TyName "URN"); TyName "error"] parse_text).
Proof. vm_compute. reflexivity. Qed.

Definition enter_text : list stm := [
  GoAst.SIf [] (EBin "==" (M "p") (M "pe")) [SGoto "_testEof"] [];
  GoAst.SIf [] (EBin "==" (M "cs") (EInt 0)) [SGoto "_out"] []; SLabel "_resume"].
Lemma big_parts : big = enter_text ++ resume_text /\ after_label "_resume" big = Some resume_text.
Proof. split; vm_compute; reflexivity. Qed.
Lemma resume_parts : resume_text = [SSwitch [M "cs"] resume_cases; SLabel "tr183"] ++ tr183_text /\ ints resume_cases = true.
Proof. split; vm_compute; reflexivity. Qed.
Lemma tr183_part : after_label "tr183" big = Some tr183_text.
Proof. vm_compute. reflexivity. Qed.
Lemma again_parts : after_label "_again" big = Some again_text /\ ints to_cases = true /\ again_text =
  [SSwitch [EIdx (EId "_toStateActions") (M "cs")] to_cases; GoAst.SIf [] (EBin "==" (M "cs") (EInt 0)) [SGoto "_out"] [];
   GoAst.SIf [SIncDec "++" (M "p")] (EBin "!=" (M "p") (M "pe")) [SGoto "_resume"] []; SLabel "_testEof"] ++ eof_text.
Proof. repeat split; vm_compute; reflexivity. Qed.
Lemma eof_parts : after_label "_testEof" big = Some eof_text /\ ints eof_cases = true /\ after_label "_out" big = Some [SBlock []] /\
  eof_text = [SBlock []; GoAst.SIf [] (EBin "==" (M "p") (M "eof")) [SSwitch [EIdx (EId "_eofActions") (M "cs")] eof_cases] []; SLabel "_out"; SBlock []].
Proof. repeat split; vm_compute; reflexivity. Qed.

(* ---- the blocks ------------------------------------------------------------------------------ *)
Definition tr_text (n : N) : list stm :=
  match tr_block n with
  | Some (cs, None) => [text_of (SSetCS cs); SGoto "_again"]
  | Some (cs, Some f) => [text_of (SSetCS cs); SGoto (label_name (LF f))]
  | None => []
  end.
Lemma tr_texts : map (fun n => option_map (firstn 2) (after_label (label_name (LTr n)) big)) (nums 250) = map (fun n => Some (tr_text n)) (nums 250).
Proof. vm_compute. reflexivity. Qed.
Definition f_text (n : N) : list stm := match f_block n with Some b => map text_of b | None => [] end.
Definition f_nums : list N := filter (fun n => match f_block n with Some _ => true | None => false end) (nums 64).
Lemma f_texts : map (fun n => option_map (firstn (List.length (f_text n))) (after_label (label_name (LF n)) big)) f_nums = map (fun n => Some (f_text n)) f_nums.
Proof. vm_compute. reflexivity. Qed.
Lemma to_texts : map (fun n => pick (Z.of_N n) to_cases) (nums 256) = map (fun n => Some (option_map (map text_of) (to_state_block n))) (nums 256).
Proof. vm_compute. reflexivity. Qed.
Lemma eof_texts : map (fun n => pick (Z.of_N n) eof_cases) (nums 256) = map (fun n => Some (option_map (map text_of) (eof_block n))) (nums 256).
Proof. vm_compute. reflexivity. Qed.
Definition ok_block (o : option (list stmt)) : bool := match o with Some b => forallb oks b | None => true end.
Lemma blocks_ok : forallb (fun n => ok_block (f_block n) && ok_block (to_state_block n) && ok_block (eof_block n)) (nums 64) = true.
Proof. vm_compute. reflexivity. Qed.

(* ---- the switch on the state -------------------------------------------------------------------- *)
Definition target (t : tgt) : string := match t with TOut => "_out" | TTr n => label_name (LTr n) end.
Definition row (cs : N) : bool :=
  match pick (Z.of_N cs) resume_cases with
  | Some (Some l) => forallb (fun b => match abody (astm 4 b) l with Some (Some x) => String.eqb x (target (resume_switch cs (Byte.to_N b))) | _ => false end) all_bytes
  | _ => false
  end.
Lemma rows : forallb row (nums 194) = true.
Proof. vm_compute. reflexivity. Qed.
Lemma row_zero : pick 0 resume_cases = Some (Some [SGoto "_out"]).
Proof. vm_compute. reflexivity. Qed.
Definition below (cs : list (list expr * list stm)) : bool :=
  forallb (fun c => match fst c with [EInt k] => Z.leb k 193 | _ => false end) cs.
Lemma resume_below : below resume_cases = true.
Proof. vm_compute. reflexivity. Qed.

(* ---- as facts about one label ----------------------------------------------------------------- *)
Lemma first_part {A} k (w : option (list A)) x : option_map (firstn k) w = Some x -> exists r, w = Some (x ++ r).
Proof. destruct w as [w|]; [|discriminate]. cbn. intros [= <-]. exists (skipn k w). rewrite firstn_skipn. reflexivity. Qed.
Lemma tr_at n : tr_block n <> None -> exists r, after_label (label_name (LTr n)) big = Some (tr_text n ++ r).
Proof.
  intros H. apply PropsLive.tr_small in H. apply (PropsLive.in_nums n 250) in H.
  exact (first_part _ _ _ (ext_in_map tr_texts n H)).
Qed.
Lemma f_at n b : f_block n = Some b -> exists r, after_label (label_name (LF n)) big = Some (map text_of b ++ r).
Proof.
  intros H. assert (I : In n f_nums).
  { apply filter_In. rewrite H. split; [|reflexivity]. apply (PropsLive.in_nums n 64), PropsLive.f_small. rewrite H. discriminate. }
  destruct (first_part _ _ _ (ext_in_map f_texts n I)) as (r & Q). exists r. rewrite Q. unfold f_text. rewrite H. reflexivity.
Qed.
Lemma to_at n : (n <= 255)%N -> pick (Z.of_N n) to_cases = Some (option_map (map text_of) (to_state_block n)).
Proof. intros H. assert (I : (n <? 256)%N = true) by (apply N.ltb_lt; lia). apply (PropsLive.in_nums n 256) in I. exact (ext_in_map to_texts n I). Qed.
Lemma eof_at n : (n <= 255)%N -> pick (Z.of_N n) eof_cases = Some (option_map (map text_of) (eof_block n)).
Proof. intros H. assert (I : (n <? 256)%N = true) by (apply N.ltb_lt; lia). apply (PropsLive.in_nums n 256) in I. exact (ext_in_map eof_texts n I). Qed.
Lemma block_oks n : ok_block (f_block n) = true /\ ok_block (to_state_block n) = true /\ ok_block (eof_block n) = true.
Proof.
  pose proof blocks_ok as K. rewrite forallb_forall in K.
  assert (D : forall o : option (list stmt), (o <> None -> (n <? 64)%N = true) ->
    (In n (nums 64) -> ok_block o = true) -> ok_block o = true).
  { intros [b|] S I; [|reflexivity]. apply I, (PropsLive.in_nums n 64), S. discriminate. }
  repeat split; (apply D; [first [apply PropsLive.f_small|apply PropsLive.to_small|apply PropsLive.eof_small]|]); intros I; specialize (K n I);
    apply andb_prop in K; destruct K as (K & K3); apply andb_prop in K; destruct K as (K1 & K2); assumption.
Qed.
Lemma row_at cs b : (cs <= 193)%N -> exists l, pick (Z.of_N cs) resume_cases = Some (Some l) /\
  abody (astm 4 b) l = Some (Some (target (resume_switch cs (Byte.to_N b)))).
Proof.
  intros H. pose proof rows as K. rewrite forallb_forall in K.
  assert (I : In cs (nums 194)) by (apply PropsLive.in_nums, N.ltb_lt; lia).
  specialize (K cs I). unfold row in K. destruct (pick (Z.of_N cs) resume_cases) as [[l|]|]; try discriminate.
  exists l. split; [reflexivity|]. rewrite forallb_forall in K. specialize (K b (all_bytes_all b)).
  destruct (abody (astm 4 b) l) as [[x|]|]; try discriminate. apply String.eqb_eq in K. rewrite K. reflexivity.
Qed.
Lemma pick_above z cs : below cs = true -> (193 < z)%Z -> pick z cs = Some None.
Proof.
  intros K Z. induction cs as [|(xs, b) cs IH]; [reflexivity|]. unfold below in K. cbn [forallb] in K. apply andb_prop in K. destruct K as (K1 & K2).
  cbn [fst] in K1. destruct xs as [|[|k| | | | | | | | | |] [|]]; try discriminate. cbn [pick].
  apply Z.leb_le in K1. destruct (Z.eqb_spec z k); [lia|]. exact (IH K2).
Qed.
Lemma row_above cs : (193 < cs)%N -> pick (Z.of_N cs) resume_cases = Some None.
Proof. intros H. apply pick_above; [exact resume_below|]. lia. Qed.

(* ---- the tables ----------------------------------------------------------------------------------- *)
Definition table_bytes (t : list N) : list val := map (fun a => VByte (match Byte.of_N a with Some b => b | None => x00 end)) t.
Lemma tables : package_heap = [Arr "byte" (table_bytes to_state_actions); Arr "byte" (table_bytes eof_actions)] /\
  find "_toStateActions" (p_globals package) = Some (VSlice 0 0 194) /\ find "_eofActions" (p_globals package) = Some (VSlice 1 0 194) /\
  List.length to_state_actions = 194 /\ List.length eof_actions = 194 /\
  forallb (fun a => N.ltb a 256) to_state_actions = true /\ forallb (fun a => N.ltb a 256) eof_actions = true.
Proof. repeat split; vm_compute; reflexivity. Qed.
