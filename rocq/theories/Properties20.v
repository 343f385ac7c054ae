(* C62: the two tools with package regexp reading runes. *)
From Verif Require Import GoBase Json Tools SpecJson SpecTools RuneTools PropsRune.
From Verif Require PropsTools.
Local Open Scope list_scope.

(* DecodeRune reads the UTF-8 form of every scalar value, and one byte where there is none *)
Theorem C62_decode : forall s,
  (forall n v z, utf8 n v -> s = v ++ z -> DecodeRune s = (n, List.length v)) /\
  (s <> [] -> (forall n v z, utf8 n v -> s <> v ++ z) -> DecodeRune s = (RuneError, 1%nat)).
Proof.
  intros s. split.
  - intros n v z H ->. apply decode_utf8, H.
  - destruct s as [|c s]; [congruence|]. intros _. apply decode_bad.
Qed.
Print Assumptions C62_decode.

(* the results on every text, UTF-8 or not, are those of the reading byte by byte *)
Theorem C62_same : forall s, go_snake2camel s = snake2camel s /\ go_removeComments s = removeComments s.
Proof. intros s. split; [apply snake_same|apply remove_same]. Qed.
Print Assumptions C62_same.
Theorem C62_snake2camel : forall s, go_snake2camel s = Ret (camel false s).
Proof. intros s. rewrite snake_same. apply PropsTools.snake_spec. Qed.
Print Assumptions C62_snake2camel.
Theorem C62_removecomments : forall s t, go_removeComments s = Ret t <-> cleaned (lines s) (lines t).
Proof.
  intros s t. rewrite remove_same. split; [apply PropsTools.remove_lines|]. intros H. apply PropsTools.remove_spec.
  exists (lines t). split; [exact H|symmetry; apply PropsTools.lines_concat].
Qed.
Print Assumptions C62_removecomments.

(* a file that is UTF-8 stays UTF-8 *)
Theorem C62_valid : forall s t, utf8_text s -> (go_snake2camel s = Ret t \/ go_removeComments s = Ret t) -> utf8_text t.
Proof. intros s t H [K|K]; [exact (snake_text s t K H)|exact (remove_text s t K H)]. Qed.
Print Assumptions C62_valid.

Example C62_example :
  DecodeRune (B "€_x") = (8364%N, 3%nat) /\ utf8 8364 (B "€") /\ DecodeRune [xe2; x82] = (RuneError, 1%nat) /\
  go_snake2camel (B "// é_ü a_é" ++ nl :: B "goto st_1") = Ret (B "// é_ü a_é" ++ nl :: B "goto st1") /\
  go_removeComments (B "ö" ++ nl :: B "//line ü.rl:1" ++ [nl; xff]) = Ret (B "ö" ++ [nl; xff]) /\
  utf8_text (B "é_a").
Proof.
  split; [reflexivity|]. split.
  { split; [split; [discriminate|intros [H _]; apply H; reflexivity]|]. right. right. left.
    exists xe2, x82, xac, 2%N, 2%N, 44%N. repeat split; discriminate. }
  split; [reflexivity|]. split; [vm_compute; reflexivity|]. split; [vm_compute; reflexivity|].
  apply (text_cons 233 [xc3; xa9] (B "_a")).
  - split; [split; [discriminate|intros [H _]; apply H; reflexivity]|]. right. left. exists xc3, xa9, 3%N, 41%N. repeat split; discriminate.
  - repeat (apply text_low; [reflexivity|]). constructor.
Qed.
