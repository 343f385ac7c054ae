(* GENERATED by gen/gen_machine.py from /repo/machine.go -- do not edit.
   Mechanical translation of the ragel-generated goto program inside
   func (m *machine) Parse (machine.go:137-5031).  Line numbers below refer to
   /repo/machine.go. *)
From Coq Require Import NArith ZArith List Bool String.
From Verif Require Import MachineSyntax.
Import ListNotations.
Local Open Scope N_scope.

(* machine.go:28-54 _toStateActions *)
Definition to_state_actions : list N :=
  [0; 0; 0; 0; 0; 0; 0; 0; 0; 0; 0; 0; 0; 0; 0; 0;
   0; 0; 0; 0; 0; 0; 0; 0; 0; 0; 0; 0; 0; 0; 0; 0;
   0; 0; 0; 0; 0; 0; 0; 0; 0; 0; 0; 0; 0; 0; 0; 0;
   0; 0; 0; 0; 0; 0; 0; 0; 0; 0; 0; 0; 0; 0; 0; 0;
   0; 0; 0; 0; 0; 0; 0; 0; 0; 0; 0; 0; 0; 0; 0; 0;
   0; 0; 0; 0; 0; 0; 0; 0; 0; 0; 0; 0; 0; 0; 0; 0;
   0; 0; 0; 0; 0; 0; 0; 0; 0; 0; 0; 0; 0; 0; 0; 0;
   0; 0; 0; 0; 0; 0; 0; 0; 0; 0; 0; 0; 0; 0; 0; 0;
   0; 0; 0; 0; 0; 0; 0; 0; 0; 0; 0; 0; 0; 0; 0; 0;
   0; 0; 0; 0; 0; 0; 0; 0; 0; 0; 0; 0; 0; 0; 0; 0;
   0; 0; 0; 0; 0; 0; 0; 0; 0; 0; 0; 33; 0; 0; 0; 0;
   0; 0; 0; 0; 0; 0; 0; 0; 0; 0; 0; 0; 0; 0; 0; 0;
   0; 0].

(* machine.go:56-82 _eofActions *)
Definition eof_actions : list N :=
  [0; 1; 1; 1; 1; 4; 6; 6; 6; 6; 6; 6; 6; 6; 6; 6;
   6; 6; 6; 6; 6; 6; 6; 6; 6; 6; 6; 6; 6; 6; 6; 6;
   6; 6; 6; 6; 6; 6; 8; 9; 9; 4; 4; 11; 1; 1; 1; 1;
   12; 12; 12; 12; 12; 12; 12; 12; 12; 12; 12; 12; 12; 12; 12; 12;
   12; 14; 14; 14; 14; 16; 18; 20; 20; 14; 14; 14; 14; 14; 14; 14;
   14; 14; 14; 1; 1; 1; 1; 21; 22; 22; 22; 22; 22; 22; 22; 22;
   22; 22; 22; 22; 22; 22; 22; 22; 22; 22; 22; 22; 22; 22; 22; 22;
   22; 22; 22; 22; 22; 22; 22; 22; 23; 24; 24; 25; 25; 0; 26; 28;
   28; 29; 29; 30; 30; 26; 26; 31; 31; 22; 22; 22; 22; 22; 22; 22;
   22; 22; 22; 22; 22; 22; 22; 22; 22; 22; 22; 22; 22; 22; 22; 22;
   22; 22; 22; 22; 22; 22; 22; 21; 21; 22; 22; 22; 34; 34; 35; 37;
   37; 38; 40; 41; 41; 38; 42; 42; 42; 44; 42; 48; 48; 48; 50; 44;
   50; 0].

(* machine.go:84 const start *)
Definition start_state : N := 1.

(* machine.go:85 const firstFinal *)
Definition first_final : N := 172.

(* machine.go:87 const enScimOnly *)
Definition en_scim_only : N := 44.

(* machine.go:88 const enRfc8141Only *)
Definition en_rfc8141_only : N := 83.

(* machine.go:89 const enFail *)
Definition en_fail : N := 193.

(* machine.go:90 const enMain *)
Definition en_main : N := 1.

(* machine.go:166-167 case 0 *)
Definition st_case_0 (c : N) : tgt :=
  TOut.

(* machine.go:158-165 case 1 *)
Definition st_case_1 (c : N) : tgt :=
  if c =? 85 then TTr 1 else
  if c =? 117 then TTr 1 else
  TTr 0.

(* machine.go:168-175 case 2 *)
Definition st_case_2 (c : N) : tgt :=
  if c =? 82 then TTr 2 else
  if c =? 114 then TTr 2 else
  TTr 0.

(* machine.go:176-183 case 3 *)
Definition st_case_3 (c : N) : tgt :=
  if c =? 78 then TTr 3 else
  if c =? 110 then TTr 3 else
  TTr 0.

(* machine.go:184-188 case 4 *)
Definition st_case_4 (c : N) : tgt :=
  if c =? 58 then TTr 4 else
  TTr 0.

(* machine.go:189-208 case 5 *)
Definition st_case_5 (c : N) : tgt :=
  if c =? 85 then TTr 7 else
  if c =? 117 then TTr 7 else
  if c <? 65 then (if (48 <=? c) && (c <=? 57) then TTr 6 else
  TTr 5) else
  if 90 <? c then (if (97 <=? c) && (c <=? 122) then TTr 6 else
  TTr 5) else
  (TTr 6).

(* machine.go:209-228 case 6 *)
Definition st_case_6 (c : N) : tgt :=
  if c =? 45 then TTr 9 else
  if c =? 58 then TTr 10 else
  if c <? 65 then (if (48 <=? c) && (c <=? 57) then TTr 9 else
  TTr 8) else
  if 90 <? c then (if (97 <=? c) && (c <=? 122) then TTr 9 else
  TTr 8) else
  (TTr 9).

(* machine.go:229-248 case 7 *)
Definition st_case_7 (c : N) : tgt :=
  if c =? 45 then TTr 11 else
  if c =? 58 then TTr 10 else
  if c <? 65 then (if (48 <=? c) && (c <=? 57) then TTr 11 else
  TTr 8) else
  if 90 <? c then (if (97 <=? c) && (c <=? 122) then TTr 11 else
  TTr 8) else
  (TTr 11).

(* machine.go:249-268 case 8 *)
Definition st_case_8 (c : N) : tgt :=
  if c =? 45 then TTr 12 else
  if c =? 58 then TTr 10 else
  if c <? 65 then (if (48 <=? c) && (c <=? 57) then TTr 12 else
  TTr 8) else
  if 90 <? c then (if (97 <=? c) && (c <=? 122) then TTr 12 else
  TTr 8) else
  (TTr 12).

(* machine.go:269-288 case 9 *)
Definition st_case_9 (c : N) : tgt :=
  if c =? 45 then TTr 13 else
  if c =? 58 then TTr 10 else
  if c <? 65 then (if (48 <=? c) && (c <=? 57) then TTr 13 else
  TTr 8) else
  if 90 <? c then (if (97 <=? c) && (c <=? 122) then TTr 13 else
  TTr 8) else
  (TTr 13).

(* machine.go:289-308 case 10 *)
Definition st_case_10 (c : N) : tgt :=
  if c =? 45 then TTr 14 else
  if c =? 58 then TTr 10 else
  if c <? 65 then (if (48 <=? c) && (c <=? 57) then TTr 14 else
  TTr 8) else
  if 90 <? c then (if (97 <=? c) && (c <=? 122) then TTr 14 else
  TTr 8) else
  (TTr 14).

(* machine.go:309-328 case 11 *)
Definition st_case_11 (c : N) : tgt :=
  if c =? 45 then TTr 15 else
  if c =? 58 then TTr 10 else
  if c <? 65 then (if (48 <=? c) && (c <=? 57) then TTr 15 else
  TTr 8) else
  if 90 <? c then (if (97 <=? c) && (c <=? 122) then TTr 15 else
  TTr 8) else
  (TTr 15).

(* machine.go:329-348 case 12 *)
Definition st_case_12 (c : N) : tgt :=
  if c =? 45 then TTr 16 else
  if c =? 58 then TTr 10 else
  if c <? 65 then (if (48 <=? c) && (c <=? 57) then TTr 16 else
  TTr 8) else
  if 90 <? c then (if (97 <=? c) && (c <=? 122) then TTr 16 else
  TTr 8) else
  (TTr 16).

(* machine.go:349-368 case 13 *)
Definition st_case_13 (c : N) : tgt :=
  if c =? 45 then TTr 17 else
  if c =? 58 then TTr 10 else
  if c <? 65 then (if (48 <=? c) && (c <=? 57) then TTr 17 else
  TTr 8) else
  if 90 <? c then (if (97 <=? c) && (c <=? 122) then TTr 17 else
  TTr 8) else
  (TTr 17).

(* machine.go:369-388 case 14 *)
Definition st_case_14 (c : N) : tgt :=
  if c =? 45 then TTr 18 else
  if c =? 58 then TTr 10 else
  if c <? 65 then (if (48 <=? c) && (c <=? 57) then TTr 18 else
  TTr 8) else
  if 90 <? c then (if (97 <=? c) && (c <=? 122) then TTr 18 else
  TTr 8) else
  (TTr 18).

(* machine.go:389-408 case 15 *)
Definition st_case_15 (c : N) : tgt :=
  if c =? 45 then TTr 19 else
  if c =? 58 then TTr 10 else
  if c <? 65 then (if (48 <=? c) && (c <=? 57) then TTr 19 else
  TTr 8) else
  if 90 <? c then (if (97 <=? c) && (c <=? 122) then TTr 19 else
  TTr 8) else
  (TTr 19).

(* machine.go:409-428 case 16 *)
Definition st_case_16 (c : N) : tgt :=
  if c =? 45 then TTr 20 else
  if c =? 58 then TTr 10 else
  if c <? 65 then (if (48 <=? c) && (c <=? 57) then TTr 20 else
  TTr 8) else
  if 90 <? c then (if (97 <=? c) && (c <=? 122) then TTr 20 else
  TTr 8) else
  (TTr 20).

(* machine.go:429-448 case 17 *)
Definition st_case_17 (c : N) : tgt :=
  if c =? 45 then TTr 21 else
  if c =? 58 then TTr 10 else
  if c <? 65 then (if (48 <=? c) && (c <=? 57) then TTr 21 else
  TTr 8) else
  if 90 <? c then (if (97 <=? c) && (c <=? 122) then TTr 21 else
  TTr 8) else
  (TTr 21).

(* machine.go:449-468 case 18 *)
Definition st_case_18 (c : N) : tgt :=
  if c =? 45 then TTr 22 else
  if c =? 58 then TTr 10 else
  if c <? 65 then (if (48 <=? c) && (c <=? 57) then TTr 22 else
  TTr 8) else
  if 90 <? c then (if (97 <=? c) && (c <=? 122) then TTr 22 else
  TTr 8) else
  (TTr 22).

(* machine.go:469-488 case 19 *)
Definition st_case_19 (c : N) : tgt :=
  if c =? 45 then TTr 23 else
  if c =? 58 then TTr 10 else
  if c <? 65 then (if (48 <=? c) && (c <=? 57) then TTr 23 else
  TTr 8) else
  if 90 <? c then (if (97 <=? c) && (c <=? 122) then TTr 23 else
  TTr 8) else
  (TTr 23).

(* machine.go:489-508 case 20 *)
Definition st_case_20 (c : N) : tgt :=
  if c =? 45 then TTr 24 else
  if c =? 58 then TTr 10 else
  if c <? 65 then (if (48 <=? c) && (c <=? 57) then TTr 24 else
  TTr 8) else
  if 90 <? c then (if (97 <=? c) && (c <=? 122) then TTr 24 else
  TTr 8) else
  (TTr 24).

(* machine.go:509-528 case 21 *)
Definition st_case_21 (c : N) : tgt :=
  if c =? 45 then TTr 25 else
  if c =? 58 then TTr 10 else
  if c <? 65 then (if (48 <=? c) && (c <=? 57) then TTr 25 else
  TTr 8) else
  if 90 <? c then (if (97 <=? c) && (c <=? 122) then TTr 25 else
  TTr 8) else
  (TTr 25).

(* machine.go:529-548 case 22 *)
Definition st_case_22 (c : N) : tgt :=
  if c =? 45 then TTr 26 else
  if c =? 58 then TTr 10 else
  if c <? 65 then (if (48 <=? c) && (c <=? 57) then TTr 26 else
  TTr 8) else
  if 90 <? c then (if (97 <=? c) && (c <=? 122) then TTr 26 else
  TTr 8) else
  (TTr 26).

(* machine.go:549-568 case 23 *)
Definition st_case_23 (c : N) : tgt :=
  if c =? 45 then TTr 27 else
  if c =? 58 then TTr 10 else
  if c <? 65 then (if (48 <=? c) && (c <=? 57) then TTr 27 else
  TTr 8) else
  if 90 <? c then (if (97 <=? c) && (c <=? 122) then TTr 27 else
  TTr 8) else
  (TTr 27).

(* machine.go:569-588 case 24 *)
Definition st_case_24 (c : N) : tgt :=
  if c =? 45 then TTr 28 else
  if c =? 58 then TTr 10 else
  if c <? 65 then (if (48 <=? c) && (c <=? 57) then TTr 28 else
  TTr 8) else
  if 90 <? c then (if (97 <=? c) && (c <=? 122) then TTr 28 else
  TTr 8) else
  (TTr 28).

(* machine.go:589-608 case 25 *)
Definition st_case_25 (c : N) : tgt :=
  if c =? 45 then TTr 29 else
  if c =? 58 then TTr 10 else
  if c <? 65 then (if (48 <=? c) && (c <=? 57) then TTr 29 else
  TTr 8) else
  if 90 <? c then (if (97 <=? c) && (c <=? 122) then TTr 29 else
  TTr 8) else
  (TTr 29).

(* machine.go:609-628 case 26 *)
Definition st_case_26 (c : N) : tgt :=
  if c =? 45 then TTr 30 else
  if c =? 58 then TTr 10 else
  if c <? 65 then (if (48 <=? c) && (c <=? 57) then TTr 30 else
  TTr 8) else
  if 90 <? c then (if (97 <=? c) && (c <=? 122) then TTr 30 else
  TTr 8) else
  (TTr 30).

(* machine.go:629-648 case 27 *)
Definition st_case_27 (c : N) : tgt :=
  if c =? 45 then TTr 31 else
  if c =? 58 then TTr 10 else
  if c <? 65 then (if (48 <=? c) && (c <=? 57) then TTr 31 else
  TTr 8) else
  if 90 <? c then (if (97 <=? c) && (c <=? 122) then TTr 31 else
  TTr 8) else
  (TTr 31).

(* machine.go:649-668 case 28 *)
Definition st_case_28 (c : N) : tgt :=
  if c =? 45 then TTr 32 else
  if c =? 58 then TTr 10 else
  if c <? 65 then (if (48 <=? c) && (c <=? 57) then TTr 32 else
  TTr 8) else
  if 90 <? c then (if (97 <=? c) && (c <=? 122) then TTr 32 else
  TTr 8) else
  (TTr 32).

(* machine.go:669-688 case 29 *)
Definition st_case_29 (c : N) : tgt :=
  if c =? 45 then TTr 33 else
  if c =? 58 then TTr 10 else
  if c <? 65 then (if (48 <=? c) && (c <=? 57) then TTr 33 else
  TTr 8) else
  if 90 <? c then (if (97 <=? c) && (c <=? 122) then TTr 33 else
  TTr 8) else
  (TTr 33).

(* machine.go:689-708 case 30 *)
Definition st_case_30 (c : N) : tgt :=
  if c =? 45 then TTr 34 else
  if c =? 58 then TTr 10 else
  if c <? 65 then (if (48 <=? c) && (c <=? 57) then TTr 34 else
  TTr 8) else
  if 90 <? c then (if (97 <=? c) && (c <=? 122) then TTr 34 else
  TTr 8) else
  (TTr 34).

(* machine.go:709-728 case 31 *)
Definition st_case_31 (c : N) : tgt :=
  if c =? 45 then TTr 35 else
  if c =? 58 then TTr 10 else
  if c <? 65 then (if (48 <=? c) && (c <=? 57) then TTr 35 else
  TTr 8) else
  if 90 <? c then (if (97 <=? c) && (c <=? 122) then TTr 35 else
  TTr 8) else
  (TTr 35).

(* machine.go:729-748 case 32 *)
Definition st_case_32 (c : N) : tgt :=
  if c =? 45 then TTr 36 else
  if c =? 58 then TTr 10 else
  if c <? 65 then (if (48 <=? c) && (c <=? 57) then TTr 36 else
  TTr 8) else
  if 90 <? c then (if (97 <=? c) && (c <=? 122) then TTr 36 else
  TTr 8) else
  (TTr 36).

(* machine.go:749-768 case 33 *)
Definition st_case_33 (c : N) : tgt :=
  if c =? 45 then TTr 37 else
  if c =? 58 then TTr 10 else
  if c <? 65 then (if (48 <=? c) && (c <=? 57) then TTr 37 else
  TTr 8) else
  if 90 <? c then (if (97 <=? c) && (c <=? 122) then TTr 37 else
  TTr 8) else
  (TTr 37).

(* machine.go:769-788 case 34 *)
Definition st_case_34 (c : N) : tgt :=
  if c =? 45 then TTr 38 else
  if c =? 58 then TTr 10 else
  if c <? 65 then (if (48 <=? c) && (c <=? 57) then TTr 38 else
  TTr 8) else
  if 90 <? c then (if (97 <=? c) && (c <=? 122) then TTr 38 else
  TTr 8) else
  (TTr 38).

(* machine.go:789-808 case 35 *)
Definition st_case_35 (c : N) : tgt :=
  if c =? 45 then TTr 39 else
  if c =? 58 then TTr 10 else
  if c <? 65 then (if (48 <=? c) && (c <=? 57) then TTr 39 else
  TTr 8) else
  if 90 <? c then (if (97 <=? c) && (c <=? 122) then TTr 39 else
  TTr 8) else
  (TTr 39).

(* machine.go:809-828 case 36 *)
Definition st_case_36 (c : N) : tgt :=
  if c =? 45 then TTr 40 else
  if c =? 58 then TTr 10 else
  if c <? 65 then (if (48 <=? c) && (c <=? 57) then TTr 40 else
  TTr 8) else
  if 90 <? c then (if (97 <=? c) && (c <=? 122) then TTr 40 else
  TTr 8) else
  (TTr 40).

(* machine.go:829-833 case 37 *)
Definition st_case_37 (c : N) : tgt :=
  if c =? 58 then TTr 10 else
  TTr 8.

(* machine.go:834-864 case 38 *)
Definition st_case_38 (c : N) : tgt :=
  if c =? 33 then TTr 42 else
  if c =? 36 then TTr 42 else
  if c =? 37 then TTr 43 else
  if c =? 61 then TTr 42 else
  if c =? 95 then TTr 42 else
  if c <? 48 then (if (39 <=? c) && (c <=? 46) then TTr 42 else
  TTr 41) else
  if 59 <? c then (if 90 <? c then (if (97 <=? c) && (c <=? 122) then TTr 42 else
  TTr 41) else
  if 64 <=? c then (TTr 42) else
  TTr 41) else
  (TTr 42).

(* machine.go:896-909 case 39 *)
Definition st_case_39 (c : N) : tgt :=
  if c <? 65 then (if (48 <=? c) && (c <=? 57) then TTr 45 else
  TTr 44) else
  if 90 <? c then (if (97 <=? c) && (c <=? 122) then TTr 45 else
  TTr 44) else
  (TTr 46).

(* machine.go:910-923 case 40 *)
Definition st_case_40 (c : N) : tgt :=
  if c <? 65 then (if (48 <=? c) && (c <=? 57) then TTr 47 else
  TTr 44) else
  if 90 <? c then (if (97 <=? c) && (c <=? 122) then TTr 47 else
  TTr 44) else
  (TTr 48).

(* machine.go:955-978 case 41 *)
Definition st_case_41 (c : N) : tgt :=
  if c =? 45 then TTr 9 else
  if c =? 58 then TTr 10 else
  if c =? 82 then TTr 49 else
  if c =? 114 then TTr 49 else
  if c <? 65 then (if (48 <=? c) && (c <=? 57) then TTr 9 else
  TTr 5) else
  if 90 <? c then (if (97 <=? c) && (c <=? 122) then TTr 9 else
  TTr 5) else
  (TTr 9).

(* machine.go:979-1002 case 42 *)
Definition st_case_42 (c : N) : tgt :=
  if c =? 45 then TTr 11 else
  if c =? 58 then TTr 10 else
  if c =? 78 then TTr 50 else
  if c =? 110 then TTr 50 else
  if c <? 65 then (if (48 <=? c) && (c <=? 57) then TTr 11 else
  TTr 5) else
  if 90 <? c then (if (97 <=? c) && (c <=? 122) then TTr 11 else
  TTr 5) else
  (TTr 11).

(* machine.go:1003-1019 case 43 *)
Definition st_case_43 (c : N) : tgt :=
  if c =? 45 then TTr 12 else
  if c <? 65 then (if (48 <=? c) && (c <=? 57) then TTr 12 else
  TTr 51) else
  if 90 <? c then (if (97 <=? c) && (c <=? 122) then TTr 12 else
  TTr 51) else
  (TTr 12).

(* machine.go:1020-1027 case 44 *)
Definition st_case_44 (c : N) : tgt :=
  if c =? 85 then TTr 52 else
  if c =? 117 then TTr 52 else
  TTr 0.

(* machine.go:1028-1035 case 45 *)
Definition st_case_45 (c : N) : tgt :=
  if c =? 82 then TTr 53 else
  if c =? 114 then TTr 53 else
  TTr 0.

(* machine.go:1036-1043 case 46 *)
Definition st_case_46 (c : N) : tgt :=
  if c =? 78 then TTr 54 else
  if c =? 110 then TTr 54 else
  TTr 0.

(* machine.go:1044-1048 case 47 *)
Definition st_case_47 (c : N) : tgt :=
  if c =? 58 then TTr 55 else
  TTr 0.

(* machine.go:1049-1053 case 48 *)
Definition st_case_48 (c : N) : tgt :=
  if c =? 105 then TTr 57 else
  TTr 56.

(* machine.go:1054-1058 case 49 *)
Definition st_case_49 (c : N) : tgt :=
  if c =? 101 then TTr 58 else
  TTr 56.

(* machine.go:1059-1063 case 50 *)
Definition st_case_50 (c : N) : tgt :=
  if c =? 116 then TTr 59 else
  TTr 56.

(* machine.go:1064-1068 case 51 *)
Definition st_case_51 (c : N) : tgt :=
  if c =? 102 then TTr 60 else
  TTr 56.

(* machine.go:1069-1073 case 52 *)
Definition st_case_52 (c : N) : tgt :=
  if c =? 58 then TTr 61 else
  TTr 56.

(* machine.go:1074-1078 case 53 *)
Definition st_case_53 (c : N) : tgt :=
  if c =? 112 then TTr 62 else
  TTr 56.

(* machine.go:1079-1083 case 54 *)
Definition st_case_54 (c : N) : tgt :=
  if c =? 97 then TTr 63 else
  TTr 56.

(* machine.go:1084-1088 case 55 *)
Definition st_case_55 (c : N) : tgt :=
  if c =? 114 then TTr 64 else
  TTr 56.

(* machine.go:1089-1093 case 56 *)
Definition st_case_56 (c : N) : tgt :=
  if c =? 97 then TTr 65 else
  TTr 56.

(* machine.go:1094-1098 case 57 *)
Definition st_case_57 (c : N) : tgt :=
  if c =? 109 then TTr 66 else
  TTr 56.

(* machine.go:1099-1103 case 58 *)
Definition st_case_58 (c : N) : tgt :=
  if c =? 115 then TTr 67 else
  TTr 56.

(* machine.go:1104-1108 case 59 *)
Definition st_case_59 (c : N) : tgt :=
  if c =? 58 then TTr 68 else
  TTr 56.

(* machine.go:1109-1113 case 60 *)
Definition st_case_60 (c : N) : tgt :=
  if c =? 115 then TTr 69 else
  TTr 56.

(* machine.go:1114-1118 case 61 *)
Definition st_case_61 (c : N) : tgt :=
  if c =? 99 then TTr 70 else
  TTr 56.

(* machine.go:1119-1123 case 62 *)
Definition st_case_62 (c : N) : tgt :=
  if c =? 105 then TTr 71 else
  TTr 56.

(* machine.go:1124-1128 case 63 *)
Definition st_case_63 (c : N) : tgt :=
  if c =? 109 then TTr 72 else
  TTr 56.

(* machine.go:1129-1133 case 64 *)
Definition st_case_64 (c : N) : tgt :=
  if c =? 58 then TTr 73 else
  TTr 56.

(* machine.go:1134-1143 case 65 *)
Definition st_case_65 (c : N) : tgt :=
  if c =? 97 then TTr 75 else
  if c =? 112 then TTr 76 else
  if c =? 115 then TTr 77 else
  TTr 74.

(* machine.go:1144-1148 case 66 *)
Definition st_case_66 (c : N) : tgt :=
  if c =? 112 then TTr 78 else
  TTr 74.

(* machine.go:1149-1153 case 67 *)
Definition st_case_67 (c : N) : tgt :=
  if c =? 105 then TTr 79 else
  TTr 74.

(* machine.go:1154-1158 case 68 *)
Definition st_case_68 (c : N) : tgt :=
  if c =? 58 then TTr 80 else
  TTr 74.

(* machine.go:1159-1172 case 69 *)
Definition st_case_69 (c : N) : tgt :=
  if c <? 65 then (if (48 <=? c) && (c <=? 57) then TTr 82 else
  TTr 81) else
  if 90 <? c then (if (97 <=? c) && (c <=? 122) then TTr 82 else
  TTr 81) else
  (TTr 82).

(* machine.go:1190-1220 case 70 *)
Definition st_case_70 (c : N) : tgt :=
  if c =? 33 then TTr 84 else
  if c =? 36 then TTr 84 else
  if c =? 37 then TTr 85 else
  if c =? 61 then TTr 84 else
  if c =? 95 then TTr 84 else
  if c <? 48 then (if (39 <=? c) && (c <=? 46) then TTr 84 else
  TTr 83) else
  if 59 <? c then (if 90 <? c then (if (97 <=? c) && (c <=? 122) then TTr 84 else
  TTr 83) else
  if 64 <=? c then (TTr 84) else
  TTr 83) else
  (TTr 84).

(* machine.go:1252-1265 case 71 *)
Definition st_case_71 (c : N) : tgt :=
  if c <? 65 then (if (48 <=? c) && (c <=? 57) then TTr 87 else
  TTr 86) else
  if 90 <? c then (if (97 <=? c) && (c <=? 122) then TTr 87 else
  TTr 86) else
  (TTr 88).

(* machine.go:1266-1279 case 72 *)
Definition st_case_72 (c : N) : tgt :=
  if c <? 65 then (if (48 <=? c) && (c <=? 57) then TTr 89 else
  TTr 86) else
  if 90 <? c then (if (97 <=? c) && (c <=? 122) then TTr 89 else
  TTr 86) else
  (TTr 90).

(* machine.go:1311-1315 case 73 *)
Definition st_case_73 (c : N) : tgt :=
  if c =? 97 then TTr 91 else
  TTr 74.

(* machine.go:1316-1320 case 74 *)
Definition st_case_74 (c : N) : tgt :=
  if c =? 114 then TTr 92 else
  TTr 74.

(* machine.go:1321-1325 case 75 *)
Definition st_case_75 (c : N) : tgt :=
  if c =? 97 then TTr 93 else
  TTr 74.

(* machine.go:1326-1330 case 76 *)
Definition st_case_76 (c : N) : tgt :=
  if c =? 109 then TTr 79 else
  TTr 74.

(* machine.go:1331-1335 case 77 *)
Definition st_case_77 (c : N) : tgt :=
  if c =? 99 then TTr 94 else
  TTr 74.

(* machine.go:1336-1340 case 78 *)
Definition st_case_78 (c : N) : tgt :=
  if c =? 104 then TTr 95 else
  TTr 74.

(* machine.go:1341-1345 case 79 *)
Definition st_case_79 (c : N) : tgt :=
  if c =? 101 then TTr 96 else
  TTr 74.

(* machine.go:1346-1350 case 80 *)
Definition st_case_80 (c : N) : tgt :=
  if c =? 109 then TTr 97 else
  TTr 74.

(* machine.go:1351-1355 case 81 *)
Definition st_case_81 (c : N) : tgt :=
  if c =? 97 then TTr 98 else
  TTr 74.

(* machine.go:1356-1360 case 82 *)
Definition st_case_82 (c : N) : tgt :=
  if c =? 115 then TTr 79 else
  TTr 74.

(* machine.go:1361-1368 case 83 *)
Definition st_case_83 (c : N) : tgt :=
  if c =? 85 then TTr 99 else
  if c =? 117 then TTr 99 else
  TTr 0.

(* machine.go:1369-1376 case 84 *)
Definition st_case_84 (c : N) : tgt :=
  if c =? 82 then TTr 100 else
  if c =? 114 then TTr 100 else
  TTr 0.

(* machine.go:1377-1384 case 85 *)
Definition st_case_85 (c : N) : tgt :=
  if c =? 78 then TTr 101 else
  if c =? 110 then TTr 101 else
  TTr 0.

(* machine.go:1385-1389 case 86 *)
Definition st_case_86 (c : N) : tgt :=
  if c =? 58 then TTr 102 else
  TTr 0.

(* machine.go:1390-1409 case 87 *)
Definition st_case_87 (c : N) : tgt :=
  if c =? 85 then TTr 105 else
  if c =? 117 then TTr 105 else
  if c <? 65 then (if (48 <=? c) && (c <=? 57) then TTr 104 else
  TTr 103) else
  if 90 <? c then (if (97 <=? c) && (c <=? 122) then TTr 104 else
  TTr 103) else
  (TTr 104).

(* machine.go:1410-1426 case 88 *)
Definition st_case_88 (c : N) : tgt :=
  if c =? 45 then TTr 107 else
  if c <? 65 then (if (48 <=? c) && (c <=? 57) then TTr 108 else
  TTr 106) else
  if 90 <? c then (if (97 <=? c) && (c <=? 122) then TTr 108 else
  TTr 106) else
  (TTr 108).

(* machine.go:1427-1443 case 89 *)
Definition st_case_89 (c : N) : tgt :=
  if c =? 45 then TTr 109 else
  if c <? 65 then (if (48 <=? c) && (c <=? 57) then TTr 110 else
  TTr 106) else
  if 90 <? c then (if (97 <=? c) && (c <=? 122) then TTr 110 else
  TTr 106) else
  (TTr 110).

(* machine.go:1444-1460 case 90 *)
Definition st_case_90 (c : N) : tgt :=
  if c =? 45 then TTr 111 else
  if c <? 65 then (if (48 <=? c) && (c <=? 57) then TTr 112 else
  TTr 106) else
  if 90 <? c then (if (97 <=? c) && (c <=? 122) then TTr 112 else
  TTr 106) else
  (TTr 112).

(* machine.go:1461-1477 case 91 *)
Definition st_case_91 (c : N) : tgt :=
  if c =? 45 then TTr 113 else
  if c <? 65 then (if (48 <=? c) && (c <=? 57) then TTr 114 else
  TTr 106) else
  if 90 <? c then (if (97 <=? c) && (c <=? 122) then TTr 114 else
  TTr 106) else
  (TTr 114).

(* machine.go:1478-1494 case 92 *)
Definition st_case_92 (c : N) : tgt :=
  if c =? 45 then TTr 115 else
  if c <? 65 then (if (48 <=? c) && (c <=? 57) then TTr 116 else
  TTr 106) else
  if 90 <? c then (if (97 <=? c) && (c <=? 122) then TTr 116 else
  TTr 106) else
  (TTr 116).

(* machine.go:1495-1511 case 93 *)
Definition st_case_93 (c : N) : tgt :=
  if c =? 45 then TTr 117 else
  if c <? 65 then (if (48 <=? c) && (c <=? 57) then TTr 118 else
  TTr 106) else
  if 90 <? c then (if (97 <=? c) && (c <=? 122) then TTr 118 else
  TTr 106) else
  (TTr 118).

(* machine.go:1512-1528 case 94 *)
Definition st_case_94 (c : N) : tgt :=
  if c =? 45 then TTr 119 else
  if c <? 65 then (if (48 <=? c) && (c <=? 57) then TTr 120 else
  TTr 106) else
  if 90 <? c then (if (97 <=? c) && (c <=? 122) then TTr 120 else
  TTr 106) else
  (TTr 120).

(* machine.go:1529-1545 case 95 *)
Definition st_case_95 (c : N) : tgt :=
  if c =? 45 then TTr 121 else
  if c <? 65 then (if (48 <=? c) && (c <=? 57) then TTr 122 else
  TTr 106) else
  if 90 <? c then (if (97 <=? c) && (c <=? 122) then TTr 122 else
  TTr 106) else
  (TTr 122).

(* machine.go:1546-1562 case 96 *)
Definition st_case_96 (c : N) : tgt :=
  if c =? 45 then TTr 123 else
  if c <? 65 then (if (48 <=? c) && (c <=? 57) then TTr 124 else
  TTr 106) else
  if 90 <? c then (if (97 <=? c) && (c <=? 122) then TTr 124 else
  TTr 106) else
  (TTr 124).

(* machine.go:1563-1579 case 97 *)
Definition st_case_97 (c : N) : tgt :=
  if c =? 45 then TTr 125 else
  if c <? 65 then (if (48 <=? c) && (c <=? 57) then TTr 126 else
  TTr 106) else
  if 90 <? c then (if (97 <=? c) && (c <=? 122) then TTr 126 else
  TTr 106) else
  (TTr 126).

(* machine.go:1580-1596 case 98 *)
Definition st_case_98 (c : N) : tgt :=
  if c =? 45 then TTr 127 else
  if c <? 65 then (if (48 <=? c) && (c <=? 57) then TTr 128 else
  TTr 106) else
  if 90 <? c then (if (97 <=? c) && (c <=? 122) then TTr 128 else
  TTr 106) else
  (TTr 128).

(* machine.go:1597-1613 case 99 *)
Definition st_case_99 (c : N) : tgt :=
  if c =? 45 then TTr 129 else
  if c <? 65 then (if (48 <=? c) && (c <=? 57) then TTr 130 else
  TTr 106) else
  if 90 <? c then (if (97 <=? c) && (c <=? 122) then TTr 130 else
  TTr 106) else
  (TTr 130).

(* machine.go:1614-1630 case 100 *)
Definition st_case_100 (c : N) : tgt :=
  if c =? 45 then TTr 131 else
  if c <? 65 then (if (48 <=? c) && (c <=? 57) then TTr 132 else
  TTr 106) else
  if 90 <? c then (if (97 <=? c) && (c <=? 122) then TTr 132 else
  TTr 106) else
  (TTr 132).

(* machine.go:1631-1647 case 101 *)
Definition st_case_101 (c : N) : tgt :=
  if c =? 45 then TTr 133 else
  if c <? 65 then (if (48 <=? c) && (c <=? 57) then TTr 134 else
  TTr 106) else
  if 90 <? c then (if (97 <=? c) && (c <=? 122) then TTr 134 else
  TTr 106) else
  (TTr 134).

(* machine.go:1648-1664 case 102 *)
Definition st_case_102 (c : N) : tgt :=
  if c =? 45 then TTr 135 else
  if c <? 65 then (if (48 <=? c) && (c <=? 57) then TTr 136 else
  TTr 106) else
  if 90 <? c then (if (97 <=? c) && (c <=? 122) then TTr 136 else
  TTr 106) else
  (TTr 136).

(* machine.go:1665-1681 case 103 *)
Definition st_case_103 (c : N) : tgt :=
  if c =? 45 then TTr 137 else
  if c <? 65 then (if (48 <=? c) && (c <=? 57) then TTr 138 else
  TTr 106) else
  if 90 <? c then (if (97 <=? c) && (c <=? 122) then TTr 138 else
  TTr 106) else
  (TTr 138).

(* machine.go:1682-1698 case 104 *)
Definition st_case_104 (c : N) : tgt :=
  if c =? 45 then TTr 139 else
  if c <? 65 then (if (48 <=? c) && (c <=? 57) then TTr 140 else
  TTr 106) else
  if 90 <? c then (if (97 <=? c) && (c <=? 122) then TTr 140 else
  TTr 106) else
  (TTr 140).

(* machine.go:1699-1715 case 105 *)
Definition st_case_105 (c : N) : tgt :=
  if c =? 45 then TTr 141 else
  if c <? 65 then (if (48 <=? c) && (c <=? 57) then TTr 142 else
  TTr 106) else
  if 90 <? c then (if (97 <=? c) && (c <=? 122) then TTr 142 else
  TTr 106) else
  (TTr 142).

(* machine.go:1716-1732 case 106 *)
Definition st_case_106 (c : N) : tgt :=
  if c =? 45 then TTr 143 else
  if c <? 65 then (if (48 <=? c) && (c <=? 57) then TTr 144 else
  TTr 106) else
  if 90 <? c then (if (97 <=? c) && (c <=? 122) then TTr 144 else
  TTr 106) else
  (TTr 144).

(* machine.go:1733-1749 case 107 *)
Definition st_case_107 (c : N) : tgt :=
  if c =? 45 then TTr 145 else
  if c <? 65 then (if (48 <=? c) && (c <=? 57) then TTr 146 else
  TTr 106) else
  if 90 <? c then (if (97 <=? c) && (c <=? 122) then TTr 146 else
  TTr 106) else
  (TTr 146).

(* machine.go:1750-1766 case 108 *)
Definition st_case_108 (c : N) : tgt :=
  if c =? 45 then TTr 147 else
  if c <? 65 then (if (48 <=? c) && (c <=? 57) then TTr 148 else
  TTr 106) else
  if 90 <? c then (if (97 <=? c) && (c <=? 122) then TTr 148 else
  TTr 106) else
  (TTr 148).

(* machine.go:1767-1783 case 109 *)
Definition st_case_109 (c : N) : tgt :=
  if c =? 45 then TTr 149 else
  if c <? 65 then (if (48 <=? c) && (c <=? 57) then TTr 150 else
  TTr 106) else
  if 90 <? c then (if (97 <=? c) && (c <=? 122) then TTr 150 else
  TTr 106) else
  (TTr 150).

(* machine.go:1784-1800 case 110 *)
Definition st_case_110 (c : N) : tgt :=
  if c =? 45 then TTr 151 else
  if c <? 65 then (if (48 <=? c) && (c <=? 57) then TTr 152 else
  TTr 106) else
  if 90 <? c then (if (97 <=? c) && (c <=? 122) then TTr 152 else
  TTr 106) else
  (TTr 152).

(* machine.go:1801-1817 case 111 *)
Definition st_case_111 (c : N) : tgt :=
  if c =? 45 then TTr 153 else
  if c <? 65 then (if (48 <=? c) && (c <=? 57) then TTr 154 else
  TTr 106) else
  if 90 <? c then (if (97 <=? c) && (c <=? 122) then TTr 154 else
  TTr 106) else
  (TTr 154).

(* machine.go:1818-1834 case 112 *)
Definition st_case_112 (c : N) : tgt :=
  if c =? 45 then TTr 155 else
  if c <? 65 then (if (48 <=? c) && (c <=? 57) then TTr 156 else
  TTr 106) else
  if 90 <? c then (if (97 <=? c) && (c <=? 122) then TTr 156 else
  TTr 106) else
  (TTr 156).

(* machine.go:1835-1851 case 113 *)
Definition st_case_113 (c : N) : tgt :=
  if c =? 45 then TTr 157 else
  if c <? 65 then (if (48 <=? c) && (c <=? 57) then TTr 158 else
  TTr 106) else
  if 90 <? c then (if (97 <=? c) && (c <=? 122) then TTr 158 else
  TTr 106) else
  (TTr 158).

(* machine.go:1852-1868 case 114 *)
Definition st_case_114 (c : N) : tgt :=
  if c =? 45 then TTr 159 else
  if c <? 65 then (if (48 <=? c) && (c <=? 57) then TTr 160 else
  TTr 106) else
  if 90 <? c then (if (97 <=? c) && (c <=? 122) then TTr 160 else
  TTr 106) else
  (TTr 160).

(* machine.go:1869-1885 case 115 *)
Definition st_case_115 (c : N) : tgt :=
  if c =? 45 then TTr 161 else
  if c <? 65 then (if (48 <=? c) && (c <=? 57) then TTr 162 else
  TTr 106) else
  if 90 <? c then (if (97 <=? c) && (c <=? 122) then TTr 162 else
  TTr 106) else
  (TTr 162).

(* machine.go:1886-1902 case 116 *)
Definition st_case_116 (c : N) : tgt :=
  if c =? 45 then TTr 163 else
  if c <? 65 then (if (48 <=? c) && (c <=? 57) then TTr 164 else
  TTr 106) else
  if 90 <? c then (if (97 <=? c) && (c <=? 122) then TTr 164 else
  TTr 106) else
  (TTr 164).

(* machine.go:1903-1919 case 117 *)
Definition st_case_117 (c : N) : tgt :=
  if c =? 45 then TTr 165 else
  if c <? 65 then (if (48 <=? c) && (c <=? 57) then TTr 166 else
  TTr 106) else
  if 90 <? c then (if (97 <=? c) && (c <=? 122) then TTr 166 else
  TTr 106) else
  (TTr 166).

(* machine.go:1920-1933 case 118 *)
Definition st_case_118 (c : N) : tgt :=
  if c <? 65 then (if (48 <=? c) && (c <=? 57) then TTr 167 else
  TTr 106) else
  if 90 <? c then (if (97 <=? c) && (c <=? 122) then TTr 167 else
  TTr 106) else
  (TTr 167).

(* machine.go:1934-1938 case 119 *)
Definition st_case_119 (c : N) : tgt :=
  if c =? 58 then TTr 168 else
  TTr 106.

(* machine.go:1939-1969 case 120 *)
Definition st_case_120 (c : N) : tgt :=
  if c =? 33 then TTr 170 else
  if c =? 37 then TTr 171 else
  if c =? 61 then TTr 170 else
  if c =? 95 then TTr 170 else
  if c =? 126 then TTr 170 else
  if c <? 48 then (if (36 <=? c) && (c <=? 46) then TTr 170 else
  TTr 169) else
  if 59 <? c then (if 90 <? c then (if (97 <=? c) && (c <=? 122) then TTr 170 else
  TTr 169) else
  if 64 <=? c then (TTr 170) else
  TTr 169) else
  (TTr 170).

(* machine.go:2052-2065 case 121 *)
Definition st_case_121 (c : N) : tgt :=
  if c <? 65 then (if (48 <=? c) && (c <=? 57) then TTr 173 else
  TTr 172) else
  if 90 <? c then (if (97 <=? c) && (c <=? 122) then TTr 173 else
  TTr 172) else
  (TTr 174).

(* machine.go:2066-2079 case 122 *)
Definition st_case_122 (c : N) : tgt :=
  if c <? 65 then (if (48 <=? c) && (c <=? 57) then TTr 175 else
  TTr 172) else
  if 90 <? c then (if (97 <=? c) && (c <=? 122) then TTr 175 else
  TTr 172) else
  (TTr 176).

(* machine.go:2106-2119 case 123 *)
Definition st_case_123 (c : N) : tgt :=
  if c <? 65 then (if (48 <=? c) && (c <=? 57) then TTr 178 else
  TTr 177) else
  if 90 <? c then (if (97 <=? c) && (c <=? 122) then TTr 178 else
  TTr 177) else
  (TTr 179).

(* machine.go:2120-2133 case 124 *)
Definition st_case_124 (c : N) : tgt :=
  if c <? 65 then (if (48 <=? c) && (c <=? 57) then TTr 180 else
  TTr 177) else
  if 90 <? c then (if (97 <=? c) && (c <=? 122) then TTr 180 else
  TTr 177) else
  (TTr 181).

(* machine.go:2164-2171 case 125 *)
Definition st_case_125 (c : N) : tgt :=
  if c =? 43 then TTr 182 else
  if c =? 61 then TTr 184 else
  TTr 183.

(* machine.go:2172-2204 case 126 *)
Definition st_case_126 (c : N) : tgt :=
  if c =? 33 then TTr 186 else
  if c =? 37 then TTr 187 else
  if c =? 61 then TTr 186 else
  if c =? 63 then TTr 188 else
  if c =? 95 then TTr 186 else
  if c =? 126 then TTr 186 else
  if c <? 48 then (if (36 <=? c) && (c <=? 46) then TTr 186 else
  TTr 185) else
  if 59 <? c then (if 90 <? c then (if (97 <=? c) && (c <=? 122) then TTr 186 else
  TTr 185) else
  if 64 <=? c then (TTr 186) else
  TTr 185) else
  (TTr 186).

(* machine.go:2235-2248 case 127 *)
Definition st_case_127 (c : N) : tgt :=
  if c <? 65 then (if (48 <=? c) && (c <=? 57) then TTr 190 else
  TTr 189) else
  if 90 <? c then (if (97 <=? c) && (c <=? 122) then TTr 190 else
  TTr 189) else
  (TTr 191).

(* machine.go:2249-2262 case 128 *)
Definition st_case_128 (c : N) : tgt :=
  if c <? 65 then (if (48 <=? c) && (c <=? 57) then TTr 192 else
  TTr 189) else
  if 90 <? c then (if (97 <=? c) && (c <=? 122) then TTr 192 else
  TTr 189) else
  (TTr 193).

(* machine.go:2419-2432 case 129 *)
Definition st_case_129 (c : N) : tgt :=
  if c <? 65 then (if (48 <=? c) && (c <=? 57) then TTr 195 else
  TTr 194) else
  if 90 <? c then (if (97 <=? c) && (c <=? 122) then TTr 195 else
  TTr 194) else
  (TTr 196).

(* machine.go:2433-2446 case 130 *)
Definition st_case_130 (c : N) : tgt :=
  if c <? 65 then (if (48 <=? c) && (c <=? 57) then TTr 197 else
  TTr 194) else
  if 90 <? c then (if (97 <=? c) && (c <=? 122) then TTr 197 else
  TTr 194) else
  (TTr 198).

(* machine.go:2539-2552 case 131 *)
Definition st_case_131 (c : N) : tgt :=
  if c <? 65 then (if (48 <=? c) && (c <=? 57) then TTr 200 else
  TTr 199) else
  if 90 <? c then (if (97 <=? c) && (c <=? 122) then TTr 200 else
  TTr 199) else
  (TTr 201).

(* machine.go:2553-2566 case 132 *)
Definition st_case_132 (c : N) : tgt :=
  if c <? 65 then (if (48 <=? c) && (c <=? 57) then TTr 197 else
  TTr 199) else
  if 90 <? c then (if (97 <=? c) && (c <=? 122) then TTr 197 else
  TTr 199) else
  (TTr 198).

(* machine.go:2567-2571 case 133 *)
Definition st_case_133 (c : N) : tgt :=
  if c =? 43 then TTr 202 else
  TTr 185.

(* machine.go:2607-2614 case 134 *)
Definition st_case_134 (c : N) : tgt :=
  if c =? 43 then TTr 202 else
  if c =? 61 then TTr 184 else
  TTr 185.

(* machine.go:2615-2647 case 135 *)
Definition st_case_135 (c : N) : tgt :=
  if c =? 33 then TTr 204 else
  if c =? 37 then TTr 205 else
  if c =? 61 then TTr 204 else
  if c =? 63 then TTr 206 else
  if c =? 95 then TTr 204 else
  if c =? 126 then TTr 204 else
  if c <? 48 then (if (36 <=? c) && (c <=? 46) then TTr 204 else
  TTr 203) else
  if 59 <? c then (if 90 <? c then (if (97 <=? c) && (c <=? 122) then TTr 204 else
  TTr 203) else
  if 64 <=? c then (TTr 204) else
  TTr 203) else
  (TTr 204).

(* machine.go:2648-2652 case 136 *)
Definition st_case_136 (c : N) : tgt :=
  if c =? 61 then TTr 207 else
  TTr 203.

(* machine.go:2688-2704 case 137 *)
Definition st_case_137 (c : N) : tgt :=
  if c =? 58 then TTr 168 else
  if c <? 65 then (if (48 <=? c) && (c <=? 57) then TTr 167 else
  TTr 106) else
  if 90 <? c then (if (97 <=? c) && (c <=? 122) then TTr 167 else
  TTr 106) else
  (TTr 167).

(* machine.go:2705-2724 case 138 *)
Definition st_case_138 (c : N) : tgt :=
  if c =? 45 then TTr 165 else
  if c =? 58 then TTr 168 else
  if c <? 65 then (if (48 <=? c) && (c <=? 57) then TTr 166 else
  TTr 106) else
  if 90 <? c then (if (97 <=? c) && (c <=? 122) then TTr 166 else
  TTr 106) else
  (TTr 166).

(* machine.go:2725-2744 case 139 *)
Definition st_case_139 (c : N) : tgt :=
  if c =? 45 then TTr 163 else
  if c =? 58 then TTr 168 else
  if c <? 65 then (if (48 <=? c) && (c <=? 57) then TTr 164 else
  TTr 106) else
  if 90 <? c then (if (97 <=? c) && (c <=? 122) then TTr 164 else
  TTr 106) else
  (TTr 164).

(* machine.go:2745-2764 case 140 *)
Definition st_case_140 (c : N) : tgt :=
  if c =? 45 then TTr 161 else
  if c =? 58 then TTr 168 else
  if c <? 65 then (if (48 <=? c) && (c <=? 57) then TTr 162 else
  TTr 106) else
  if 90 <? c then (if (97 <=? c) && (c <=? 122) then TTr 162 else
  TTr 106) else
  (TTr 162).

(* machine.go:2765-2784 case 141 *)
Definition st_case_141 (c : N) : tgt :=
  if c =? 45 then TTr 159 else
  if c =? 58 then TTr 168 else
  if c <? 65 then (if (48 <=? c) && (c <=? 57) then TTr 160 else
  TTr 106) else
  if 90 <? c then (if (97 <=? c) && (c <=? 122) then TTr 160 else
  TTr 106) else
  (TTr 160).

(* machine.go:2785-2804 case 142 *)
Definition st_case_142 (c : N) : tgt :=
  if c =? 45 then TTr 157 else
  if c =? 58 then TTr 168 else
  if c <? 65 then (if (48 <=? c) && (c <=? 57) then TTr 158 else
  TTr 106) else
  if 90 <? c then (if (97 <=? c) && (c <=? 122) then TTr 158 else
  TTr 106) else
  (TTr 158).

(* machine.go:2805-2824 case 143 *)
Definition st_case_143 (c : N) : tgt :=
  if c =? 45 then TTr 155 else
  if c =? 58 then TTr 168 else
  if c <? 65 then (if (48 <=? c) && (c <=? 57) then TTr 156 else
  TTr 106) else
  if 90 <? c then (if (97 <=? c) && (c <=? 122) then TTr 156 else
  TTr 106) else
  (TTr 156).

(* machine.go:2825-2844 case 144 *)
Definition st_case_144 (c : N) : tgt :=
  if c =? 45 then TTr 153 else
  if c =? 58 then TTr 168 else
  if c <? 65 then (if (48 <=? c) && (c <=? 57) then TTr 154 else
  TTr 106) else
  if 90 <? c then (if (97 <=? c) && (c <=? 122) then TTr 154 else
  TTr 106) else
  (TTr 154).

(* machine.go:2845-2864 case 145 *)
Definition st_case_145 (c : N) : tgt :=
  if c =? 45 then TTr 151 else
  if c =? 58 then TTr 168 else
  if c <? 65 then (if (48 <=? c) && (c <=? 57) then TTr 152 else
  TTr 106) else
  if 90 <? c then (if (97 <=? c) && (c <=? 122) then TTr 152 else
  TTr 106) else
  (TTr 152).

(* machine.go:2865-2884 case 146 *)
Definition st_case_146 (c : N) : tgt :=
  if c =? 45 then TTr 149 else
  if c =? 58 then TTr 168 else
  if c <? 65 then (if (48 <=? c) && (c <=? 57) then TTr 150 else
  TTr 106) else
  if 90 <? c then (if (97 <=? c) && (c <=? 122) then TTr 150 else
  TTr 106) else
  (TTr 150).

(* machine.go:2885-2904 case 147 *)
Definition st_case_147 (c : N) : tgt :=
  if c =? 45 then TTr 147 else
  if c =? 58 then TTr 168 else
  if c <? 65 then (if (48 <=? c) && (c <=? 57) then TTr 148 else
  TTr 106) else
  if 90 <? c then (if (97 <=? c) && (c <=? 122) then TTr 148 else
  TTr 106) else
  (TTr 148).

(* machine.go:2905-2924 case 148 *)
Definition st_case_148 (c : N) : tgt :=
  if c =? 45 then TTr 145 else
  if c =? 58 then TTr 168 else
  if c <? 65 then (if (48 <=? c) && (c <=? 57) then TTr 146 else
  TTr 106) else
  if 90 <? c then (if (97 <=? c) && (c <=? 122) then TTr 146 else
  TTr 106) else
  (TTr 146).

(* machine.go:2925-2944 case 149 *)
Definition st_case_149 (c : N) : tgt :=
  if c =? 45 then TTr 143 else
  if c =? 58 then TTr 168 else
  if c <? 65 then (if (48 <=? c) && (c <=? 57) then TTr 144 else
  TTr 106) else
  if 90 <? c then (if (97 <=? c) && (c <=? 122) then TTr 144 else
  TTr 106) else
  (TTr 144).

(* machine.go:2945-2964 case 150 *)
Definition st_case_150 (c : N) : tgt :=
  if c =? 45 then TTr 141 else
  if c =? 58 then TTr 168 else
  if c <? 65 then (if (48 <=? c) && (c <=? 57) then TTr 142 else
  TTr 106) else
  if 90 <? c then (if (97 <=? c) && (c <=? 122) then TTr 142 else
  TTr 106) else
  (TTr 142).

(* machine.go:2965-2984 case 151 *)
Definition st_case_151 (c : N) : tgt :=
  if c =? 45 then TTr 139 else
  if c =? 58 then TTr 168 else
  if c <? 65 then (if (48 <=? c) && (c <=? 57) then TTr 140 else
  TTr 106) else
  if 90 <? c then (if (97 <=? c) && (c <=? 122) then TTr 140 else
  TTr 106) else
  (TTr 140).

(* machine.go:2985-3004 case 152 *)
Definition st_case_152 (c : N) : tgt :=
  if c =? 45 then TTr 137 else
  if c =? 58 then TTr 168 else
  if c <? 65 then (if (48 <=? c) && (c <=? 57) then TTr 138 else
  TTr 106) else
  if 90 <? c then (if (97 <=? c) && (c <=? 122) then TTr 138 else
  TTr 106) else
  (TTr 138).

(* machine.go:3005-3024 case 153 *)
Definition st_case_153 (c : N) : tgt :=
  if c =? 45 then TTr 135 else
  if c =? 58 then TTr 168 else
  if c <? 65 then (if (48 <=? c) && (c <=? 57) then TTr 136 else
  TTr 106) else
  if 90 <? c then (if (97 <=? c) && (c <=? 122) then TTr 136 else
  TTr 106) else
  (TTr 136).

(* machine.go:3025-3044 case 154 *)
Definition st_case_154 (c : N) : tgt :=
  if c =? 45 then TTr 133 else
  if c =? 58 then TTr 168 else
  if c <? 65 then (if (48 <=? c) && (c <=? 57) then TTr 134 else
  TTr 106) else
  if 90 <? c then (if (97 <=? c) && (c <=? 122) then TTr 134 else
  TTr 106) else
  (TTr 134).

(* machine.go:3045-3064 case 155 *)
Definition st_case_155 (c : N) : tgt :=
  if c =? 45 then TTr 131 else
  if c =? 58 then TTr 168 else
  if c <? 65 then (if (48 <=? c) && (c <=? 57) then TTr 132 else
  TTr 106) else
  if 90 <? c then (if (97 <=? c) && (c <=? 122) then TTr 132 else
  TTr 106) else
  (TTr 132).

(* machine.go:3065-3084 case 156 *)
Definition st_case_156 (c : N) : tgt :=
  if c =? 45 then TTr 129 else
  if c =? 58 then TTr 168 else
  if c <? 65 then (if (48 <=? c) && (c <=? 57) then TTr 130 else
  TTr 106) else
  if 90 <? c then (if (97 <=? c) && (c <=? 122) then TTr 130 else
  TTr 106) else
  (TTr 130).

(* machine.go:3085-3104 case 157 *)
Definition st_case_157 (c : N) : tgt :=
  if c =? 45 then TTr 127 else
  if c =? 58 then TTr 168 else
  if c <? 65 then (if (48 <=? c) && (c <=? 57) then TTr 128 else
  TTr 106) else
  if 90 <? c then (if (97 <=? c) && (c <=? 122) then TTr 128 else
  TTr 106) else
  (TTr 128).

(* machine.go:3105-3124 case 158 *)
Definition st_case_158 (c : N) : tgt :=
  if c =? 45 then TTr 125 else
  if c =? 58 then TTr 168 else
  if c <? 65 then (if (48 <=? c) && (c <=? 57) then TTr 126 else
  TTr 106) else
  if 90 <? c then (if (97 <=? c) && (c <=? 122) then TTr 126 else
  TTr 106) else
  (TTr 126).

(* machine.go:3125-3144 case 159 *)
Definition st_case_159 (c : N) : tgt :=
  if c =? 45 then TTr 123 else
  if c =? 58 then TTr 168 else
  if c <? 65 then (if (48 <=? c) && (c <=? 57) then TTr 124 else
  TTr 106) else
  if 90 <? c then (if (97 <=? c) && (c <=? 122) then TTr 124 else
  TTr 106) else
  (TTr 124).

(* machine.go:3145-3164 case 160 *)
Definition st_case_160 (c : N) : tgt :=
  if c =? 45 then TTr 121 else
  if c =? 58 then TTr 168 else
  if c <? 65 then (if (48 <=? c) && (c <=? 57) then TTr 122 else
  TTr 106) else
  if 90 <? c then (if (97 <=? c) && (c <=? 122) then TTr 122 else
  TTr 106) else
  (TTr 122).

(* machine.go:3165-3184 case 161 *)
Definition st_case_161 (c : N) : tgt :=
  if c =? 45 then TTr 119 else
  if c =? 58 then TTr 168 else
  if c <? 65 then (if (48 <=? c) && (c <=? 57) then TTr 120 else
  TTr 106) else
  if 90 <? c then (if (97 <=? c) && (c <=? 122) then TTr 120 else
  TTr 106) else
  (TTr 120).

(* machine.go:3185-3204 case 162 *)
Definition st_case_162 (c : N) : tgt :=
  if c =? 45 then TTr 117 else
  if c =? 58 then TTr 168 else
  if c <? 65 then (if (48 <=? c) && (c <=? 57) then TTr 118 else
  TTr 106) else
  if 90 <? c then (if (97 <=? c) && (c <=? 122) then TTr 118 else
  TTr 106) else
  (TTr 118).

(* machine.go:3205-3224 case 163 *)
Definition st_case_163 (c : N) : tgt :=
  if c =? 45 then TTr 115 else
  if c =? 58 then TTr 168 else
  if c <? 65 then (if (48 <=? c) && (c <=? 57) then TTr 116 else
  TTr 106) else
  if 90 <? c then (if (97 <=? c) && (c <=? 122) then TTr 116 else
  TTr 106) else
  (TTr 116).

(* machine.go:3225-3244 case 164 *)
Definition st_case_164 (c : N) : tgt :=
  if c =? 45 then TTr 113 else
  if c =? 58 then TTr 168 else
  if c <? 65 then (if (48 <=? c) && (c <=? 57) then TTr 114 else
  TTr 106) else
  if 90 <? c then (if (97 <=? c) && (c <=? 122) then TTr 114 else
  TTr 106) else
  (TTr 114).

(* machine.go:3245-3264 case 165 *)
Definition st_case_165 (c : N) : tgt :=
  if c =? 45 then TTr 111 else
  if c =? 58 then TTr 168 else
  if c <? 65 then (if (48 <=? c) && (c <=? 57) then TTr 112 else
  TTr 106) else
  if 90 <? c then (if (97 <=? c) && (c <=? 122) then TTr 112 else
  TTr 106) else
  (TTr 112).

(* machine.go:3265-3284 case 166 *)
Definition st_case_166 (c : N) : tgt :=
  if c =? 45 then TTr 109 else
  if c =? 58 then TTr 168 else
  if c <? 65 then (if (48 <=? c) && (c <=? 57) then TTr 110 else
  TTr 106) else
  if 90 <? c then (if (97 <=? c) && (c <=? 122) then TTr 110 else
  TTr 106) else
  (TTr 110).

(* machine.go:3285-3306 case 167 *)
Definition st_case_167 (c : N) : tgt :=
  if c =? 45 then TTr 107 else
  if c =? 82 then TTr 208 else
  if c =? 114 then TTr 208 else
  if c <? 65 then (if (48 <=? c) && (c <=? 57) then TTr 108 else
  TTr 103) else
  if 90 <? c then (if (97 <=? c) && (c <=? 122) then TTr 108 else
  TTr 103) else
  (TTr 108).

(* machine.go:3307-3330 case 168 *)
Definition st_case_168 (c : N) : tgt :=
  if c =? 45 then TTr 109 else
  if c =? 58 then TTr 168 else
  if c =? 78 then TTr 209 else
  if c =? 110 then TTr 209 else
  if c <? 65 then (if (48 <=? c) && (c <=? 57) then TTr 110 else
  TTr 103) else
  if 90 <? c then (if (97 <=? c) && (c <=? 122) then TTr 110 else
  TTr 103) else
  (TTr 110).

(* machine.go:3331-3350 case 169 *)
Definition st_case_169 (c : N) : tgt :=
  if c =? 45 then TTr 210 else
  if c =? 58 then TTr 168 else
  if c <? 65 then (if (48 <=? c) && (c <=? 57) then TTr 112 else
  TTr 106) else
  if 90 <? c then (if (97 <=? c) && (c <=? 122) then TTr 112 else
  TTr 106) else
  (TTr 112).

(* machine.go:3351-3370 case 170 *)
Definition st_case_170 (c : N) : tgt :=
  if c =? 45 then TTr 113 else
  if c =? 48 then TTr 211 else
  if c <? 65 then (if (49 <=? c) && (c <=? 57) then TTr 114 else
  TTr 106) else
  if 90 <? c then (if (97 <=? c) && (c <=? 122) then TTr 211 else
  TTr 106) else
  (TTr 211).

(* machine.go:3371-3387 case 171 *)
Definition st_case_171 (c : N) : tgt :=
  if c =? 45 then TTr 115 else
  if c <? 65 then (if (48 <=? c) && (c <=? 57) then TTr 116 else
  TTr 106) else
  if 90 <? c then (if (97 <=? c) && (c <=? 122) then TTr 116 else
  TTr 106) else
  (TTr 116).

(* machine.go:865-895 case 172 *)
Definition st_case_172 (c : N) : tgt :=
  if c =? 33 then TTr 212 else
  if c =? 36 then TTr 212 else
  if c =? 37 then TTr 213 else
  if c =? 61 then TTr 212 else
  if c =? 95 then TTr 212 else
  if c <? 48 then (if (39 <=? c) && (c <=? 46) then TTr 212 else
  TTr 41) else
  if 59 <? c then (if 90 <? c then (if (97 <=? c) && (c <=? 122) then TTr 212 else
  TTr 41) else
  if 64 <=? c then (TTr 212) else
  TTr 41) else
  (TTr 212).

(* machine.go:924-954 case 173 *)
Definition st_case_173 (c : N) : tgt :=
  if c =? 33 then TTr 212 else
  if c =? 36 then TTr 212 else
  if c =? 37 then TTr 213 else
  if c =? 61 then TTr 212 else
  if c =? 95 then TTr 212 else
  if c <? 48 then (if (39 <=? c) && (c <=? 46) then TTr 212 else
  TTr 44) else
  if 59 <? c then (if 90 <? c then (if (97 <=? c) && (c <=? 122) then TTr 212 else
  TTr 44) else
  if 64 <=? c then (TTr 212) else
  TTr 44) else
  (TTr 212).

(* machine.go:1173-1189 case 174 *)
Definition st_case_174 (c : N) : tgt :=
  if c =? 58 then TTr 215 else
  if c <? 65 then (if (48 <=? c) && (c <=? 57) then TTr 214 else
  TTr 81) else
  if 90 <? c then (if (97 <=? c) && (c <=? 122) then TTr 214 else
  TTr 81) else
  (TTr 214).

(* machine.go:1221-1251 case 175 *)
Definition st_case_175 (c : N) : tgt :=
  if c =? 33 then TTr 216 else
  if c =? 36 then TTr 216 else
  if c =? 37 then TTr 217 else
  if c =? 61 then TTr 216 else
  if c =? 95 then TTr 216 else
  if c <? 48 then (if (39 <=? c) && (c <=? 46) then TTr 216 else
  TTr 83) else
  if 59 <? c then (if 90 <? c then (if (97 <=? c) && (c <=? 122) then TTr 216 else
  TTr 83) else
  if 64 <=? c then (TTr 216) else
  TTr 83) else
  (TTr 216).

(* machine.go:1280-1310 case 176 *)
Definition st_case_176 (c : N) : tgt :=
  if c =? 33 then TTr 216 else
  if c =? 36 then TTr 216 else
  if c =? 37 then TTr 217 else
  if c =? 61 then TTr 216 else
  if c =? 95 then TTr 216 else
  if c <? 48 then (if (39 <=? c) && (c <=? 46) then TTr 216 else
  TTr 86) else
  if 59 <? c then (if 90 <? c then (if (97 <=? c) && (c <=? 122) then TTr 216 else
  TTr 86) else
  if 64 <=? c then (TTr 216) else
  TTr 86) else
  (TTr 216).

(* machine.go:1970-1999 case 177 *)
Definition st_case_177 (c : N) : tgt :=
  if c =? 33 then TTr 218 else
  if c =? 35 then TTr 219 else
  if c =? 37 then TTr 220 else
  if c =? 61 then TTr 218 else
  if c =? 63 then TTr 221 else
  if c =? 95 then TTr 218 else
  if c =? 126 then TTr 218 else
  if c <? 64 then (if (36 <=? c) && (c <=? 59) then TTr 218 else
  TTr 169) else
  if 90 <? c then (if (97 <=? c) && (c <=? 122) then TTr 218 else
  TTr 169) else
  (TTr 218).

(* machine.go:2000-2025 case 178 *)
Definition st_case_178 (c : N) : tgt :=
  if c =? 33 then TTr 222 else
  if c =? 37 then TTr 223 else
  if c =? 61 then TTr 222 else
  if c =? 95 then TTr 222 else
  if c =? 126 then TTr 222 else
  if c <? 63 then (if (36 <=? c) && (c <=? 59) then TTr 222 else
  TTr 183) else
  if 90 <? c then (if (97 <=? c) && (c <=? 122) then TTr 222 else
  TTr 183) else
  (TTr 222).

(* machine.go:2026-2051 case 179 *)
Definition st_case_179 (c : N) : tgt :=
  if c =? 33 then TTr 224 else
  if c =? 37 then TTr 225 else
  if c =? 61 then TTr 224 else
  if c =? 95 then TTr 224 else
  if c =? 126 then TTr 224 else
  if c <? 63 then (if (36 <=? c) && (c <=? 59) then TTr 224 else
  TTr 183) else
  if 90 <? c then (if (97 <=? c) && (c <=? 122) then TTr 224 else
  TTr 183) else
  (TTr 224).

(* machine.go:2080-2105 case 180 *)
Definition st_case_180 (c : N) : tgt :=
  if c =? 33 then TTr 224 else
  if c =? 37 then TTr 225 else
  if c =? 61 then TTr 224 else
  if c =? 95 then TTr 224 else
  if c =? 126 then TTr 224 else
  if c <? 63 then (if (36 <=? c) && (c <=? 59) then TTr 224 else
  TTr 172) else
  if 90 <? c then (if (97 <=? c) && (c <=? 122) then TTr 224 else
  TTr 172) else
  (TTr 224).

(* machine.go:2134-2163 case 181 *)
Definition st_case_181 (c : N) : tgt :=
  if c =? 33 then TTr 218 else
  if c =? 35 then TTr 219 else
  if c =? 37 then TTr 220 else
  if c =? 61 then TTr 218 else
  if c =? 63 then TTr 221 else
  if c =? 95 then TTr 218 else
  if c =? 126 then TTr 218 else
  if c <? 64 then (if (36 <=? c) && (c <=? 59) then TTr 218 else
  TTr 177) else
  if 90 <? c then (if (97 <=? c) && (c <=? 122) then TTr 218 else
  TTr 177) else
  (TTr 218).

(* machine.go:2205-2234 case 182 *)
Definition st_case_182 (c : N) : tgt :=
  if c =? 33 then TTr 226 else
  if c =? 35 then TTr 227 else
  if c =? 37 then TTr 228 else
  if c =? 61 then TTr 226 else
  if c =? 63 then TTr 229 else
  if c =? 95 then TTr 226 else
  if c =? 126 then TTr 226 else
  if c <? 64 then (if (36 <=? c) && (c <=? 59) then TTr 226 else
  TTr 185) else
  if 90 <? c then (if (97 <=? c) && (c <=? 122) then TTr 226 else
  TTr 185) else
  (TTr 226).

(* machine.go:2263-2292 case 183 *)
Definition st_case_183 (c : N) : tgt :=
  if c =? 33 then TTr 226 else
  if c =? 35 then TTr 227 else
  if c =? 37 then TTr 228 else
  if c =? 61 then TTr 226 else
  if c =? 63 then TTr 229 else
  if c =? 95 then TTr 226 else
  if c =? 126 then TTr 226 else
  if c <? 64 then (if (36 <=? c) && (c <=? 59) then TTr 226 else
  TTr 189) else
  if 90 <? c then (if (97 <=? c) && (c <=? 122) then TTr 226 else
  TTr 189) else
  (TTr 226).

(* machine.go:2293-2324 case 184 *)
Definition st_case_184 (c : N) : tgt :=
  if c =? 33 then TTr 226 else
  if c =? 35 then TTr 227 else
  if c =? 37 then TTr 228 else
  if c =? 43 then TTr 230 else
  if c =? 61 then TTr 231 else
  if c =? 63 then TTr 229 else
  if c =? 95 then TTr 226 else
  if c =? 126 then TTr 226 else
  if c <? 64 then (if (36 <=? c) && (c <=? 59) then TTr 226 else
  TTr 185) else
  if 90 <? c then (if (97 <=? c) && (c <=? 122) then TTr 226 else
  TTr 185) else
  (TTr 226).

(* machine.go:2325-2356 case 185 *)
Definition st_case_185 (c : N) : tgt :=
  if c =? 33 then TTr 232 else
  if c =? 35 then TTr 233 else
  if c =? 37 then TTr 234 else
  if c =? 47 then TTr 226 else
  if c =? 61 then TTr 232 else
  if c =? 63 then TTr 235 else
  if c =? 95 then TTr 232 else
  if c =? 126 then TTr 232 else
  if c <? 64 then (if (36 <=? c) && (c <=? 59) then TTr 232 else
  TTr 185) else
  if 90 <? c then (if (97 <=? c) && (c <=? 122) then TTr 232 else
  TTr 185) else
  (TTr 232).

(* machine.go:2357-2388 case 186 *)
Definition st_case_186 (c : N) : tgt :=
  if c =? 33 then TTr 204 else
  if c =? 35 then TTr 227 else
  if c =? 37 then TTr 237 else
  if c =? 47 then TTr 226 else
  if c =? 61 then TTr 204 else
  if c =? 63 then TTr 229 else
  if c =? 95 then TTr 204 else
  if c =? 126 then TTr 204 else
  if c <? 64 then (if (36 <=? c) && (c <=? 59) then TTr 204 else
  TTr 236) else
  if 90 <? c then (if (97 <=? c) && (c <=? 122) then TTr 204 else
  TTr 236) else
  (TTr 204).

(* machine.go:2389-2418 case 187 *)
Definition st_case_187 (c : N) : tgt :=
  if c =? 33 then TTr 238 else
  if c =? 35 then TTr 239 else
  if c =? 37 then TTr 240 else
  if c =? 61 then TTr 238 else
  if c =? 63 then TTr 241 else
  if c =? 95 then TTr 238 else
  if c =? 126 then TTr 238 else
  if c <? 64 then (if (36 <=? c) && (c <=? 59) then TTr 238 else
  TTr 203) else
  if 90 <? c then (if (97 <=? c) && (c <=? 122) then TTr 238 else
  TTr 203) else
  (TTr 238).

(* machine.go:2447-2476 case 188 *)
Definition st_case_188 (c : N) : tgt :=
  if c =? 33 then TTr 238 else
  if c =? 35 then TTr 239 else
  if c =? 37 then TTr 240 else
  if c =? 61 then TTr 238 else
  if c =? 63 then TTr 241 else
  if c =? 95 then TTr 238 else
  if c =? 126 then TTr 238 else
  if c <? 64 then (if (36 <=? c) && (c <=? 59) then TTr 238 else
  TTr 194) else
  if 90 <? c then (if (97 <=? c) && (c <=? 122) then TTr 238 else
  TTr 194) else
  (TTr 238).

(* machine.go:2477-2506 case 189 *)
Definition st_case_189 (c : N) : tgt :=
  if c =? 33 then TTr 238 else
  if c =? 35 then TTr 239 else
  if c =? 37 then TTr 240 else
  if c =? 61 then TTr 242 else
  if c =? 63 then TTr 241 else
  if c =? 95 then TTr 238 else
  if c =? 126 then TTr 238 else
  if c <? 64 then (if (36 <=? c) && (c <=? 59) then TTr 238 else
  TTr 203) else
  if 90 <? c then (if (97 <=? c) && (c <=? 122) then TTr 238 else
  TTr 203) else
  (TTr 238).

(* machine.go:2507-2538 case 190 *)
Definition st_case_190 (c : N) : tgt :=
  if c =? 33 then TTr 243 else
  if c =? 35 then TTr 244 else
  if c =? 37 then TTr 245 else
  if c =? 47 then TTr 238 else
  if c =? 61 then TTr 243 else
  if c =? 63 then TTr 246 else
  if c =? 95 then TTr 243 else
  if c =? 126 then TTr 243 else
  if c <? 64 then (if (36 <=? c) && (c <=? 59) then TTr 243 else
  TTr 203) else
  if 90 <? c then (if (97 <=? c) && (c <=? 122) then TTr 243 else
  TTr 203) else
  (TTr 243).

(* machine.go:2572-2606 case 191 *)
Definition st_case_191 (c : N) : tgt :=
  if c =? 33 then TTr 232 else
  if c =? 35 then TTr 233 else
  if c =? 37 then TTr 234 else
  if c =? 61 then TTr 232 else
  if c =? 63 then TTr 247 else
  if c =? 95 then TTr 232 else
  if c =? 126 then TTr 232 else
  if c <? 48 then (if (36 <=? c) && (c <=? 46) then TTr 232 else
  TTr 185) else
  if 59 <? c then (if 90 <? c then (if (97 <=? c) && (c <=? 122) then TTr 232 else
  TTr 185) else
  if 64 <=? c then (TTr 232) else
  TTr 185) else
  (TTr 232).

(* machine.go:2653-2687 case 192 *)
Definition st_case_192 (c : N) : tgt :=
  if c =? 33 then TTr 243 else
  if c =? 35 then TTr 244 else
  if c =? 37 then TTr 245 else
  if c =? 61 then TTr 243 else
  if c =? 63 then TTr 248 else
  if c =? 95 then TTr 243 else
  if c =? 126 then TTr 243 else
  if c <? 48 then (if (36 <=? c) && (c <=? 46) then TTr 243 else
  TTr 203) else
  if 59 <? c then (if 90 <? c then (if (97 <=? c) && (c <=? 122) then TTr 243 else
  TTr 203) else
  if 64 <=? c then (TTr 243) else
  TTr 203) else
  (TTr 243).

(* machine.go:3388-3395 case 193 *)
Definition st_case_193 (c : N) : tgt :=
  if c =? 10 then TTr 183 else
  if c =? 13 then TTr 183 else
  TTr 249.

(* machine.go:157-3396 switch m.cs; a value with no case falls out of the
   switch into the next statement, which is label tr183 (machine.go:3398) *)
Definition resume_switch (cs c : N) : tgt :=
  match cs with
  | 0 => st_case_0 c
  | 1 => st_case_1 c
  | 2 => st_case_2 c
  | 3 => st_case_3 c
  | 4 => st_case_4 c
  | 5 => st_case_5 c
  | 6 => st_case_6 c
  | 7 => st_case_7 c
  | 8 => st_case_8 c
  | 9 => st_case_9 c
  | 10 => st_case_10 c
  | 11 => st_case_11 c
  | 12 => st_case_12 c
  | 13 => st_case_13 c
  | 14 => st_case_14 c
  | 15 => st_case_15 c
  | 16 => st_case_16 c
  | 17 => st_case_17 c
  | 18 => st_case_18 c
  | 19 => st_case_19 c
  | 20 => st_case_20 c
  | 21 => st_case_21 c
  | 22 => st_case_22 c
  | 23 => st_case_23 c
  | 24 => st_case_24 c
  | 25 => st_case_25 c
  | 26 => st_case_26 c
  | 27 => st_case_27 c
  | 28 => st_case_28 c
  | 29 => st_case_29 c
  | 30 => st_case_30 c
  | 31 => st_case_31 c
  | 32 => st_case_32 c
  | 33 => st_case_33 c
  | 34 => st_case_34 c
  | 35 => st_case_35 c
  | 36 => st_case_36 c
  | 37 => st_case_37 c
  | 38 => st_case_38 c
  | 39 => st_case_39 c
  | 40 => st_case_40 c
  | 41 => st_case_41 c
  | 42 => st_case_42 c
  | 43 => st_case_43 c
  | 44 => st_case_44 c
  | 45 => st_case_45 c
  | 46 => st_case_46 c
  | 47 => st_case_47 c
  | 48 => st_case_48 c
  | 49 => st_case_49 c
  | 50 => st_case_50 c
  | 51 => st_case_51 c
  | 52 => st_case_52 c
  | 53 => st_case_53 c
  | 54 => st_case_54 c
  | 55 => st_case_55 c
  | 56 => st_case_56 c
  | 57 => st_case_57 c
  | 58 => st_case_58 c
  | 59 => st_case_59 c
  | 60 => st_case_60 c
  | 61 => st_case_61 c
  | 62 => st_case_62 c
  | 63 => st_case_63 c
  | 64 => st_case_64 c
  | 65 => st_case_65 c
  | 66 => st_case_66 c
  | 67 => st_case_67 c
  | 68 => st_case_68 c
  | 69 => st_case_69 c
  | 70 => st_case_70 c
  | 71 => st_case_71 c
  | 72 => st_case_72 c
  | 73 => st_case_73 c
  | 74 => st_case_74 c
  | 75 => st_case_75 c
  | 76 => st_case_76 c
  | 77 => st_case_77 c
  | 78 => st_case_78 c
  | 79 => st_case_79 c
  | 80 => st_case_80 c
  | 81 => st_case_81 c
  | 82 => st_case_82 c
  | 83 => st_case_83 c
  | 84 => st_case_84 c
  | 85 => st_case_85 c
  | 86 => st_case_86 c
  | 87 => st_case_87 c
  | 88 => st_case_88 c
  | 89 => st_case_89 c
  | 90 => st_case_90 c
  | 91 => st_case_91 c
  | 92 => st_case_92 c
  | 93 => st_case_93 c
  | 94 => st_case_94 c
  | 95 => st_case_95 c
  | 96 => st_case_96 c
  | 97 => st_case_97 c
  | 98 => st_case_98 c
  | 99 => st_case_99 c
  | 100 => st_case_100 c
  | 101 => st_case_101 c
  | 102 => st_case_102 c
  | 103 => st_case_103 c
  | 104 => st_case_104 c
  | 105 => st_case_105 c
  | 106 => st_case_106 c
  | 107 => st_case_107 c
  | 108 => st_case_108 c
  | 109 => st_case_109 c
  | 110 => st_case_110 c
  | 111 => st_case_111 c
  | 112 => st_case_112 c
  | 113 => st_case_113 c
  | 114 => st_case_114 c
  | 115 => st_case_115 c
  | 116 => st_case_116 c
  | 117 => st_case_117 c
  | 118 => st_case_118 c
  | 119 => st_case_119 c
  | 120 => st_case_120 c
  | 121 => st_case_121 c
  | 122 => st_case_122 c
  | 123 => st_case_123 c
  | 124 => st_case_124 c
  | 125 => st_case_125 c
  | 126 => st_case_126 c
  | 127 => st_case_127 c
  | 128 => st_case_128 c
  | 129 => st_case_129 c
  | 130 => st_case_130 c
  | 131 => st_case_131 c
  | 132 => st_case_132 c
  | 133 => st_case_133 c
  | 134 => st_case_134 c
  | 135 => st_case_135 c
  | 136 => st_case_136 c
  | 137 => st_case_137 c
  | 138 => st_case_138 c
  | 139 => st_case_139 c
  | 140 => st_case_140 c
  | 141 => st_case_141 c
  | 142 => st_case_142 c
  | 143 => st_case_143 c
  | 144 => st_case_144 c
  | 145 => st_case_145 c
  | 146 => st_case_146 c
  | 147 => st_case_147 c
  | 148 => st_case_148 c
  | 149 => st_case_149 c
  | 150 => st_case_150 c
  | 151 => st_case_151 c
  | 152 => st_case_152 c
  | 153 => st_case_153 c
  | 154 => st_case_154 c
  | 155 => st_case_155 c
  | 156 => st_case_156 c
  | 157 => st_case_157 c
  | 158 => st_case_158 c
  | 159 => st_case_159 c
  | 160 => st_case_160 c
  | 161 => st_case_161 c
  | 162 => st_case_162 c
  | 163 => st_case_163 c
  | 164 => st_case_164 c
  | 165 => st_case_165 c
  | 166 => st_case_166 c
  | 167 => st_case_167 c
  | 168 => st_case_168 c
  | 169 => st_case_169 c
  | 170 => st_case_170 c
  | 171 => st_case_171 c
  | 172 => st_case_172 c
  | 173 => st_case_173 c
  | 174 => st_case_174 c
  | 175 => st_case_175 c
  | 176 => st_case_176 c
  | 177 => st_case_177 c
  | 178 => st_case_178 c
  | 179 => st_case_179 c
  | 180 => st_case_180 c
  | 181 => st_case_181 c
  | 182 => st_case_182 c
  | 183 => st_case_183 c
  | 184 => st_case_184 c
  | 185 => st_case_185 c
  | 186 => st_case_186 c
  | 187 => st_case_187 c
  | 188 => st_case_188 c
  | 189 => st_case_189 c
  | 190 => st_case_190 c
  | 191 => st_case_191 c
  | 192 => st_case_192 c
  | 193 => st_case_193 c
  | _ => TTr 183
  end.

(* The blocks  trN: m.cs = K; goto L  (L = an f label, or _again).
   Line numbers of machine.go are given per entry. *)
Definition tr_block (n : N) : option (N * option N) :=
  match n with
  | 0 => Some (0, Some 0) (* 3401-3403 *)
  | 1 => Some (2, Some 1) (* 3467-3469 *)
  | 2 => Some (3, None) (* 3470-3472 *)
  | 3 => Some (4, None) (* 3473-3475 *)
  | 4 => Some (5, Some 2) (* 3476-3478 *)
  | 5 => Some (0, Some 3) (* 3404-3406 *)
  | 6 => Some (6, Some 4) (* 3479-3481 *)
  | 7 => Some (41, Some 1) (* 3590-3592 *)
  | 8 => Some (0, Some 5) (* 3407-3409 *)
  | 9 => Some (7, None) (* 3482-3484 *)
  | 10 => Some (38, Some 6) (* 3575-3577 *)
  | 11 => Some (8, None) (* 3485-3487 *)
  | 12 => Some (9, None) (* 3488-3490 *)
  | 13 => Some (10, None) (* 3491-3493 *)
  | 14 => Some (11, None) (* 3494-3496 *)
  | 15 => Some (12, None) (* 3497-3499 *)
  | 16 => Some (13, None) (* 3500-3502 *)
  | 17 => Some (14, None) (* 3503-3505 *)
  | 18 => Some (15, None) (* 3506-3508 *)
  | 19 => Some (16, None) (* 3509-3511 *)
  | 20 => Some (17, None) (* 3512-3514 *)
  | 21 => Some (18, None) (* 3515-3517 *)
  | 22 => Some (19, None) (* 3518-3520 *)
  | 23 => Some (20, None) (* 3521-3523 *)
  | 24 => Some (21, None) (* 3524-3526 *)
  | 25 => Some (22, None) (* 3527-3529 *)
  | 26 => Some (23, None) (* 3530-3532 *)
  | 27 => Some (24, None) (* 3533-3535 *)
  | 28 => Some (25, None) (* 3536-3538 *)
  | 29 => Some (26, None) (* 3539-3541 *)
  | 30 => Some (27, None) (* 3542-3544 *)
  | 31 => Some (28, None) (* 3545-3547 *)
  | 32 => Some (29, None) (* 3548-3550 *)
  | 33 => Some (30, None) (* 3551-3553 *)
  | 34 => Some (31, None) (* 3554-3556 *)
  | 35 => Some (32, None) (* 3557-3559 *)
  | 36 => Some (33, None) (* 3560-3562 *)
  | 37 => Some (34, None) (* 3563-3565 *)
  | 38 => Some (35, None) (* 3566-3568 *)
  | 39 => Some (36, None) (* 3569-3571 *)
  | 40 => Some (37, None) (* 3572-3574 *)
  | 41 => Some (0, Some 7) (* 3410-3412 *)
  | 42 => Some (172, Some 4) (* 4022-4024 *)
  | 43 => Some (39, Some 4) (* 3581-3583 *)
  | 44 => Some (0, Some 8) (* 3413-3415 *)
  | 45 => Some (40, None) (* 3584-3586 *)
  | 46 => Some (40, Some 9) (* 3587-3589 *)
  | 47 => Some (173, None) (* 4025-4027 *)
  | 48 => Some (173, Some 9) (* 4028-4030 *)
  | 49 => Some (42, None) (* 3593-3595 *)
  | 50 => Some (43, None) (* 3596-3598 *)
  | 51 => Some (0, Some 10) (* 3416-3418 *)
  | 52 => Some (45, Some 1) (* 3599-3601 *)
  | 53 => Some (46, None) (* 3602-3604 *)
  | 54 => Some (47, None) (* 3605-3607 *)
  | 55 => Some (48, Some 2) (* 3608-3610 *)
  | 56 => Some (0, Some 11) (* 3419-3421 *)
  | 57 => Some (49, Some 4) (* 3611-3613 *)
  | 58 => Some (50, None) (* 3614-3616 *)
  | 59 => Some (51, None) (* 3617-3619 *)
  | 60 => Some (52, None) (* 3620-3622 *)
  | 61 => Some (53, None) (* 3623-3625 *)
  | 62 => Some (54, None) (* 3626-3628 *)
  | 63 => Some (55, None) (* 3629-3631 *)
  | 64 => Some (56, None) (* 3632-3634 *)
  | 65 => Some (57, None) (* 3635-3637 *)
  | 66 => Some (58, None) (* 3638-3640 *)
  | 67 => Some (59, None) (* 3641-3643 *)
  | 68 => Some (60, None) (* 3644-3646 *)
  | 69 => Some (61, None) (* 3647-3649 *)
  | 70 => Some (62, None) (* 3650-3652 *)
  | 71 => Some (63, None) (* 3653-3655 *)
  | 72 => Some (64, None) (* 3656-3658 *)
  | 73 => Some (65, Some 12) (* 3659-3661 *)
  | 74 => Some (0, Some 13) (* 3422-3424 *)
  | 75 => Some (66, Some 4) (* 3662-3664 *)
  | 76 => Some (73, Some 4) (* 3689-3691 *)
  | 77 => Some (77, Some 4) (* 3701-3703 *)
  | 78 => Some (67, None) (* 3665-3667 *)
  | 79 => Some (68, None) (* 3668-3670 *)
  | 80 => Some (69, Some 14) (* 3671-3673 *)
  | 81 => Some (0, Some 15) (* 3425-3427 *)
  | 82 => Some (174, Some 16) (* 4034-4036 *)
  | 83 => Some (0, Some 17) (* 3428-3430 *)
  | 84 => Some (175, Some 18) (* 4040-4042 *)
  | 85 => Some (71, Some 18) (* 3680-3682 *)
  | 86 => Some (0, Some 19) (* 3431-3433 *)
  | 87 => Some (72, None) (* 3683-3685 *)
  | 88 => Some (72, Some 9) (* 3686-3688 *)
  | 89 => Some (176, None) (* 4043-4045 *)
  | 90 => Some (176, Some 9) (* 4046-4048 *)
  | 91 => Some (74, None) (* 3692-3694 *)
  | 92 => Some (75, None) (* 3695-3697 *)
  | 93 => Some (76, None) (* 3698-3700 *)
  | 94 => Some (78, None) (* 3704-3706 *)
  | 95 => Some (79, None) (* 3707-3709 *)
  | 96 => Some (80, None) (* 3710-3712 *)
  | 97 => Some (81, None) (* 3713-3715 *)
  | 98 => Some (82, None) (* 3716-3718 *)
  | 99 => Some (84, Some 1) (* 3719-3721 *)
  | 100 => Some (85, None) (* 3722-3724 *)
  | 101 => Some (86, None) (* 3725-3727 *)
  | 102 => Some (87, Some 2) (* 3728-3730 *)
  | 103 => Some (0, Some 20) (* 3434-3436 *)
  | 104 => Some (88, Some 4) (* 3731-3733 *)
  | 105 => Some (167, Some 1) (* 4004-4006 *)
  | 106 => Some (0, Some 21) (* 3437-3439 *)
  | 107 => Some (89, None) (* 3734-3736 *)
  | 108 => Some (166, None) (* 4001-4003 *)
  | 109 => Some (90, None) (* 3737-3739 *)
  | 110 => Some (165, None) (* 3998-4000 *)
  | 111 => Some (91, None) (* 3740-3742 *)
  | 112 => Some (164, None) (* 3995-3997 *)
  | 113 => Some (92, None) (* 3743-3745 *)
  | 114 => Some (163, None) (* 3992-3994 *)
  | 115 => Some (93, None) (* 3746-3748 *)
  | 116 => Some (162, None) (* 3989-3991 *)
  | 117 => Some (94, None) (* 3749-3751 *)
  | 118 => Some (161, None) (* 3986-3988 *)
  | 119 => Some (95, None) (* 3752-3754 *)
  | 120 => Some (160, None) (* 3983-3985 *)
  | 121 => Some (96, None) (* 3755-3757 *)
  | 122 => Some (159, None) (* 3980-3982 *)
  | 123 => Some (97, None) (* 3758-3760 *)
  | 124 => Some (158, None) (* 3977-3979 *)
  | 125 => Some (98, None) (* 3761-3763 *)
  | 126 => Some (157, None) (* 3974-3976 *)
  | 127 => Some (99, None) (* 3764-3766 *)
  | 128 => Some (156, None) (* 3971-3973 *)
  | 129 => Some (100, None) (* 3767-3769 *)
  | 130 => Some (155, None) (* 3968-3970 *)
  | 131 => Some (101, None) (* 3770-3772 *)
  | 132 => Some (154, None) (* 3965-3967 *)
  | 133 => Some (102, None) (* 3773-3775 *)
  | 134 => Some (153, None) (* 3962-3964 *)
  | 135 => Some (103, None) (* 3776-3778 *)
  | 136 => Some (152, None) (* 3959-3961 *)
  | 137 => Some (104, None) (* 3779-3781 *)
  | 138 => Some (151, None) (* 3956-3958 *)
  | 139 => Some (105, None) (* 3782-3784 *)
  | 140 => Some (150, None) (* 3953-3955 *)
  | 141 => Some (106, None) (* 3785-3787 *)
  | 142 => Some (149, None) (* 3950-3952 *)
  | 143 => Some (107, None) (* 3788-3790 *)
  | 144 => Some (148, None) (* 3947-3949 *)
  | 145 => Some (108, None) (* 3791-3793 *)
  | 146 => Some (147, None) (* 3944-3946 *)
  | 147 => Some (109, None) (* 3794-3796 *)
  | 148 => Some (146, None) (* 3941-3943 *)
  | 149 => Some (110, None) (* 3797-3799 *)
  | 150 => Some (145, None) (* 3938-3940 *)
  | 151 => Some (111, None) (* 3800-3802 *)
  | 152 => Some (144, None) (* 3935-3937 *)
  | 153 => Some (112, None) (* 3803-3805 *)
  | 154 => Some (143, None) (* 3932-3934 *)
  | 155 => Some (113, None) (* 3806-3808 *)
  | 156 => Some (142, None) (* 3929-3931 *)
  | 157 => Some (114, None) (* 3809-3811 *)
  | 158 => Some (141, None) (* 3926-3928 *)
  | 159 => Some (115, None) (* 3812-3814 *)
  | 160 => Some (140, None) (* 3923-3925 *)
  | 161 => Some (116, None) (* 3815-3817 *)
  | 162 => Some (139, None) (* 3920-3922 *)
  | 163 => Some (117, None) (* 3818-3820 *)
  | 164 => Some (138, None) (* 3917-3919 *)
  | 165 => Some (118, None) (* 3821-3823 *)
  | 166 => Some (137, None) (* 3914-3916 *)
  | 167 => Some (119, None) (* 3824-3826 *)
  | 168 => Some (120, Some 6) (* 3827-3829 *)
  | 169 => Some (0, Some 22) (* 3440-3442 *)
  | 170 => Some (177, Some 4) (* 4052-4054 *)
  | 171 => Some (123, Some 4) (* 3845-3847 *)
  | 172 => Some (0, Some 23) (* 3443-3445 *)
  | 173 => Some (122, None) (* 3836-3838 *)
  | 174 => Some (122, Some 9) (* 3839-3841 *)
  | 175 => Some (180, None) (* 4076-4078 *)
  | 176 => Some (180, Some 9) (* 4079-4081 *)
  | 177 => Some (0, Some 24) (* 3446-3448 *)
  | 178 => Some (124, None) (* 3848-3850 *)
  | 179 => Some (124, Some 9) (* 3851-3853 *)
  | 180 => Some (181, None) (* 4082-4084 *)
  | 181 => Some (181, Some 9) (* 4085-4087 *)
  | 182 => Some (126, None) (* 3857-3859 *)
  | 183 => Some (0, None) (* 3398-3400 *)
  | 184 => Some (135, None) (* 3905-3907 *)
  | 185 => Some (0, Some 25) (* 3449-3451 *)
  | 186 => Some (182, Some 26) (* 4091-4093 *)
  | 187 => Some (127, Some 26) (* 3863-3865 *)
  | 188 => Some (133, Some 26) (* 3899-3901 *)
  | 189 => Some (0, Some 27) (* 3452-3454 *)
  | 190 => Some (128, None) (* 3869-3871 *)
  | 191 => Some (128, Some 9) (* 3872-3874 *)
  | 192 => Some (183, None) (* 4097-4099 *)
  | 193 => Some (183, Some 9) (* 4100-4102 *)
  | 194 => Some (0, Some 28) (* 3455-3457 *)
  | 195 => Some (130, None) (* 3884-3886 *)
  | 196 => Some (130, Some 9) (* 3887-3889 *)
  | 197 => Some (188, None) (* 4124-4126 *)
  | 198 => Some (188, Some 9) (* 4127-4129 *)
  | 199 => Some (0, Some 29) (* 3458-3460 *)
  | 200 => Some (132, None) (* 3893-3895 *)
  | 201 => Some (132, Some 9) (* 3896-3898 *)
  | 202 => Some (191, None) (* 4139-4141 *)
  | 203 => Some (0, Some 30) (* 3461-3463 *)
  | 204 => Some (187, Some 31) (* 4118-4120 *)
  | 205 => Some (129, Some 31) (* 3878-3880 *)
  | 206 => Some (136, Some 31) (* 3908-3910 *)
  | 207 => Some (192, None) (* 4142-4144 *)
  | 208 => Some (168, None) (* 4007-4009 *)
  | 209 => Some (169, None) (* 4010-4012 *)
  | 210 => Some (170, Some 2) (* 4013-4015 *)
  | 211 => Some (171, None) (* 4016-4018 *)
  | 212 => Some (172, None) (* 4019-4021 *)
  | 213 => Some (39, None) (* 3578-3580 *)
  | 214 => Some (174, None) (* 4031-4033 *)
  | 215 => Some (70, Some 35) (* 3674-3676 *)
  | 216 => Some (175, None) (* 4037-4039 *)
  | 217 => Some (71, None) (* 3677-3679 *)
  | 218 => Some (177, None) (* 4049-4051 *)
  | 219 => Some (178, Some 38) (* 4055-4057 *)
  | 220 => Some (123, None) (* 3842-3844 *)
  | 221 => Some (125, Some 38) (* 3854-3856 *)
  | 222 => Some (179, Some 4) (* 4073-4075 *)
  | 223 => Some (121, Some 4) (* 3833-3835 *)
  | 224 => Some (179, None) (* 4070-4072 *)
  | 225 => Some (121, None) (* 3830-3832 *)
  | 226 => Some (182, None) (* 4088-4090 *)
  | 227 => Some (178, Some 42) (* 4058-4060 *)
  | 228 => Some (127, None) (* 3860-3862 *)
  | 229 => Some (184, Some 42) (* 4103-4105 *)
  | 230 => Some (185, None) (* 4109-4111 *)
  | 231 => Some (186, None) (* 4112-4114 *)
  | 232 => Some (182, Some 44) (* 4094-4096 *)
  | 233 => Some (178, Some 45) (* 4061-4063 *)
  | 234 => Some (127, Some 44) (* 3866-3868 *)
  | 235 => Some (184, Some 45) (* 4106-4108 *)
  | 236 => Some (0, Some 46) (* 3464-3466 *)
  | 237 => Some (131, Some 31) (* 3890-3892 *)
  | 238 => Some (187, None) (* 4115-4117 *)
  | 239 => Some (178, Some 48) (* 4064-4066 *)
  | 240 => Some (129, None) (* 3875-3877 *)
  | 241 => Some (189, None) (* 4130-4132 *)
  | 242 => Some (190, None) (* 4136-4138 *)
  | 243 => Some (187, Some 50) (* 4121-4123 *)
  | 244 => Some (178, Some 51) (* 4067-4069 *)
  | 245 => Some (129, Some 50) (* 3881-3883 *)
  | 246 => Some (189, Some 50) (* 4133-4135 *)
  | 247 => Some (134, Some 45) (* 3902-3904 *)
  | 248 => Some (136, Some 50) (* 3911-3913 *)
  | 249 => Some (193, None) (* 4145-4147 *)
  | _ => None
  end.

(* machine.go:10-26: the format strings *)
Definition err_format (e : errconst) : string :=
  match e with
  | ErrPrefix => (* 10 *) "expecting the prefix to be the ""urn"" string (whatever case) [col %d]"%string
  | ErrIdentifier => (* 11 *) "expecting the identifier to be string (1..31 alnum chars, also containing dashes but not at its beginning) [col %d]"%string
  | ErrSpecificString => (* 12 *) "expecting the specific string to be a string containing alnum, hex, or others ([()+,-.:=@;$_!*']) chars [col %d]"%string
  | ErrNoUrnWithinID => (* 13 *) "expecting the identifier to not contain the ""urn"" reserved string [col %d]"%string
  | ErrHex => (* 14 *) "expecting the percent encoded chars to be well-formed (%%alnum{2}) [col %d]"%string
  | ErrSCIMNamespace => (* 15 *) "expecing the SCIM namespace identifier (ietf:params:scim) [col %d]"%string
  | ErrSCIMType => (* 16 *) "expecting a correct SCIM type (schemas, api, param) [col %d]"%string
  | ErrSCIMName => (* 17 *) "expecting one or more alnum char in the SCIM name part [col %d]"%string
  | ErrSCIMOther => (* 18 *) "expecting a well-formed other SCIM part [col %d]"%string
  | ErrSCIMOtherIncomplete => (* 19 *) "expecting a not empty SCIM other part after colon [col %d]"%string
  | Err8141InformalID => (* 20 *) "informal URN namespace must be in the form urn-[1-9][0-9] [col %d]"%string
  | Err8141SpecificString => (* 21 *) "expecting the specific string to contain alnum, hex, or others ([~&()+,-.:=@;$_!*'] or [/?] not in first position) chars [col %d]"%string
  | Err8141Identifier => (* 22 *) "expecting the indentifier to be a string with (length 2 to 32 chars) containing alnum (or dashes) not starting or ending with a dash [col %d]"%string
  | Err8141RComponentStart => (* 23 *) "expecting only one r-component (starting with the ?+ sequence) [col %d]"%string
  | Err8141QComponentStart => (* 24 *) "expecting only one q-component (starting with the ?= sequence) [col %d]"%string
  | Err8141MalformedRComp => (* 25 *) "expecting a non-empty r-component containing alnum, hex, or others ([~&()+,-.:=@;$_!*'] or [/?] but not at its beginning) [col %d]"%string
  | Err8141MalformedQComp => (* 26 *) "expecting a non-empty q-component containing alnum, hex, or others ([~&()+,-.:=@;$_!*'] or [/?] but not at its beginning) [col %d]"%string
  end.

(* The action blocks fN: (every one ends in  goto _again). *)
Definition f_block (n : N) : option (list stmt) :=
  match n with
  | 0 => (* 4184-4192 *)
    Some [SSetErr ErrPrefix 0;
      SDecP;
      SSetCS 193;
      SGotoAgain;
      SGotoAgain]
  | 1 => (* 4355-4373 *)
    Some [SMark;
      SIf (CNot (CModeEq PRFC8141Only)) [SIf (CAnd (CAnd (CPosLtPe 3) (CDataAtEq 3 58)) (CNot CPrefixEmpty)) [SSetErr ErrNoUrnWithinID 3; SDecP; SSetCS 193; SGotoAgain] []] [];
      SGotoAgain]
  | 2 => (* 4160-4164 *)
    Some [SSetPrefix;
      SGotoAgain]
  | 3 => (* 4381-4395 *)
    Some [SSetErr ErrIdentifier 0;
      SDecP;
      SSetCS 193;
      SGotoAgain;
      SSetErr ErrPrefix 0;
      SDecP;
      SSetCS 193;
      SGotoAgain;
      SGotoAgain]
  | 4 => (* 4149-4153 *)
    Some [SMark;
      SGotoAgain]
  | 5 => (* 4193-4201 *)
    Some [SSetErr ErrIdentifier 0;
      SDecP;
      SSetCS 193;
      SGotoAgain;
      SGotoAgain]
  | 6 => (* 4165-4169 *)
    Some [SSetID;
      SGotoAgain]
  | 7 => (* 4202-4210 *)
    Some [SSetErr ErrSpecificString 0;
      SDecP;
      SSetCS 193;
      SGotoAgain;
      SGotoAgain]
  | 8 => (* 4411-4428 *)
    Some [SIf (COr (CModeEq PRFC2141Only) (CModeEq PRFC8141Only)) [SSetErr ErrHex 0; SDecP; SSetCS 193; SGotoAgain] [];
      SSetErr ErrSpecificString 0;
      SDecP;
      SSetCS 193;
      SGotoAgain;
      SGotoAgain]
  | 9 => (* 4154-4159 *)
    Some [STolower;
      SGotoAgain]
  | 10 => (* 4396-4410 *)
    Some [SSetErr ErrIdentifier 0;
      SDecP;
      SSetCS 193;
      SGotoAgain;
      SSetErr ErrNoUrnWithinID 0;
      SDecP;
      SSetCS 193;
      SGotoAgain;
      SGotoAgain]
  | 11 => (* 4223-4231 *)
    Some [SSetErr ErrSCIMNamespace 0;
      SDecP;
      SSetCS 193;
      SGotoAgain;
      SGotoAgain]
  | 12 => (* 4374-4380 *)
    Some [SSetID;
      SNewSCIM;
      SGotoAgain]
  | 13 => (* 4232-4240 *)
    Some [SSetErr ErrSCIMType 0;
      SDecP;
      SSetCS 193;
      SGotoAgain;
      SGotoAgain]
  | 14 => (* 4263-4267 *)
    Some [SScimType;
      SGotoAgain]
  | 15 => (* 4241-4249 *)
    Some [SSetErr ErrSCIMName 0;
      SDecP;
      SSetCS 193;
      SGotoAgain;
      SGotoAgain]
  | 16 => (* 4268-4272 *)
    Some [SScimPos;
      SGotoAgain]
  | 17 => (* 4250-4262 *)
    Some [SIf CPEqPe [SSetErr ErrSCIMOtherIncomplete (-1)] [SSetErr ErrSCIMOther 0];
      SDecP;
      SSetCS 193;
      SGotoAgain;
      SGotoAgain]
  | 18 => (* 4278-4282 *)
    Some [SScimPos;
      SGotoAgain]
  | 19 => (* 4429-4450 *)
    Some [SIf (COr (CModeEq PRFC2141Only) (CModeEq PRFC8141Only)) [SSetErr ErrHex 0; SDecP; SSetCS 193; SGotoAgain] [];
      SIf CPEqPe [SSetErr ErrSCIMOtherIncomplete (-1)] [SSetErr ErrSCIMOther 0];
      SDecP;
      SSetCS 193;
      SGotoAgain;
      SGotoAgain]
  | 20 => (* 4505-4519 *)
    Some [SSetErr Err8141Identifier 0;
      SDecP;
      SSetCS 193;
      SGotoAgain;
      SSetErr ErrPrefix 0;
      SDecP;
      SSetCS 193;
      SGotoAgain;
      SGotoAgain]
  | 21 => (* 4292-4300 *)
    Some [SSetErr Err8141Identifier 0;
      SDecP;
      SSetCS 193;
      SGotoAgain;
      SGotoAgain]
  | 22 => (* 4283-4291 *)
    Some [SSetErr Err8141SpecificString 0;
      SDecP;
      SSetCS 193;
      SGotoAgain;
      SGotoAgain]
  | 23 => (* 4211-4222 *)
    Some [SIf (COr (CModeEq PRFC2141Only) (CModeEq PRFC8141Only)) [SSetErr ErrHex 0; SDecP; SSetCS 193; SGotoAgain] [];
      SGotoAgain]
  | 24 => (* 4451-4468 *)
    Some [SIf (COr (CModeEq PRFC2141Only) (CModeEq PRFC8141Only)) [SSetErr ErrHex 0; SDecP; SSetCS 193; SGotoAgain] [];
      SSetErr Err8141SpecificString 0;
      SDecP;
      SSetCS 193;
      SGotoAgain;
      SGotoAgain]
  | 25 => (* 4337-4345 *)
    Some [SSetErr Err8141MalformedRComp 0;
      SDecP;
      SSetCS 193;
      SGotoAgain;
      SGotoAgain]
  | 26 => (* 4520-4534 *)
    Some [SIf CRStart [SSetErr Err8141RComponentStart 0; SDecP; SSetCS 193; SGotoAgain] [];
      SSetRStart;
      SMark;
      SGotoAgain]
  | 27 => (* 4469-4486 *)
    Some [SIf (COr (CModeEq PRFC2141Only) (CModeEq PRFC8141Only)) [SSetErr ErrHex 0; SDecP; SSetCS 193; SGotoAgain] [];
      SSetErr Err8141MalformedRComp 0;
      SDecP;
      SSetCS 193;
      SGotoAgain;
      SGotoAgain]
  | 28 => (* 4487-4504 *)
    Some [SIf (COr (CModeEq PRFC2141Only) (CModeEq PRFC8141Only)) [SSetErr ErrHex 0; SDecP; SSetCS 193; SGotoAgain] [];
      SSetErr Err8141MalformedQComp 0;
      SDecP;
      SSetCS 193;
      SGotoAgain;
      SGotoAgain]
  | 29 => (* 4595-4618 *)
    Some [SIf (COr (CModeEq PRFC2141Only) (CModeEq PRFC8141Only)) [SSetErr ErrHex 0; SDecP; SSetCS 193; SGotoAgain] [];
      SSetErr Err8141MalformedRComp 0;
      SDecP;
      SSetCS 193;
      SGotoAgain;
      SSetErr Err8141MalformedQComp 0;
      SDecP;
      SSetCS 193;
      SGotoAgain;
      SGotoAgain]
  | 30 => (* 4346-4354 *)
    Some [SSetErr Err8141MalformedQComp 0;
      SDecP;
      SSetCS 193;
      SGotoAgain;
      SGotoAgain]
  | 31 => (* 4550-4564 *)
    Some [SIf CQStart [SSetErr Err8141QComponentStart 0; SDecP; SSetCS 193; SGotoAgain] [];
      SSetQStart;
      SMark;
      SGotoAgain]
  | 35 => (* 4273-4277 *)
    Some [SScimName;
      SGotoAgain]
  | 38 => (* 4170-4183 *)
    Some [SSetSS;
      SForTolower 32;
      SSetNorm;
      SForTolower (-32);
      SGotoAgain]
  | 42 => (* 4301-4305 *)
    Some [SSetR;
      SGotoAgain]
  | 44 => (* 4311-4323 *)
    Some [SIf CRStart [SSetErr Err8141RComponentStart 0; SDecP; SSetCS 193; SGotoAgain] [];
      SSetRStart;
      SGotoAgain]
  | 45 => (* 4535-4549 *)
    Some [SIf CRStart [SSetErr Err8141RComponentStart 0; SDecP; SSetCS 193; SGotoAgain] [];
      SSetRStart;
      SSetR;
      SGotoAgain]
  | 46 => (* 4580-4594 *)
    Some [SSetErr Err8141MalformedRComp 0;
      SDecP;
      SSetCS 193;
      SGotoAgain;
      SSetErr Err8141MalformedQComp 0;
      SDecP;
      SSetCS 193;
      SGotoAgain;
      SGotoAgain]
  | 48 => (* 4306-4310 *)
    Some [SSetQ;
      SGotoAgain]
  | 50 => (* 4324-4336 *)
    Some [SIf CQStart [SSetErr Err8141QComponentStart 0; SDecP; SSetCS 193; SGotoAgain] [];
      SSetQStart;
      SGotoAgain]
  | 51 => (* 4565-4579 *)
    Some [SIf CQStart [SSetErr Err8141QComponentStart 0; SDecP; SSetCS 193; SGotoAgain] [];
      SSetQStart;
      SSetQ;
      SGotoAgain]
  | _ => None
  end.

(* machine.go:4621-4629 switch _toStateActions[m.cs] *)
Definition to_state_block (a : N) : option (list stmt) :=
  match a with
  | 33 => (* 4622-4628 *)
    Some [SDecP;
      SSetErr Err8141InformalID 0;
      SSetCS 193;
      SGotoAgain]
  | _ => None
  end.

(* machine.go:4641 switch _eofActions[m.cs] ; a case that ends without a goto leaves
   the switch and falls to _out *)
Definition eof_block (a : N) : option (list stmt) :=
  match a with
  | 1 => (* 4642-4648 *)
    Some [SSetErr ErrPrefix 0;
      SDecP;
      SSetCS 193;
      SGotoAgain]
  | 4 => (* 4775-4787 *)
    Some [SSetErr ErrIdentifier 0;
      SDecP;
      SSetCS 193;
      SGotoAgain;
      SSetErr ErrPrefix 0;
      SDecP;
      SSetCS 193;
      SGotoAgain]
  | 6 => (* 4650-4656 *)
    Some [SSetErr ErrIdentifier 0;
      SDecP;
      SSetCS 193;
      SGotoAgain]
  | 8 => (* 4658-4664 *)
    Some [SSetErr ErrSpecificString 0;
      SDecP;
      SSetCS 193;
      SGotoAgain]
  | 9 => (* 4803-4818 *)
    Some [SIf (COr (CModeEq PRFC2141Only) (CModeEq PRFC8141Only)) [SSetErr ErrHex 0; SDecP; SSetCS 193; SGotoAgain] [];
      SSetErr ErrSpecificString 0;
      SDecP;
      SSetCS 193;
      SGotoAgain]
  | 11 => (* 4789-4801 *)
    Some [SSetErr ErrIdentifier 0;
      SDecP;
      SSetCS 193;
      SGotoAgain;
      SSetErr ErrNoUrnWithinID 0;
      SDecP;
      SSetCS 193;
      SGotoAgain]
  | 12 => (* 4677-4683 *)
    Some [SSetErr ErrSCIMNamespace 0;
      SDecP;
      SSetCS 193;
      SGotoAgain]
  | 14 => (* 4685-4691 *)
    Some [SSetErr ErrSCIMType 0;
      SDecP;
      SSetCS 193;
      SGotoAgain]
  | 16 => (* 4693-4699 *)
    Some [SSetErr ErrSCIMName 0;
      SDecP;
      SSetCS 193;
      SGotoAgain]
  | 18 => (* 4701-4711 *)
    Some [SIf CPEqPe [SSetErr ErrSCIMOtherIncomplete (-1)] [SSetErr ErrSCIMOther 0];
      SDecP;
      SSetCS 193;
      SGotoAgain]
  | 20 => (* 4820-4839 *)
    Some [SIf (COr (CModeEq PRFC2141Only) (CModeEq PRFC8141Only)) [SSetErr ErrHex 0; SDecP; SSetCS 193; SGotoAgain] [];
      SIf CPEqPe [SSetErr ErrSCIMOtherIncomplete (-1)] [SSetErr ErrSCIMOther 0];
      SDecP;
      SSetCS 193;
      SGotoAgain]
  | 21 => (* 4892-4904 *)
    Some [SSetErr Err8141Identifier 0;
      SDecP;
      SSetCS 193;
      SGotoAgain;
      SSetErr ErrPrefix 0;
      SDecP;
      SSetCS 193;
      SGotoAgain]
  | 22 => (* 4721-4727 *)
    Some [SSetErr Err8141Identifier 0;
      SDecP;
      SSetCS 193;
      SGotoAgain]
  | 23 => (* 4713-4719 *)
    Some [SSetErr Err8141SpecificString 0;
      SDecP;
      SSetCS 193;
      SGotoAgain]
  | 24 => (* 4666-4675 *)
    Some [SIf (COr (CModeEq PRFC2141Only) (CModeEq PRFC8141Only)) [SSetErr ErrHex 0; SDecP; SSetCS 193; SGotoAgain] []]
  | 25 => (* 4841-4856 *)
    Some [SIf (COr (CModeEq PRFC2141Only) (CModeEq PRFC8141Only)) [SSetErr ErrHex 0; SDecP; SSetCS 193; SGotoAgain] [];
      SSetErr Err8141SpecificString 0;
      SDecP;
      SSetCS 193;
      SGotoAgain]
  | 26 => (* 4729-4735 *)
    Some [SSetErr Err8141MalformedRComp 0;
      SDecP;
      SSetCS 193;
      SGotoAgain]
  | 28 => (* 4858-4873 *)
    Some [SIf (COr (CModeEq PRFC2141Only) (CModeEq PRFC8141Only)) [SSetErr ErrHex 0; SDecP; SSetCS 193; SGotoAgain] [];
      SSetErr Err8141MalformedRComp 0;
      SDecP;
      SSetCS 193;
      SGotoAgain]
  | 29 => (* 4875-4890 *)
    Some [SIf (COr (CModeEq PRFC2141Only) (CModeEq PRFC8141Only)) [SSetErr ErrHex 0; SDecP; SSetCS 193; SGotoAgain] [];
      SSetErr Err8141MalformedQComp 0;
      SDecP;
      SSetCS 193;
      SGotoAgain]
  | 30 => (* 4932-4953 *)
    Some [SIf (COr (CModeEq PRFC2141Only) (CModeEq PRFC8141Only)) [SSetErr ErrHex 0; SDecP; SSetCS 193; SGotoAgain] [];
      SSetErr Err8141MalformedRComp 0;
      SDecP;
      SSetCS 193;
      SGotoAgain;
      SSetErr Err8141MalformedQComp 0;
      SDecP;
      SSetCS 193;
      SGotoAgain]
  | 31 => (* 4737-4743 *)
    Some [SSetErr Err8141MalformedQComp 0;
      SDecP;
      SSetCS 193;
      SGotoAgain]
  | 34 => (* 4745-4758 *)
    Some [SSetSS;
      SForTolower 32;
      SSetNorm;
      SForTolower (-32);
      SSetKind KRFC2141]
  | 35 => (* 4955-4970 *)
    Some [SScimName;
      SSetSS;
      SForTolower 32;
      SSetNorm;
      SForTolower (-32);
      SSetKind KRFC7643]
  | 37 => (* 4972-4987 *)
    Some [SScimOther;
      SSetSS;
      SForTolower 32;
      SSetNorm;
      SForTolower (-32);
      SSetKind KRFC7643]
  | 38 => (* 4760-4773 *)
    Some [SSetSS;
      SForTolower 32;
      SSetNorm;
      SForTolower (-32);
      SSetKind KRFC8141]
  | 40 => (* 4924-4930 *)
    Some [SMark;
      SSetF;
      SSetKind KRFC8141]
  | 41 => (* 4918-4922 *)
    Some [SSetF;
      SSetKind KRFC8141]
  | 42 => (* 4906-4910 *)
    Some [SSetR;
      SSetKind KRFC8141]
  | 44 => (* 4989-5003 *)
    Some [SIf CRStart [SSetErr Err8141RComponentStart 0; SDecP; SSetCS 193; SGotoAgain] [];
      SSetRStart;
      SSetR;
      SSetKind KRFC8141]
  | 48 => (* 4912-4916 *)
    Some [SSetQ;
      SSetKind KRFC8141]
  | 50 => (* 5005-5019 *)
    Some [SIf CQStart [SSetErr Err8141QComponentStart 0; SDecP; SSetCS 193; SGotoAgain] [];
      SSetQStart;
      SSetQ;
      SSetKind KRFC8141]
  | _ => None
  end.
