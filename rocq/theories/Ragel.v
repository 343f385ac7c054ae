(* The grammar of machine.go.rl, definition by definition: the source from which ragel made
   machine.go.  Modelled: the regular expressions.  Not modelled: the embedded actions
   (mark, set_*, err_* ...; their effect is in machine.go, which is modelled in full), and
   the priorities of "<:" and ":>>", which are read as plain concatenation.  Actions that
   jump away can only shrink the language, and so can priorities. *)
From Coq Require Import NArith List Bool Init.Byte Strings.Byte Strings.String.
From Verif Require Import GoBase RegLang.
Import ListNotations.
Local Open Scope lang_scope.

(* ragel's built-in machines digit, lower, upper, alnum *)
Definition rl_digit : lang := range "0" "9".
Definition rl_lower : lang := range "a" "z".
Definition rl_upper : lang := range "A" "Z".
Definition rl_alnum : lang := rl_digit ||| rl_lower ||| rl_upper.

(* machine.go.rl:114 *)
Definition rl_pre : lang := chars "uU" ;; chars "rR" ;; chars "nN".
(* machine.go.rl:116 *)
Definition rl_nid : lang := rl_alnum ;; rep 0 31 (rl_alnum ||| lit "-").
(* machine.go.rl:118 *)
Definition rl_hex : lang := lit "%" ;; rep 2 2 (rl_digit ||| rl_lower ||| rl_upper).
(* machine.go.rl:120 *)
Definition rl_sss : lang := rl_alnum ||| chars "()+,-.:=@;$_!*'".
(* machine.go.rl:122 *)
Definition rl_nss : lang := plus (rl_sss ||| rl_hex).
(* machine.go.rl:124 *)
Definition rl_nid_not_urn : lang := rl_nid --- rl_pre.
(* machine.go.rl:126, 296 *)
Definition rl_urn : lang := rl_pre ;; lit ":" ;; (rl_nid_not_urn ;; lit ":" ;; rl_nss).

(* machine.go.rl:186 *)
Definition rl_scim_nid : lang := lit "ietf:params:scim".
(* machine.go.rl:188 *)
Definition rl_scim_other : lang := lit ":" ;; plus (rl_sss ||| rl_hex).
(* machine.go.rl:190 *)
Definition rl_scim_name : lang := plus rl_alnum.
(* machine.go.rl:192 *)
Definition rl_scim_type : lang := lit "schemas" ||| lit "api" ||| lit "param".
(* machine.go.rl:194 *)
Definition rl_scim_only : lang :=
  rl_pre ;; lit ":" ;; (rl_scim_nid ;; lit ":" ;; rl_scim_type ;; lit ":" ;; rl_scim_name ;; opt rl_scim_other).

(* machine.go.rl:264 *)
Definition rl_pchar : lang := rl_sss ||| lit "~" ||| lit "&" ||| rl_hex.
(* machine.go.rl:266 *)
Definition rl_component : lang := rl_pchar ;; star (rl_pchar ||| lit "/" ||| lit "?").
(* machine.go.rl:268 *)
Definition rl_r_start : lang := lit "?+".
(* machine.go.rl:270 *)
Definition rl_r_component : lang := rl_r_start ;; plus (rl_r_start ||| rl_component).
(* machine.go.rl:272 *)
Definition rl_q_start : lang := lit "?=".
(* machine.go.rl:274 *)
Definition rl_q_component : lang := rl_q_start ;; plus (rl_q_start ||| rl_component).
(* machine.go.rl:276 *)
Definition rl_rq_components : lang := rl_r_component ;; opt rl_q_component ||| rl_q_component.
(* machine.go.rl:278 *)
Definition rl_fragment : lang := star (rl_pchar ||| lit "/" ||| lit "?").
(* machine.go.rl:280 *)
Definition rl_f_component : lang := lit "#" ;; rl_fragment.
(* machine.go.rl:282 *)
Definition rl_nss_rfc8141 : lang := rl_pchar ;; star (rl_pchar ||| lit "/").
(* machine.go.rl:284 *)
Definition rl_nid_rfc8141 : lang := rl_alnum ;; rep 0 30 (rl_alnum ||| lit "-") ;; rl_alnum.
(* machine.go.rl:286; the class is written [a-zA-z0] there *)
Definition rl_informal_id : lang := rl_pre ;; (lit "-" ;; (rl_lower ||| range "A" "z" ||| lit "0")).
(* machine.go.rl:288 *)
Definition rl_nid_rfc8141_not_urn : lang := rl_nid_rfc8141 --- opt rl_informal_id.
(* machine.go.rl:290 *)
Definition rl_rfc8141_only : lang :=
  rl_pre ;; lit ":" ;; rl_nid_rfc8141_not_urn ;; lit ":" ;; rl_nss_rfc8141 ;; opt rl_rq_components ;; opt rl_f_component.
