(* The unit tests and examples of the repository outside tables_test.go, evaluated on the
   model: lexicaleq_test.go, urn_test.go, urn8141_test.go, scim_test.go, machine_test.go,
   examples_test.go, scim/schema/type_test.go and the tests of the two tools.  Like
   Conformance.v a check of the translation, not a property.  The two tables were copied
   from lexicaleq_test.go by gen/gen_conformance2.py. *)
From Verif Require Import GoBase MachineSyntax MachineTables Machine Errors Urn Json Tools.
Open Scope string_scope.

Definition eqs (b : bytes) (s : string) : bool := bytes_eqb b (B s).
Definition quote (s : bytes) : bytes := ("034"%byte :: s ++ ["034"%byte])%list.
Definition lower : bytes -> bytes := fun s => s. (* strings.ToLower outside ASCII, not reached here *)

(* lexicaleq_test.go:17-83 *)
Definition equivalenceTests : list (bool * bytes * bytes) := [
  (true, B "urn:foo:a123%2C456", B "URN:FOO:a123%2c456");
  (true, B "urn:example:a123%2Cz456", B "URN:EXAMPLE:a123%2cz456");
  (true, B "urn:foo:AbC123%2C456", B "URN:FOO:AbC123%2c456");
  (true, B "urn:foo:AbC123%2C456%1f", B "URN:FOO:AbC123%2c456%1f");
  (true, B "URN:foo:a123,456", B "urn:foo:a123,456");
  (true, B "URN:foo:a123,456", B "urn:FOO:a123,456");
  (true, B "urn:foo:a123,456", B "urn:FOO:a123,456");
  (true, B "urn:ciao:%2E", B "urn:ciao:%2e");
  (false, B "urn:foo:A123,456", B "URN:foo:a123,456");
  (false, B "urn:foo:A123,456", B "urn:foo:a123,456");
  (false, B "urn:foo:A123,456", B "urn:FOO:a123,456");
  (false, B "urn:example:a123%2Cz456", B "urn:example:a123,z456");
  (false, B "urn:example:A123,z456", B "urn:example:a123,Z456")].

(* lexicaleq_test.go:85-101 *)
Definition equivalenceTests8141 : list (bool * bytes * bytes) := [
  (false, B "urn:example:a123,z456/bar", B "urn:example:a123,z456/foo");
  (true, B "urn:example:a123,z456?+abc", B "urn:example:a123,z456?=xyz");
  (true, B "urn:example:a123,z456#789", B "urn:example:a123,z456?=xyz")].

(* lexicaleq_test.go:103-122; unlike the test this also asks that both texts parse *)
Definition lexicalEqual (mode : Z) (t : bool * bytes * bytes) : bool :=
  let '(eq, lx, rx) := t in
  match Parse lx [mode], Parse rx [mode] with
  | Ret (_, Some l, true), Ret (_, Some r, true) =>
      Equal lower l (Some l) && Equal lower r (Some r) &&
      Bool.eqb (Equal lower l (Some r)) eq && Bool.eqb (Equal lower r (Some l)) eq
  | _, _ => false
  end.
(* lexicaleq_test.go:124-134 *)
Example TestLexicalEquivalence :
  forallb (lexicalEqual PRFC2141Only) equivalenceTests = true /\
  forallb (lexicalEqual PRFC8141Only) (equivalenceTests ++ equivalenceTests8141)%list = true.
Proof. split; vm_compute; reflexivity. Qed.
(* the value of a successful Parse *)
Definition parsed_value (s : string) (modes : list Z) : option URN :=
  match Parse (B s) modes with Ret (_, Some u, true) => Some u | _ => None end.
(* lexicaleq_test.go:136-141 *)
Example TestEqualNil : option_map (fun u => Equal lower u None) (parsed_value "urn:hello:world" []) = Some false.
Proof. vm_compute. reflexivity. Qed.

(* a composite literal &URN{ID: id, SS: ss, rComponent: r, qComponent: q, fComponent: f} *)
Definition lit (id ss r q f : string) : URN := mkURN [] (B id) (B ss) [] KNONE None (B r) (B q) (B f) false false [].

(* urn_test.go:10-17 *)
Example TestDefaultPrefixWhenString : URN_String (lit "pippo" "pluto" "" "" "") = B "urn:pippo:pluto".
Proof. vm_compute. reflexivity. Qed.
(* urn_test.go:19-23 *)
Example TestParseSignature : Parse [] [] = Ret ([], None, false).
Proof. vm_compute. reflexivity. Qed.
(* urn_test.go:25-53; json.Marshal and json.Unmarshal of a value with these methods call them *)
Definition invalid (e : option jerr) : option bytes := match e with Some e => jerr_Error e | None => None end.
Definition urn_test (newer : bool) : bool :=
  match URN_UnmarshalJSON zeroURN (URN_MarshalJSON newer (lit "oid" "1.2.3.4" "" "" "")) with
  | Ret (u, None) => bytes_eqb (URN_String u) (URN_String (lit "oid" "1.2.3.4" "" "" ""))
  | _ => false
  end.
Example TestJSONMarshaling : urn_test true = true /\ urn_test false = true /\
  URN_UnmarshalJSON zeroURN (quote (B "not a URN")) = Ret (zeroURN, Some (JInvalid "invalid URN: %s" (B "not a URN"))) /\
  invalid (Some (JInvalid "invalid URN: %s" (B "not a URN"))) = Some (B "invalid URN: not a URN") /\
  URN_UnmarshalJSON zeroURN [] = Ret (zeroURN, Some JJson).
Proof. repeat apply conj; vm_compute; reflexivity. Qed.

(* urn8141_test.go:11-51 *)
Definition lex := lit "lex" "it:ministero.giustizia:decreto:1992-07-24;358~art5" "r" "q%D0" "frag".
Definition urn8141_test (newer : bool) : bool :=
  match URN8141_MarshalJSON newer (Some lex) with
  | Ret bs => bytes_eqb bs (quote (B "urn:lex:it:ministero.giustizia:decreto:1992-07-24;358~art5?+r?=q%D0#frag")) &&
      match URN8141_UnmarshalJSON None bs with
      | Ret (Some u, None) => bytes_eqb (URN_String u) (URN_String lex) && bytes_eqb (FComponent u) (u_f lex) &&
          bytes_eqb (QComponent u) (u_q lex) && bytes_eqb (RComponent u) (u_r lex)
      | _ => false
      end
  | _ => false
  end.
Example TestURN8141JSONMarshaling : urn8141_test true = true /\ urn8141_test false = true /\
  URN8141_UnmarshalJSON None (quote (B "not a URN")) = Ret (None, Some (JInvalid "invalid URN per RFC 8141: %s" (B "not a URN"))) /\
  invalid (Some (JInvalid "invalid URN per RFC 8141: %s" (B "not a URN"))) = Some (B "invalid URN per RFC 8141: not a URN") /\
  URN8141_UnmarshalJSON None [] = Ret (None, Some JJson).
Proof. repeat apply conj; vm_compute; reflexivity. Qed.

(* scim_test.go:13-71, with the private field pos *)
Definition core_ext (pos : Z) := mkSCIM TSchemas (B "core") (B "extension:enterprise:2.0:User") pos.
Example TestSCIMJSONMarshaling :
  SCIM_MarshalJSON true (core_ext 0) = quote (B "urn:ietf:params:scim:schemas:core:extension:enterprise:2.0:User") /\
  SCIM_MarshalJSON false (core_ext 0) = SCIM_MarshalJSON true (core_ext 0) /\
  SCIM_UnmarshalJSON zeroSCIM (SCIM_MarshalJSON true (core_ext 0)) = Ret (core_ext 34, None) /\
  SCIM_UnmarshalJSON zeroSCIM (quote (B "urn:ietf:params:scim:schemas:extension:enterprise:2.0:User")) =
    Ret (mkSCIM TSchemas (B "extension") (B "enterprise:2.0:User") 39, None) /\
  SCIM_String (mkSCIM TSchemas (B "extension") (B "enterprise:2.0:User") 39) = B "urn:ietf:params:scim:schemas:extension:enterprise:2.0:User" /\
  SCIM_UnmarshalJSON zeroSCIM (quote (B "urn:ietf:params:scim:schemas:core")) = Ret (mkSCIM TSchemas (B "core") [] 29, None) /\
  SCIM_String (mkSCIM TSchemas (B "core") [] 29) = B "urn:ietf:params:scim:schemas:core" /\
  SCIM_UnmarshalJSON zeroSCIM (quote (B "not a URN")) = Ret (zeroSCIM, Some (JInvalid "invalid SCIM URN: %s" (B "not a URN"))) /\
  invalid (Some (JInvalid "invalid SCIM URN: %s" (B "not a URN"))) = Some (B "invalid SCIM URN: not a URN") /\
  SCIM_UnmarshalJSON zeroSCIM [] = Ret (zeroSCIM, Some JJson).
Proof. repeat apply conj; vm_compute; reflexivity. Qed.

(* machine_test.go:10-15, 49-50 *)
Example TestDefaultParsingMode : m_parsingMode (NewMachine []) = DefaultParsingMode /\ PRFC2141Only = DefaultParsingMode.
Proof. split; vm_compute; reflexivity. Qed.

(* scim/schema/type_test.go:9-25 *)
Example TestTypeFromString :
  TypeFromString (B "wrong") = TUnsupported /\ Type_String TUnsupported = [] /\
  TypeFromString (B "schemas") = TSchemas /\ Type_String TSchemas = B "schemas" /\
  TypeFromString (B "api") = TAPI /\ Type_String TAPI = B "api" /\
  TypeFromString (B "param") = TParam /\ Type_String TParam = B "param".
Proof. repeat apply conj; vm_compute; reflexivity. Qed.

(* examples_test.go:9-21 *)
Example ExampleParse :
  option_map (fun u => (u_ID u, u_SS u, URN_SCIM u)) (parsed_value "URN:foo:a123,456" []) = Some (B "foo", B "a123,456", None).
Proof. vm_compute. reflexivity. Qed.
(* examples_test.go:23-35 *)
Example ExampleURN_MarshalJSON :
  option_map (fun u => (URN_MarshalJSON true u, URN_MarshalJSON false u)) (parsed_value "URN:foo:a123,456" []) =
    Some (quote (B "URN:foo:a123,456"), quote (B "URN:foo:a123,456")).
Proof. vm_compute. reflexivity. Qed.
(* examples_test.go:37-55 *)
Example ExampleURN_Equal :
  match parsed_value "URN:foo:a123,456" [], parsed_value "URN:FOO:a123,456" [] with
  | Some u1, Some u2 => Some (Equal lower u1 (Some u2), URN_String u1, URN_String u2)
  | _, _ => None
  end = Some (true, B "URN:foo:a123,456", B "URN:FOO:a123,456").
Proof. vm_compute. reflexivity. Qed.
(* examples_test.go:57-82 *)
Example ExampleParse_scim :
  match parsed_value "urn:ietf:params:scim:api:messages:2.0:ListResponse" [PRFC7643Only] with
  | Some u => match URN_SCIM u with
              | Some s => Some (URN_MarshalJSON true u, IsSCIM u, Type_String (s_Type s), s_Name s, s_Other s)
              | None => None
              end
  | None => None
  end = Some (quote (B "urn:ietf:params:scim:api:messages:2.0:ListResponse"), true, B "api", B "messages", B "2.0:ListResponse").
Proof. vm_compute. reflexivity. Qed.

(* tools/removecomments/removecomments_test.go:8-40, white space as in the file *)
Example TestRemoveComments : removeComments (B "//line this should be deleted

This is a test file

it would contain go code

// and comments
    // and comments after spaces
		// and comments after tabs
//line but not this comment
    //line or this one after spaces
		//line or this one after tabs

and that is all
//line this should be deleted") = Ret (B "
This is a test file

it would contain go code

// and comments
    // and comments after spaces
		// and comments after tabs

and that is all
").
Proof. vm_compute. reflexivity. Qed.

(* tools/snake2camel/snake2camel_test.go *)
Example TestSnake2CamelNoReplace : snake2camel (B "const start int = 1") = Ret (B "const start int = 1").
Proof. vm_compute. reflexivity. Qed.

(* tools/snake2camel/snake2camel_test.go *)
Example TestSnake2CamelOneUnderscore : snake2camel (B "const en_urn int = 5
	const en_scim int = 44
	const en_fail int = 81
	const en_main int = 1") = Ret (B "const enUrn int = 5
	const enScim int = 44
	const enFail int = 81
	const enMain int = 1").
Proof. vm_compute. reflexivity. Qed.

(* tools/snake2camel/snake2camel_test.go *)
Example TestSnake2CamelMoreUnderscores : snake2camel (B "if (m.p) == (m.pe) {
		goto _test_eof
	}
	switch m.cs {
	case 1:
		goto st_case_1
	}") = Ret (B "if (m.p) == (m.pe) {
		goto _testEof
	}
	switch m.cs {
	case 1:
		goto stCase1
	}").
Proof. vm_compute. reflexivity. Qed.
