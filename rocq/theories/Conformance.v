(* GENERATED by gen/gen_conformance.py from /repo/tables_test.go -- do not edit.
   Each entry is the expectation of one unit test of the repository, evaluated on the
   model.  These are tests tying the model to the code's own expectations, not proofs. *)
From Verif Require Import GoBase MachineSyntax MachineTables Machine Errors Urn.
Open Scope string_scope.

(* input, ok, prefix, ID, SS, r, q, f, String(), Normalize().String(), error text *)
Record tc := T { t_in : string; t_ok : bool; t_prefix : string; t_ID : string; t_SS : string;
  t_r : string; t_q : string; t_f : string; t_str : string; t_norm : string; t_err : string }.

Definition eqs (b : bytes) (s : string) : bool := bytes_eqb b (B s).

Definition check (mode : Z) (t : tc) : bool :=
  match machine_Parse (NewMachine [mode]) (B (t_in t)) with
  | Ret (m, Some u, None) =>
      t_ok t && eqs (u_prefix u) (t_prefix t) && eqs (u_ID u) (t_ID t) && eqs (u_SS u) (t_SS t)
      && eqs (u_r u) (t_r t) && eqs (u_q u) (t_q t) && eqs (u_f u) (t_f t)
      && eqs (URN_String u) (t_str t)
      && eqs (URN_String (Normalize (fun s => s) u)) (t_norm t)
      && bytes_eqb (m_data m) (B (t_in t))
  | Ret (m, None, Some e) => negb (t_ok t) && String.eqb (perr_Error e) (t_err t)
      && bytes_eqb (m_data m) (B (t_in t))
  | _ => false
  end.

(* tables_test.go: urnlexTestCases (7 cases) *)
Definition urnlexTestCases : list tc := [
  (* 34 *) T "urn:lex:it:stato:legge:2003-09-21;456" true "urn" "lex" "it:stato:legge:2003-09-21;456" "" "" "" "urn:lex:it:stato:legge:2003-09-21;456" "urn:lex:it:stato:legge:2003-09-21;456" "";
  (* 48 *) T "urn:lex:fr:etat:lois:2004-12-06;321" true "urn" "lex" "fr:etat:lois:2004-12-06;321" "" "" "" "urn:lex:fr:etat:lois:2004-12-06;321" "urn:lex:fr:etat:lois:2004-12-06;321" "";
  (* 62 *) T "urn:lex:es:estado:ley:2002-07-12;123" true "urn" "lex" "es:estado:ley:2002-07-12;123" "" "" "" "urn:lex:es:estado:ley:2002-07-12;123" "urn:lex:es:estado:ley:2002-07-12;123" "";
  (* 76 *) T "urn:lex:ch;glarus:regiere:erlass:2007-10-15;963" true "urn" "lex" "ch;glarus:regiere:erlass:2007-10-15;963" "" "" "" "urn:lex:ch;glarus:regiere:erlass:2007-10-15;963" "urn:lex:ch;glarus:regiere:erlass:2007-10-15;963" "";
  (* 90 *) T "urn:lex:eu:council:directive:2010-03-09;2010-19-UE" true "urn" "lex" "eu:council:directive:2010-03-09;2010-19-UE" "" "" "" "urn:lex:eu:council:directive:2010-03-09;2010-19-UE" "urn:lex:eu:council:directive:2010-03-09;2010-19-UE" "";
  (* 103 *) T "urn:lex:eu:council:directive:2010-03-09;2010-19-UE" true "urn" "lex" "eu:council:directive:2010-03-09;2010-19-UE" "" "" "" "urn:lex:eu:council:directive:2010-03-09;2010-19-UE" "urn:lex:eu:council:directive:2010-03-09;2010-19-UE" "";
  (* 117 *) T "urn:lex:us:federal.supreme.court:decision:1963-03-18;372.us.335" true "urn" "lex" "us:federal.supreme.court:decision:1963-03-18;372.us.335" "" "" "" "urn:lex:us:federal.supreme.court:decision:1963-03-18;372.us.335" "urn:lex:us:federal.supreme.court:decision:1963-03-18;372.us.335" ""].

Example urnlexTestCases_conform : forallb (check PRFC2141Only) urnlexTestCases = true.
Proof. vm_compute. reflexivity. Qed.

(* tables_test.go: scimOnlyTestCases (27 cases) *)
Definition scimOnlyTestCases : list tc := [
  (* 134 *) T "urn:ietf:params:scim:schemas:core:2.0:User" true "urn" "ietf:params:scim" "schemas:core:2.0:User" "" "" "" "urn:ietf:params:scim:schemas:core:2.0:User" "urn:ietf:params:scim:schemas:core:2.0:User" "";
  (* 147 *) T "urn:ietf:params:scim:schemas:extension:enterprise:2.0:User" true "urn" "ietf:params:scim" "schemas:extension:enterprise:2.0:User" "" "" "" "urn:ietf:params:scim:schemas:extension:enterprise:2.0:User" "urn:ietf:params:scim:schemas:extension:enterprise:2.0:User" "";
  (* 160 *) T "urn:ietf:params:scim:schemas:extension:enterprise:2.0:User:userName" true "urn" "ietf:params:scim" "schemas:extension:enterprise:2.0:User:userName" "" "" "" "urn:ietf:params:scim:schemas:extension:enterprise:2.0:User:userName" "urn:ietf:params:scim:schemas:extension:enterprise:2.0:User:userName" "";
  (* 173 *) T "urn:ietf:params:scim:api:messages:2.0:ListResponse" true "urn" "ietf:params:scim" "api:messages:2.0:ListResponse" "" "" "" "urn:ietf:params:scim:api:messages:2.0:ListResponse" "urn:ietf:params:scim:api:messages:2.0:ListResponse" "";
  (* 186 *) T "urn:ietf:params:scim:schemas:core" true "urn" "ietf:params:scim" "schemas:core" "" "" "" "urn:ietf:params:scim:schemas:core" "urn:ietf:params:scim:schemas:core" "";
  (* 199 *) T "urn:ietf:params:scim:param:core" true "urn" "ietf:params:scim" "param:core" "" "" "" "urn:ietf:params:scim:param:core" "urn:ietf:params:scim:param:core" "";
  (* 212 *) T "urn:ietf:params:scim:api:messages:%FF" true "urn" "ietf:params:scim" "api:messages:%FF" "" "" "" "urn:ietf:params:scim:api:messages:%FF" "urn:ietf:params:scim:api:messages:%ff" "";
  (* 227 *) T "arn:ietf:params:scim:schemas:core" false "" "" "" "" "" "" "" "" (perr_Error (mkErr ErrPrefix 0));
  (* 236 *) T "usn:ietf:params:scim:schemas:core" false "" "" "" "" "" "" "" "" (perr_Error (mkErr ErrPrefix 1));
  (* 245 *) T "urm:ietf:params:scim:schemas:core" false "" "" "" "" "" "" "" "" (perr_Error (mkErr ErrPrefix 2));
  (* 254 *) T "urno:ietf:params:scim:schemas:core" false "" "" "" "" "" "" "" "" (perr_Error (mkErr ErrPrefix 3));
  (* 263 *) T "urno" false "" "" "" "" "" "" "" "" (perr_Error (mkErr ErrPrefix 3));
  (* 272 *) T "urn:WRONG:schemas:core" false "" "" "" "" "" "" "" "" (perr_Error (mkErr ErrSCIMNamespace 4));
  (* 281 *) T "urn:ietf:params:scim:WRONG:core" false "" "" "" "" "" "" "" "" (perr_Error (mkErr ErrSCIMType 21));
  (* 290 *) T "urn:ietf:params:scim:schemas:$" false "" "" "" "" "" "" "" "" (perr_Error (mkErr ErrSCIMName 29));
  (* 299 *) T "urn:ietf:params:scim:schemas:core-" false "" "" "" "" "" "" "" "" (perr_Error (mkErr ErrSCIMName 33));
  (* 308 *) T "urn:ietf:params:scim:schemas:core:" false "" "" "" "" "" "" "" "" (perr_Error (mkErr ErrSCIMOtherIncomplete 33));
  (* 317 *) T "urn:ietf:params:scim:schemas:core:2.&" false "" "" "" "" "" "" "" "" (perr_Error (mkErr ErrSCIMOther 36));
  (* 326 *) T "urn:ietf:params:scim:api:messages:%" false "" "" "" "" "" "" "" "" (perr_Error (mkErr ErrSCIMOtherIncomplete 34));
  (* 335 *) T "urn:ietf:params:scim:api:messages:%F" false "" "" "" "" "" "" "" "" (perr_Error (mkErr ErrSCIMOtherIncomplete 35));
  (* 354 *) T "urn:" false "" "" "" "" "" "" "" "" (perr_Error (mkErr ErrSCIMNamespace 4));
  (* 363 *) T "urn::" false "" "" "" "" "" "" "" "" (perr_Error (mkErr ErrSCIMNamespace 4));
  (* 372 *) T "urn:a:" false "" "" "" "" "" "" "" "" (perr_Error (mkErr ErrSCIMNamespace 4));
  (* 381 *) T "urn:a" false "" "" "" "" "" "" "" "" (perr_Error (mkErr ErrSCIMNamespace 4));
  (* 390 *) T "u" false "" "" "" "" "" "" "" "" (perr_Error (mkErr ErrPrefix 1));
  (* 399 *) T "ur" false "" "" "" "" "" "" "" "" (perr_Error (mkErr ErrPrefix 2));
  (* 408 *) T "urn" false "" "" "" "" "" "" "" "" (perr_Error (mkErr ErrPrefix 3))].

Example scimOnlyTestCases_conform : forallb (check PRFC7643Only) scimOnlyTestCases = true.
Proof. vm_compute. reflexivity. Qed.

(* tables_test.go: urn2141OnlyTestCases (92 cases) *)
Definition urn2141OnlyTestCases : list tc := [
  (* 421 *) T "urn:simple:simple" true "urn" "simple" "simple" "" "" "" "urn:simple:simple" "urn:simple:simple" "";
  (* 434 *) T "urn:ciao:%5D" true "urn" "ciao" "%5D" "" "" "" "urn:ciao:%5D" "urn:ciao:%5d" "";
  (* 449 *) T "URN:foo:a123,456" true "URN" "foo" "a123,456" "" "" "" "URN:foo:a123,456" "urn:foo:a123,456" "";
  (* 462 *) T "urn:foo:a123,456" true "urn" "foo" "a123,456" "" "" "" "urn:foo:a123,456" "urn:foo:a123,456" "";
  (* 475 *) T "urn:FOO:a123,456" true "urn" "FOO" "a123,456" "" "" "" "urn:FOO:a123,456" "urn:foo:a123,456" "";
  (* 488 *) T "urn:foo:A123,456" true "urn" "foo" "A123,456" "" "" "" "urn:foo:A123,456" "urn:foo:A123,456" "";
  (* 501 *) T "urn:foo:a123%2C456" true "urn" "foo" "a123%2C456" "" "" "" "urn:foo:a123%2C456" "urn:foo:a123%2c456" "";
  (* 514 *) T "URN:FOO:a123%2c456" true "URN" "FOO" "a123%2c456" "" "" "" "URN:FOO:a123%2c456" "urn:foo:a123%2c456" "";
  (* 527 *) T "URN:FOO:ABC%FFabc123%2c456" true "URN" "FOO" "ABC%FFabc123%2c456" "" "" "" "URN:FOO:ABC%FFabc123%2c456" "urn:foo:ABC%ffabc123%2c456" "";
  (* 540 *) T "URN:FOO:ABC%FFabc123%2C456%9A" true "URN" "FOO" "ABC%FFabc123%2C456%9A" "" "" "" "URN:FOO:ABC%FFabc123%2C456%9A" "urn:foo:ABC%ffabc123%2c456%9a" "";
  (* 555 *) T "urn:ietf:params:scim:schemas:core:2.0:User" true "urn" "ietf" "params:scim:schemas:core:2.0:User" "" "" "" "urn:ietf:params:scim:schemas:core:2.0:User" "urn:ietf:params:scim:schemas:core:2.0:User" "";
  (* 568 *) T "urn:ietf:params:scim:schemas:extension:enterprise:2.0:User" true "urn" "ietf" "params:scim:schemas:extension:enterprise:2.0:User" "" "" "" "urn:ietf:params:scim:schemas:extension:enterprise:2.0:User" "urn:ietf:params:scim:schemas:extension:enterprise:2.0:User" "";
  (* 581 *) T "urn:ietf:params:scim:schemas:extension:enterprise:2.0:User:userName" true "urn" "ietf" "params:scim:schemas:extension:enterprise:2.0:User:userName" "" "" "" "urn:ietf:params:scim:schemas:extension:enterprise:2.0:User:userName" "urn:ietf:params:scim:schemas:extension:enterprise:2.0:User:userName" "";
  (* 594 *) T "urn:ietf:params:scim:schemas:extension:enterprise:2.0:User:meta.lastModified" true "urn" "ietf" "params:scim:schemas:extension:enterprise:2.0:User:meta.lastModified" "" "" "" "urn:ietf:params:scim:schemas:extension:enterprise:2.0:User:meta.lastModified" "urn:ietf:params:scim:schemas:extension:enterprise:2.0:User:meta.lastModified" "";
  (* 609 *) T "urn:a:b" true "urn" "a" "b" "" "" "" "urn:a:b" "urn:a:b" "";
  (* 622 *) T "urn:a::" true "urn" "a" ":" "" "" "" "urn:a::" "urn:a::" "";
  (* 635 *) T "urn:a:-" true "urn" "a" "-" "" "" "" "urn:a:-" "urn:a:-" "";
  (* 650 *) T "URN:simple:simple" true "URN" "simple" "simple" "" "" "" "URN:simple:simple" "urn:simple:simple" "";
  (* 663 *) T "Urn:simple:simple" true "Urn" "simple" "simple" "" "" "" "Urn:simple:simple" "urn:simple:simple" "";
  (* 678 *) T "urn:urna:simple" true "urn" "urna" "simple" "" "" "" "urn:urna:simple" "urn:urna:simple" "";
  (* 691 *) T "urn:burnout:nss" true "urn" "burnout" "nss" "" "" "" "urn:burnout:nss" "urn:burnout:nss" "";
  (* 704 *) T "urn:burn:nss" true "urn" "burn" "nss" "" "" "" "urn:burn:nss" "urn:burn:nss" "";
  (* 717 *) T "urn:urnurnurn:x" true "urn" "urnurnurn" "x" "" "" "" "urn:urnurnurn:x" "urn:urnurnurn:x" "";
  (* 732 *) T "urn:abcdefghilmnopqrstuvzabcdefghilm:x" true "urn" "abcdefghilmnopqrstuvzabcdefghilm" "x" "" "" "" "urn:abcdefghilmnopqrstuvzabcdefghilm:x" "urn:abcdefghilmnopqrstuvzabcdefghilm:x" "";
  (* 747 *) T "URN:123:x" true "URN" "123" "x" "" "" "" "URN:123:x" "urn:123:x" "";
  (* 760 *) T "URN:1ab:x" true "URN" "1ab" "x" "" "" "" "URN:1ab:x" "urn:1ab:x" "";
  (* 773 *) T "URN:a1b:x" true "URN" "a1b" "x" "" "" "" "URN:a1b:x" "urn:a1b:x" "";
  (* 786 *) T "URN:a12:x" true "URN" "a12" "x" "" "" "" "URN:a12:x" "urn:a12:x" "";
  (* 799 *) T "URN:cd2:x" true "URN" "cd2" "x" "" "" "" "URN:cd2:x" "urn:cd2:x" "";
  (* 814 *) T "URN:abcd-:x" true "URN" "abcd-" "x" "" "" "" "URN:abcd-:x" "urn:abcd-:x" "";
  (* 827 *) T "URN:abcd-abcd:x" true "URN" "abcd-abcd" "x" "" "" "" "URN:abcd-abcd:x" "urn:abcd-abcd:x" "";
  (* 840 *) T "URN:a123-456z:x" true "URN" "a123-456z" "x" "" "" "" "URN:a123-456z:x" "urn:a123-456z:x" "";
  (* 855 *) T "urn:urnx:urn" true "urn" "urnx" "urn" "" "" "" "urn:urnx:urn" "urn:urnx:urn" "";
  (* 868 *) T "urn:urnurnurn:urn" true "urn" "urnurnurn" "urn" "" "" "" "urn:urnurnurn:urn" "urn:urnurnurn:urn" "";
  (* 881 *) T "urn:hey:urnurnurn" true "urn" "hey" "urnurnurn" "" "" "" "urn:hey:urnurnurn" "urn:hey:urnurnurn" "";
  (* 896 *) T "urn:ciao:a:b:c" true "urn" "ciao" "a:b:c" "" "" "" "urn:ciao:a:b:c" "urn:ciao:a:b:c" "";
  (* 909 *) T "urn:aaa:x:y:" true "urn" "aaa" "x:y:" "" "" "" "urn:aaa:x:y:" "urn:aaa:x:y:" "";
  (* 922 *) T "urn:aaa:x:y:" true "urn" "aaa" "x:y:" "" "" "" "urn:aaa:x:y:" "urn:aaa:x:y:" "";
  (* 937 *) T "urn:ciao:-" true "urn" "ciao" "-" "" "" "" "urn:ciao:-" "urn:ciao:-" "";
  (* 950 *) T "urn:ciao:(" true "urn" "ciao" "(" "" "" "" "urn:ciao:(" "urn:ciao:(" "";
  (* 963 *) T "urn:ciao:)" true "urn" "ciao" ")" "" "" "" "urn:ciao:)" "urn:ciao:)" "";
  (* 976 *) T "urn:ciao:+" true "urn" "ciao" "+" "" "" "" "urn:ciao:+" "urn:ciao:+" "";
  (* 989 *) T "urn:ciao::" true "urn" "ciao" ":" "" "" "" "urn:ciao::" "urn:ciao::" "";
  (* 1002 *) T "urn:colon:::::nss" true "urn" "colon" "::::nss" "" "" "" "urn:colon:::::nss" "urn:colon:::::nss" "";
  (* 1015 *) T "urn:ciao:!" true "urn" "ciao" "!" "" "" "" "urn:ciao:!" "urn:ciao:!" "";
  (* 1028 *) T "urn:ciao:!!*" true "urn" "ciao" "!!*" "" "" "" "urn:ciao:!!*" "urn:ciao:!!*" "";
  (* 1041 *) T "urn:ciao:-!:-,:x" true "urn" "ciao" "-!:-,:x" "" "" "" "urn:ciao:-!:-,:x" "urn:ciao:-!:-,:x" "";
  (* 1054 *) T "urn:ciao:=@" true "urn" "ciao" "=@" "" "" "" "urn:ciao:=@" "urn:ciao:=@" "";
  (* 1067 *) T "urn:ciao:@!=%2C(xyz)+a,b.*@g=$_'" true "urn" "ciao" "@!=%2C(xyz)+a,b.*@g=$_'" "" "" "" "urn:ciao:@!=%2C(xyz)+a,b.*@g=$_'" "urn:ciao:@!=%2c(xyz)+a,b.*@g=$_'" "";
  (* 1082 *) T "URN:hexes:%25" true "URN" "hexes" "%25" "" "" "" "URN:hexes:%25" "urn:hexes:%25" "";
  (* 1095 *) T "URN:x:abc%1Dz%2F%3az" true "URN" "x" "abc%1Dz%2F%3az" "" "" "" "URN:x:abc%1Dz%2F%3az" "urn:x:abc%1dz%2f%3az" "";
  (* 1110 *) T "URN:-xxx:x" false "" "" "" "" "" "" "" "" "expecting the identifier to be string (1..31 alnum chars, also containing dashes but not at its beginning) [col 4]";
  (* 1119 *) T "URN:---xxx:x" false "" "" "" "" "" "" "" "" "expecting the identifier to be string (1..31 alnum chars, also containing dashes but not at its beginning) [col 4]";
  (* 1130 *) T "urn::colon:nss" false "" "" "" "" "" "" "" "" "expecting the identifier to be string (1..31 alnum chars, also containing dashes but not at its beginning) [col 4]";
  (* 1139 *) T "urn::::nss" false "" "" "" "" "" "" "" "" "expecting the identifier to be string (1..31 alnum chars, also containing dashes but not at its beginning) [col 4]";
  (* 1150 *) T "urn:abcdefghilmnopqrstuvzabcdefghilmn:specificstring" false "" "" "" "" "" "" "" "" "expecting the identifier to be string (1..31 alnum chars, also containing dashes but not at its beginning) [col 36]";
  (* 1161 *) T "URN:a!?:x" false "" "" "" "" "" "" "" "" "expecting the identifier to be string (1..31 alnum chars, also containing dashes but not at its beginning) [col 5]";
  (* 1170 *) T "URN:@,:x" false "" "" "" "" "" "" "" "" "expecting the identifier to be string (1..31 alnum chars, also containing dashes but not at its beginning) [col 4]";
  (* 1179 *) T "URN:#,:x" false "" "" "" "" "" "" "" "" "expecting the identifier to be string (1..31 alnum chars, also containing dashes but not at its beginning) [col 4]";
  (* 1188 *) T "URN:bc'.@:x" false "" "" "" "" "" "" "" "" "expecting the identifier to be string (1..31 alnum chars, also containing dashes but not at its beginning) [col 6]";
  (* 1199 *) T "urn:urn:NSS" false "" "" "" "" "" "" "" "" "expecting the identifier to not contain the ""urn"" reserved string [col 7]";
  (* 1208 *) T "urn:URN:NSS" false "" "" "" "" "" "" "" "" "expecting the identifier to not contain the ""urn"" reserved string [col 7]";
  (* 1217 *) T "URN:URN:NSS" false "" "" "" "" "" "" "" "" "expecting the identifier to not contain the ""urn"" reserved string [col 7]";
  (* 1226 *) T "urn:UrN:NSS" false "" "" "" "" "" "" "" "" "expecting the identifier to not contain the ""urn"" reserved string [col 7]";
  (* 1235 *) T "urn:Urn:NSS" false "" "" "" "" "" "" "" "" "expecting the identifier to not contain the ""urn"" reserved string [col 7]";
  (* 1246 *) T "urn:white space:NSS" false "" "" "" "" "" "" "" "" "expecting the identifier to be string (1..31 alnum chars, also containing dashes but not at its beginning) [col 9]";
  (* 1257 *) T "urn:concat:no spaces" false "" "" "" "" "" "" "" "" "expecting the specific string to be a string containing alnum, hex, or others ([()+,-.:=@;$_!*']) chars [col 13]";
  (* 1268 *) T "urn:a:%" false "" "" "" "" "" "" "" "" (perr_Error (mkErr ErrHex 7));
  (* 1277 *) T "urn:a:%A" false "" "" "" "" "" "" "" "" (perr_Error (mkErr ErrHex 8));
  (* 1286 *) T "urn:a:?" false "" "" "" "" "" "" "" "" "expecting the specific string to be a string containing alnum, hex, or others ([()+,-.:=@;$_!*']) chars [col 6]";
  (* 1295 *) T "urn:a:#" false "" "" "" "" "" "" "" "" "expecting the specific string to be a string containing alnum, hex, or others ([()+,-.:=@;$_!*']) chars [col 6]";
  (* 1304 *) T "urn:a:/" false "" "" "" "" "" "" "" "" "expecting the specific string to be a string containing alnum, hex, or others ([()+,-.:=@;$_!*']) chars [col 6]";
  (* 1313 *) T "urn:ietf:params:scim:api:messages:%" false "" "" "" "" "" "" "" "" (perr_Error (mkErr ErrHex 35));
  (* 1322 *) T "urn:ietf:params:scim:api:messages:%F" false "" "" "" "" "" "" "" "" (perr_Error (mkErr ErrHex 36));
  (* 1331 *) T "arn:ietf:params:scim:schemas:core" false "" "" "" "" "" "" "" "" (perr_Error (mkErr ErrPrefix 0));
  (* 1340 *) T "usn:ietf:params:scim:schemas:core" false "" "" "" "" "" "" "" "" (perr_Error (mkErr ErrPrefix 1));
  (* 1349 *) T "urm:ietf:params:scim:schemas:core" false "" "" "" "" "" "" "" "" (perr_Error (mkErr ErrPrefix 2));
  (* 1358 *) T "urno:ietf:params:scim:schemas:core" false "" "" "" "" "" "" "" "" (perr_Error (mkErr ErrPrefix 3));
  (* 1367 *) T "urno" false "" "" "" "" "" "" "" "" (perr_Error (mkErr ErrPrefix 3));
  (* 1376 *) T "URN:a!?:x" false "" "" "" "" "" "" "" "" "expecting the identifier to be string (1..31 alnum chars, also containing dashes but not at its beginning) [col 5]";
  (* 1385 *) T "urn:Urn:NSS" false "" "" "" "" "" "" "" "" "expecting the identifier to not contain the ""urn"" reserved string [col 7]";
  (* 1394 *) T "urn:spazio bianco:NSS" false "" "" "" "" "" "" "" "" "expecting the identifier to be string (1..31 alnum chars, also containing dashes but not at its beginning) [col 10]";
  (* 1403 *) T "urn:conca:z ws" false "" "" "" "" "" "" "" "" (perr_Error (mkErr ErrSpecificString 11));
  (* 1412 *) T "urn:ietf:params:scim:schemas:core:2.&" false "" "" "" "" "" "" "" "" (perr_Error (mkErr ErrSpecificString 36));
  (* 1423 *) T "urn:" false "" "" "" "" "" "" "" "" "expecting the identifier to be string (1..31 alnum chars, also containing dashes but not at its beginning) [col 4]";
  (* 1432 *) T "urn::" false "" "" "" "" "" "" "" "" "expecting the identifier to be string (1..31 alnum chars, also containing dashes but not at its beginning) [col 4]";
  (* 1441 *) T "urn:a:" false "" "" "" "" "" "" "" "" "expecting the specific string to be a string containing alnum, hex, or others ([()+,-.:=@;$_!*']) chars [col 6]";
  (* 1450 *) T "urn:a" false "" "" "" "" "" "" "" "" (perr_Error (mkErr ErrIdentifier 5));
  (* 1460 *) T "u" false "" "" "" "" "" "" "" "" (perr_Error (mkErr ErrPrefix 1));
  (* 1469 *) T "ur" false "" "" "" "" "" "" "" "" (perr_Error (mkErr ErrPrefix 2));
  (* 1478 *) T "urn" false "" "" "" "" "" "" "" "" (perr_Error (mkErr ErrPrefix 3));
  (* 1489 *) T "" false "" "" "" "" "" "" "" "" (perr_Error (mkErr ErrPrefix 0))].

Example urn2141OnlyTestCases_conform : forallb (check PRFC2141Only) urn2141OnlyTestCases = true.
Proof. vm_compute. reflexivity. Qed.

(* tables_test.go: rfc8141TestCases (75 cases) *)
Definition rfc8141TestCases : list tc := [
  (* 1502 *) T "urn:lex:it:ministero.giustizia:decreto:1992-07-24;358~art5" true "urn" "lex" "it:ministero.giustizia:decreto:1992-07-24;358~art5" "" "" "" "urn:lex:it:ministero.giustizia:decreto:1992-07-24;358~art5" "urn:lex:it:ministero.giustizia:decreto:1992-07-24;358~art5" "";
  (* 1515 *) T "urn:nid:nss/" true "urn" "nid" "nss/" "" "" "" "urn:nid:nss/" "urn:nid:nss/" "";
  (* 1528 *) T "urn:nid:nss&" true "urn" "nid" "nss&" "" "" "" "urn:nid:nss&" "urn:nid:nss&" "";
  (* 1541 *) T "urn:example:1/406/47452/2" true "urn" "example" "1/406/47452/2" "" "" "" "urn:example:1/406/47452/2" "urn:example:1/406/47452/2" "";
  (* 1554 *) T "urn:example:foo-bar-baz-qux?+CCResolve:cc=uk" true "urn" "example" "foo-bar-baz-qux" "CCResolve:cc=uk" "" "" "urn:example:foo-bar-baz-qux?+CCResolve:cc=uk" "urn:example:foo-bar-baz-qux" "";
  (* 1568 *) T "urn:example:foo-bar-baz-qux?+&" true "urn" "example" "foo-bar-baz-qux" "&" "" "" "urn:example:foo-bar-baz-qux?+&" "urn:example:foo-bar-baz-qux" "";
  (* 1582 *) T "urn:example:foo-bar-baz-qux?+~" true "urn" "example" "foo-bar-baz-qux" "~" "" "" "urn:example:foo-bar-baz-qux?+~" "urn:example:foo-bar-baz-qux" "";
  (* 1596 *) T "urn:example:foo-bar-baz-qux?+%16CCResolve:cc=uk" true "urn" "example" "foo-bar-baz-qux" "%16CCResolve:cc=uk" "" "" "urn:example:foo-bar-baz-qux?+%16CCResolve:cc=uk" "urn:example:foo-bar-baz-qux" "";
  (* 1610 *) T "urn:example:foo-bar-baz-qut?+~&%FF()+,-.:=@;$_!/?Alnum123456" true "urn" "example" "foo-bar-baz-qut" "~&%FF()+,-.:=@;$_!/?Alnum123456" "" "" "urn:example:foo-bar-baz-qut?+~&%FF()+,-.:=@;$_!/?Alnum123456" "urn:example:foo-bar-baz-qut" "";
  (* 1624 *) T "urn:example:weather?=op=map&lat=39.56&lon=-104.85&datetime=1969-07-21T02:56:15Z" true "urn" "example" "weather" "" "op=map&lat=39.56&lon=-104.85&datetime=1969-07-21T02:56:15Z" "" "urn:example:weather?=op=map&lat=39.56&lon=-104.85&datetime=1969-07-21T02:56:15Z" "urn:example:weather" "";
  (* 1638 *) T "urn:esempio:climate?=alnum~&%FF()+,-.:=@;$_!/?123456" true "urn" "esempio" "climate" "" "alnum~&%FF()+,-.:=@;$_!/?123456" "" "urn:esempio:climate?=alnum~&%FF()+,-.:=@;$_!/?123456" "urn:esempio:climate" "";
  (* 1652 *) T "urn:esempio:climate?=&&" true "urn" "esempio" "climate" "" "&&" "" "urn:esempio:climate?=&&" "urn:esempio:climate" "";
  (* 1666 *) T "urn:esempio:climate?=%A1alnum~&%FF()+,-.:=@;$_!/?123456" true "urn" "esempio" "climate" "" "%A1alnum~&%FF()+,-.:=@;$_!/?123456" "" "urn:esempio:climate?=%A1alnum~&%FF()+,-.:=@;$_!/?123456" "urn:esempio:climate" "";
  (* 1680 *) T "urn:example:foo-bar-baz-qux#somepart" true "urn" "example" "foo-bar-baz-qux" "" "" "somepart" "urn:example:foo-bar-baz-qux#somepart" "urn:example:foo-bar-baz-qux" "";
  (* 1694 *) T "urn:example:foo-bar-baz-qux#~&" true "urn" "example" "foo-bar-baz-qux" "" "" "~&" "urn:example:foo-bar-baz-qux#~&" "urn:example:foo-bar-baz-qux" "";
  (* 1708 *) T "urn:example:foo-bar-baz-qux#alnum~&%FF()+,-.:=@;$_!/?123456" true "urn" "example" "foo-bar-baz-qux" "" "" "alnum~&%FF()+,-.:=@;$_!/?123456" "urn:example:foo-bar-baz-qux#alnum~&%FF()+,-.:=@;$_!/?123456" "urn:example:foo-bar-baz-qux" "";
  (* 1722 *) T "urn:example:foo-bar-baz-qux#%D0alnum~&%FF()+,-.:=@;$_!/?123456" true "urn" "example" "foo-bar-baz-qux" "" "" "%D0alnum~&%FF()+,-.:=@;$_!/?123456" "urn:example:foo-bar-baz-qux#%D0alnum~&%FF()+,-.:=@;$_!/?123456" "urn:example:foo-bar-baz-qux" "";
  (* 1736 *) T "urn:example:CamelCase1/406/47452/2?+Cc=it&prefix=39?=lat=41.22255&long=16.06596#frag" true "urn" "example" "CamelCase1/406/47452/2" "Cc=it&prefix=39" "lat=41.22255&long=16.06596" "frag" "urn:example:CamelCase1/406/47452/2?+Cc=it&prefix=39?=lat=41.22255&long=16.06596#frag" "urn:example:CamelCase1/406/47452/2" "";
  (* 1752 *) T "urn:example:CamelCase1/406/47452/2?=lat=41.22255&long=16.06596#frag" true "urn" "example" "CamelCase1/406/47452/2" "" "lat=41.22255&long=16.06596" "frag" "urn:example:CamelCase1/406/47452/2?=lat=41.22255&long=16.06596#frag" "urn:example:CamelCase1/406/47452/2" "";
  (* 1767 *) T "urn:example:CamelCase1/406/47452/2?=lat=41.22255&long=16.06596#frag?some/slash/~%D0" true "urn" "example" "CamelCase1/406/47452/2" "" "lat=41.22255&long=16.06596" "frag?some/slash/~%D0" "urn:example:CamelCase1/406/47452/2?=lat=41.22255&long=16.06596#frag?some/slash/~%D0" "urn:example:CamelCase1/406/47452/2" "";
  (* 1782 *) T "urn:example:CamelCase1/406/47452/2?+Cc=it&prefix=39?=lat=41.22255&long=16.06596" true "urn" "example" "CamelCase1/406/47452/2" "Cc=it&prefix=39" "lat=41.22255&long=16.06596" "" "urn:example:CamelCase1/406/47452/2?+Cc=it&prefix=39?=lat=41.22255&long=16.06596" "urn:example:CamelCase1/406/47452/2" "";
  (* 1797 *) T "urn:TESTt3st:&/987/QWERTYUIOP/0#" true "urn" "TESTt3st" "&/987/QWERTYUIOP/0" "" "" "" "urn:TESTt3st:&/987/QWERTYUIOP/0" "urn:testt3st:&/987/QWERTYUIOP/0" "";
  (* 1811 *) T "urn:example:%D0%B0123,z456" true "urn" "example" "%D0%B0123,z456" "" "" "" "urn:example:%D0%B0123,z456" "urn:example:%d0%b0123,z456" "";
  (* 1824 *) T "urn:example:apple:pear:plum:cherry" true "urn" "example" "apple:pear:plum:cherry" "" "" "" "urn:example:apple:pear:plum:cherry" "urn:example:apple:pear:plum:cherry" "";
  (* 1837 *) T "urn:z------------------------------a:q" true "urn" "z------------------------------a" "q" "" "" "" "urn:z------------------------------a:q" "urn:z------------------------------a:q" "";
  (* 1850 *) T "urn:10:2" true "urn" "10" "2" "" "" "" "urn:10:2" "urn:10:2" "";
  (* 1863 *) T "urn:a1l2n3m4-56789aeiou:2" true "urn" "a1l2n3m4-56789aeiou" "2" "" "" "" "urn:a1l2n3m4-56789aeiou:2" "urn:a1l2n3m4-56789aeiou:2" "";
  (* 1876 *) T "urn:a1l2n3m4-56789aeiou:2%D0%B0" true "urn" "a1l2n3m4-56789aeiou" "2%D0%B0" "" "" "" "urn:a1l2n3m4-56789aeiou:2%D0%B0" "urn:a1l2n3m4-56789aeiou:2%d0%b0" "";
  (* 1889 *) T "urn:amp:&" true "urn" "amp" "&" "" "" "" "urn:amp:&" "urn:amp:&" "";
  (* 1902 *) T "urn:tilde:~~~" true "urn" "tilde" "~~~" "" "" "" "urn:tilde:~~~" "urn:tilde:~~~" "";
  (* 1915 *) T "urn:signs:()+,-.:=@;$_!*alnum123456789" true "urn" "signs" "()+,-.:=@;$_!*alnum123456789" "" "" "" "urn:signs:()+,-.:=@;$_!*alnum123456789" "urn:signs:()+,-.:=@;$_!*alnum123456789" "";
  (* 1928 *) T "URN:signs:()+,-.:=@;$_!*alnum123456789" true "URN" "signs" "()+,-.:=@;$_!*alnum123456789" "" "" "" "URN:signs:()+,-.:=@;$_!*alnum123456789" "urn:signs:()+,-.:=@;$_!*alnum123456789" "";
  (* 1941 *) T "urn:urn-7:informal" true "urn" "urn-7" "informal" "" "" "" "urn:urn-7:informal" "urn:urn-7:informal" "";
  (* 1954 *) T "urn:ex:ex?+a?" true "urn" "ex" "ex" "a?" "" "" "urn:ex:ex?+a?" "urn:ex:ex" "";
  (* 1970 *) T "urn:urn-0:nss" false "" "" "" "" "" "" "" "" (perr_Error (mkErr Err8141InformalID 7));
  (* 1979 *) T "urn:urn-s:nss" false "" "" "" "" "" "" "" "" (perr_Error (mkErr Err8141InformalID 7));
  (* 1988 *) T "urn:example:а123,z456" false "" "" "" "" "" "" "" "" (perr_Error (mkErr Err8141SpecificString 12));
  (* 1997 *) T "URN:-leading:w" false "" "" "" "" "" "" "" "" (perr_Error (mkErr Err8141Identifier 4));
  (* 2006 *) T "URN:trailing-:w" false "" "" "" "" "" "" "" "" (perr_Error (mkErr Err8141Identifier 13));
  (* 2015 *) T "urn:a:nss" false "" "" "" "" "" "" "" "" (perr_Error (mkErr Err8141Identifier 5));
  (* 2024 *) T "urn:1:nss" false "" "" "" "" "" "" "" "" (perr_Error (mkErr Err8141Identifier 5));
  (* 2033 *) T "urn:yz-:nss" false "" "" "" "" "" "" "" "" (perr_Error (mkErr Err8141Identifier 7));
  (* 2042 *) T "urn:9x-:nss" false "" "" "" "" "" "" "" "" (perr_Error (mkErr Err8141Identifier 7));
  (* 2051 *) T "urn:X-:nss" false "" "" "" "" "" "" "" "" (perr_Error (mkErr Err8141Identifier 6));
  (* 2060 *) T "urn:xn--:nss" false "" "" "" "" "" "" "" "" (perr_Error (mkErr Err8141Identifier 8));
  (* 2069 *) T "urn:ss--:nss" false "" "" "" "" "" "" "" "" (perr_Error (mkErr Err8141Identifier 8));
  (* 2078 *) T "urn:1E--:nss" false "" "" "" "" "" "" "" "" (perr_Error (mkErr Err8141Identifier 8));
  (* 2087 *) T "urn:ex:ex?+a?+" false "" "" "" "" "" "" "" "" (perr_Error (mkErr Err8141RComponentStart 14));
  (* 2096 *) T "urn:ex:ex?+" false "" "" "" "" "" "" "" "" (perr_Error (mkErr Err8141MalformedRComp 11));
  (* 2105 *) T "urn:ex:ex?=a?=" false "" "" "" "" "" "" "" "" (perr_Error (mkErr Err8141QComponentStart 14));
  (* 2114 *) T "urn:example:CamelCase1/406/47452/2?=" false "" "" "" "" "" "" "" "" (perr_Error (mkErr Err8141MalformedQComp 36));
  (* 2123 *) T "urn:ex:ex?+rcomponent?+rcomponent?=qcomponent" false "" "" "" "" "" "" "" "" (perr_Error (mkErr Err8141RComponentStart 23));
  (* 2132 *) T "urn:ex:ex?+rcomponent?+rcomponent?=" false "" "" "" "" "" "" "" "" (perr_Error (mkErr Err8141RComponentStart 23));
  (* 2141 *) T "urn:ex:ex?+rcomponent?=qcomponent?=q" false "" "" "" "" "" "" "" "" (perr_Error (mkErr Err8141QComponentStart 35));
  (* 2150 *) T "urn:ex:ex?+?=q" false "" "" "" "" "" "" "" "" (perr_Error (mkErr Err8141MalformedRComp 12));
  (* 2159 *) T "urn:ex:ex?+/" false "" "" "" "" "" "" "" "" (perr_Error (mkErr Err8141MalformedRComp 11));
  (* 2168 *) T "urn:ex:ex?+?" false "" "" "" "" "" "" "" "" (perr_Error (mkErr Err8141MalformedRComp 12));
  (* 2177 *) T "urn:ex:ex?=/" false "" "" "" "" "" "" "" "" (perr_Error (mkErr Err8141MalformedQComp 11));
  (* 2186 *) T "urn:ex:ex?=?" false "" "" "" "" "" "" "" "" (perr_Error (mkErr Err8141MalformedQComp 12));
  (* 2195 *) T "urn:mm:/" false "" "" "" "" "" "" "" "" (perr_Error (mkErr Err8141SpecificString 7));
  (* 2204 *) T "urn:mm:?" false "" "" "" "" "" "" "" "" (perr_Error (mkErr Err8141SpecificString 7));
  (* 2213 *) T "urn:123456789-1234567890-abcdefghilmn:o" false "" "" "" "" "" "" "" "" (perr_Error (mkErr Err8141Identifier 36));
  (* 2222 *) T "urn:" false "" "" "" "" "" "" "" "" (perr_Error (mkErr Err8141Identifier 4));
  (* 2231 *) T "urn::" false "" "" "" "" "" "" "" "" (perr_Error (mkErr Err8141Identifier 4));
  (* 2240 *) T "urn:aa:" false "" "" "" "" "" "" "" "" (perr_Error (mkErr Err8141SpecificString 7));
  (* 2249 *) T "urn:a" false "" "" "" "" "" "" "" "" (perr_Error (mkErr Err8141Identifier 5));
  (* 2258 *) T "urn:ex:ex?=%" false "" "" "" "" "" "" "" "" (perr_Error (mkErr ErrHex 12));
  (* 2267 *) T "urn:ex:ex?+%" false "" "" "" "" "" "" "" "" (perr_Error (mkErr ErrHex 12));
  (* 2276 *) T "urn:ex:ex?=something#%" false "" "" "" "" "" "" "" "" (perr_Error (mkErr ErrHex 22));
  (* 2285 *) T "urn:example%:test" false "" "" "" "" "" "" "" "" (perr_Error (mkErr Err8141Identifier 11));
  (* 2294 *) T "urn:""" false "" "" "" "" "" "" "" "" (perr_Error (mkErr Err8141Identifier 4));
  (* 2303 *) T "urn:a1{}" false "" "" "" "" "" "" "" "" (perr_Error (mkErr Err8141Identifier 6));
  (* 2312 *) T "u" false "" "" "" "" "" "" "" "" (perr_Error (mkErr ErrPrefix 1));
  (* 2321 *) T "ur" false "" "" "" "" "" "" "" "" (perr_Error (mkErr ErrPrefix 2));
  (* 2330 *) T "urn" false "" "" "" "" "" "" "" "" (perr_Error (mkErr ErrPrefix 3))].

Example rfc8141TestCases_conform : forallb (check PRFC8141Only) rfc8141TestCases = true.
Proof. vm_compute. reflexivity. Qed.
