{"id": "C01", "title": "Parse never panics and always terminates", "statement": "For every machine obtained by NewMachine with any options and any later sequence of WithParsingMode and Parse calls, and for every byte slice, Parse returns: it never indexes or slices out of range, never dereferences a nil SCIM pointer, never writes out of range while lower-casing, and never loops forever.", "quantifier": "all byte slices, all option lists, all histories of WithParsingMode/Parse calls on the machine", "why_tests_cant": "The state graph has 194 states with gotos backwards (fhold / goto _again); tests visit a sample of paths and cannot exclude a panicking or looping input.", "anchors": ["machine.go: Parse, text, WithParsingMode", "machine.go.rl: set_nss, tolower, throw_pre_urn_err, fhold"]}
{"id": "C02", "title": "Parse does a linear amount of work", "statement": "The number of control-flow steps Parse executes is at most a fixed constant times (input length + 1), in every mode.", "quantifier": "all byte slices, all modes", "why_tests_cant": "Benchmarks measure chosen inputs; the fail state re-scans input, so linearity is a claim over all inputs.", "anchors": ["machine.go: Parse (_resume/_again/_testEof loop, state 193)"]}
{"id": "C03", "title": "Parse gives the input buffer back unchanged", "statement": "Although Parse temporarily lower-cases bytes inside the caller's slice, when it returns (successfully or with an error) the slice holds exactly the bytes it held before the call.", "quantifier": "all byte slices, all modes, success and failure", "why_tests_cant": "The in-place +32/-32 trick must cancel for every input and every error path; tests do not even compare the buffer.", "anchors": ["machine.go: f38 and eof actions 34,35,37,38", "machine.go.rl: action set_nss"]}
{"id": "C04", "title": "A machine can be reused: a Parse call does not depend on earlier ones", "statement": "The URN and the error returned by Parse on a machine depend only on the machine's parsing mode setting and on the input; earlier Parse calls, successful or failed, leave no trace. Error() returns exactly the error returned by the most recent Parse (nil before any).", "quantifier": "all sequences of Parse calls on one machine, all inputs", "why_tests_cant": "A history property: every previous input sequence is quantified over.", "anchors": ["machine.go: Parse (reset of data,p,pb,pe,eof,err,cs), Error"]}
{"id": "C05", "title": "RFC 2141 mode accepts exactly its documented language", "statement": "In the default (RFC2141Only) mode Parse succeeds exactly on prefix ':' NID ':' NSS where prefix is 'urn' in any case, NID is 1..32 alnum-or-dash characters not starting with a dash and not equal to 'urn' in any case, and NSS is a non-empty sequence of the RFC 2141 characters and percent escapes. (The code additionally rejects inputs whose NID starts with u/U and whose byte 7 is a colon; see the refutation and the exact characterisation.)", "quantifier": "all byte slices", "why_tests_cant": "Both directions (accept/reject) range over all inputs; a table of samples missed that urn:uci:x is rejected.", "anchors": ["machine.go: states 1-43, 172, 173, f1", "machine.go.rl: urn, nid, nss, throw_pre_urn_err"]}
{"id": "C06", "title": "RFC 2141 mode returns the right parts", "statement": "When Parse succeeds in RFC2141Only mode, ID and SS are the unique substrings between the first and second colon and after the second colon; the r-, q- and f-components are empty.", "quantifier": "all accepted byte slices", "why_tests_cant": "The field contents are claimed for every accepted input of every length.", "anchors": ["machine.go: f2,f4,f6, eof action 34", "urn.go: URN"]}
{"id": "C07", "title": "SCIM mode accepts exactly SCIM URNs", "statement": "In RFC7643Only mode Parse succeeds exactly on prefix(any case) ':ietf:params:scim:' type ':' name [':' other] with type one of schemas, api, param (lower case), name one or more alnum, other a non-empty sequence of RFC 2141 NSS characters or percent escapes.", "quantifier": "all byte slices", "why_tests_cant": "Acceptance and rejection for every input.", "anchors": ["machine.go: states 44-82, 174-176", "machine.go.rl: scim_only"]}
{"id": "C08", "title": "SCIM mode returns the right SCIM parts", "statement": "When Parse succeeds in RFC7643Only mode, SCIM() is non-nil, its Type, Name and Other are the parts of the text, ID is 'ietf:params:scim' and SS is the rest of the text; Other is empty exactly when the text has no other part.", "quantifier": "all accepted byte slices", "why_tests_cant": "Field contents for every accepted input.", "anchors": ["machine.go: f12,f14,f16,f18,f35, eof actions 35,37", "scim.go: SCIM"]}
{"id": "C09", "title": "RFC 8141 mode accepts exactly its language", "statement": "In RFC8141Only mode Parse yields a URN exactly on prefix ':' NID ':' NSS [ '?+' r [ '?=' q ] | '?=' q ] [ '#' f ] with NID 2..32 characters, alnum at both ends, not 'urn-' followed by a letter or 0; NSS, r, q non-empty pchar sequences with '/' (and '?' in r and q) not first; f any sequence of pchar, '/' and '?'; and r/q obeying the single-component rule.", "quantifier": "all byte slices", "why_tests_cant": "r/q components are resolved by an ambiguous grammar with run-time flags; only a proof over all inputs settles which strings are accepted.", "anchors": ["machine.go: states 83-171, 177-192, f22-f51", "machine.go.rl: rfc8141_only"]}
{"id": "C10", "title": "RFC 8141 mode returns the right parts", "statement": "When Parse yields a URN in RFC8141Only mode, ID, SS, RComponent(), QComponent() and FComponent() are the corresponding parts of the text, and that decomposition is unique.", "quantifier": "all accepted byte slices", "why_tests_cant": "Partial assignments of the r-component happen at every '?'; the final value must be right for every input.", "anchors": ["machine.go: f38,f42,f45,f48,f51, eof actions 38-50", "urn.go: RComponent, QComponent, FComponent"]}
{"id": "C11", "title": "A nil error (ok == true) means a usable URN", "statement": "Parse returns a nil error if and only if it returns a non-nil URN; equivalently urn.Parse returns ok == true only with a non-nil URN.", "quantifier": "all byte slices, all modes", "why_tests_cant": "For which inputs the FSM dies without setting an error is a question over all states and inputs; the tables never hit it (urn:ab:c?x, urn:ab:c#[ in RFC 8141 mode do).", "anchors": ["machine.go: tr183, states 125,178,179, eof action 0", "urn.go: Parse"]}
{"id": "C12", "title": "The URN reports the RFC it was parsed under", "statement": "For every accepted input RFC() is RFC2141, RFC7643 or RFC8141 according to the mode, IsSCIM() holds exactly in RFC7643Only mode and SCIM() is non-nil exactly then. Of any URN value whatever, SCIM() is non-nil only if RFC() is RFC7643. The result of Normalize(), of any value, reports no RFC, is no SCIM URN and has no components.", "quantifier": "all accepted byte slices, all modes", "why_tests_cant": "kind is only set by eof actions of some states; needs all final states.", "anchors": ["machine.go: eof actions", "urn.go: IsSCIM, SCIM, RFC"]}
{"id": "C13", "title": "String() of a parsed RFC 2141 or SCIM URN is the input", "statement": "For RFC2141Only and RFC7643Only, Parse(x) = u implies u.String() equals x byte for byte.", "quantifier": "all accepted byte slices", "why_tests_cant": "Round trip over all inputs.", "anchors": ["urn.go: String", "machine.go: Parse"]}
{"id": "C14", "title": "String() of a parsed RFC 8141 URN is the input", "statement": "For RFC8141Only, u.String() equals the input. (False: the prefix is overwritten when the NID starts with 'urn-', and an empty fragment's '#' is dropped; the exact output is characterised.)", "quantifier": "all accepted byte slices", "why_tests_cant": "Round trip over all inputs; the tests only use lower-case urn-7.", "anchors": ["urn.go: String", "machine.go: state 169, f2"]}
{"id": "C15", "title": "Re-parsing String() gives back the same URN", "statement": "For every mode, if Parse(x) = u then Parse(u.String()) in the same mode succeeds with the same ID, SS, normalised SS, kind, r/q/f components and SCIM parts.", "quantifier": "all accepted byte slices, all modes", "why_tests_cant": "Round trip over all inputs.", "anchors": ["urn.go: String", "machine.go: Parse"]}
{"id": "C16", "title": "Normalisation lower-cases exactly the percent escapes of the NSS", "statement": "The normalised SS has the same length as SS and differs from it exactly in that upper-case letters belonging to a percent escape are lower-cased; every other byte is untouched.", "quantifier": "all accepted byte slices, all modes", "why_tests_cant": "tolower positions are collected relative to a movable mark; must be right for all inputs.", "anchors": ["machine.go: f9, f38", "urn.go: Normalize"]}
{"id": "C17", "title": "The normal form is itself a valid, stable URN", "statement": "For every accepted input, Normalize().String() is accepted in the same mode, is lexically equal to the original, and normalising the re-parsed URN gives the same string.", "quantifier": "all accepted byte slices, all modes", "why_tests_cant": "Idempotence over all inputs.", "anchors": ["urn.go: Normalize, String"]}
{"id": "C18", "title": "Normalize is idempotent on URN values", "statement": "u.Normalize().Normalize() is the same URN as u.Normalize(), and u.Normalize() is Equal to u. (False of the code: Normalize drops the normalised SS, so the second Normalize has an empty SS.)", "quantifier": "all parsed URNs", "why_tests_cant": "Quantifies over all parsed URNs; no test calls Normalize twice.", "anchors": ["urn.go: Normalize, Equal"]}
{"id": "C19", "title": "Equal is an equivalence relation", "statement": "Equal is reflexive, symmetric and transitive on all URN values (parsed or hand-built), and Equal(nil) is false.", "quantifier": "all URN values", "why_tests_cant": "Transitivity over all triples.", "anchors": ["urn.go: Equal"]}
{"id": "C20", "title": "Equal decides RFC lexical equivalence", "statement": "For two parsed URNs, Equal holds exactly when their texts (without r/q/f components) become identical after lower-casing the prefix, the NID and the percent escapes, and nothing else.", "quantifier": "all pairs of accepted byte slices", "why_tests_cant": "Pairs of unbounded inputs.", "anchors": ["urn.go: Equal, Normalize"]}
{"id": "C21", "title": "r-, q- and f-components never affect Equal", "statement": "Two RFC 8141 URNs with the same NID and NSS are Equal whatever their r-, q-, f-components; they do not leak into the normalised form.", "quantifier": "all pairs of accepted inputs", "why_tests_cant": "Pairs of unbounded inputs.", "anchors": ["urn.go: Equal, Normalize", "machine.go: f38"]}
{"id": "C22", "title": "Equal compares the SS of hand-built URNs", "statement": "For URN values built from the exported fields, Equal implies equal SS up to percent-escape case. (False: norm is empty, SS is ignored.) What holds instead: with ASCII IDs, Equal holds exactly when the IDs agree up to the case of A-Z.", "quantifier": "all hand-built URN values", "why_tests_cant": "Tests only compare parsed URNs.", "anchors": ["urn.go: Equal, URN"]}
{"id": "C23", "title": "String() on arbitrary URN values", "statement": "String() is empty when ID or SS is empty; otherwise it is prefix (default 'urn'), ':', ID, ':', SS, then '?+' r, '?=' q, '#' f for the non-empty components, in that order.", "quantifier": "all URN values", "why_tests_cant": "All field contents.", "anchors": ["urn.go: String"]}
{"id": "C24", "title": "Error columns point at the first offending byte", "statement": "When Parse fails with an error at column k, the input up to k can still be completed to an accepted URN of the mode, but the input up to and including byte k cannot (or the input ends at k). The documented exceptions are off by a fixed, known amount: the RFC 2141 look-ahead error (column 7), 'SCIM other part incomplete' (one byte early), the RFC 8141 informal-namespace error (one byte early), and a second '?+' or '?=' at the start of a component (reported behind it).", "quantifier": "all rejected byte slices, in each of the three modes", "why_tests_cant": "Claims about all continuations of all rejected inputs.", "anchors": ["machine.go: f0-f30", "README.md: Precise, fine-grained errors"]}
{"id": "C25", "title": "Which error, and at which column, is fully determined by the text", "statement": "For each mode, which error is reported and at which column is fixed by a specification on texts that mentions no parser state; for entry points and modes outside the three it is that of an explicit reference walk; the column is always between 0 and the input length.", "quantifier": "all rejected byte slices, all modes", "why_tests_cant": "Error selection over all inputs.", "anchors": ["machine.go: f0-f51, eof actions", "machine.go.rl: err_* actions"]}
{"id": "C26", "title": "Mode selection", "statement": "NewMachine() parses as RFC 2141; with options the last WithParsingMode wins; each of the three modes starts the corresponding grammar. WithParsingMode(Default) is equivalent to giving no option. (The last sentence is false: it yields a machine that returns nil, nil on every input.) Parse calls a hand-written Option makes on the unfinished machine return nil, nil and leave no trace.", "quantifier": "all option lists, all inputs", "why_tests_cant": "All option sequences.", "anchors": ["machine.go: NewMachine, WithParsingMode", "options.go", "parsing_mode.go"]}
{"id": "C27", "title": "URN JSON round trip", "statement": "For every URN accepted in RFC 2141 mode, MarshalJSON followed by UnmarshalJSON yields a URN with the same String() and Equal to the original; for hand-built URNs it yields the parse of String() or an error.", "quantifier": "all accepted inputs / URN values", "why_tests_cant": "Round trip over all values.", "anchors": ["urn.go: MarshalJSON, UnmarshalJSON"]}
{"id": "C28", "title": "URN8141 JSON round trip", "statement": "Marshalling and unmarshalling a URN8141 preserves String(), ID, SS and components; unmarshalling never leaves a value whose String() panics. (The latter is false: a nil *URN is stored for inputs that fail silently.)", "quantifier": "all accepted inputs, all JSON texts", "why_tests_cant": "Round trip and absence over all inputs.", "anchors": ["urn8141.go: MarshalJSON, UnmarshalJSON"]}
{"id": "C29", "title": "SCIM JSON round trip", "statement": "Marshalling a SCIM value obtained by parsing and unmarshalling it returns the same Type, Name and Other; the JSON text is the canonical SCIM URN.", "quantifier": "all accepted inputs, all SCIM values", "why_tests_cant": "Round trip over all values.", "anchors": ["scim.go: MarshalJSON, UnmarshalJSON, String"]}
{"id": "C30", "title": "UnmarshalJSON is all-or-nothing", "statement": "UnmarshalJSON on URN, URN8141, SCIM succeeds exactly when the JSON is a string whose decoded value parses in the respective mode; on error the receiver is left unchanged.", "quantifier": "all JSON byte texts, all receivers", "why_tests_cant": "All JSON texts.", "anchors": ["urn.go: UnmarshalJSON", "urn8141.go: UnmarshalJSON", "scim.go: UnmarshalJSON"]}
{"id": "C31", "title": "SCIM type names round trip", "statement": "TypeFromString(t.String()) = t for every supported Type, TypeFromString(s) is Unsupported exactly when s is none of the three names, and String() is injective on supported types and empty elsewhere.", "quantifier": "all strings, all Type values (ints)", "why_tests_cant": "All strings.", "anchors": ["scim/schema/type.go: String, TypeFromString"]}
{"id": "C32", "title": "SCIM.String agrees with the parser", "statement": "For a parsed SCIM URN, SCIM().String() equals the text with the prefix lower-cased; and for every SCIM value whose Name is non-empty alnum, Type supported and Other empty or well-formed, parsing its String() gives it back.", "quantifier": "all accepted inputs, all well-formed SCIM values", "why_tests_cant": "Round trip over all values.", "anchors": ["scim.go: String"]}
{"id": "C33", "title": "Modes agree where the RFCs agree", "statement": "Every SCIM URN is also accepted in RFC 2141 and RFC 8141 modes, with NID 'ietf'; every RFC 2141 URN whose NID is legal under RFC 8141 is accepted in RFC8141Only mode with the same ID, SS and normalised SS and empty components.", "quantifier": "all byte slices", "why_tests_cant": "Relates two FSMs on all inputs.", "anchors": ["machine.go: states 1-43 vs 83-181"]}
{"id": "C34", "title": "Percent escapes are checked", "statement": "In any accepted URN every '%' in the NSS and components is followed by two characters; these are hexadecimal digits. (The second half is false: any two alphanumerics are accepted.)", "quantifier": "all accepted byte slices", "why_tests_cant": "All inputs.", "anchors": ["machine.go.rl: hex"]}
{"id": "C35", "title": "Concurrent Parse calls on one buffer", "statement": "Two machines parsing the same byte slice concurrently each return what they would return alone, and leave the slice unchanged. (False when the NSS contains an upper-case percent escape; true when it does not; also true of every text when the calls do not overlap in time, and such calls all return.)", "quantifier": "all interleavings of two Parse calls", "why_tests_cant": "All schedules.", "anchors": ["machine.go: f38 writes to m.data"]}
{"id": "C36", "title": "Accepted input is plain printable ASCII", "statement": "Every accepted input, in every mode, consists of visible ASCII characters only: no NUL, control, space, newline, quote, backslash, or non-ASCII byte.", "quantifier": "all accepted byte slices", "why_tests_cant": "All inputs.", "anchors": ["machine.go: Parse"]}
{"id": "C37", "title": "The bytes copied by one Parse call are linear in the input", "statement": "One call of Parse copies and writes at most c*len(input) bytes for a constant c. (True in RFC 2141 mode with c=7 and in SCIM mode with c=10. False in RFC 8141 mode: the r-component is copied again at every '?' inside it, so accepted inputs of length 2n+11 cost n*n+2n+8 bytes; in every mode the cost is at most (10 + number of '?') * len(input).. For an accepted text the number is exactly 3 + |NID| + 2|NSS| + 3*(letters of escapes turned to lower case), plus the three parts in SCIM mode, plus in RFC 8141 mode 3 if the NID begins with urn- and, per component, its length and the escape letters noted in it, plus for the r-component the place of every '?' in it.)", "quantifier": "all byte slices, all reachable machines", "why_tests_cant": "A bound over all lengths; a fixed set of inputs cannot show growth.", "anchors": ["machine.go: every string(m.text()) assignment", "machine.go:137 Parse"]}
{"id": "C38", "title": "Error texts", "statement": "The text of every error returned by Parse is the sentence of the violated rule followed by ' [col n]' with n the column in decimal without leading zeros, and rule and column can be read off the text. The error of UnmarshalJSON for a string that does not parse is 'invalid URN: ', 'invalid URN per RFC 8141: ' or 'invalid SCIM URN: ' followed by the decoded string. (The sentences themselves misstate two rules: a 32-character identifier is accepted against '1..31', and urn-1abc and urn--x are accepted against 'urn-[1-9][0-9]'.)", "quantifier": "all byte slices, all reachable machines, all JSON inputs", "why_tests_cant": "All columns and all rejected inputs.", "anchors": ["machine.go:10-26", "urn.go:107", "urn8141.go:24", "scim.go:31-34"]}
{"id": "C39", "title": "Errors are final", "statement": "If Parse rejects s with an error whose column lies inside s, then it rejects every s++t with the same error and the same column. (In RFC 2141 mode for s of at least 8 bytes, because of the look-ahead; not for the SCIM error 'other part incomplete', which is reported one byte early. Both exceptions are real.)", "quantifier": "all byte slices s and t, all reachable machines", "why_tests_cant": "All continuations of all rejected inputs.", "anchors": ["machine.go: Parse"]}
{"id": "C40", "title": "Letter case never decides acceptance", "statement": "In RFC 2141 and RFC 8141 modes two inputs that differ only in the case of ASCII letters get the same error, or are both accepted with components that differ only in the case of letters. In SCIM mode this holds for the prefix and is false for the rest.", "quantifier": "all pairs of byte slices, all reachable machines", "why_tests_cant": "All pairs of inputs.", "anchors": ["machine.go: Parse"]}
{"id": "C41", "title": "The normal form is canonical", "statement": "Two parsed URNs are Equal exactly when Normalize().String() gives the same text. (False between a SCIM URN and the same text parsed in another mode.)", "quantifier": "all pairs of accepted inputs, all pairs of modes that are both or neither SCIM", "why_tests_cant": "All pairs of inputs.", "anchors": ["urn.go: Normalize, Equal, String"]}
{"id": "C42", "title": "machine.go recognises the language of machine.go.rl", "statement": "The committed ragel output accepts the language written in the ragel source: in RFC 2141 mode exactly the expression 'urn' less the texts thrown away by the look-ahead action, in SCIM mode exactly 'scim_only', in RFC 8141 mode only texts of 'rfc8141_only', and all of those except texts with an informal NID or a repeated '?+' or '?='. (The plain expression rfc8141_only is strictly larger: witnesses for each exception.)", "quantifier": "all byte slices", "why_tests_cant": "Equality of infinite languages.", "anchors": ["machine.go.rl:114-290", "machine.go: Parse"]}
{"id": "C43", "title": "Conformance to the grammars of RFC 2141 and RFC 7643", "statement": "Every text accepted in RFC 2141 mode is in the grammar of RFC 2141, and in its strict form (no reserved characters, NID not 'urn') exactly when its escapes are hexadecimal; every text of the strict grammar is accepted except those hit by the look-ahead. SCIM mode accepts every RFC 7643 URN with an alphanumeric name, and only RFC 7643 URNs when escapes are hexadecimal. (Full conformance is false in both directions: urn:uci:x, urn:a:b/c and a SCIM name with a dash are rejected, %zz is accepted.)", "quantifier": "all byte slices", "why_tests_cant": "Inclusion of infinite languages.", "anchors": ["machine.go: Parse", "README.md: Features"]}
{"id": "C44", "title": "Conformance to the grammar of RFC 8141", "statement": "A text accepted in RFC 8141 mode is a namestring of RFC 8141 exactly when its escapes are hexadecimal; every namestring is accepted unless its NID starts with 'urn-' and a letter or 0, or it repeats '?+' or '?='. (Full conformance is false in both directions, with witnesses.)", "quantifier": "all byte slices", "why_tests_cant": "Inclusion of infinite languages.", "anchors": ["machine.go: Parse", "README.md: Features"]}
{"id": "C45", "title": "What snake2camel does to a generated file", "statement": "The tool ends on every text; the result is the left-to-right reading in which every underscore that follows a lower-case letter and digits and precedes an alphanumeric goes and the alphanumeric becomes a capital; no such underscore is left, a second run changes nothing, a text without one is untouched, and up to underscores and letter case the text is the same. (Distinct names can become equal, and string literals are rewritten: witnesses.)", "quantifier": "all texts", "why_tests_cant": "The tool loops until a pass makes no match; termination and the result depend on the whole text, and the tests cover three snippets.", "anchors": ["tools/snake2camel/snake2camel.go: snake2camel, replaceAllStringSubmatchFunc", "makefile: machine.go"]}
{"id": "C46", "title": "What removecomments does to a generated file", "statement": "The tool removes exactly the lines that begin, after white space, with //line, together with the blank lines just before such a line; every other line stays, in order; no such line is left and a second run changes nothing. (It is not true that only directives go: blank lines before them and comments such as '//linear search' go as well.)", "quantifier": "all texts", "why_tests_cant": "The expression's leading \\s* crosses lines; which lines vanish depends on arbitrary context.", "anchors": ["tools/removecomments/removecomments.go: removeComments, commentLineRegex", "makefile: machine.go"]}
{"id": "C47", "title": "One machine used by several goroutines", "statement": "Calls of Parse on one machine that do not overlap in time each return what they return alone, none panics, and all of them do return if they keep being scheduled. (Overlapping calls have no such guarantee: for every pair of texts some interleaving makes the first call return neither URN nor error, for every non-empty text some interleaving panics, and a call can return the other call's URN or a mixture.)", "quantifier": "all machines, inputs and interleavings", "why_tests_cant": "Quantifies over schedules; a race shows up in a test only by luck.", "anchors": ["machine.go: machine, Parse"]}
{"id": "C48", "title": "Which calls panic", "statement": "In any program, whatever it did before with any number of URNs, SCIMs, URN8141s and machines, an API call panics exactly when it dereferences a nil pointer that the client passed (with the details: nil.Equal(nil) is false, a failing UnmarshalJSON returns its error before touching a nil receiver); UnmarshalJSON on a non-nil pointer returns for any bytes; IsSCIM true means SCIM() is usable. (A non-nil *URN8141 can still panic: UnmarshalJSON may report success and store a nil *URN.)", "quantifier": "all programs over the exported API, all arguments", "why_tests_cant": "Quantifies over every history of calls and aliasing; tests start from fresh objects.", "anchors": ["urn.go: all methods", "scim.go: all methods", "urn8141.go: all methods", "machine.go: Machine"]}
{"id": "C49", "title": "What a call changes", "statement": "Observers change nothing; every other call changes only the object it is called on; a failing UnmarshalJSON changes nothing at all; Parse, machine Parse and Normalize return new objects with a new SCIM; what a *URN shows changes only by a call writing it or the SCIM it holds; every call that only looks answers what the value functions say of the values behind its pointers; literals, assignments and mode changes leave exactly the values given.", "quantifier": "all programs, calls and objects", "why_tests_cant": "Absence of a side effect on every other object, in every heap.", "anchors": ["urn.go: Normalize, Equal, String, UnmarshalJSON", "scim.go: UnmarshalJSON", "urn8141.go: UnmarshalJSON", "machine.go: Parse"]}
{"id": "C50", "title": "URNs do not share their SCIM", "statement": "In a program that never copies a URN struct, two different *URN never hand out the same *SCIM, so that a write through one is not seen by another. (After *p = *q they share it.)", "quantifier": "all programs without struct copies", "why_tests_cant": "Aliasing over all histories.", "anchors": ["urn.go: SCIM, UnmarshalJSON", "machine.go: Parse"]}
{"id": "C51", "title": "Where the value of a *URN comes from", "statement": "In a program that assigns to no field of a URN and to no SCIM of a URN, every *URN shows a literal, a value returned by Parse, or a normalised one of these, and the SCIM of a SCIM URN spells that URN up to the letter case of 'urn'. (After an assignment to SS, String shows the new text while Equal and Normalize still see the old one.)", "quantifier": "all such programs", "why_tests_cant": "An invariant over all histories of calls.", "anchors": ["urn.go: URN, Normalize, Equal, String", "scim.go: SCIM"]}
{"id": "C52", "title": "Parsing modes outside the three documented ones", "statement": "Every machine either never had one of the three modes set, and then answers nil, nil to every text, or has one set since. After RFC7643Only a further unlisted mode changes nothing. After RFC2141Only it accepts the same texts with the same values, and only the percent-escape error becomes the error of the NSS at the same column. After RFC8141Only the look-ahead of the other modes comes back, so that a NID starting with u is rejected at column 7 where it was accepted, and each percent-escape error becomes the error of its component, or no error at all in a fragment; everything else stays. (So an unlisted mode, ParsingMode's Default included, is neither the mode before it nor the default mode.)", "quantifier": "all integers as modes, all histories of WithParsingMode and Parse calls, all inputs", "why_tests_cant": "The mode is an unchecked integer and the start state and the mode of a machine can differ, so the behaviour mixes two modes in ways no test lists.", "anchors": ["machine.go: WithParsingMode, Parse", "options.go: WithParsingMode", "parsing_mode.go: ParsingMode"]}
{"id": "C53", "title": "The JSON methods against the JSON grammar", "statement": "UnmarshalJSON of each of the three types succeeds exactly on RFC 8259 documents that are strings denoting (through escapes, surrogate pairs and UTF-8) a string its mode parses, with that string's value; on null or a string that does not parse it reports that string as invalid; on any other document it returns the error of encoding/json. (URN8141 also succeeds with nil on silently rejected strings.) MarshalJSON of any value is a quoted string literal that is UTF-8, has no control character and none of < > &, and denotes the String of the value with bytes outside UTF-8 replaced; so unmarshalling gives back the string exactly when it is UTF-8.", "quantifier": "all byte sequences as documents, all values", "why_tests_cant": "The grammar of JSON strings with all escapes and UTF-8 sequences is unbounded.", "anchors": ["urn.go: MarshalJSON, UnmarshalJSON", "urn8141.go: MarshalJSON, UnmarshalJSON", "scim.go: MarshalJSON, UnmarshalJSON"]}
{"id": "C54", "title": "A machine over its whole history", "statement": "In every program, the Error method of a machine repeats the error of the last Parse on that machine (nil before the first), whatever happened in between; and Parse on it answers as a new machine given, in order, the modes this machine was given. Earlier inputs, other machines and other objects do not matter.", "quantifier": "all programs, machines and inputs", "why_tests_cant": "Histories of calls over several machines and objects are unbounded.", "anchors": ["machine.go: NewMachine, Parse, Error, WithParsingMode", "options.go: WithParsingMode"]}
{"id": "C55", "title": "machine.go does what its ragel source says", "statement": "Read machine.go.rl after the Ragel Guide: regular expressions with embedded entering, leaving, error, to-state and end-of-text actions, priorities of the guarded concatenations, jumps between the instantiated machines. The state machine this makes of it gives, from the entry point of the same name, the same record, the same error and the same bytes in the caller's slice as Parse of machine.go, for every text, every mode and every history of the machine. So the generated file was not edited by hand or left behind by its source.", "quantifier": "all texts, all modes, all reachable machines", "why_tests_cant": "The generated file has 194 states and 300 labels; a stale or hand-edited label shows only on the texts that reach it, and the generator is not run by the tests.", "anchors": ["machine.go.rl: machine urn, actions, Parse", "machine.go: Parse"]}
{"id": "C56", "title": "The two source tools as programs", "statement": "A run of removecomments or snake2camel ends with status 0 or 1 whatever the system answers. It is 0 exactly when there is one argument, it names a file that can be read, and the write is done; then the file holds its old text transformed, every other file its old text, and nothing is printed. Otherwise one line with the reason goes to standard error and no file changes, except that a write that breaks leaves the first bytes of the new text (so the text can be lost: refuted that it is kept). The order in which the makefile runs the two does not matter, and neither finds anything more to do in the result.", "quantifier": "all arguments, file systems and answers of the system; all texts", "why_tests_cant": "The file functions and mains have no tests; failures of the system are hard to provoke, and the order of the two programs would have to be compared on all texts.", "anchors": ["tools/removecomments/removecomments.go: removeCommentsFromFile, exitWithError, main", "tools/snake2camel/snake2camel.go: snake2camelFile, exitWithError, main", "makefile: machine.go"]}
{"id": "C57", "title": "Exactly what of Parse is executed", "statement": "In calls of Parse in the three listed modes: the cases of the switch at _resume that run are those of states 1 to 193 except 134 and 171, and a text can end in each of them; every trN label is passed; every fN block, end-of-text block and to-state block is executed; every if statement in them is decided both ways, except for 14 outcomes that occur in no call of any machine and 12 that occur only in a mode that is not listed. Cases 134 and 171 run in no mode.", "quantifier": "all texts, all reachable machines, all labels, blocks and if statements of Parse", "why_tests_cant": "Coverage shows what some texts reach; that the rest is reached by no text in any history of a machine needs a proof.", "anchors": ["machine.go:137-5033 func (m *machine) Parse"]}
{"id": "C58", "title": "Machines made with any options", "statement": "Options are functions; a hand-written one may call Parse, Error and WithParsingMode on the unfinished machine, decide from the answers, panic, or be nil. The machine that NewMachine returns, and the function Parse, behave as with WithParsingMode options alone, for the modes the options gave, in order. Its Error answers with the error of the last Parse inside an option. Inside an option Parse answers nil, nil before a mode is given, and then as a machine made for the modes so far. NewMachine panics on a nil option and otherwise only when an option panics.", "quantifier": "all lists of option functions, all texts", "why_tests_cant": "Options are arbitrary functions.", "anchors": ["machine.go:109-123 NewMachine", "options.go:3-9", "urn.go:86-93 Parse"]}
{"id": "C59", "title": "What may follow an accepted text", "statement": "To a text accepted in RFC 2141 mode exactly NSS characters and complete escapes can be appended; they are added to SS and nothing else of the URN changes (except that a colon behind urn:u:x is rejected, because of the look-ahead: so not every NSS extension is accepted). Its accepted beginnings are those that keep some of the NSS and cut no escape. In SCIM mode what is appended continues the name or the other part. In RFC 8141 mode a fragment can be added to every text without one and changes nothing else; fragment, q-component and NSS grow when text of their kind is appended; an r-component need not (one that ends in ?= loses it to the q-component).", "quantifier": "all accepted texts, all additions, all cuts", "why_tests_cant": "Relates every accepted text with all its extensions and beginnings.", "anchors": ["machine.go:138-5033 Parse", "machine.go:4355-4371 look-ahead", "machine.go.rl:270-290 components"]}
{"id": "C60", "title": "Fixed-width ints and spare capacity make no difference", "statement": "With ints of w bits that wrap around (w >= 4) and any bytes in the backing array behind the caller's slice, Parse returns the same URN, error, machine and buffer as with unbounded integers and a slice that ends at its length, for every slice whose length is an int of w bits. The one sum that can exceed the length, m.p+3 in the look-ahead behind a u, is computed at the first and fifth byte only.", "quantifier": "all machines, all byte slices, all spare capacities, all int widths (32 and 64 bit platforms)", "why_tests_cant": "An overflow shows only on slices of about 2^31 or 2^63 bytes, a read behind the end only with a particular backing array.", "anchors": ["machine.go: Parse", "machine.go: text", "machine.go: 4355-4373 (m.p + 3)"]}
{"id": "C61", "title": "The drawing docs/urn.dot shows the RFC 2141 and SCIM parser exactly, and no RFC 8141", "statement": "Walking docs/urn.dot over a text from main or urn_only (RFC 2141) or scim_only (SCIM) gives the record, the error and the buffer that Parse gives, for every text and every meaning of err_parse, an action only the drawing has. As a drawing of machine.go.rl, which the makefile says it is, it is out of date: urn:ab:c#f is accepted by Parse in RFC 8141 mode and from no entry point of the drawing in any mode.", "quantifier": "all texts, all parsing modes, all machines that start in the two parts, all bodies of err_parse", "why_tests_cant": "The drawing has 333 edges on ranges of bytes and nothing in the repository reads it; agreement is about every path through it.", "anchors": ["docs/urn.dot", "makefile: docs/urn.dot", "machine.go: Parse", "machine.go.rl"]}
{"id": "C62", "title": "The tools read text, not bytes: UTF-8 and empty matches make no difference", "statement": "With package regexp reading UTF-8 runes (a byte that belongs to no sequence is one rune), starting matches at rune boundaries only, and treating empty matches as its loops do, snake2camel and removecomments give on every sequence of bytes the results of C45 and C46. DecodeRune reads the UTF-8 form of every scalar value and one byte where there is none. A file that is UTF-8 is UTF-8 afterwards.", "quantifier": "all byte sequences, valid UTF-8 or not", "why_tests_cant": "The tests of the tools are ASCII only; where a rune ends inside broken UTF-8 depends on up to four bytes in any context.", "anchors": ["tools/snake2camel/snake2camel.go: snake2camel, replaceAllStringSubmatchFunc", "tools/removecomments/removecomments.go: removeComments, commentLineRegex"]}
{"id": "C63", "title": "Which errors each mode reports, and at which columns", "statement": "A table of error messages and columns per mode is exact. RFC 2141: prefix 0-3, identifier 4-36, reserved urn exactly 7, specific string from 6, hex from 7. SCIM: prefix 0-3, namespace 4-20, type 21-28, name from 25, other from 27, other incomplete from 26. RFC 8141: prefix 0-3, identifier 4-36, informal exactly 7, specific string from 7, hex from 8, malformed r/q-component from 10, second r/q-component from 12. No text makes a machine in that mode report anything else, and every entry, for every column, is reported for some text. None of the 17 messages is dead; only the prefix and the hex message are shared between modes.", "quantifier": "all error constants, all columns, all texts, all machines the API can produce, three modes", "why_tests_cant": "That a message never occurs, or never at a column, ranges over all texts; that it occurs at every column from a minimum on is an infinite family.", "anchors": ["machine.go:9-27 (messages)", "machine.go: Parse, the m.err assignments of every action"]}
{"id": "C64", "title": "The text of machine.go, read and run inside Coq, is the model of Parse", "statement": "The eight Go files of the package are in Coq byte for byte. A lexer and parser for Go, written in Coq, read them completely, and loading the declarations gives a program. An interpreter for Go (nothing in it is particular to this package) runs that program's Parse: for every machine the API can produce, every input, every heap with the machine and the input anywhere in it, the run ends without panic and without meeting a construct the interpreter does not know; the returned pointers, error, the fields of the machine, the caller's bytes, the URN, its SCIM and its tolower list are those of machine_Parse; every object but the machine is afterwards as it was, the caller's whole array included.", "quantifier": "all machines the API can produce, all inputs, all heaps, all positions of the input inside its array", "why_tests_cant": "Equality of two programs over all inputs and heaps. It also removes the translation of machine.go into tables from what has to be believed.", "anchors": ["machine.go:137-5033 (Parse)", "machine.go:10-98 (constants, tables)", "all non-test .go files of the package (text)"]}
{"id": "C65", "title": "Every operation of the API, run from the text of the Go files, does what the model says", "statement": "The text of the package, run by the Go interpreter in Coq, does what Heap.v says for all 22 exported functions and methods and for what a client can do with exported fields (literals, assignments, struct copies): in every heap that holds the model's objects anywhere, with any aliasing the model allows, a call panics exactly when the model panics (nil receivers, nil values), otherwise it returns without meeting a construct the interpreter does not know, returns the model's answer, and leaves a heap that holds the model's objects again. The only objects of the old heap that change are the receivers of UnmarshalJSON, machine.Parse, WithParsingMode and of assignments. So any client program, started on the loaded package, gets the answers of the model, whatever it does to its own arrays between calls.", "quantifier": "all operations, all heaps, all programs, all arguments, all ToLower functions for non-ASCII text, both versions of json.Marshal", "why_tests_cant": "Equality of two programs for all heaps and all sequences of calls. It removes the hand translation of urn.go, urn8141.go, scim.go, options.go from what has to be believed.", "anchors": ["urn.go:36-141", "urn8141.go:10-30", "scim.go:20-48", "options.go:1-9", "machine.go:110-131, 5035-5046", "scim/schema/type.go:20-36"]}
{"id": "C66", "title": "The text of machine.go does what the text of machine.go.rl says", "statement": "machine.go.rl, byte for byte, read inside Coq by a reader of ragel's syntax, is the expressions of the specification under their names, and the code of each of its 34 named actions (and of the unnamed one), with fhold and fgoto written out as ragel writes them, is the Go text of the statements the specification executes. The machine built from that text answers what the model of machine.go answers, for every input and from each of the three entry points; and the Parse written in machine.go, run as text by the Go interpreter on any heap that holds a reachable machine and the bytes, returns the URN, the error and the bytes that the machine of machine.go.rl gives. The Go text around the machine in machine.go.rl, after snake2camel, has exactly the declarations of machine.go, apart from the constants, tables and the block that ragel writes.", "quantifier": "all inputs, all machines and heaps, the whole text of both files", "why_tests_cant": "It compares two texts in different languages for all inputs; no test reads machine.go.rl, and ragel is run by hand, so an edit to one file that is not in the other would pass every test.", "anchors": ["machine.go.rl:1-386", "machine.go:1-5046"]}
{"id": "C67", "title": "The regular expressions written in the two tools do what the tools are for", "statement": "The only raw string in snake2camel.go and the only one in removecomments.go, taken from the text of the files and read inside Coq by a reader of package regexp's syntax, are expressions with which the tools, matching rune by rune under package regexp's rules, do what the specifications say on every text: snake2camel joins exactly the names it should, removecomments takes out exactly the //line lines.", "quantifier": "all texts, UTF-8 or not; the whole text of the two files", "why_tests_cant": "The expressions are opaque strings until the program runs; a test tries a few lines, and a quantifier or a class off by one character agrees on most of them.", "anchors": ["tools/snake2camel/snake2camel.go:37-49", "tools/removecomments/removecomments.go:11-27"]}
{"id": "C68", "title": "The tools of the makefile rename the program and leave it otherwise as it is", "statement": "removecomments changes no token of a Go text that the lexer knows throughout. snake2camel, if besides no underscore in a string literal stands just before a letter or digit, changes nothing but identifiers: the tokens are the old ones with each identifier converted. So the makefile's two tools, run on any such file and ending with status 0, rename its identifiers and do nothing else. The Go text of machine.go.rl (what surrounds the machine, and the code of all its actions) is such a text; no two of its names become the same name and none becomes a name already used in the other files of the package. machine.go is, token by token, machine.go.rl without the machine, its names converted, with constants and tables put in where ragel is told to write the data and one block where it is told to write the code. machine.go as committed is what the tools leave: running them on it again, wherever it lies, ends with status 0 and changes no file.", "quantifier": "all texts; all identifiers of machine.go.rl; all worlds holding machine.go at any path", "why_tests_cant": "A clash of names only shows after a rename that also compiles; and the tools rewrite bytes without knowing what is a literal, which a test of one text says nothing about.", "anchors": ["tools/snake2camel/snake2camel.go:37-49", "tools/removecomments/removecomments.go:11-27", "machine.go.rl:1-385", "machine.go:1-5046", "makefile:32-36"]}
