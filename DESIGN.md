# Formal model of leodido/go-urn in Rocq (Coq 8.16)

## Approach

`machine.go` (the committed ragel output, i.e. the code that runs) is a goto
program over an explicit state number.  It is translated *mechanically* by
`gen/gen_machine.py` into `rocq/theories/MachineTables.v`: one Gallina
function per `case N:` of the `_resume` switch, one table entry per `trN:`
block, one statement list (deep embedding) per `fN:` block and per eof action,
and the two byte tables.  Each generated definition carries the line numbers
it was read from.  Nothing in it is hand-tuned; re-running the generator on
/repo reproduces it.

`Machine.v` (hand-written) is the interpreter for those statements, the label
level control flow of `Parse` (`_resume`, `tr*`, `f*`, `_again`, `_testEof`,
`_out`), and `NewMachine`, `WithParsingMode`, `Parse`, `Error`.  Go panics
(index, slice, nil dereference) are explicit results; loops run on explicit
fuel with a distinguished out-of-fuel result, and a theorem excludes both.

`Urn.v` models urn.go, urn8141.go, scim.go, scim/schema/type.go, options.go.
`Json.v` models the part of encoding/json those files call.

`Spec.v` is the independent specification (grammars as predicates on byte
strings, lexical equivalence, percent-escape lower-casing).  It mentions no
state number and no model helper.

Proof structure: `Machine` = reference walk (`Ref*.v`, a structurally recursive
function giving the result *and* the error for every input) by symbolic
execution + induction on the remaining input; reference walk <-> `Spec` by
induction; properties are corollaries, restated in `Properties.v`.

## Files

| file | content |
|------|---------|
| GoBase | byte strings, results (return / panic / out of fuel), indexing, slicing |
| MachineSyntax, MachineTables | statement language; machine.go as data (generated) |
| Machine, Errors, Urn, Json | hand-written model of the rest of the package |
| Conc | several Parse calls on one slice, one shared byte access per step |
| Shared | several Parse calls on one machine value |
| Heap | client programs: the exported API over a heap of URN, SCIM, URN8141 and machine objects |
| Cost | bytes moved by one Parse call (instrumentation of Machine) |
| SpecCost | what the exact cost of an accepted text is counted with (C37) |
| Conformance | the 2339-line test table of the repository run on the model (generated; a sanity check of the translation, not a property) |
| Conformance2 | the other unit tests and the examples of the repository run on the model (same purpose) |
| Tools | tools/snake2camel and tools/removecomments, with the leftmost-first matching of package regexp |
| ToolsIO, PropsToolsIO | the file functions and mains of the two tools, with the answers of the system; the recipe |
| RegLang, Ragel | operators on languages; the grammar of machine.go.rl, definition by definition |
| RagelSem, RagelRl | what a ragel specification with actions, error actions and priorities means as a state machine; machine.go.rl in it, actions included |
| PropsRagel, PropsRagel2 | that machine and machine.go step together: table check, simulation |
| SpecRfc | the grammars of RFC 2141, RFC 7643 and RFC 8141 in their own vocabulary |
| Spec, SpecErr, SpecErr8, SpecText, SpecTools, SpecHeap, SpecOdd, SpecJson | the independent specification |
| Ref | reference walk, the middle layer between machine and specification |
| Exec, Sim*, ParseThm | machine = reference walk |
| RefSpec* | reference walk = specification |
| Api, Props* | proofs of the properties |
| Live, PropsLive, PropsLive2 | which labels a call of Parse passes, which blocks it executes and how it decides their if statements |
| LiveTable | GENERATED by gen/gen_live.py: texts that reach everything, the configurations that are closed under steps; checked, not trusted |
| OptFn, PropsOptFn | NewMachine and Parse with arbitrary option functions (client trees), nil included |
| PropsGrow | texts with something appended or cut off |
| MachineInt | Parse with ints of w bits that wrap around and a slice with spare capacity |
| PropsInt | an abstract run of the blocks (was p decremented, which state was set), an invariant on p, pb, pe at each label |
| DotTables (generated by gen/gen_dot.py), Dot | the drawing docs/urn.dot edge by edge, and how it is walked |
| PropsDot | the drawing without its jumps and err_parse has the same runs and passes the check of PropsRagel against machine.go |
| RuneTools, PropsRune | the two tools again, package regexp on runes with its rules for empty matches; equal to Tools |
| SpecReport, PropsReport | which errors each mode reports at which columns |
| GoSrc (GENERATED by gen/gen_src.py: the Go files verbatim), GoAst, GoLex, GoParse, GoProg | the text of the package, a reader for Go, and what it reads |
| GoSem, GoPackage | an interpreter for Go; the package as a program, and the functions of other packages it calls |
| SrcRender, SrcSim, SrcSim2, SrcSim3, SrcFacts, SrcSim4, SrcSim5, PropsSrc | the text of Parse does what Machine.v says |
| SrcApi, SrcApi2, SrcApi3, SrcApi4, SrcApi5 | the text of each function but Parse, run on any heap, returns what Urn.v, Json.v and Machine.v say |
| SrcHeap, SrcHeap2, SrcHeap3, SrcHeap4, PropsSrc2 | a Go heap that holds the objects of Heap.v, the operations of Heap.v as Go calls, and each of them proved |
| RlSrc | GENERATED by gen/gen_src.py: the text of machine.go.rl, byte for byte |
| RlParse | a reader for ragel files: the Go part, the statements, expressions with ragel's precedence, actions |
| RlText, PropsRl, PropsRl2 | the machine built from what is read; it is RagelRl's; the Go part against machine.go |
| DotSrc, DotParse, PropsDot2 | GENERATED by gen/gen_src.py: the text of docs/urn.dot; a reader of it; it gives DotTables |
| ToolsSrc | GENERATED by gen/gen_src.py: the text of the two tools |
| ReParse, PropsRe | raw strings of a Go file, a reader of package regexp's syntax; the tools with the expressions read |
| PropsRename, PropsRename2, PropsRename3 | what snake2camel and removecomments do to the tokens of a Go text; the names of machine.go.rl; machine.go beside machine.go.rl, token by token |
| Properties, Properties2 .. 26 | the property theorems, examples, Print Assumptions |

## Per-property plan

| id | modelled | proof |
|----|----------|-------|
| C01 | label-level execution with Panic / out-of-fuel | refinement to the total reference walk; generic machine invariant for odd modes |
| C02 | number of label steps | fuel bound |
| C03 | buffer is part of the state, written by set_nss | +32/-32 cancellation lemma |
| C04 | machine record persists over calls | Parse result is a function of (mode, start, input) |
| C05 | RFC 2141 states of the machine; grammar urn2141 in Spec.v | the goto program refines the reference walk (Sim2141), the walk accepts exactly the grammar less the texts hit by the look-ahead; the documented language is refuted by urn:uci:x |
| C06 | the set_* statements filling the URN | the parts of the reference walk; a text has one reading since an NID has no colon |
| C07 | SCIM states; grammar urnscim in Spec.v | as C05 (SimScim), without look-ahead |
| C08 | the set_scim_* statements, SCIM() | the parts of the reference walk; unique because the type and name have no colon |
| C09 | RFC 8141 states; grammar urn8141 in Spec.v | as C05 (Sim8141, Sim8Nid), with the condition on informal namespaces and repeated openers |
| C10 | set of r-, q- and f-component; accessors | the parts of the reference walk; unique because the openers are found once |
| C11 | (URN option, error option) result | proved for 2141/SCIM, refuted and exactly characterised for 8141 |
| C12 | RFC, IsSCIM, SCIM, Normalize | read off the parts of C06, C08, C10; C12_normalized: the value Normalize returns has no kind, SCIM or components |
| C13 | URN.String | the parts put together again are the text (C06, C08) |
| C14 | URN.String | refuted: an NID that begins with another spelling of urn- changes the prefix, and an empty fragment is not printed; the printed text and the condition for equality from C10 |
| C15 | URN.String, Parse | C13 and the determinism of Parse; RFC 8141: the printed text is again in the grammar (C09) |
| C16 | set_nss: the tolower list and the +32 loop; norm | induction over the NSS: the list names the upper-case letters behind a percent sign |
| C17 | Normalize, String | the normal text is in the grammar, and lower-casing twice is lower-casing |
| C18 | Normalize | refuted: norm is not set in the value returned, so a second Normalize has an empty SS, for every parsed URN |
| C19 | Equal | Equal compares functions of each side (ID lower-cased, SS of Normalize) |
| C20 | Equal | C06, C08, C10 and C16 against lexical equivalence stated on texts; refuted between SCIM and the other modes, where the ID is another part of the text |
| C21 | Equal | the components are not in what Normalize returns |
| C22 | Equal on struct literals | refuted: norm of a literal is empty, so only the IDs are compared |
| C23 | String | direct, against a spec of the text |
| C24 | error column | column <= length in all modes; the column is the first byte that no accepted text continues with, up to the look-ahead of the NID rule |
| C25 | error kind | for each mode an independent table (SpecErr, SpecErr8) of which error every rejected text gets; proved equivalent to Parse in both directions |
| C26 | options list | induction on options |
| C27 | MarshalJSON, UnmarshalJSON of URN; json string encode/decode (escapes, UTF-8, surrogates, white space) | decoding the encoding of an ASCII text gives the text, then C15 |
| C28 | the same of URN8141 | round trip as C27; a nil *URN is refuted by a silently rejected text, exactly those of C11 |
| C29 | the same of SCIM | String of a well-formed SCIM is in the grammar of C07, then C08 |
| C30 | UnmarshalJSON of the three types | cases on the answers of the decoder and of Parse; URN8141 refuted (C11) |
| C31 | Type.String, TypeFromString (scim/schema/type.go) | cases on the type |
| C32 | SCIM.String | C08: the parts put together again are the text |
| C33 | relation of grammars | grammar inclusion |
| C34 | - | the NSS and component grammars have two alphanumerics behind every percent sign; hexadecimal digits refuted by %zz |
| C35 | any number of interleaved calls over one shared buffer | refutation by schedules; safety for all schedules when no escape is upper case, and this condition is shown to be necessary; calls that do not overlap (PropsConc2.v): invariant on the one call under way, and a bound on the steps left |
| C36 | - | every character class of the grammars lies in the printable ASCII characters |
| C37 | bytes moved by copying statements | rank of the states (checked over all states x bytes), potential argument over the run; quadratic family by induction; the exact number for every accepted text (PropsCostExact..4): a phase per state, every live transition sorted into one of 46 kinds by a sweep over all states x bytes, an invariant per phase kept by each kind |
| C38 | perr_Error, jerr_Error: fmt with %d, %s and %% | decimal numerals as an independent predicate; injectivity of the rendering |
| C39 | - | the error tables of C25 are closed under appending when the column is inside |
| C40 | - | every predicate of the grammars and error tables is closed under a change of letter case |
| C41 | Normalize, String, Equal | the NID has no colon, so the normal text splits one way |
| C42 | machine.go.rl expressions as languages | each expression equals a predicate of Spec; RFC 8141: splitting at the openers |
| C43 | RFC 2141 and RFC 7643 grammars as languages (SpecRfc) | the lemmas of C42 over the hexadecimal escape class; refuted where the code differs |
| C44 | RFC 8141 grammar as a language (SpecRfc) | the same; splitting at the openers |
| C45 | snake2camel: expression, passes, loop | each pass converts the last candidate of each line; the left-to-right reading does not see the conversion; underscores decrease |
| C46 | removeComments: expression, ReplaceAllLiteral | a match starts at a line start exactly when the text from there, less white space, begins with //line |
| C47 | Parse calls on one machine, one label per step | without overlap: invariant with the remaining run of the busy call, its length bounds the steps left; with overlap: schedules for every text |
| C48 | exec: one API call, literal, field assignment or struct copy on a heap; runs: any sequence of them | invariant of the heap: pointers are held, kind SCIM iff a SCIM pointer, machines reachable; preserved by every call |
| C49 | the same | cases on the call: which cells of the four heaps it writes |
| C50 | the same | invariant: no two URNs hold one SCIM, preserved by all but the struct copy, which refutes |
| C51 | the same | invariant: every URN shows a literal, a parsed value or a normal form of these; a field assignment refutes |
| C52 | machines with an unlisted mode: start state and mode disagree | the reference walk is parametric in the mode; walks of the two modes compared place by place (NSS, r, q, fragment); histories as an inductive relation |
| C53 | the JSON codec of Json.v | SpecJson: relation between text and string after RFC 8259 section 7 and RFC 3629; decoder sound and complete for it, encoder yields a literal of it |
| C54 | histories: the calls of a program with their answers | the model's machine keeps its error and its modes; modes alone determine the next answer (C04), by induction on the history |
| C55 | machine.go.rl as expressions with actions, compiled to state machines (RagelSem, RagelRl) | a table pairing its 481 states with the 194 of machine.go is checked (edges per block of bytes, code of actions, end of text, finality); from the check a simulation for any text, generic in the tables |
| C56 | file functions, exitWithError, main, the recipe, over a file system and arbitrary answers of the system | a closed form of one run; the two transformations act line by line and keep blank lines and directives, so they commute |
| C57 | Live.passes, executes, takes over Machine.step | alive: traces of 236 texts computed in Coq; dead: an abstract execution (mode, state, rStart, qStart, p = pe) proved sound for every statement, its 432 configurations checked closed |
| C58 | an option as a tree of method calls that branches over the answers; NewMachine running a list of them | the mode fields of the unfinished machine depend on the modes given so far only, its error on the last Parse only; induction over tree and list |
| C59 | nothing new: parsed, the grammars of Spec.v | from the exact languages (C05, C07, C09): a reading of the longer text and one of the shorter agree up to the place where they differ; no ? or # in an NSS, no # in a component, ?= and the byte behind it decide where an r-component ends |
| C60 | MachineInt: Parse again, wrapping ints, slices up to cap | step by step equal to Machine.v under an invariant (p, pb, pe within the length, the first five states at their depth); values under an index or slice are in range because the call does not panic (C01) |
| C61 | DotTables: the edges of docs/urn.dot, which the text read in Coq gives (DotParse); Dot: a byte takes the edge whose ranges have it, else DEF; named actions are those of machine.go.rl | pairing of the 95 drawn states with states of machine.go, edge by edge for the 256 bytes (the check of C55); err_parse is a parameter and stands behind jumps only; RFC 8141 refuted by a text with a fragment |
| C62 | RuneTools: DecodeRune, matching over runes, doExecute, allMatches, replaceAll | at a place followed by an ASCII byte or the end a rune ends, and the expressions go on with ASCII only, so the preferred match is the same; no match begins inside a rune, none is empty; both loops by induction on the text left |
| C63 | SpecReport: per mode a table of constants and columns | into the table: from the exact relations of C25 by lengths; from the table: texts computed on the machine for the bounded columns, a family of texts with n letters and the relations of C25 for the unbounded ones |
| C64 | GoSrc: the text; GoLex, GoParse: from text to syntax; GoSem: what Go programs do; GoPackage: the program | reading and loading by computation; one lemma per statement form and condition relates the interpreter to the model's statements, one per switch to the rows of the tables; computation shows every block and row of the text is the rendering of the tables; then induction over the steps of the model |
| C65 | SrcHeap: when a Go heap holds the objects of Heap.v; SrcHeap2: each operation as a call of the text | each body of the text run statement by statement on an arbitrary heap (SrcApi*), then the relation between the heaps re-established per operation (SrcHeap3, SrcHeap4); programs by induction |
| C66 | RlSrc: machine.go.rl verbatim; RlParse: lexer and parser for ragel; RlText: the table of the machines read | the text is read by computation and compared with RagelRl.v expression by expression (equal, classes as lists of ranges) and action by action (equal to the rendering used for machine.go in C64); then C55 and C64 |
| C67 | ToolsSrc: the files verbatim; ReParse: raw strings, reader of the syntax of package regexp, the two tools for any expression | the text is read by computation; expressions that agree class by class match alike, so C62 carries over |
| C68 | GoLex (tokens of a Go text), Tools, ToolsIO, the texts of GoSrc and RlSrc | camel and the lexer commute, by induction on the text and the state of the lexer; a line leaves the lexer where it began, so lines that go take no token along; the names and machine.go by computation.  The lexer knows no general comments (/* */): it reads their text as tokens; no file of the package has one |

## Trusted base

* The Coq 8.16.1 kernel, including its virtual machine (`vm_compute` is used for the
  finite sweeps over states x bytes).  No kernel check is switched off.
* `Print Assumptions` under every theorem of Properties*.v prints "Closed under the
  global context": no axiom is used, neither of this development nor of the standard
  library.  The standard library parts used are lists, strings, bytes, N, Z, lia.
  (A whole-library check such as `coqchk -o` also lists the parameters of the module type
  Coq.ssr.ssrunder.Under_rel, which the standard library loads; no theorem uses them.)
* The translation of machine.go to MachineTables.v (gen/gen_machine.py, gen/go_fsm.py).
  The generator refuses every source line it does not recognise.  Conformance.v runs
  the repository's own test table through the result.  Since C64 this translation need not be
  believed for Parse: the text of machine.go, run in Coq, provably does the same.  What has to
  be believed instead (since C65 for all of the package) is that GoSrc.v is the text (gen/gen_src.py copies it), and that GoLex.v,
  GoParse.v and GoSem.v are Go: its grammar, its evaluation, assignment, goto, slices, pointers
  and calls for the constructs the package uses.
* For C55, the reading of ragel's operators (RagelSem.v): in which order embedded actions
  run, how machines are joined, what the guards do.  The Ragel Guide says this in prose.  A
  wrong reading would have to agree with machine.go in every state to go unnoticed.  Since C66
  RagelRl.v need not be believed to be machine.go.rl: the text is read in Coq.  Believed
  instead are RlSrc.v (gen/gen_src.py copies it) and RlParse.v: ragel's tokens, the precedence
  of its operators, what @err $err %err %to %eof are, and what is written for fhold and fgoto.
* That the hand-written definitions say what the Go code says.  Each definition cites
  its lines.  Since C65 this need not be believed for Urn.v, Json.v's methods and Heap.v: the
  text of urn.go, urn8141.go, scim.go, options.go and type.go, run in Coq, provably does the
  same.  fmt.Errorf, fmt.Sprintf with %s, strings.ToLower, json.Marshal and json.Unmarshal are
  functions of the interpreter (ext in GoPackage.v) and stay trusted.

### Code that is modelled

* machine.go: all of it.  Parse (137-5033) label by label, NewMachine, WithParsingMode,
  Error, text, the error formats (10-26), the tables.
* urn.go: all of it.  urn8141.go: all of it.  scim.go: all of it.
* machine.go.rl: all of it, as text (RlSrc.v, RlParse.v); the expressions with their actions
  and priorities (RagelRl.v; as languages alone in Ragel.v); the Go part (C66_go).
* scim/schema/type.go, kind.go, parsing_mode.go, options.go: all of it.
* tools/snake2camel/snake2camel.go and tools/removecomments/removecomments.go: all of it; makefile:34-35.

### Simplifications

* Go `int` is Z and a slice ends at its length in all files but MachineInt.v; C60 proves
  that ints of any width and slices with any spare capacity give the same results.
* Strings and slices are values.  The aliasing that matters is explicit: m.data with the
  caller's slice (Parse returns the buffer, Conc.v shares it), and pointers to URN, SCIM,
  URN8141 and machine objects (Heap.v).
* In Machine.v and Heap.v an Option passed to NewMachine is the mode it was built from
  (WithParsingMode is the only exported constructor).  OptFn.v has any Option, nil included;
  left out there: an option that never returns, and what it does to other objects.
* `fmt.Errorf(format, col)` is the pair (format, col); Errors.v renders it, with fmt's
  %d for integers and %s for strings as trusted behaviour.
* strings.ToLower on a string of ASCII bytes maps A-Z to a-z; on any other string it is
  an arbitrary function `uni` over which the theorems quantify (only hand-built URNs can
  have such an ID: C36).
* encoding/json is not in /repo: its documented behaviour for strings is modelled.
* Concurrency: sequentially consistent memory, each test of one switch reads its byte
  once; see the header of Conc.v for why this does not weaken the statements.
* Tools: the two regular expressions are matched byte by byte with Go's leftmost-first
  preference; C62 proves that matching rune by rune, with package regexp's rules for empty
  matches, gives the same.  What RuneTools.v says of package regexp is trusted,
  and ReParse.v for how it reads the two expressions (C67).
* ToolsIO: different paths are different files; permissions and signals are not modelled; the
  system may refuse a read, refuse a write, or break it off after any number of bytes.
* C65 does not compare the slices tolower of a URN and data of a machine after a call (C64
  does, for Parse).  The client's own statements (literals, field assignments, *p = *q) are
  the interpreter's functions for them, not text.
* RlParse: the lines %% write, access, variable are listed (C66_read), what they do is not
  modelled but for the names m.p, m.cs .. in the written code.  The action type of RagelRl.v
  is a list of names; t_Parse takes the code of each from the text (RlText.stmts_of finds the
  statements of the model with that text, and refuses text that none has).
* docs/urn.dot does not show what its three unnamed actions do (on the colon behind the
  prefix); they are read as jumps to the drawn entry points urn and scim.
* Cost: counts bytes moved by string conversions and by the tolower loops; append costs
  1; allocation and garbage collection are not modelled.

### Code that is not modelled

* docs/urn.png, the picture made of docs/urn.dot.
* The rest of the makefile; ragel and go fmt.
* Tests, examples and benchmarks (run on the model in Conformance.v and Conformance2.v, benchmarks excepted).
* The regexp, fmt, encoding/json and strings packages of Go except as said above.
