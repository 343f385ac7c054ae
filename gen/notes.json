{
 "C01": "All machines of the API (any option values, any history), all inputs.",
 "C02": "Steps of the goto program (one label transfer each), bound 4*len+16.",
 "C05": "Documented language refuted (inputs hit by the look-ahead are rejected); the accepted language is characterised exactly.",
 "C11": "Holds for RFC 2141 and SCIM modes; refuted for RFC 8141 mode, with the exact set of inputs answered nil, nil.",
 "C14": "Refuted; the exact output of String and the exact condition for equality with the input are proved.",
 "C18": "Refuted; fails for every parsed URN.",
 "C20": "Proved inside SCIM mode and among RFC 2141 / RFC 8141 modes; across SCIM and the others refuted.",
 "C22": "Refuted; Equal of hand-built values compares the IDs only (for ASCII IDs: up to the case of A-Z).",
 "C26": "Mode selection proved; WithParsingMode(Default) being the default is refuted.",
 "C33": "Inclusions in both directions.",
 "C34": "Two alphanumerics after every percent sign proved; hexadecimal digits refuted.",
 "C24": "All three modes. The exceptions (look-ahead error at column 7, 'SCIM other part incomplete' and the informal-namespace error one byte early, a repeated component opener reported behind it) are described exactly; that the look-ahead error sits at the first offending byte is refuted.",
 "C25": "All three modes: errors characterised by specifications on texts (SpecErr.v, SpecErr8.v); odd modes: by the reference walk; column bounds in all modes.",
 "C27": "Holds for all parsed URNs, all receivers, both Go variants of json.Marshal; for arbitrary URN values the result is the parse of String() or an error. encoding/json is modelled (trusted).",
 "C28": "Round trip proved; absence of a nil *URN refuted, with the exact set of inputs that cause it.",
 "C29": "Proved for parsed SCIM values and for every well-formed SCIM value. The unexported pos field is recomputed.",
 "C30": "Proved for URN and SCIM; refuted for URN8141 (silently rejected strings are a success), exact behaviour proved.",
 "C35": "Refuted in general (wrong result; corrupted slice); proved for any number of calls when no escape before '?'/'#' is upper case, and shown to be exactly the condition for accepted texts; calls that do not overlap are safe for every text, and finish. Sequentially consistent memory, one shared byte access per step.",
 "C37": "Linear bounds proved for RFC 2141 and SCIM modes, refuted for RFC 8141 mode (quadratic family of accepted inputs), general bound with the number of '?' proved. Cost = bytes moved by the copying statements of machine.go, append counted as 1. For every accepted text the exact number is proved as a function of the parts of the text.",
 "C38": "Text of every error and injectivity proved; JSON error texts proved; that the sentences describe the real rules is refuted in two places.",
 "C39": "Proved with the two stated conditions, both shown necessary by witnesses.",
 "C40": "Proved for RFC 2141 and RFC 8141 modes and for the prefix in SCIM mode; refuted for the SCIM namespace.",
 "C41": "Proved for modes both or neither SCIM; refuted across.",
 "C42": "Equivalences for RFC 2141 and SCIM modes; inclusion and conditional converse for RFC 8141 mode, unconditional converse refuted. Here the expressions are languages, without the priorities of <: and :>> and without actions; C55 has both.",
 "C43": "Both inclusions with exact conditions; unconditional conformance refuted in both directions.",
 "C44": "Both inclusions with stated conditions; unconditional conformance refuted in both directions.",
 "C45": "Proved for all byte strings; two expectations refuted by witness.",
 "C46": "Proved for all byte strings; two expectations refuted by witness.",
 "C47": "Proved for calls that do not overlap, with termination; refuted, with schedules for every text, when they do.",
 "C48": "Proved for all programs; the safety of a non-nil *URN8141 is refuted and proved under the condition that no nil was stored.",
 "C49": "Proved for all programs.",
 "C50": "Proved for programs without struct copies; refuted with one.",
 "C51": "Proved for programs without field assignments; refuted with one.",
 "C52": "Proved for every reachable machine; that an unlisted mode leaves the mode before it unchanged is refuted.",
 "C53": "Proved against an independent grammar of JSON strings and UTF-8; exact give-back refuted for strings that are not UTF-8.",
 "C54": "Proved for all programs.",
 "C55": "Proved for every reachable machine; the reading of ragel's operators and action order is trusted (RagelSem.v).",
 "C56": "Proved for all answers of the system; that a failing run keeps the text of the file is refuted.",
 "C57": "Proved in both directions: witnesses for what is executed, an invariant for what is not.",
 "C58": "Proved; options that do not return are left out.",
 "C59": "Proved as equivalences for each shape of text; the two exceptions are refutations with witnesses.",
 "C60": "Proved for every width and every spare capacity.",
 "C61": "Proved for the RFC 2141 and SCIM parts, with the three unnamed actions of the drawing read as jumps to its entry points; refuted for RFC 8141 (stale drawing).",
 "C62": "Proved. Matching by runes is package regexp's documented behaviour; the two loops around it (allMatches, replaceAll) are written as in its source.",
 "C63": "Proved in both directions. The columns show that a NID may have 32 characters although the message errIdentifier says 1..31.",
 "C64": "Proved by simulation: every label of Parse against the block of MachineTables.v, every state's switch against its row.",
 "C65": "One theorem per operation, by running its statements one at a time; Parse through C64.",
 "C66": "The reading by computation; C55's simulation for the machine; C64 for the Go text.",
 "C67": "The text is read by computation; what is read agrees with RuneTools.v class by class, hence on every match; then C62.",
 "C68": "The lexer of GoLex.v against camel and cleaned of SpecTools.v by induction on the text; names and machine.go by computation; C45, C46 and C56 for the tools. Tokens, so comments (which snake2camel also rewrites) are outside it; general comments are read as tokens."
}