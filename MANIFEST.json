{
 "claims": [
  {
   "property": "C01",
   "status": "proved",
   "theorems": [
    "C01_parse_returns",
    "C01_Parse_returns"
   ],
   "note": "All machines of the API (any option values, any history), all inputs."
  },
  {
   "property": "C02",
   "status": "proved",
   "theorems": [
    "C02_linear_steps"
   ],
   "note": "Steps of the goto program (one label transfer each), bound 4*len+16."
  },
  {
   "property": "C03",
   "status": "proved",
   "theorems": [
    "C03_buffer_restored"
   ],
   "note": ""
  },
  {
   "property": "C04",
   "status": "proved",
   "theorems": [
    "C04_reuse",
    "C04_mode_decides",
    "C04_error"
   ],
   "note": ""
  },
  {
   "property": "C05",
   "status": "proved",
   "theorems": [
    "C05_language",
    "C05_documented_refuted"
   ],
   "note": "Documented language refuted (inputs hit by the look-ahead are rejected); the accepted language is characterised exactly."
  },
  {
   "property": "C06",
   "status": "proved",
   "theorems": [
    "C06_parts",
    "C06_unique"
   ],
   "note": ""
  },
  {
   "property": "C07",
   "status": "proved",
   "theorems": [
    "C07_language"
   ],
   "note": ""
  },
  {
   "property": "C08",
   "status": "proved",
   "theorems": [
    "C08_parts",
    "C08_unique"
   ],
   "note": ""
  },
  {
   "property": "C09",
   "status": "proved",
   "theorems": [
    "C09_language"
   ],
   "note": ""
  },
  {
   "property": "C10",
   "status": "proved",
   "theorems": [
    "C10_parts",
    "C10_unique"
   ],
   "note": ""
  },
  {
   "property": "C11",
   "status": "proved",
   "theorems": [
    "C11_2141_scim",
    "C11_Parse_ok",
    "C11_never_both",
    "C11_8141_refuted",
    "C11_8141_silent"
   ],
   "note": "Holds for RFC 2141 and SCIM modes; refuted for RFC 8141 mode, with the exact set of inputs answered nil, nil."
  },
  {
   "property": "C12",
   "status": "proved",
   "theorems": [
    "C12_kind",
    "C12_any_value",
    "C12_normalized"
   ],
   "note": ""
  },
  {
   "property": "C13",
   "status": "proved",
   "theorems": [
    "C13_string"
   ],
   "note": ""
  },
  {
   "property": "C14",
   "status": "proved",
   "theorems": [
    "C14_string_refuted",
    "C14_string_is",
    "C14_string_iff"
   ],
   "note": "Refuted; the exact output of String and the exact condition for equality with the input are proved."
  },
  {
   "property": "C15",
   "status": "proved",
   "theorems": [
    "C15_reparse"
   ],
   "note": ""
  },
  {
   "property": "C16",
   "status": "proved",
   "theorems": [
    "C16_norm"
   ],
   "note": ""
  },
  {
   "property": "C17",
   "status": "proved",
   "theorems": [
    "C17_normal_form",
    "C17_normal_text"
   ],
   "note": ""
  },
  {
   "property": "C18",
   "status": "proved",
   "theorems": [
    "C18_idempotent_refuted",
    "C18_always_fails"
   ],
   "note": "Refuted; fails for every parsed URN."
  },
  {
   "property": "C19",
   "status": "proved",
   "theorems": [
    "C19_equivalence"
   ],
   "note": ""
  },
  {
   "property": "C20",
   "status": "proved",
   "theorems": [
    "C20_lexical",
    "C20_across_modes_refuted",
    "C20_across_modes_never"
   ],
   "note": "Proved inside SCIM mode and among RFC 2141 / RFC 8141 modes; across SCIM and the others refuted."
  },
  {
   "property": "C21",
   "status": "proved",
   "theorems": [
    "C21_components_ignored"
   ],
   "note": ""
  },
  {
   "property": "C22",
   "status": "proved",
   "theorems": [
    "C22_handbuilt_refuted",
    "C22_handbuilt_is",
    "C22_handbuilt_ascii"
   ],
   "note": "Refuted; Equal of hand-built values compares the IDs only (for ASCII IDs: up to the case of A-Z)."
  },
  {
   "property": "C23",
   "status": "proved",
   "theorems": [
    "C23_string"
   ],
   "note": ""
  },
  {
   "property": "C24",
   "status": "proved",
   "theorems": [
    "C24_column_2141",
    "C24_column_scim",
    "C24_column_8141",
    "C24_lookahead_refuted"
   ],
   "note": "All three modes. The exceptions (look-ahead error at column 7, 'SCIM other part incomplete' and the informal-namespace error one byte early, a repeated component opener reported behind it) are described exactly; that the look-ahead error sits at the first offending byte is refuted."
  },
  {
   "property": "C25",
   "status": "proved",
   "theorems": [
    "C25_errors_2141",
    "C25_errors_scim",
    "C25_errors_8141",
    "C25_errors_walk",
    "C25_column_bounds"
   ],
   "note": "All three modes: errors characterised by specifications on texts (SpecErr.v, SpecErr8.v); odd modes: by the reference walk; column bounds in all modes."
  },
  {
   "property": "C26",
   "status": "proved",
   "theorems": [
    "C26_last_option_wins",
    "C26_no_option",
    "C26_method",
    "C26_default_refuted",
    "C26_default_is_nil",
    "C26_inside_option"
   ],
   "note": "Mode selection proved; WithParsingMode(Default) being the default is refuted."
  },
  {
   "property": "C27",
   "status": "proved",
   "theorems": [
    "C27_roundtrip",
    "C27_any_value"
   ],
   "note": "Holds for all parsed URNs, all receivers, both Go variants of json.Marshal; for arbitrary URN values the result is the parse of String() or an error. encoding/json is modelled (trusted)."
  },
  {
   "property": "C28",
   "status": "proved",
   "theorems": [
    "C28_roundtrip",
    "C28_nil_refuted",
    "C28_nil_iff"
   ],
   "note": "Round trip proved; absence of a nil *URN refuted, with the exact set of inputs that cause it."
  },
  {
   "property": "C29",
   "status": "proved",
   "theorems": [
    "C29_roundtrip",
    "C29_parsed"
   ],
   "note": "Proved for parsed SCIM values and for every well-formed SCIM value. The unexported pos field is recomputed."
  },
  {
   "property": "C30",
   "status": "proved",
   "theorems": [
    "C30_URN",
    "C30_SCIM",
    "C30_URN8141",
    "C30_URN8141_refuted",
    "C30_null"
   ],
   "note": "Proved for URN and SCIM; refuted for URN8141 (silently rejected strings are a success), exact behaviour proved."
  },
  {
   "property": "C31",
   "status": "proved",
   "theorems": [
    "C31_types"
   ],
   "note": ""
  },
  {
   "property": "C32",
   "status": "proved",
   "theorems": [
    "C32_string",
    "C32_reparse"
   ],
   "note": ""
  },
  {
   "property": "C33",
   "status": "proved",
   "theorems": [
    "C33_scim_in_2141",
    "C33_scim_in_8141",
    "C33_2141_in_8141",
    "C33_8141_in_2141"
   ],
   "note": "Inclusions in both directions."
  },
  {
   "property": "C34",
   "status": "proved",
   "theorems": [
    "C34_escapes",
    "C34_hex_refuted"
   ],
   "note": "Two alphanumerics after every percent sign proved; hexadecimal digits refuted."
  },
  {
   "property": "C35",
   "status": "proved",
   "theorems": [
    "C35_safe",
    "C35_finish",
    "C35_serial",
    "C35_serial_finish",
    "C35_iff",
    "C35_disturbed",
    "C35_refuted",
    "C35_corrupt_refuted"
   ],
   "note": "Refuted in general (wrong result; corrupted slice); proved for any number of calls when no escape before '?'/'#' is upper case, and shown to be exactly the condition for accepted texts; calls that do not overlap are safe for every text, and finish. Sequentially consistent memory, one shared byte access per step."
  },
  {
   "property": "C36",
   "status": "proved",
   "theorems": [
    "C36_characters"
   ],
   "note": ""
  },
  {
   "property": "C37",
   "status": "proved",
   "theorems": [
    "C37_linear_2141",
    "C37_linear_scim",
    "C37_bound",
    "C37_quadratic_refuted",
    "C37_exact_2141",
    "C37_exact_scim",
    "C37_exact_8141"
   ],
   "note": "Linear bounds proved for RFC 2141 and SCIM modes, refuted for RFC 8141 mode (quadratic family of accepted inputs), general bound with the number of '?' proved. Cost = bytes moved by the copying statements of machine.go, append counted as 1. For every accepted text the exact number is proved as a function of the parts of the text."
  },
  {
   "property": "C38",
   "status": "proved",
   "theorems": [
    "C38_text",
    "C38_text_tells",
    "C38_json",
    "C38_sentences_refuted"
   ],
   "note": "Text of every error and injectivity proved; JSON error texts proved; that the sentences describe the real rules is refuted in two places."
  },
  {
   "property": "C39",
   "status": "proved",
   "theorems": [
    "C39_final",
    "C39_final_short",
    "C39_final_refuted"
   ],
   "note": "Proved with the two stated conditions, both shown necessary by witnesses."
  },
  {
   "property": "C40",
   "status": "proved",
   "theorems": [
    "C40_case_blind",
    "C40_scim_prefix",
    "C40_scim_refuted"
   ],
   "note": "Proved for RFC 2141 and RFC 8141 modes and for the prefix in SCIM mode; refuted for the SCIM namespace."
  },
  {
   "property": "C41",
   "status": "proved",
   "theorems": [
    "C41_canonical",
    "C41_across_refuted"
   ],
   "note": "Proved for modes both or neither SCIM; refuted across."
  },
  {
   "property": "C42",
   "status": "proved",
   "theorems": [
    "C42_urn",
    "C42_scim",
    "C42_8141",
    "C42_8141_refuted"
   ],
   "note": "Equivalences for RFC 2141 and SCIM modes; inclusion and conditional converse for RFC 8141 mode, unconditional converse refuted. Here the expressions are languages, without the priorities of <: and :>> and without actions; C55 has both."
  },
  {
   "property": "C43",
   "status": "proved",
   "theorems": [
    "C43_accepted_valid",
    "C43_valid_accepted",
    "C43_valid_refuted",
    "C43_scim",
    "C43_scim_refuted"
   ],
   "note": "Both inclusions with exact conditions; unconditional conformance refuted in both directions."
  },
  {
   "property": "C44",
   "status": "proved",
   "theorems": [
    "C44_accepted_valid",
    "C44_valid_accepted",
    "C44_valid_refuted"
   ],
   "note": "Both inclusions with stated conditions; unconditional conformance refuted in both directions."
  },
  {
   "property": "C45",
   "status": "proved",
   "theorems": [
    "C45_result",
    "C45_fixed",
    "C45_done",
    "C45_letters",
    "C45_names_apart_refuted",
    "C45_literals_refuted"
   ],
   "note": "Proved for all byte strings; two expectations refuted by witness."
  },
  {
   "property": "C46",
   "status": "proved",
   "theorems": [
    "C46_result",
    "C46_ends",
    "C46_fixed",
    "C46_done",
    "C46_code",
    "C46_blank_kept_refuted",
    "C46_comments_kept_refuted"
   ],
   "note": "Proved for all byte strings; two expectations refuted by witness."
  },
  {
   "property": "C47",
   "status": "proved",
   "theorems": [
    "C47_serial",
    "C47_finish",
    "C47_overlap_refuted",
    "C47_no_panic_refuted",
    "C47_own_text_refuted"
   ],
   "note": "Proved for calls that do not overlap, with termination; refuted, with schedules for every text, when they do."
  },
  {
   "property": "C48",
   "status": "proved",
   "theorems": [
    "C48_panics",
    "C48_unmarshal",
    "C48_scim",
    "C48_8141_refuted",
    "C48_8141_safe"
   ],
   "note": "Proved for all programs; the safety of a non-nil *URN8141 is refuted and proved under the condition that no nil was stored."
  },
  {
   "property": "C49",
   "status": "proved",
   "theorems": [
    "C49_looks",
    "C49_writes",
    "C49_error",
    "C49_fresh",
    "C49_unmarshal",
    "C49_shows",
    "C49_answers",
    "C49_effects",
    "C49_parse"
   ],
   "note": "Proved for all programs."
  },
  {
   "property": "C50",
   "status": "proved",
   "theorems": [
    "C50_apart",
    "C50_isolated",
    "C50_copy_refuted"
   ],
   "note": "Proved for programs without struct copies; refuted with one."
  },
  {
   "property": "C51",
   "status": "proved",
   "theorems": [
    "C51_origin",
    "C51_scim_text",
    "C51_fields_refuted"
   ],
   "note": "Proved for programs without field assignments; refuted with one."
  },
  {
   "property": "C52",
   "status": "proved",
   "theorems": [
    "C52_cases",
    "C52_never",
    "C52_scim",
    "C52_rfc2141",
    "C52_rfc8141",
    "C52_same_refuted"
   ],
   "note": "Proved for every reachable machine; that an unlisted mode leaves the mode before it unchanged is refuted."
  },
  {
   "property": "C53",
   "status": "proved",
   "theorems": [
    "C53_decode",
    "C53_unique",
    "C53_URN",
    "C53_URN8141",
    "C53_SCIM",
    "C53_encode",
    "C53_encode_scim",
    "C53_back",
    "C53_back_refuted"
   ],
   "note": "Proved against an independent grammar of JSON strings and UTF-8; exact give-back refuted for strings that are not UTF-8."
  },
  {
   "property": "C54",
   "status": "proved",
   "theorems": [
    "C54_error",
    "C54_parse",
    "C54_histories"
   ],
   "note": "Proved for all programs."
  },
  {
   "property": "C55",
   "status": "proved",
   "theorems": [
    "C55_ragel",
    "C55_modes",
    "C55_blocks"
   ],
   "note": "Proved for every reachable machine; the reading of ragel's operators and action order is trusted (RagelSem.v)."
  },
  {
   "property": "C56",
   "status": "proved",
   "theorems": [
    "C56_status",
    "C56_success",
    "C56_failure",
    "C56_text_kept_on_failure_refuted",
    "C56_order",
    "C56_recipe"
   ],
   "note": "Proved for all answers of the system; that a failing run keeps the text of the file is refuted."
  },
  {
   "property": "C57",
   "status": "proved",
   "theorems": [
    "C57_calls",
    "C57_states",
    "C57_ends",
    "C57_dead_states",
    "C57_labels",
    "C57_blocks",
    "C57_branches",
    "C57_branches_any",
    "C57_places"
   ],
   "note": "Proved in both directions: witnesses for what is executed, an invariant for what is not."
  },
  {
   "property": "C58",
   "status": "proved",
   "theorems": [
    "C58_behaves",
    "C58_error",
    "C58_inside",
    "C58_panics",
    "C58_parse",
    "C58_modes"
   ],
   "note": "Proved; options that do not return are left out."
  },
  {
   "property": "C59",
   "status": "proved",
   "theorems": [
    "C59_append_2141",
    "C59_append_refuted",
    "C59_cut_2141",
    "C59_append_scim",
    "C59_append_bare",
    "C59_append_hash",
    "C59_append_fragment",
    "C59_append_q",
    "C59_append_r",
    "C59_r_refuted",
    "C59_cut_8141"
   ],
   "note": "Proved as equivalences for each shape of text; the two exceptions are refutations with witnesses."
  },
  {
   "property": "C60",
   "status": "proved",
   "theorems": [
    "C60_machine",
    "C60_Parse",
    "C60_lookahead"
   ],
   "note": "Proved for every width and every spare capacity."
  },
  {
   "property": "C61",
   "status": "proved",
   "theorems": [
    "C61_drawing",
    "C61_modes",
    "C61_8141_refuted",
    "C61_text"
   ],
   "note": "Proved for the RFC 2141 and SCIM parts, with the three unnamed actions of the drawing read as jumps to its entry points; refuted for RFC 8141 (stale drawing)."
  },
  {
   "property": "C62",
   "status": "proved",
   "theorems": [
    "C62_decode",
    "C62_same",
    "C62_snake2camel",
    "C62_removecomments",
    "C62_valid"
   ],
   "note": "Proved. Matching by runes is package regexp's documented behaviour; the two loops around it (allMatches, replaceAll) are written as in its source."
  },
  {
   "property": "C63",
   "status": "proved",
   "theorems": [
    "C63_2141",
    "C63_scim",
    "C63_8141",
    "C63_used"
   ],
   "note": "Proved in both directions. The columns show that a NID may have 32 characters although the message errIdentifier says 1..31."
  },
  {
   "property": "C64",
   "status": "proved",
   "theorems": [
    "C64_files",
    "C64_parse"
   ],
   "note": "Proved by simulation: every label of Parse against the block of MachineTables.v, every state's switch against its row."
  },
  {
   "property": "C65",
   "status": "proved",
   "theorems": [
    "C65_operations",
    "C65_programs",
    "C65_callable"
   ],
   "note": "One theorem per operation, by running its statements one at a time; Parse through C64."
  },
  {
   "property": "C66",
   "status": "proved",
   "theorems": [
    "C66_read",
    "C66_actions",
    "C66_parse",
    "C66_texts",
    "C66_go"
   ],
   "note": "The reading by computation; C55's simulation for the machine; C64 for the Go text."
  },
  {
   "property": "C67",
   "status": "proved",
   "theorems": [
    "C67_snake2camel",
    "C67_removecomments"
   ],
   "note": "The text is read by computation; what is read agrees with RuneTools.v class by class, hence on every match; then C62."
  },
  {
   "property": "C68",
   "status": "proved",
   "theorems": [
    "C68_renames",
    "C68_comments",
    "C68_recipe",
    "C68_names",
    "C68_text",
    "C68_committed"
   ],
   "note": "The lexer of GoLex.v against camel and cleaned of SpecTools.v by induction on the text; names and machine.go by computation; C45, C46 and C56 for the tools. Tokens, so comments (which snake2camel also rewrites) are outside it; general comments are read as tokens."
  }
 ]
}