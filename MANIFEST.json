{
 "claims": [
  {
   "property": "C01",
   "status": "proved",
   "theorems": [
    "C01_layout",
    "C01_layout_cr",
    "C01_abutting_refuted"
   ],
   "note": "For every layout of items; the one excluded abutting case (word with an escaped newline before a separator) is refuted with a witness."
  },
  {
   "property": "C02",
   "status": "proved",
   "theorems": [
    "C02_carriage_returns",
    "C02_bytes_refuted"
   ],
   "note": "For every text of characters (valid UTF-8); for bytes that are not UTF-8 it is refuted with a witness."
  },
  {
   "property": "C03",
   "status": "proved",
   "theorems": [
    "C03_braces"
   ],
   "note": ""
  },
  {
   "property": "C04",
   "status": "proved",
   "theorems": [
    "C04_lua_refuted",
    "C04_lines"
   ],
   "note": ""
  },
  {
   "property": "C05",
   "status": "proved",
   "theorems": [
    "C05_prefix",
    "C05_no_deadlock",
    "C05_bounded",
    "C05_finishes",
    "C05_drained",
    "C05_determined"
   ],
   "note": "For every receiver, capacity and tree of forwarded channels; the runtime scheduler is an arbitrary choice of steps, what a goroutine sends is schedule-independent by construction of the model (SubScanner is used by one goroutine at a time)."
  },
  {
   "property": "C06",
   "status": "proved",
   "theorems": [
    "C06_shapes"
   ],
   "note": ""
  },
  {
   "property": "C07",
   "status": "proved",
   "theorems": [
    "C07_block",
    "C07_set",
    "C07_next",
    "C07_from",
    "C07_bytes_refuted",
    "C07_comment_refuted"
   ],
   "note": "For valid UTF-8 block contents; other bytes become U+FFFD (witness).  A variable directly followed by a newline is given the next line."
  },
  {
   "property": "C08",
   "status": "proved",
   "theorems": [
    "C08_class",
    "C08_plain",
    "C08_outside_refuted"
   ],
   "note": "The exact class, for quoted and unquoted results; members outside it as witnesses."
  },
  {
   "property": "C09",
   "status": "proved",
   "theorems": [
    "C09_round_trip",
    "C09_outside_refuted"
   ],
   "note": "For a decidable class of trees (names and arguments that survive quoting on one line, comments of one line, no two comments behind one statement, \"if\" with an unquoted first argument), any Indent >= 0, Tabs and Header, and every option set that accepts the tree; include directives only with SingleParseFile, no external builders or lexers.  Trees outside the class as witnesses."
  },
  {
   "property": "C10",
   "status": "partial",
   "theorems": [
    "C10_same_text_partial",
    "C10_second_text",
    "C10_refuted"
   ],
   "note": "Proved when comments that share a line stand behind \";\" or \"{\" and Header is not combined with kept comments; otherwise false (witnesses).  In the whole class of C09 the second built text is final (C10_second_text)."
  },
  {
   "property": "C11",
   "status": "proved",
   "theorems": [
    "C11_layout",
    "C11_tabs",
    "C11_spaces",
    "C11_negative_refuted"
   ],
   "note": "A negative Indent panics (witness theorem); int overflow of depth*Indent is not modelled."
  },
  {
   "property": "C12",
   "status": "proved",
   "theorems": [
    "C12_status_and_errors"
   ],
   "note": "Also for combined payloads, in the form that fits one merged config."
  },
  {
   "property": "C13",
   "status": "proved",
   "theorems": [
    "C13_stop_returns_first_error",
    "C13_stop_collect"
   ],
   "note": ""
  },
  {
   "property": "C14",
   "status": "proved",
   "theorems": [
    "C14_include_indices"
   ],
   "note": ""
  },
  {
   "property": "C15",
   "status": "proved",
   "theorems": [
    "C15_any_order",
    "C15_cycle_iff",
    "C15_edges"
   ],
   "note": "The algorithm for every graph and iteration order; at Parse level after all files were read; every edge of the graph comes from an include directive of a returned tree or from a file cut short by an error."
  },
  {
   "property": "C16",
   "status": "proved",
   "theorems": [
    "C16_combined",
    "C16_expansion_unique",
    "C16_succeeds",
    "C16_error",
    "C16_panic",
    "C16_endless",
    "C16_outcome_expands"
   ],
   "note": "Every payload: success, error, panic and not ending each characterised exactly; which of an error and a later panic of a goroutine left behind comes first is not modelled."
  },
  {
   "property": "C17",
   "status": "proved",
   "theorems": [
    "C17_combining_terminates"
   ],
   "note": ""
  },
  {
   "property": "C18",
   "status": "proved",
   "theorems": [
    "C18_ignore",
    "C18_ignore_single",
    "C18_ignore_outside_maps"
   ],
   "note": "Whole Parse for block paths of up to three names (beyond that finding 8 mixes contexts up); single files and single token lists without that condition."
  },
  {
   "property": "C19",
   "status": "proved",
   "theorems": [
    "C19_comments_only_added"
   ],
   "note": "For every option set, combined or not."
  },
  {
   "property": "C20",
   "status": "proved",
   "theorems": [
    "C20_validation_accepts_exactly",
    "C20_every_path",
    "C20_order_of_sources_irrelevant",
    "C20_order_of_masks_irrelevant",
    "C20_odd_block_names_refuted"
   ],
   "note": "Exact as stated for block names that are non-empty and contain no \">\"; outside that the code takes one path for another (refuted theorem), and C20_every_path says for which."
  },
  {
   "property": "C21",
   "status": "proved",
   "theorems": [
    "C21_map_body",
    "C21_children",
    "C21_map_entry_rule"
   ],
   "note": ""
  },
  {
   "property": "C22",
   "status": "partial",
   "theorems": [
    "C22_only_crash",
    "C22_if_arguments",
    "C22_if_arguments_crash_shape",
    "C22_no_crash_refuted"
   ],
   "note": "Result and crash shape proved exactly, and that Parse crashes in no other way; \"Parse must not crash\" itself is false (witness)."
  },
  {
   "property": "C23",
   "status": "proved",
   "theorems": [
    "C23_equal_is_same_tree",
    "C23_equal_refl",
    "C23_equal_sym",
    "C23_equal_trans"
   ],
   "note": ""
  },
  {
   "property": "C24",
   "status": "proved",
   "theorems": [
    "C24_sources_union",
    "C24_union_last_wins",
    "C24_union_domain",
    "C24_default_table"
   ],
   "note": ""
  },
  {
   "property": "C25",
   "status": "proved",
   "theorems": [
    "C25_shipped_entries",
    "C25_shipped_accepted"
   ],
   "note": "Finite domain: every entry of all shipped tables, by vm_compute lifted with forallb_forall."
  },
  {
   "property": "C26",
   "status": "proved",
   "theorems": [
    "C26_stop",
    "C26_distinct",
    "C26_operations",
    "C26_panic",
    "C26_nowhere",
    "C26_outside_refuted"
   ],
   "note": "For the ordered-operation file system of BuildIO.v: operations take effect in program order, a failed or interrupted Write leaves a prefix; paths are compared as strings (no links)."
  },
  {
   "property": "C27",
   "status": "proved",
   "theorems": [
    "C27_into",
    "C27_reset"
   ],
   "note": ""
  },
  {
   "property": "C28",
   "status": "partial",
   "theorems": [
    "C28_roundtrip",
    "C28_equal_partial",
    "C28_exact",
    "C28_build_partial",
    "C28_empty_refuted",
    "C28_bytes_refuted",
    "C28_deep_refuted"
   ],
   "note": "What comes back is proved exactly for every tree (C28_roundtrip).  The property holds for UTF-8 texts and blocks at most 5000 deep, and is false beyond (witnesses)."
  },
  {
   "property": "C29",
   "status": "proved",
   "theorems": [
    "C29_reading_terminates",
    "C29_parse_terminates"
   ],
   "note": ""
  },
  {
   "property": "C30",
   "status": "partial",
   "theorems": [
    "C30_reported_partial",
    "C30_refuted",
    "C30_lua_refuted"
   ],
   "note": "The statement is false: an unclosed block of an ignored directive and a text starting with \"{\" lose the error (witnesses).  Proved for every other content and option set; with external lexers if the tokens are orderly (an error only as last token, no brace behind a separator or closing nothing), which it is without them.  The error of the Lua lexer itself is lost in strict mode with its table (C30_lua_refuted)."
  },
  {
   "property": "C31",
   "status": "partial",
   "theorems": [
    "C31_context_is_path",
    "C31_contexts_partial",
    "C31_contexts_alike",
    "C31_contexts_refuted"
   ],
   "note": "Proved while include directives stand in at most three blocks; false from four on (witness), where the number of blocks and the outer three names are still right (C31_contexts_alike)."
  },
  {
   "property": "C32",
   "status": "partial",
   "theorems": [
    "C32_rejected_partial",
    "C32_rejected_block_refuted",
    "C32_odd_name_refuted"
   ],
   "note": "Proved for rejected statements ending with \";\" and for block-less directives given a block; false for other rejected blocks (witness)."
  },
  {
   "property": "C33",
   "status": "partial",
   "theorems": [
    "C33_reported_partial",
    "C33_tables",
    "C33_statement",
    "C33_refuted"
   ],
   "note": "The statement is false without strict mode, with skipped or ignored statements, and inside num_map even with all checks on (witnesses).  Proved with all checks on for every table whose blocks lead to contexts; all shipped tables are checked (C33_tables)."
  },
  {
   "property": "C34",
   "status": "proved",
   "theorems": [
    "C34_single_file",
    "C34_opens"
   ],
   "note": ""
  },
  {
   "property": "C35",
   "status": "proved",
   "theorems": [
    "C35_labels",
    "C35_before_combination"
   ],
   "note": ""
  },
  {
   "property": "C36",
   "status": "proved",
   "theorems": [
    "C36_lexers",
    "C36_builders",
    "C36_lex_same",
    "C36_build_same",
    "C36_build_untouched",
    "C36_build_used"
   ],
   "note": ""
  },
  {
   "property": "C37",
   "status": "partial",
   "theorems": [
    "C37_untouched_partial",
    "C37_arguments_partial",
    "C37_invoked_partial",
    "C37_prefix_refuted",
    "C37_argument_refuted",
    "C37_line_end_refuted",
    "C37_quoted_name_refuted",
    "C37_brace_refuted"
   ],
   "note": "The statement is false: a registered name that only starts a directive name, an argument at the start of a continuation line, at the end of a line or behind a quoted directive name, and a name directly before a brace misfire (witnesses).  Proved: texts where registered names start no token, or only arguments between other tokens of a line, are lexed as without external lexers; directive names followed by white space are handed over."
  },
  {
   "property": "C38",
   "status": "proved",
   "theorems": [
    "C38_block",
    "C38_set"
   ],
   "note": ""
  },
  {
   "property": "C39",
   "status": "proved",
   "theorems": [
    "C39_map",
    "C39_errors",
    "C39_order"
   ],
   "note": "Source texts are turned into definitions by the model of the regular expressions; what they read is C44."
  },
  {
   "property": "C40",
   "status": "proved",
   "theorems": [
    "C40_reads",
    "C40_colon",
    "C40_name",
    "C40_definition",
    "C40_mask",
    "C40_last"
   ],
   "note": ""
  },
  {
   "property": "C41",
   "status": "partial",
   "theorems": [
    "C41_drained_partial",
    "C41_unread",
    "C41_criterion_partial",
    "C41_rests",
    "C41_refuted",
    "C41_brace_refuted"
   ],
   "note": "The statement is false (two witnesses: StopParsingOnError, and a rejected block at top level).  Proved: the exact criterion, all goroutines return if and only if the unread tokens fit the buffer; and none is left once the end was seen."
  },
  {
   "property": "C42",
   "status": "proved",
   "theorems": [
    "C42_opens_reachable",
    "C42_reads_reported"
   ],
   "note": ""
  },
  {
   "property": "C43",
   "status": "proved",
   "theorems": [
    "C43_reuse",
    "C43_files",
    "C43_added_refuted"
   ],
   "note": "Builders added to a used options value are ignored by Build (witness theorem)."
  },
  {
   "property": "C44",
   "status": "partial",
   "theorems": [
    "C44_comments_partial",
    "C44_tables_partial",
    "C44_constants_partial",
    "C44_take7_refuted",
    "C44_url_refuted",
    "C44_adjacent_refuted",
    "C44_newline_refuted"
   ],
   "note": "Every mask name written is a constant of the package except ngxConfTake7 (witness).  Tables: proved for texts whose block comments contain no \"//\" and are not directly followed by a comment, and tables whose type name is followed by a blank; false otherwise (witnesses)."
  },
  {
   "property": "C45",
   "status": "partial",
   "theorems": [
    "C45_literal_partial",
    "C45_escape",
    "C45_shown",
    "C45_file",
    "C45_comment_refuted"
   ],
   "note": "Proved for names without the seven characters html/template escapes (exactly the texts escaping leaves alone); false otherwise (witness).  The whole file is described for all names and comments, with these characters replaced (C45_shown, C45_file)."
  },
  {
   "property": "C46",
   "status": "proved",
   "theorems": [
    "C46_payload",
    "C46_errors_refuted"
   ],
   "note": "encoding/json is modelled (text, escapes, nesting limit); not modelled: keys matched up to case, repeated keys, numbers beyond int."
  },
  {
   "property": "C47",
   "status": "proved",
   "theorems": [
    "C47_result",
    "C47_no_deadlock",
    "C47_bounded",
    "C47_error_refuted",
    "C47_own_error"
   ],
   "note": "When Combined fails on a bad index inside an included file, a goroutine stays blocked for ever (witness theorem); when the bad index is in the tree of the first file itself, none is left (C47_own_error)."
  },
  {
   "property": "C48",
   "status": "proved",
   "theorems": [
    "C48_words",
    "C48_lines"
   ],
   "note": "Lines within the file for option sets without external lexers."
  },
  {
   "property": "C49",
   "status": "partial",
   "theorems": [
    "C49_registered_partial",
    "C49_accepted",
    "C49_known",
    "C49_refuted"
   ],
   "note": "False for precontent_by_lua_block, proxy_ssl_certificate_by_lua_block and proxy_ssl_verify_by_lua_block, whose code is read as nginx statements (witness); proved for all other entries."
  },
  {
   "property": "C50",
   "status": "partial",
   "theorems": [
    "C50_reported_partial",
    "C50_refuted"
   ],
   "note": "False for texts that start with \"{\" (witness); proved for all others; with external lexers if the tokens are orderly, as in C30."
  },
  {
   "property": "C51",
   "status": "proved",
   "theorems": [
    "C51_pages",
    "C51_loop",
    "C51_combined"
   ],
   "note": "The whole payload is determined (payload_of).  Outside the class: rejected statements with a block for which the complaint is not the missing semicolon (C32), statements ended by \"}\" (C50), names with \">\" in paths and deeper include paths (C31), the crash of C22."
  },
  {
   "property": "C52",
   "status": "proved",
   "theorems": [
    "C52_configs",
    "C52_payload",
    "C52_lines",
    "C52_returned",
    "C52_text"
   ],
   "note": ""
  },
  {
   "property": "C53",
   "status": "proved",
   "theorems": [
    "C53_statement",
    "C53_every_path",
    "C53_entry",
    "C53_rejected",
    "C53_one"
   ],
   "note": "C53_every_path covers block names with \">\" too; d_block = None is how the parser calls it."
  },
  {
   "property": "C54",
   "status": "proved",
   "theorems": [
    "C54_total",
    "C54_exact"
   ],
   "note": ""
  },
  {
   "property": "C55",
   "status": "proved",
   "theorems": [
    "C55_follows",
    "C55_exact",
    "C55_one",
    "C55_total"
   ],
   "note": "Files included from more than three blocks down are read in a path of which only the length and the outer three names are fixed (C31).  Runs that never end (a file system with infinitely many files) are outside."
  },
  {
   "property": "C56",
   "status": "proved",
   "theorems": [
    "C56_enquote",
    "C56_alone",
    "C56_text",
    "C56_panics"
   ],
   "note": "int overflow of depth*Indent is not modelled."
  },
  {
   "property": "C57",
   "status": "proved",
   "theorems": [
    "C57_exact"
   ],
   "note": "External lexers are functions of the name, the line and the characters that follow; what they do concurrently is C05."
  },
  {
   "property": "C58",
   "status": "proved",
   "theorems": [
    "C58_names",
    "C58_exact"
   ],
   "note": "Errors of the reader under the scanner are not modelled; the case unexpected \"}\" of lua.go:131-135 is never reached."
  },
  {
   "property": "C59",
   "status": "proved",
   "theorems": [
    "C59_decode",
    "C59_bad",
    "C59_chars",
    "C59_last",
    "C59_texts",
    "C59_encode",
    "C59_encode_other",
    "C59_space"
   ],
   "note": "unicode/utf8, bufio.ScanRunes and unicode.IsSpace themselves are not in /repo; the model follows their documentation."
  },
  {
   "property": "C60",
   "status": "proved",
   "theorems": [
    "C60_prefix",
    "C60_suffix",
    "C60_trim_prefix",
    "C60_trim_suffix",
    "C60_trim_space",
    "C60_replace",
    "C60_split",
    "C60_join",
    "C60_cut",
    "C60_contains_any",
    "C60_lower",
    "C60_repeat",
    "C60_sort",
    "C60_itoa",
    "C60_abs",
    "C60_clean",
    "C60_join_path",
    "C60_dir",
    "C60_set",
    "C60_found",
    "C60_value",
    "C60_member"
   ],
   "note": "ToLower on ASCII letters only; ReplaceAll for a non-empty old string; Split and Cut for one-byte separators, as the code calls them."
  },
  {
   "property": "C61",
   "status": "proved",
   "theorems": [
    "C61_tables",
    "C61_commands",
    "C61_line_comments",
    "C61_block_comments",
    "C61_pairs"
   ],
   "note": "The expressions are matched byte by byte: their literals are ASCII, so this is the same as rune by rune.  The patterns are data of the specification; C61_written shows them as the Go texts."
  },
  {
   "property": "C62",
   "status": "proved",
   "theorems": [
    "C62_json",
    "C62_one",
    "C62_rejected",
    "C62_string",
    "C62_number"
   ],
   "note": "The rest of encoding/json - how values become Directives, Payloads and configurations - is in C28, C46 and C63."
  },
  {
   "property": "C63",
   "status": "proved",
   "theorems": [
    "C63_flags",
    "C63_accepts",
    "C63_flag_errors",
    "C63_config",
    "C63_config_accepts",
    "C63_program"
   ],
   "note": "The texts of messages and of the usage are not modelled.  Maps are compared by what they contain.  Tags contain no letter with a non-ASCII case variant, so lower case of ASCII letters is enough."
  },
  {
   "property": "C64",
   "status": "proved",
   "theorems": [
    "C64_format",
    "C64_files",
    "C64_again",
    "C64_files_again",
    "C64_shipped"
   ],
   "note": "Without external lexers and builders (for Lua: C69) and without CombineConfigs.  The table in use leaves the number of arguments of \"if\" open (C64_shipped: all shipped tables do).  The classes (SpecFormat.formattable, on_line for the second time) are as in C09 and C10; examples show what happens outside."
  },
  {
   "property": "C65",
   "status": "proved",
   "theorems": [
    "C65_flatten",
    "C65_two_homes_refuted",
    "C65_same_line_refuted"
   ],
   "note": "Without external lexers and builders (for Lua: C69).  The exceptions are needed: C65_two_homes_refuted, C65_same_line_refuted."
  },
  {
   "property": "C66",
   "status": "proved",
   "theorems": [
    "C66_inline",
    "C66_exists"
   ],
   "note": "The statements of the pasted text are given as tokens that differ from the originals in lines only; C67 says how such tokens come about when texts are put together."
  },
  {
   "property": "C67",
   "status": "proved",
   "theorems": [
    "C67_join",
    "C67_insert",
    "C67_lone_refuted",
    "C67_open_refuted"
   ],
   "note": "Without external lexers, for these see C58.  The exceptions are needed: C67_lone_refuted, C67_open_refuted."
  },
  {
   "property": "C68",
   "status": "proved",
   "theorems": [
    "C68_round_trip",
    "C68_same_text",
    "C68_outside_refuted"
   ],
   "note": "Outside the conditions: C68_outside_refuted; a comment moved by a Lua block: C68_moves.  That arguments do not begin with the name of a Lua directive is sufficient, not necessary: most such arguments are read as written."
  },
  {
   "property": "C69",
   "status": "proved",
   "theorems": [
    "C69_flatten",
    "C69_format",
    "C69_files",
    "C69_no_builder_refuted"
   ],
   "note": "The external lexers and builders are exactly the Lua ones.  Without the builder: C69_no_builder_refuted."
  },
  {
   "property": "C70",
   "status": "proved",
   "theorems": [
    "C70_total",
    "C70_scan",
    "C70_tokens",
    "C70_reported_refuted"
   ],
   "note": "bufio.Scanner and ScanRunes are modelled (Reader.v); readers that return impossible counts are not.  That an error of the reader is not reported: C70_reported_refuted (finding 45)."
  },
  {
   "property": "C71",
   "status": "proved",
   "theorems": [
    "C71_looser",
    "C71_switches",
    "C71_tables_refuted",
    "C71_fewer_refuted"
   ],
   "note": "More tables can reject what was unknown before if unknown directives are let through (C71_tables_refuted); where there are errors, fewer checks can mean more errors (C71_fewer_refuted)."
  },
  {
   "property": "C72",
   "status": "proved",
   "theorems": [
    "C72_elsewhere"
   ],
   "note": "Names of files are compared as strings; links are not modelled."
  },
  {
   "property": "C73",
   "status": "proved",
   "theorems": [
    "C73_annotates"
   ],
   "note": "The callback is a function: what it does besides is not modelled."
  },
  {
   "property": "C74",
   "status": "proved",
   "theorems": [
    "C74_directive",
    "C74_payload",
    "C74_safe",
    "C74_safe_payload"
   ],
   "note": "Nil and empty slices are told apart only in that both null and [] are possible for empty ones.  encoding/json as of Go 1.22."
  },
  {
   "property": "C75",
   "status": "proved",
   "theorems": [
    "C75_statement",
    "C75_upgrade",
    "C75_given_up_refuted",
    "C75_lenient_refuted"
   ],
   "note": "Two names a later table has given up are taken out of the earlier one (C75_given_up_refuted).  Without ErrorOnUnknownDirectives it is false: a newer table can restrict what was unknown (C75_lenient_refuted)."
  },
  {
   "property": "C76",
   "status": "proved",
   "theorems": [
    "C76_answer",
    "C76_returns",
    "C76_self",
    "C76_trees",
    "C76_cycles_refuted"
   ],
   "note": "Two directives that both contain themselves can make it run for ever (C76_cycles_refuted)."
  },
  {
   "property": "C77",
   "status": "proved",
   "theorems": [
    "C77_directive",
    "C77_payload",
    "C77_same"
   ],
   "note": "For texts in which no object has two keys that are equal up to case, or a key that is the name of a field only up to case; numbers of any size; nil elements of blocks and nil errors are outside the model."
  },
  {
   "property": "C78",
   "status": "proved",
   "theorems": [
    "C78_tokens",
    "C78_parse",
    "C78_texts",
    "C78_special_refuted"
   ],
   "note": "Line numbers in error messages: one message ends with the line of its error, all others are equal.  What a callback says about an error may differ."
  },
  {
   "property": "C79",
   "status": "proved",
   "theorems": [
    "C79_text",
    "C79_files",
    "C79_format",
    "C79_lua",
    "C79_empty_refuted"
   ],
   "note": "Blocks nest at most 4998 deep, texts are UTF-8; exactly the empty blocks that are written are lost (finding 13)."
  },
  {
   "property": "C80",
   "status": "proved",
   "theorems": [
    "C80_parse",
    "C80_moved",
    "C80_absolute_refuted"
   ],
   "note": "What the operating system says of a file is related by any relation; what a callback says about an error may differ.  Absolute includes into the directory do not survive (C80_absolute_refuted)."
  },
  {
   "property": "C81",
   "status": "proved",
   "theorems": [
    "C81_same",
    "C81_closed",
    "C81_opened",
    "C81_all_open",
    "C81_combined_open"
   ],
   "note": "Whether the goroutine of the lexer still reads when a file is closed is the matter of C41.  Errors of Close are not modelled; Parse ignores them."
  },
  {
   "property": "C82",
   "status": "proved",
   "theorems": [
    "C82_calls",
    "C82_strings",
    "C82_left_open_refuted"
   ],
   "note": "A writer stays open if writing to it fails (C82_left_open_refuted).  Creators that panic are not modelled."
  },
  {
   "property": "C83",
   "status": "proved",
   "theorems": [
    "C83_again",
    "C83_parse",
    "C83_fixed",
    "C83_expanded"
   ],
   "note": "Slices that are nil and slices that are empty are the same list here, except Block and Includes."
  },
  {
   "property": "C84",
   "status": "proved",
   "theorems": [
    "C84_renumbered",
    "C84_reordered",
    "C84_appended"
   ],
   "note": "Only results without an error: the text of an error shows the number."
  },
  {
   "property": "C85",
   "status": "proved",
   "theorems": [
    "C85_sources",
    "C85_tables",
    "C85_rejected_refuted"
   ],
   "note": "Payloads with errors can differ in the messages and, because Parse looks at the message, in the statements that follow (C85_rejected_refuted)."
  },
  {
   "property": "C86",
   "status": "proved",
   "theorems": [
    "C86_tokens",
    "C86_parse",
    "C86_only_tokens",
    "C86_outside_refuted"
   ],
   "note": "Trees with comments no text has can be read differently (C86_outside_refuted)."
  },
  {
   "property": "C87",
   "status": "proved",
   "theorems": [
    "C87_asked",
    "C87_ignore_set",
    "C87_ignore_absent"
   ],
   "note": ""
  },
  {
   "property": "C88",
   "status": "proved",
   "theorems": [
    "C88_lex",
    "C88_map",
    "C88_parse"
   ],
   "note": "A name that begins another word is itself a token then (C37), so such names are not left out."
  }
 ]
}