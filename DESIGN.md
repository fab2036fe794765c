# Formal model of nginx-go-crossplane in Coq 8.16

## 1. Approach

The model is a set of total, computable Gallina functions, one per Go function, over byte strings
(`Coq.Strings.String.string`, one `ascii` per byte, exactly Go's `string`), `Z` for Go `int`, `N` for
`uint`/`rune`, `option` for nil-able values, lists for slices, association lists for maps, explicit error and
panic results.  Loops with data-dependent length are structural recursions on the input, or use fuel with a
distinct out-of-fuel result that the theorems exclude.  External behaviour (file system, glob, MatchFuncs,
external lexers/builders, error callback, `strconv.IsPrint` above ASCII) is a function argument over which every
theorem quantifies.

Layers (`rocq/theories`):

| file | models |
|---|---|
| GoStr.v | Go strings/runes: UTF-8 decoding, bufio.ScanRunes, unicode.IsSpace, strings.*, strconv.Quote, Itoa |
| GoPath.v | path/filepath (Unix): Clean, Join, Dir, IsAbs |
| Types.v | types.go, errors.go: Directive, Payload, Config, ParseError, Equal, String |
| Lex.v | lex.go: tokenize as a state machine over scanned runes |
| Lua.v | lua.go: Lua lexer and builder |
| Analyze.v | analyze.go, analyze_map.go, validExpr/validFlag |
| Tables*.v | directive tables, generated by tools/gen_tables.py from the .go files |
| Parse.v, Main.v | parse.go: parser.parse, Parse, isAcyclic; slice aliasing of block contexts explicit |
| Handles.v | parse.go: the files Parse opens and closes, deferred calls |
| Combine.v | util.go: combineConfigs, performIncludes, run sequentially |
| Build.v | build.go: Build, Enquote and helpers |
| BuildIO.v | build.go, buffer.go: BuildFiles, BuildInto, StringsCreator, option state |
| Creators.v | build.go: BuildInto with any Creator |
| Json.v | struct tags and encoding/json, text in both directions |
| Chan.v | goroutines and bounded channels as a transition system |
| Gen.v | internal/generator, cmd/generate |
| Fixtures.v, GenFixtures.v | tests of the model on the repository's own test data (not proofs of properties) |
| Spec*.v | small independent specifications used in theorem statements |
| Properties*.v | property theorems only, each with Print Assumptions and concrete cases |
| all others | proofs |

## 2. Plan per property

(final status in MANIFEST.json and section 4)

| id | modelled by | proof |
|---|---|---|
| C01 | Lex.v; items/rendering in SpecLex.v | induction over items, running the machine over each |
| C02 | Lex.v | simulation: CR steps leave the state unchanged |
| C03 | Lex.v | invariant of the machine relating state to emitted tokens |
| C04 | Lex.v | invariant |
| C05 | Chan.v | invariant + measure over all steps of the transition system |
| C06 | Lex.v | invariant |
| C07 | Lua.v + Lex.v | induction over the block content |
| C08 | Build.v (Enquote) + Lex.v | rewriting lemmas for repr/ReplaceAll, automaton lemma; converse by case analysis |
| C09 | Build.v + Lex.v + Parse.v | text -> tokens (C01 style) then tokens -> tree (structural induction) |
| C10 | as C09, with line numbers | induction |
| C11 | Build.v | arithmetic + induction |
| C12 | Parse.v | invariant of handleError over all runs |
| C13 | Parse.v | simulation between two runs |
| C14 | Parse.v | invariant of the include queue/index map |
| C15 | Parse.v (isAcyclic) | Kahn's algorithm correctness for all orders |
| C16 | Combine.v | equality with an inductively defined expansion |
| C17 | Combine.v + C15 | well-founded recursion on the acyclic graph |
| C18 | Parse.v | structural induction on trees |
| C19 | Parse.v | simulation between two runs |
| C20 | Analyze.v | case analysis/induction over masks |
| C21 | Analyze.v, Parse.v | case analysis |
| C22 | Parse.v | case analysis; crash refuted by a witness |
| C23 | Types.v | induction on trees |
| C24 | Analyze.v | induction on lists |
| C25 | Tables*.v | finite domain: forallb by vm_compute lifted by forallb_forall |
| C26 | Build.v (file system ops) | induction over configs and crash points |
| C27 | Build.v | induction |
| C28 | Json.v | induction on trees |
| C29 | Parse.v | measure: unvisited names |
| C30 | Parse.v | refuted by witness; partial positive theorem |
| C31 | Parse.v (slice heap) | refuted by witness; partial positive theorem for short contexts |
| C32 | Parse.v | refuted by witness; partial positive theorem |
| C33 | Parse.v | refuted by witness; partial positive theorem |
| C34 | Parse.v | invariant |
| C35 | Parse.v | simulation, invariant |
| C36 | Lex.v, Build.v | induction over registrations |
| C37 | Lex.v | refuted by witness; partial positive theorem |
| C38 | Lua.v | from C07 |
| C39 | Gen.v | induction |
| C40 | Gen.v | string lemmas |
| C41 | Chan.v | refuted by a schedule; partial positive theorem (drained channel) |
| C42 | Parse.v | invariant |
| C43 | BuildIO.v | induction over histories |
| C44 | Gen.v | string lemmas; refuted outside the class |
| C45 | Gen.v | string lemmas; refuted for escaped characters |
| C46 | Json.v | from C28, induction over configs |
| C47 | Chan.v + Combine.v | as C05, for the tree of goroutines |
| C48 | Parse.v, Main.v | induction over runs: consumed tokens spell the words |
| C49 | Lua.v, Tables*.v | finite domain by vm_compute; refuted for three names |
| C50 | Parse.v, Main.v | induction over runs, as C30; refuted for texts starting with "{" |
| C51 | Parse.v, Main.v, Combine.v | induction over the statements (big-step evaluation), then over the files; the loop by C15, the expansion by C16 |
| C52 | Parse.v, Main.v, Analyze.v | induction over runs; lines from the lexer invariants of C04 |
| C53 | Analyze.v | induction over the masks; contexts as in C20 |
| C54 | Lex.v | by the machine of LexMachine.v: induction over the items; every text divides by strong induction over its characters |
| C55 | Parse.v, Main.v, Combine.v | the rules of SpecTotal.v against the big-step evaluation: induction over the tokens, then over the files; paths with ">" by the key of the context table |
| C56 | Build.v | induction over the characters (needsQuote, repr), then over the tree; a row deeper than the margin table allows exactly when Build panics |
| C57 | Lex.v | the machine of LexMachine.v up to a position, with the flag for directive names; the first position that hands over in the text is the first in the machine; strong induction over the characters left |
| C58 | Lua.v | soundness of each rule by induction over the characters; every text meets one rule, so the converse follows |
| C59 | GoStr.v | case analysis on the first bytes, then induction over the characters; a character never begins inside another, so the end divides like the beginning |
| C60 | GoStr.v, GoPath.v | each function satisfies the description, and the description determines the result; Clean: every rule leaves the result unchanged, and the result is reached by rules |
| C61 | Gen.v | each matcher finds a division, every other division is less preferred (first difference), so the matches found from the left are the specified ones; induction over the text |
| C62 | Json.v | the reader against the grammar: soundness by induction on fuel, completeness by mutual induction on derivations; strings by induction on their length |
| C63 | GenMain.v | the flags by induction on the words; the configuration by induction on its members, one accumulator per field; the program by cases, maps compared by lookup |
| C64 | (the model of C09, C26, C55) | induction on the relation `reads` of C55: the forest planted by Build (C09) is read to the same directives; lifted over the pages of a book, then over BuildFiles (C26); the second time by the rows of C10 |
| C65 | (the model of C09, C16, C55) | `reads` gives directives that are legal in their blocks; a file is read in the blocks around its first include, so by induction on the expansion (C16) the combined tree is legal; then C09 |
| C66 | (the model of C16, C34, C55) | `inlined` pastes statements (as in SpecForest) in place of include directives; the pasted statements satisfy `reads` with the tree that `expands` (C16) gives, by mutual induction; C55 then says Parse returns it |
| C67 | (the model of C01) | on the machine of LexMachine.v: the run over a text followed by a newline ends outside any token; a run moved by n lines and started k blocks deeper gives the moved tokens; the state before (dup, start line) matters until the first token that is no comment |
| C68 | (the model of C09, C38) | as C09, with a Lua block as one item of the layout: between two blocks the text is lexed as without the Lua lexer (no token begins with a Lua name), and a block hands the lexer back in the state behind a separator (C58); then the rows of C10, where a Lua directive does not move the line to compare with |
| C69 | (the model of C38, C64, C65) | the proofs of C64 and C65 rest on one statement about a tree (`goes_back`, `flatten_core`): what is built from it and stored is lexed to the statements of a forest, and `reads` them as before; proved once for trees without and once for trees with Lua blocks, from the layout of C68 |
| C70 | Reader.v, Lex.v | a token found in the buffer is the next one of any longer text (cases on at most four bytes); induction over the reads, then over the bytes left |
| C71 | Parse.v, Main.v, Analyze.v | acceptance is monotone (by C20); errors only grow; induction over the run: with no new error every decision is the same |
| C72 | Parse.v, Main.v | every file opened and every pattern asked for is led to (the invariants of C42); induction over the run |
| C73 | Parse.v, Main.v, Combine.v | annotating the state commutes with every step |
| C74 | Json.v | the reader of C62 on the printed text for the values; induction over the value and the characters of its strings for safety |
| C75 | Analyze.v, Tables*.v | a check of pairs of tables, evaluated, with a proof of what it means for every statement; then the simulation of C71 |
| C76 | Pointer.v | the greatest relation nobody can tell apart; induction on fuel for yes and no, on the finite side for termination |
| C77 | Json.v | a relation between values and trees; the decoder decides it field by field, induction on the nesting, which the text bounds |
| C78 | Lex.v, Parse.v, Combine.v | the divisions of C54 with gaps and quotes exchanged; then a simulation through the parser, the queue and Combined that keeps everything but lines equal |
| C79 | Json.v, Build.v, BuildIO.v | build of a tree and of what JSON keeps of it side by side: equal texts, or three bytes shorter for each empty block that is written; then the loop of BuildFiles; with C46 and C64 the whole way from Parse through JSON and files to Parse |
| C80 | Parse.v, Main.v, Combine.v, GoPath.v | two runs side by side: the states of the parser are related by a one-to-one relation of file names, which lookups in the maps of names respect; the cycle check and the combination follow; then filepath.Join and Clean below a directory |
| C81 | Handles.v | the parser once more, with a log of opens and closes and the deferred calls of each function; the results are those of Parse.v and Main.v (C81_same); each call adds a well-nested piece of log, with fresh handles |
| C82 | Creators.v | the calls are a plan that does not depend on the replies, cut at the first failure; induction over the files |
| C83 | Combine.v, Main.v | a tree without resolved includes expands to itself, by induction over trees; the expansion holds none (C16) |
| C84 | Combine.v | a relabelled payload has the same outcome (SpecOutcome), by induction over the outcome; sums over configs do not depend on their order |
| C85 | Analyze.v, Parse.v, Main.v | sources with the same forms check no more than each other, so C71 applies both ways |
| C86 | Build.v, Main.v | the tokens of a built text are a function of the tree alone (C09); Parse with another file system, by induction over the fuel |
| C87 | Parse.v, Main.v | every name Parse looks up is the text of a token of the file it reads; then the induction of C85 with equal answers |
| C88 | Lex.v, Main.v | whenever an external lexer is found, the name is sent as a token first; induction over the runes, then over the files |

## 3. Trusted base

* The Coq 8.16.1 kernel, including `vm_compute`.
* Axioms: none.  Each theorem in Properties*.v is followed by `Print Assumptions`; all answer "Closed under
  the global context".
  The standard library modules loaded bring in seven axioms of `Coq.ssr.ssrunder.Under_rel` (Under_rel,
  Under_relE, Under_rel_from_rel, Over_rel, over_rel, over_rel_done, under_rel_done); no theorem uses them.
* The reading of the Go code.  The code was never run here; each definition cites the lines it models.
* The reading of the Go standard library functions used (GoStr.v, GoPath.v, Json.v, package flag in GenMain.v, the regular expressions in
  Gen.v).
* tools/gen_tables.py, which turns the shipped tables into Tables*.v.

Not modelled, or simplified:

* `int` overflow; memory limits; slice growth of 512 elements and more (Parse.v doubles throughout;
  with Go 1.22 and later the runtime rounds the capacity 64 up to 71 and so on, so that it differs from blocks nested 65 deep on).
* Readers that return impossible counts; Windows paths; symbolic links.
* An external lexer that goes on using its SubScanner after closing its channel; an external lexer's error that
  only wraps a ParseError.
* Panics inside goroutines in Chan.v (Combine.v has them, sequentially).
* JSON keys equal up to case and repeated keys of directives and payloads (the configuration of the generator has
  them), numbers beyond `int`.
* The texts of the messages and of the usage of cmd/generate; `String` of its flags.
* nil elements in a Block, sharing and cycles, except in Equal (Pointer.v).
* The Go scheduler and memory model below the level of channel operations.

## 4. Status per property

"partial" means that the statement as given is false of the code or not proved in full; the note says which.

<!-- status begin -->
| id | property | status | theorems | note |
|---|---|---|---|---|
| C01 | Lexing inverts rendering | proved | C01_layout, C01_layout_cr, C01_abutting_refuted | For every layout of items; the one excluded abutting case (word with an escaped newline before a separator) is refuted with a witness. |
| C02 | Carriage returns never change the tokens | proved | C02_carriage_returns, C02_bytes_refuted | For every text of characters (valid UTF-8); for bytes that are not UTF-8 it is refuted with a witness. |
| C03 | Brace and separator errors are exactly the malformed streams | proved | C03_braces |  |
| C04 | Token line numbers are sound | proved | C04_lua_refuted, C04_lines |  |
| C05 | Token delivery does not depend on the schedule or the channel capacity | proved | C05_prefix, C05_no_deadlock, C05_bounded, C05_finishes, C05_drained, C05_determined | For every receiver, capacity and tree of forwarded channels; the runtime scheduler is an arbitrary choice of steps, what a goroutine sends is schedule-independent by construction of the model (SubScanner is used by one goroutine at a time). |
| C06 | Shape of emitted tokens | proved | C06_shapes |  |
| C07 | Lua blocks are captured verbatim | proved | C07_block, C07_set, C07_next, C07_from, C07_bytes_refuted, C07_comment_refuted | For valid UTF-8 block contents; other bytes become U+FFFD (witness).  A variable directly followed by a newline is given the next line. |
| C08 | Enquote produces text that lexes back to the argument | proved | C08_class, C08_plain, C08_outside_refuted | The exact class, for quoted and unquoted results; members outside it as witnesses. |
| C09 | Build then Parse returns the same configuration | proved | C09_round_trip, C09_outside_refuted | For a decidable class of trees (names and arguments that survive quoting on one line, comments of one line, no two comments behind one statement, "if" with an unquoted first argument), any Indent >= 0, Tabs and Header, and every option set that accepts the tree; include directives only with SingleParseFile, no external builders or lexers.  Trees outside the class as witnesses. |
| C10 | Build is idempotent through Parse | partial | C10_same_text_partial, C10_second_text, C10_refuted | Proved when comments that share a line stand behind ";" or "{" and Header is not combined with kept comments; otherwise false (witnesses).  In the whole class of C09 the second built text is final (C10_second_text). |
| C11 | Layout of built text | proved | C11_layout, C11_tabs, C11_spaces, C11_negative_refuted | A negative Indent panics (witness theorem); int overflow of depth*Indent is not modelled. |
| C12 | Status and error lists agree | proved | C12_status_and_errors | Also for combined payloads, in the form that fits one merged config. |
| C13 | StopParsingOnError returns the first error | proved | C13_stop_returns_first_error, C13_stop_collect |  |
| C14 | Include indices point at the included files | proved | C14_include_indices |  |
| C15 | Include cycles are reported exactly when they exist | proved | C15_any_order, C15_cycle_iff, C15_edges | The algorithm for every graph and iteration order; at Parse level after all files were read; every edge of the graph comes from an include directive of a returned tree or from a file cut short by an error. |
| C16 | Combined configuration is the in-order expansion | proved | C16_combined, C16_expansion_unique, C16_succeeds, C16_error, C16_panic, C16_endless, C16_outcome_expands | Every payload: success, error, panic and not ending each characterised exactly; which of an error and a later panic of a goroutine left behind comes first is not modelled. |
| C17 | Combining what Parse accepted terminates | proved | C17_combining_terminates |  |
| C18 | IgnoreDirectives removes exactly the named statements | proved | C18_ignore, C18_ignore_single, C18_ignore_outside_maps | Whole Parse for block paths of up to three names (beyond that finding 8 mixes contexts up); single files and single token lists without that condition. |
| C19 | ParseComments only adds comments | proved | C19_comments_only_added | For every option set, combined or not. |
| C20 | Argument and context checks accept exactly what the masks allow | proved | C20_validation_accepts_exactly, C20_every_path, C20_order_of_sources_irrelevant, C20_order_of_masks_irrelevant, C20_odd_block_names_refuted | Exact as stated for block names that are non-empty and contain no ">"; outside that the code takes one path for another (refuted theorem), and C20_every_path says for which. |
| C21 | Map-like bodies | proved | C21_map_body, C21_children, C21_map_entry_rule |  |
| C22 | If-arguments lose exactly their enclosing parentheses | partial | C22_only_crash, C22_if_arguments, C22_if_arguments_crash_shape, C22_no_crash_refuted | Result and crash shape proved exactly, and that Parse crashes in no other way; "Parse must not crash" itself is false (witness). |
| C23 | Directive.Equal is structural equality up to nil/empty slices | proved | C23_equal_is_same_tree, C23_equal_refl, C23_equal_sym, C23_equal_trans |  |
| C24 | Directive sources combine as a union and the default table is a right-biased union | proved | C24_sources_union, C24_union_last_wins, C24_union_domain, C24_default_table |  |
| C25 | Every directive of the shipped tables is usable | proved | C25_shipped_entries, C25_shipped_accepted | Finite domain: every entry of all shipped tables, by vm_compute lifted with forallb_forall. |
| C26 | Files written by BuildFiles, and what a crash leaves behind | proved | C26_stop, C26_distinct, C26_operations, C26_panic, C26_nowhere, C26_outside_refuted | For the ordered-operation file system of BuildIO.v: operations take effect in program order, a failed or interrupted Write leaves a prefix; paths are compared as strings (no links). |
| C27 | BuildInto writes one stream per config | proved | C27_into, C27_reset |  |
| C28 | JSON round trip of directives | partial | C28_roundtrip, C28_equal_partial, C28_exact, C28_build_partial, C28_empty_refuted, C28_bytes_refuted, C28_deep_refuted | What comes back is proved exactly for every tree (C28_roundtrip).  The property holds for UTF-8 texts and blocks at most 5000 deep, and is false beyond (witnesses). |
| C29 | Parse terminates when finitely many files are reachable | proved | C29_reading_terminates, C29_parse_terminates |  |
| C30 | Lexical errors are not lost | partial | C30_reported_partial, C30_refuted, C30_lua_refuted | The statement is false: an unclosed block of an ignored directive and a text starting with "{" lose the error (witnesses).  Proved for every other content and option set; with external lexers if the tokens are orderly (an error only as last token, no brace behind a separator or closing nothing), which it is without them.  The error of the Lua lexer itself is lost in strict mode with its table (C30_lua_refuted). |
| C31 | Included files are validated in the context of their include directive | partial | C31_context_is_path, C31_contexts_partial, C31_contexts_alike, C31_contexts_refuted | Proved while include directives stand in at most three blocks; false from four on (witness), where the number of blocks and the outer three names are still right (C31_contexts_alike). |
| C32 | Rejected statements do not disturb the rest of the file | partial | C32_rejected_partial, C32_rejected_block_refuted, C32_odd_name_refuted | Proved for rejected statements ending with ";" and for block-less directives given a block; false for other rejected blocks (witness). |
| C33 | Unclosed statements never change the nesting | partial | C33_reported_partial, C33_tables, C33_statement, C33_refuted | The statement is false without strict mode, with skipped or ignored statements, and inside num_map even with all checks on (witnesses).  Proved with all checks on for every table whose blocks lead to contexts; all shipped tables are checked (C33_tables). |
| C34 | SingleFile parses one file | proved | C34_single_file, C34_opens |  |
| C35 | CombineConfigs labels directives with their origin | proved | C35_labels, C35_before_combination |  |
| C36 | The last registration wins | proved | C36_lexers, C36_builders, C36_lex_same, C36_build_same, C36_build_untouched, C36_build_used |  |
| C37 | External lexers are triggered by complete directive names only | partial | C37_untouched_partial, C37_arguments_partial, C37_invoked_partial, C37_prefix_refuted, C37_argument_refuted, C37_line_end_refuted, C37_quoted_name_refuted, C37_brace_refuted | The statement is false: a registered name that only starts a directive name, an argument at the start of a continuation line, at the end of a line or behind a quoted directive name, and a name directly before a brace misfire (witnesses).  Proved: texts where registered names start no token, or only arguments between other tokens of a line, are lexed as without external lexers; directive names followed by white space are handed over. |
| C38 | Lua Build/Lex round trip | proved | C38_block, C38_set |  |
| C39 | Generator: filters and overrides | proved | C39_map, C39_errors, C39_order | Source texts are turned into definitions by the model of the regular expressions; what they read is C44. |
| C40 | Override flag syntax | proved | C40_reads, C40_colon, C40_name, C40_definition, C40_mask, C40_last |  |
| C41 | No goroutine is left behind | partial | C41_drained_partial, C41_unread, C41_criterion_partial, C41_rests, C41_refuted, C41_brace_refuted | The statement is false (two witnesses: StopParsingOnError, and a rejected block at top level).  Proved: the exact criterion, all goroutines return if and only if the unread tokens fit the buffer; and none is left once the end was seen. |
| C42 | Parse reads only what it reports | proved | C42_opens_reachable, C42_reads_reported |  |
| C43 | Build options can be reused | proved | C43_reuse, C43_files, C43_added_refuted | Builders added to a used options value are ignored by Build (witness theorem). |
| C44 | Generator reads command tables | partial | C44_comments_partial, C44_tables_partial, C44_constants_partial, C44_take7_refuted, C44_url_refuted, C44_adjacent_refuted, C44_newline_refuted | Every mask name written is a constant of the package except ngxConfTake7 (witness).  Tables: proved for texts whose block comments contain no "//" and are not directly followed by a comment, and tables whose type name is followed by a blank; false otherwise (witnesses). |
| C45 | Generated text spells the map | partial | C45_literal_partial, C45_escape, C45_shown, C45_file, C45_comment_refuted | Proved for names without the seven characters html/template escapes (exactly the texts escaping leaves alone); false otherwise (witness).  The whole file is described for all names and comments, with these characters replaced (C45_shown, C45_file). |
| C46 | JSON round trip of payloads | proved | C46_payload, C46_errors_refuted | encoding/json is modelled (text, escapes, nesting limit); not modelled: keys matched up to case, repeated keys, numbers beyond int. |
| C47 | Combined does not depend on the schedule and leaves no goroutine behind | proved | C47_result, C47_no_deadlock, C47_bounded, C47_error_refuted, C47_own_error | When Combined fails on a bad index inside an included file, a goroutine stays blocked for ever (witness theorem); when the bad index is in the tree of the first file itself, none is left (C47_own_error). |
| C48 | Parsed words stand in the text, in order | proved | C48_words, C48_lines | Lines within the file for option sets without external lexers. |
| C49 | Every Lua block directive of the table is handled by the Lua lexer | partial | C49_registered_partial, C49_accepted, C49_known, C49_refuted | False for precontent_by_lua_block, proxy_ssl_certificate_by_lua_block and proxy_ssl_verify_by_lua_block, whose code is read as nginx statements (witness); proved for all other entries. |
| C50 | Statements cut off by the end of the file are reported | partial | C50_reported_partial, C50_refuted | False for texts that start with "{" (witness); proved for all others; with external lexers if the tokens are orderly, as in C30. |
| C51 | Parse returns the statements that were written | proved | C51_pages, C51_loop, C51_combined | The whole payload is determined (payload_of).  Outside the class: rejected statements with a block for which the complaint is not the missing semicolon (C32), statements ended by "}" (C50), names with ">" in paths and deeper include paths (C31), the crash of C22. |
| C52 | Errors are located at their statements | proved | C52_configs, C52_payload, C52_lines, C52_returned, C52_text |  |
| C53 | Errors say why a statement was rejected | proved | C53_statement, C53_every_path, C53_entry, C53_rejected, C53_one | C53_every_path covers block names with ">" too; d_block = None is how the parser calls it. |
| C54 | The lexer is determined on every text | proved | C54_total, C54_exact |  |
| C55 | Parse is determined on every configuration | proved | C55_follows, C55_exact, C55_one, C55_total | Files included from more than three blocks down are read in a path of which only the length and the outer three names are fixed (C31).  Runs that never end (a file system with infinitely many files) are outside. |
| C56 | Build is determined on every tree | proved | C56_enquote, C56_alone, C56_text, C56_panics | int overflow of depth*Indent is not modelled. |
| C57 | The lexer with external lexers is determined on every text | proved | C57_exact | External lexers are functions of the name, the line and the characters that follow; what they do concurrently is C05. |
| C58 | The Lua lexer is determined on every text | proved | C58_names, C58_exact | Errors of the reader under the scanner are not modelled; the case unexpected "}" of lua.go:131-135 is never reached. |
| C59 | Texts are read and written as UTF-8 | proved | C59_decode, C59_bad, C59_chars, C59_last, C59_texts, C59_encode, C59_encode_other, C59_space | unicode/utf8, bufio.ScanRunes and unicode.IsSpace themselves are not in /repo; the model follows their documentation. |
| C60 | The library functions mean what their documentation says | proved | C60_prefix, C60_suffix, C60_trim_prefix, C60_trim_suffix, C60_trim_space, C60_replace, C60_split, C60_join, C60_cut, C60_contains_any, C60_lower, C60_repeat, C60_sort, C60_itoa, C60_abs, C60_clean, C60_join_path, C60_dir, C60_set, C60_found, C60_value, C60_member | ToLower on ASCII letters only; ReplaceAll for a non-empty old string; Split and Cut for one-byte separators, as the code calls them. |
| C61 | What the generator extracts from a source text | proved | C61_tables, C61_commands, C61_line_comments, C61_block_comments, C61_pairs | The expressions are matched byte by byte: their literals are ASCII, so this is the same as rune by rune.  The patterns are data of the specification; C61_written shows them as the Go texts. |
| C62 | The JSON texts that are read | proved | C62_json, C62_one, C62_rejected, C62_string, C62_number | The rest of encoding/json - how values become Directives, Payloads and configurations - is in C28, C46 and C63. |
| C63 | The generator's command | proved | C63_flags, C63_accepts, C63_flag_errors, C63_config, C63_config_accepts, C63_program | The texts of messages and of the usage are not modelled.  Maps are compared by what they contain.  Tags contain no letter with a non-ASCII case variant, so lower case of ASCII letters is enough. |
| C64 | Formatting a configuration in place keeps it | proved | C64_format, C64_files, C64_again, C64_files_again, C64_shipped | Without external lexers and builders (for Lua: C69) and without CombineConfigs.  The table in use leaves the number of arguments of "if" open (C64_shipped: all shipped tables do).  The classes (SpecFormat.formattable, on_line for the second time) are as in C09 and C10; examples show what happens outside. |
| C65 | One file in place of a configuration with includes | proved | C65_flatten, C65_two_homes_refuted, C65_same_line_refuted | Without external lexers and builders (for Lua: C69).  The exceptions are needed: C65_two_homes_refuted, C65_same_line_refuted. |
| C66 | An include directive stands for the statements of the files it names | proved | C66_inline, C66_exists | The statements of the pasted text are given as tokens that differ from the originals in lines only; C67 says how such tokens come about when texts are put together. |
| C67 | Putting texts together | proved | C67_join, C67_insert, C67_lone_refuted, C67_open_refuted | Without external lexers, for these see C58.  The exceptions are needed: C67_lone_refuted, C67_open_refuted. |
| C68 | Configurations with Lua blocks: build, then parse | proved | C68_round_trip, C68_same_text, C68_outside_refuted | Outside the conditions: C68_outside_refuted; a comment moved by a Lua block: C68_moves.  That arguments do not begin with the name of a Lua directive is sufficient, not necessary: most such arguments are read as written. |
| C69 | Configurations with Lua blocks in several files: formatting and flattening | proved | C69_flatten, C69_format, C69_files, C69_no_builder_refuted | The external lexers and builders are exactly the Lua ones.  Without the builder: C69_no_builder_refuted. |
| C70 | How the bytes of a file arrive does not matter | proved | C70_total, C70_scan, C70_tokens, C70_reported_refuted | bufio.Scanner and ScanRunes are modelled (Reader.v); readers that return impossible counts are not.  That an error of the reader is not reported: C70_reported_refuted (finding 45). |
| C71 | Checking less changes nothing that was accepted | proved | C71_looser, C71_switches, C71_tables_refuted, C71_fewer_refuted | More tables can reject what was unknown before if unknown directives are let through (C71_tables_refuted); where there are errors, fewer checks can mean more errors (C71_fewer_refuted). |
| C72 | Parse depends on the files include directives lead to, and on nothing else in the file system | proved | C72_elsewhere | Names of files are compared as strings; links are not modelled. |
| C73 | The error callback only annotates | proved | C73_annotates | The callback is a function: what it does besides is not modelled. |
| C74 | The JSON that is written | proved | C74_directive, C74_payload, C74_safe, C74_safe_payload | Nil and empty slices are told apart only in that both null and [] are possible for empty ones.  encoding/json as of Go 1.22. |
| C75 | A newer release accepts what an older one did | proved | C75_statement, C75_upgrade, C75_given_up_refuted, C75_lenient_refuted | Two names a later table has given up are taken out of the earlier one (C75_given_up_refuted).  Without ErrorOnUnknownDirectives it is false: a newer table can restrict what was unknown (C75_lenient_refuted). |
| C76 | Directive.Equal on pointers | proved | C76_answer, C76_returns, C76_self, C76_trees, C76_cycles_refuted | Two directives that both contain themselves can make it run for ever (C76_cycles_refuted). |
| C77 | JSON from elsewhere is read as what it stands for | proved | C77_directive, C77_payload, C77_same | For texts in which no object has two keys that are equal up to case, or a key that is the name of a field only up to case; numbers of any size; nil elements of blocks and nil errors are outside the model. |
| C78 | Where lines end and how words are quoted does not matter | proved | C78_tokens, C78_parse, C78_texts, C78_special_refuted | Line numbers in error messages: one message ends with the line of its error, all others are equal.  What a callback says about an error may differ. |
| C79 | A configuration survives the trip through JSON to files | proved | C79_text, C79_files, C79_format, C79_lua, C79_empty_refuted | Blocks nest at most 4998 deep, texts are UTF-8; exactly the empty blocks that are written are lost (finding 13). |
| C80 | A moved configuration is parsed the same way | proved | C80_parse, C80_moved, C80_absolute_refuted | What the operating system says of a file is related by any relation; what a callback says about an error may differ.  Absolute includes into the directory do not survive (C80_absolute_refuted). |
| C81 | Files that are opened are closed | proved | C81_same, C81_closed, C81_opened, C81_all_open, C81_combined_open | Whether the goroutine of the lexer still reads when a file is closed is the matter of C41.  Errors of Close are not modelled; Parse ignores them. |
| C82 | What BuildInto asks of a Creator | proved | C82_calls, C82_strings, C82_left_open_refuted | A writer stays open if writing to it fails (C82_left_open_refuted).  Creators that panic are not modelled. |
| C83 | Combining twice is combining once | proved | C83_again, C83_parse, C83_fixed, C83_expanded | Slices that are nil and slices that are empty are the same list here, except Block and Includes. |
| C84 | The numbers of configs are only numbers | proved | C84_renumbered, C84_reordered, C84_appended | Only results without an error: the text of an error shows the number. |
| C85 | The order of directive sources | proved | C85_sources, C85_tables, C85_rejected_refuted | Payloads with errors can differ in the messages and, because Parse looks at the message, in the statements that follow (C85_rejected_refuted). |
| C86 | Indentation is only indentation | proved | C86_tokens, C86_parse, C86_only_tokens, C86_outside_refuted | Trees with comments no text has can be read differently (C86_outside_refuted). |
| C87 | Parse asks only about names that occur | proved | C87_asked, C87_ignore_set, C87_ignore_absent |  |
| C88 | External lexers are asked about tokens only | proved | C88_lex, C88_map, C88_parse | A name that begins another word is itself a token then (C37), so such names are not left out. |
<!-- status end -->

## 5. Wrong programs

`seeded/mutations.py` lists edits of the model as realistic bugs would make them; `tools/seed.py` applies one to
a copy, rebuilds, replaces each proof that fails by an axiom of its own, and logs in `seeded/LOG.jsonl` the
property theorems that rest on one.

How to read the log: `rebuilt` tells whether the whole development was rebuilt with the edit.  If so, `failed`
lists theorems whose recorded proof no longer goes through.  That does not show that the statement has become
false.  An edit of the lexer breaks lemmas about the whole machine, so theorems whose claim the edit leaves true
fail as well (lex-depth-le fails C02 and C04 in that way), and an edit without any effect can fail many
(lex-cr-kept).  A theorem about the broken claim that does not fail is too weak, but one that fails may be too
weak all the same.  `failed_cases` are concrete examples, evaluated, and do show a change of behaviour.

Therefore `tools/seed.py refute` asks the sharper question.  With the scripts of `seeded/refutations.py` it proves,
without axioms, the negation of a theorem's own statement (copied from the Properties file) about the edited model.
`statements_false` lists the theorems for which that succeeded: they exclude the wrong program.  Where `rebuilt`
is false this is the only test made: `failed` then repeats `statements_false`, and other theorems may fail too.

Found in this way: lex-ext-any-position (external lexers are asked for arguments too) broke many proofs, but no
statement excluded it, because C37 spoke only of texts without registered names and of directive names.
C37_arguments_partial was added, and C07 and C37_invoked_partial now allow registered names among the arguments
before the block.

`tools/auto.py` makes small edits by rule (a changed constant, comparison, connective, string or branch) in every
definition of the model, about 1500 of them, and rebuilds until something stops.  Where nothing stopped, or only
examples, the statements were tightened or the edit was found to have no effect; the lines `auto-…` of the log say
which.  Found in this way: the escapes of html/template were not pinned down (Gen:166; C45 now speaks of them), and
a `>` written unescaped by the JSON encoder changed only an example (Json:28; C74_safe now excludes it).

## 6. Findings about the code

All were found by reading and by proof attempts on the model; none was confirmed by running the code.

1. `if "( )" {}` panics in prepareIfArgs.
2. Enquote leaves some strings (leading `#`, backslash parity, control characters) in a form that does not lex back.
3. The first argument of `if`, when it needs quotes, is built in a form that lexes differently.
4. Error tokens in argument position are taken as arguments; skipping a block discards lexer errors.
5. An unknown directive ended by `}` changes the nesting.
6. The block of a rejected statement is not skipped.
7. An error message can be extended by text from the file name.
8. Contexts of queued files share arrays with later blocks (from four blocks on a file gets the wrong context).
9. Context keys joined with `>` collide for odd block names.
10. External lexers trigger on prefixes of a name, on continuation lines, on an argument that ends a line or follows a quoted directive name, and directly before a brace.
11. The Lua lexer takes an apostrophe in a comment for a string.
12. Combined: a negative index panics, a cyclic user payload does not end, an include without match survives.
13. JSON drops empty blocks (omitempty).
14. Build: negative Indent panics; two comments on one line merge; comments in map parameters are lost.
15. Goroutines stay blocked when Parse stops early; files stay open until Parse returns.
16. otel_exporter entries with two arguments are rejected.
17. A `;` directly behind a word with an escaped newline is read differently.
18. BuildFiles writes outside dir for paths with `..`, and truncates before writing.
19. The generator knows NGX_CONF_TAKE7, which analyze.go has commented out.
20. The test helper of the repository ignores lines; a geoip2 fixture has a wrong one.
21. Removing CRs from bytes that are not UTF-8 can join characters.
22. Builders appended to used build options are ignored.
23. Generator: `//` in block comments, newline after the type name, and HTML escaping give wrong output.
24. JSON replaces bytes that are not UTF-8; blocks deeper than 5000 cannot be read.
25. A payload with errors cannot be unmarshalled.
26. Combined with a bad index in an included file leaves a goroutine blocked.
27. Build is not idempotent for a comment behind a one-line block, nor with Header and kept comments.
28. A map entry named `if` is built with parentheses that parsing does not remove.
29. Text behind the matching `}` of a file starting with `{` is ignored, lexer errors included.
30. num_map is neither map body nor context, so its statements are unchecked.
31. precontent_by_lua_block, proxy_ssl_certificate_by_lua_block and proxy_ssl_verify_by_lua_block are in the Lua table but unknown to the Lua lexer.
32. An include without argument (SkipDirectiveArgsCheck) is reported with its place twice: `... directive in a:1 in a:1`.
33. The comment in analyze says that masks are tried in reverse so that the first one explains the error; the code reports the last one (C53).
34. needsQuote tracks `${...}`, but a "{" alone already forces quotes: that part of it has no effect (C56).
35. A negative Indent with Tabs panics only from depth 101 on, without Tabs from depth 1 on (C56).
36. External builders are looked up under the enquoted name (C56).
37. The character behind a name handed to an external lexer is read again behind what that lexer took: `raw{ x }` gives the tokens of the lexer before the `{` (C57).
38. The Lua lexer's `unexpected "}"` and its cases for depth 0 are never reached; an unclosed block swallows the rest of the file without an error of its own (C58).
39. A parameter of a map block named `if` is written with its value in parentheses, like the directive: formatting `map $x $y { if 1; }` changes the map (C64_entry_named_if).
40. BuildFiles cuts white space off the end of each file, also where it belongs to the last comment (C64_last_comment).
41. A file included from several blocks is checked in the blocks around its first include only: `http { server { include b; } include b; }` with `listen 80;` in b is read without error, and the combined tree has a `listen` directly in http (C65_two_homes_refuted).
42. Build takes a comment whose line number is that of the directive before it for one on the same line, also if they come from different files: in a combined tree two comments can become one (C65_same_line_refuted).
43. The Lua lexer's error `expected "{" to start lua block` is followed by further tokens and taken for an empty argument: `content_by_lua_block x;` is read without error with the Lua lexer, the Lua table and ErrorOnUnknownDirectives (C30_lua_refuted).
44. Build does not update the line it compares comments with when an external builder writes a directive: a comment behind a Lua block on its line comes out on the next line, and one with the line of the statement in front of the block behind the block (C68_text, C68_moves).
45. An error of the reader ends a file like its end: no token and no error of the payload shows it, a configuration cut short by a failing read can have status ok (C70_reported_refuted).
46. With the Lua lexer the token of the error for a missing brace carries the line of the last Lua block's name (the error itself has the right one), and the token of the Lua lexer's own error has line 0 (C04_lua_refuted).
47. proxy_ssl_alpn is in the table of the latest OSS release but not in that of the latest Plus release, and so not in the default table: with ErrorOnUnknownDirectives and the default table it is refused (C75_given_up_refuted).
48. Equal does not return for two directives that both contain themselves (C76_cycles_refuted); Parse never makes such trees.
49. Parse keeps every file open until it returns (`defer` in the loop, parse.go:170): a configuration with more files than the process may have open cannot be parsed, although at any moment one file and the one being checked are in use (C81_all_open).
50. Parse writes filepath.Glob into the options it is given if Glob is nil (parse.go:125): two calls at the same time with the same options are a data race.
51. BuildInto does not close the writer if Build fails, nor does BuildFiles close the file if Write fails (build.go:115-118, 337-339): the handle stays open (C82_left_open_refuted).
52. Parse decides by the text of the error whether to skip the body of a rejected block (parse.go:338), and the text is that of the last form tried (analyze.go:207-241): with two sources for one name, one with a block and one without, their order decides whether the body is skipped or is read as statements of the enclosing block, whose closing brace then ends the file (C85_rejected_refuted).
