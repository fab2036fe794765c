STATUS = {
'C12': ('proved', 'Also for combined payloads, in the form that fits one merged config.'),
'C13': ('proved', ''),
'C20': ('proved', 'Exact as stated for block names that are non-empty and contain no ">"; outside that the code takes one path for another (refuted theorem), and C20_every_path says for which.'),
'C18': ('proved', 'Whole Parse for block paths of up to three names (beyond that finding 8 mixes contexts up); single files and single token lists without that condition.'),
'C21': ('proved', ''),
'C22': ('partial', 'Result and crash shape proved exactly, and that Parse crashes in no other way; "Parse must not crash" itself is false (witness).'),
'C31': ('partial', 'Proved while include directives stand in at most three blocks; false from four on (witness), where the number of blocks and the outer three names are still right (C31_contexts_alike).'),
'C32': ('partial', 'Proved for rejected statements ending with ";" and for block-less directives given a block; false for other rejected blocks (witness).'),
'C23': ('proved', ''),
'C24': ('proved', ''),
'C25': ('proved', 'Finite domain: every entry of all shipped tables, by vm_compute lifted with forallb_forall.'),
'C14': ('proved', ''),
'C15': ('proved', 'The algorithm for every graph and iteration order; at Parse level after all files were read; every edge of the graph comes from an include directive of a returned tree or from a file cut short by an error.'),
'C16': ('proved', 'Every payload: success, error, panic and not ending each characterised exactly; which of an error and a later panic of a goroutine left behind comes first is not modelled.'),
'C17': ('proved', ''),
'C29': ('proved', ''),
'C34': ('proved', ''),
'C42': ('proved', ''),
'C19': ('proved', 'For every option set, combined or not.'),
'C35': ('proved', ''),
'C01': ('proved', 'For every layout of items; the one excluded abutting case (word with an escaped newline before a separator) is refuted with a witness.'),
'C02': ('proved', 'For every text of characters (valid UTF-8); for bytes that are not UTF-8 it is refuted with a witness.'),
'C03': ('proved', ''),
'C04': ('proved', ''),
'C06': ('proved', ''),
'C08': ('proved', 'The exact class, for quoted and unquoted results; members outside it as witnesses.'),
'C07': ('proved', 'For valid UTF-8 block contents; other bytes become U+FFFD (witness).  A variable directly followed by a newline is given the next line.'),
'C36': ('proved', ''),
'C37': ('partial', 'The statement is false: a registered name that only starts a directive name, an argument at the start of a continuation line, at the end of a line or behind a quoted directive name, and a name directly before a brace misfire (witnesses).  Proved: texts where registered names start no token, or only arguments between other tokens of a line, are lexed as without external lexers; directive names followed by white space are handed over.'),
'C38': ('proved', ''),
'C09': ('proved', 'For a decidable class of trees (names and arguments that survive quoting on one line, comments of one line, no two comments behind one statement, "if" with an unquoted first argument), any Indent >= 0, Tabs and Header, and every option set that accepts the tree; include directives only with SingleParseFile, no external builders or lexers.  Trees outside the class as witnesses.'),
'C10': ('partial', 'Proved when comments that share a line stand behind ";" or "{" and Header is not combined with kept comments; otherwise false (witnesses).  In the whole class of C09 the second built text is final (C10_second_text).'),
'C11': ('proved', 'A negative Indent panics (witness theorem); int overflow of depth*Indent is not modelled.'),
'C26': ('proved', 'For the ordered-operation file system of BuildIO.v: operations take effect in program order, a failed or interrupted Write leaves a prefix; paths are compared as strings (no links).'),
'C27': ('proved', ''),
'C43': ('proved', 'Builders added to a used options value are ignored by Build (witness theorem).'),
'C39': ('proved', 'Source texts are turned into definitions by the model of the regular expressions; what they read is C44.'),
'C40': ('proved', ''),
'C44': ('partial', 'Every mask name written is a constant of the package except ngxConfTake7 (witness).  Tables: proved for texts whose block comments contain no "//" and are not directly followed by a comment, and tables whose type name is followed by a blank; false otherwise (witnesses).'),
'C45': ('partial', 'Proved for names without the seven characters html/template escapes (exactly the texts escaping leaves alone); false otherwise (witness).  The whole file is described for all names and comments, with these characters replaced (C45_shown, C45_file).'),
'C28': ('partial', 'What comes back is proved exactly for every tree (C28_roundtrip).  The property holds for UTF-8 texts and blocks at most 5000 deep, and is false beyond (witnesses).'),
'C46': ('proved', 'encoding/json is modelled (text, escapes, nesting limit); not modelled: keys matched up to case, repeated keys, numbers beyond int.'),
'C05': ('proved', 'For every receiver, capacity and tree of forwarded channels; the runtime scheduler is an arbitrary choice of steps, what a goroutine sends is schedule-independent by construction of the model (SubScanner is used by one goroutine at a time).'),
'C41': ('partial', 'The statement is false (two witnesses: StopParsingOnError, and a rejected block at top level).  Proved: the exact criterion, all goroutines return if and only if the unread tokens fit the buffer; and none is left once the end was seen.'),
'C47': ('proved', 'When Combined fails on a bad index inside an included file, a goroutine stays blocked for ever (witness theorem); when the bad index is in the tree of the first file itself, none is left (C47_own_error).'),
'C30': ('partial', 'The statement is false: an unclosed block of an ignored directive and a text starting with "{" lose the error (witnesses).  Proved for every other content and option set; with external lexers if the tokens are orderly (an error only as last token, no brace behind a separator or closing nothing), which it is without them.  The error of the Lua lexer itself is lost in strict mode with its table (C30_lua_refuted).'),
'C33': ('partial', 'The statement is false without strict mode, with skipped or ignored statements, and inside num_map even with all checks on (witnesses).  Proved with all checks on for every table whose blocks lead to contexts; all shipped tables are checked (C33_tables).'),
'C48': ('proved', 'Lines within the file for option sets without external lexers.'),
'C49': ('partial', 'False for precontent_by_lua_block, proxy_ssl_certificate_by_lua_block and proxy_ssl_verify_by_lua_block, whose code is read as nginx statements (witness); proved for all other entries.'),
'C50': ('partial', 'False for texts that start with "{" (witness); proved for all others; with external lexers if the tokens are orderly, as in C30.'),
'C51': ('proved', 'The whole payload is determined (payload_of).  Outside the class: rejected statements with a block for which the complaint is not the missing semicolon (C32), statements ended by "}" (C50), names with ">" in paths and deeper include paths (C31), the crash of C22.'),
'C52': ('proved', ''),
'C54': ('proved', ''),
'C57': ('proved', 'External lexers are functions of the name, the line and the characters that follow; what they do concurrently is C05.'),
'C58': ('proved', 'Errors of the reader under the scanner are not modelled; the case unexpected "}" of lua.go:131-135 is never reached.'),
'C59': ('proved', 'unicode/utf8, bufio.ScanRunes and unicode.IsSpace themselves are not in /repo; the model follows their documentation.'),
'C60': ('proved', 'ToLower on ASCII letters only; ReplaceAll for a non-empty old string; Split and Cut for one-byte separators, as the code calls them.'),
'C61': ('proved', 'The expressions are matched byte by byte: their literals are ASCII, so this is the same as rune by rune.  The patterns are data of the specification; C61_written shows them as the Go texts.'),
'C62': ('proved', 'The rest of encoding/json - how values become Directives, Payloads and configurations - is in C28, C46 and C63.'),
'C63': ('proved', 'The texts of messages and of the usage are not modelled.  Maps are compared by what they contain.  Tags contain no letter with a non-ASCII case variant, so lower case of ASCII letters is enough.'),
'C64': ('proved', 'Without external lexers and builders (for Lua: C69) and without CombineConfigs.  The table in use leaves the number of arguments of "if" open (C64_shipped: all shipped tables do).  The classes (SpecFormat.formattable, on_line for the second time) are as in C09 and C10; examples show what happens outside.'),
'C65': ('proved', 'Without external lexers and builders (for Lua: C69).  The exceptions are needed: C65_two_homes_refuted, C65_same_line_refuted.'),
'C66': ('proved', 'The statements of the pasted text are given as tokens that differ from the originals in lines only; C67 says how such tokens come about when texts are put together.'),
'C67': ('proved', 'Without external lexers, for these see C58.  The exceptions are needed: C67_lone_refuted, C67_open_refuted.'),
'C68': ('proved', 'Outside the conditions: C68_outside_refuted; a comment moved by a Lua block: C68_moves.  That arguments do not begin with the name of a Lua directive is sufficient, not necessary: most such arguments are read as written.'),
'C69': ('proved', 'The external lexers and builders are exactly the Lua ones.  Without the builder: C69_no_builder_refuted.'),
'C70': ('proved', 'bufio.Scanner and ScanRunes are modelled (Reader.v); readers that return impossible counts are not.  That an error of the reader is not reported: C70_reported_refuted (finding 45).'),
'C71': ('proved', 'More tables can reject what was unknown before if unknown directives are let through (C71_tables_refuted); where there are errors, fewer checks can mean more errors (C71_fewer_refuted).'),
'C72': ('proved', 'Names of files are compared as strings; links are not modelled.'),
'C73': ('proved', 'The callback is a function: what it does besides is not modelled.'),
'C74': ('proved', 'Nil and empty slices are told apart only in that both null and [] are possible for empty ones.  encoding/json as of Go 1.22.'),
'C75': ('proved', 'Two names a later table has given up are taken out of the earlier one (C75_given_up_refuted).  Without ErrorOnUnknownDirectives it is false: a newer table can restrict what was unknown (C75_lenient_refuted).'),
'C76': ('proved', 'Two directives that both contain themselves can make it run for ever (C76_cycles_refuted).'),
'C77': ('proved', 'For texts in which no object has two keys that are equal up to case, or a key that is the name of a field only up to case; numbers of any size; nil elements of blocks and nil errors are outside the model.'),
'C78': ('proved', 'Line numbers in error messages: one message ends with the line of its error, all others are equal.  What a callback says about an error may differ.'),
'C79': ('proved', 'Blocks nest at most 4998 deep, texts are UTF-8; exactly the empty blocks that are written are lost (finding 13).'),
'C80': ('proved', 'What the operating system says of a file is related by any relation; what a callback says about an error may differ.  Absolute includes into the directory do not survive (C80_absolute_refuted).'),
'C81': ('proved', 'Whether the goroutine of the lexer still reads when a file is closed is the matter of C41.  Errors of Close are not modelled; Parse ignores them.'),
'C82': ('proved', 'A writer stays open if writing to it fails (C82_left_open_refuted).  Creators that panic are not modelled.'),
'C83': ('proved', 'Slices that are nil and slices that are empty are the same list here, except Block and Includes.'),
'C84': ('proved', 'Only results without an error: the text of an error shows the number.'),
'C85': ('proved', 'Payloads with errors can differ in the messages and, because Parse looks at the message, in the statements that follow (C85_rejected_refuted).'),
'C86': ('proved', 'Trees with comments no text has can be read differently (C86_outside_refuted).'),
'C87': ('proved', ''),
'C88': ('proved', 'A name that begins another word is itself a token then (C37), so such names are not left out.'),
'C56': ('proved', 'int overflow of depth*Indent is not modelled.'),
'C55': ('proved', 'Files included from more than three blocks down are read in a path of which only the length and the outer three names are fixed (C31).  Runs that never end (a file system with infinitely many files) are outside.'),
'C53': ('proved', 'C53_every_path covers block names with ">" too; d_block = None is how the parser calls it.'),
}
