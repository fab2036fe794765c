{"id": "C01", "title": "Lexing inverts rendering", "statement": "If a configuration text is laid out from a sequence of lexical items (bare words, single- or double-quoted strings, '{', '}', ';', comments) separated by any whitespace the syntax allows, Lex delivers exactly those items, in order, each with its value, its quoted flag and the 1-based number of the line on which it starts, and then closes the channel.", "quantifier": "every sequence of lexical items whose braces and separators nest properly, every value the item kinds can carry, every choice of whitespace (including newlines, CRs and Unicode spaces) between items", "why_tests_cant": "the set of texts is infinite in length, layout and content; fixtures sample a few files", "anchors": ["lex.go:tokenize", "lex.go:Lex", "util.go:isSpace", "util.go:isEOL"]}
{"id": "C02", "title": "Carriage returns never change the tokens", "statement": "Removing every carriage return from an input (for instance converting CRLF line ends to LF) leaves the stream of tokens produced by Lex unchanged: same values, same quoted flags, same line numbers, same errors.", "quantifier": "every input text (sequence of characters), no external lexers registered", "why_tests_cant": "a test fixes one file; the claim is about every placement of every CR, including inside quotes, comments and escapes", "anchors": ["lex.go:tokenize"]}
{"id": "C03", "title": "Brace and separator errors are exactly the malformed streams", "statement": "Without external lexers, Lex emits at most one error token, always as the last token. If it emits none, the unquoted braces of the stream nest properly (no prefix closes more than it opened, and all are closed at the end) and no unquoted '{' or ';' directly follows another unquoted '{', '}' or ';' (comments aside). If it emits one, the message names the rule that the text breaks and the preceding tokens show the breach.", "quantifier": "every input text", "why_tests_cant": "needs all inputs; a fixture shows one malformed file at a time", "anchors": ["lex.go:tokenize"]}
{"id": "C04", "title": "Token line numbers are sound", "statement": "For every input, token lines are non-decreasing in stream order, at least 1 and at most one more than the number of newlines of the input.", "quantifier": "every input text, no external lexers", "why_tests_cant": "universal over inputs", "anchors": ["lex.go:tokenize", "util.go:isEOL"]}
{"id": "C05", "title": "Token delivery does not depend on the schedule or the channel capacity", "statement": "For every interleaving of the lexing goroutine and the consumer and every channel capacity (including 0), what the consumer has received is always a prefix of the token sequence of the input; the pair never deadlocks; and when the consumer drains the channel it has received exactly the whole sequence and then sees the channel closed.", "quantifier": "every token sequence, every capacity, every schedule (interleaving of send, receive and close steps)", "why_tests_cant": "schedules cannot be enumerated by tests", "anchors": ["lex.go:LexWithOptions", "lex.go:tokenize", "lex.go:SetTokenChanCap", "parse.go:Parse"]}
{"id": "C06", "title": "Shape of emitted tokens", "statement": "For every input without external lexers, every token without an error is valid UTF-8, every unquoted one is non-empty and is either one of '{' '}' ';', or a comment starting with '#' and containing no newline, or a word whose first character is neither whitespace nor one of '{};#' nor a quote.", "quantifier": "every input byte string, including invalid UTF-8", "why_tests_cant": "universal over byte strings", "anchors": ["lex.go:tokenize", "lex.go:SubScanner"]}
{"id": "C07", "title": "Lua blocks are captured verbatim", "statement": "With the Lua lexer registered, a *_by_lua_block directive followed by whitespace and a brace-balanced block yields the directive name, the block content byte for byte as one quoted token, and ';'; set_by_lua_block additionally yields its variable argument; lexing resumes directly after the closing brace.", "quantifier": "every Lua directive name, every block content whose braces balance under the lexer's own quote rule, every amount of leading whitespace, every following text", "why_tests_cant": "contents are unbounded", "anchors": ["lua.go:Lex", "lex.go:tokenize", "lex.go:SubScanner"]}
{"id": "C08", "title": "Enquote produces text that lexes back to the argument", "statement": "Enquote(s), placed where an argument is expected, is lexed back as exactly one token with value s, for every string s in a decidable class; outside that class (leading '#', backslash parity defects, control characters) the built text provably does not lex back.", "quantifier": "every Go string s and every oracle for strconv.IsPrint that is right on ASCII", "why_tests_cant": "universal over strings", "anchors": ["build.go:Enquote", "build.go:needsQuote", "build.go:escape", "util.go:repr"]}
{"id": "C09", "title": "Build then Parse returns the same configuration", "statement": "For every directive tree in a decidable class that is valid under the parse options, parsing the text produced by Build (any Indent>=1, Tabs, Header) succeeds with status ok and returns the same tree: same names, arguments, comments, nesting and order.", "quantifier": "every directive tree of any size and depth in the class, every Indent/Tabs/Header setting, every set of parse options that accepts the tree", "why_tests_cant": "trees are unbounded; the compare tests cover eight files", "anchors": ["build.go:Build", "build.go:buildBlock", "build.go:Enquote", "parse.go:Parse", "parse.go:parser.parse", "lex.go:tokenize"]}
{"id": "C10", "title": "Build is idempotent through Parse", "statement": "Building the tree obtained by parsing Build's output reproduces Build's output byte for byte.", "quantifier": "every tree in the round-trip class, every build option", "why_tests_cant": "trees are unbounded", "anchors": ["build.go:Build", "parse.go:Parse"]}
{"id": "C11", "title": "Layout of built text", "statement": "Every statement that Build starts on its own line is preceded by exactly depth*Indent spaces (depth tabs with Tabs) whatever the depth, and Indent 0 means 4; margin computation cannot panic for Indent>=0.", "quantifier": "every depth, every indent, both tab settings", "why_tests_cant": "depth and indent are unbounded; the code has a fast path below 100 columns and a slow path above", "anchors": ["build.go:margin", "build.go:buildBlock", "build.go:Build"]}
{"id": "C12", "title": "Status and error lists agree", "statement": "In every payload returned by Parse, Status is 'failed' exactly when Errors is non-empty (otherwise 'ok'), each Config's Status is 'failed' exactly when its Errors is non-empty, and the payload's Errors are the concatenation of the configs' Errors in order, each labelled with its config's File.", "quantifier": "every file system, every set of options, every file content", "why_tests_cant": "universal over contents, options and include graphs", "anchors": ["parse.go:Parse", "types.go:Payload", "types.go:Config"]}
{"id": "C13", "title": "StopParsingOnError returns the first error", "statement": "If Parse without StopParsingOnError would record errors, then with StopParsingOnError it returns exactly the first of them (and no payload); if it would record none, both runs return the same result.", "quantifier": "every file system, every option set, every content", "why_tests_cant": "relational property of two runs over all inputs", "anchors": ["parse.go:Parse", "parse.go:parser.parse"]}
{"id": "C14", "title": "Include indices point at the included files", "statement": "In every payload returned by Parse (not combined), Config[0].File is the given file name, the Files are pairwise distinct (each file is parsed once), and every index in the Includes of any directive at any depth of any config is within range.  Moreover the indices of an include directive select, in order, exactly the files its pattern resolves to (the joined path, or the sorted glob matches).", "quantifier": "every file system, glob result, nesting and include graph", "why_tests_cant": "universal over include graphs", "anchors": ["parse.go:Parse", "parse.go:parser.parse", "types.go:Directive.Includes"]}
{"id": "C15", "title": "Include cycles are reported exactly when they exist", "statement": "Parse fails with 'configs contain include cycle' if and only if the directed graph of includes it collected has a cycle, independently of the map iteration order.", "quantifier": "every include graph with any multiplicities, every iteration order of Go maps", "why_tests_cant": "graphs and map orders are unbounded/random", "anchors": ["parse.go:parser.isAcyclic"]}
{"id": "C16", "title": "Combined configuration is the in-order expansion", "statement": "Combined() returns a payload whose single config lists the directives of the first config with every include directive replaced, at every depth, by the (recursively expanded) directives of the configs it names, in order; errors are the concatenation, the status is failed iff some config failed, and no resolved include directive remains.", "quantifier": "every payload without include cycles, any nesting", "why_tests_cant": "universal over payloads", "anchors": ["util.go:combineConfigs", "util.go:performIncludes", "types.go:Payload.Combined"]}
{"id": "C17", "title": "Combining what Parse accepted terminates", "statement": "Whenever Parse collected an acyclic include graph, expanding its payload terminates without error and without out-of-range indices.", "quantifier": "every file system and option set for which Parse returns a payload", "why_tests_cant": "termination over all include graphs", "anchors": ["util.go:performIncludes", "parse.go:Parse", "parse.go:parser.isAcyclic"]}
{"id": "C18", "title": "IgnoreDirectives removes exactly the named statements", "statement": "Parsing a well-formed configuration with IgnoreDirectives=I yields the tree obtained without it with every statement named in I (and its whole block and its argument comments) deleted at every depth outside map-like bodies, and nothing else changed.", "quantifier": "every well-formed tree, every ignore list", "why_tests_cant": "universal over trees and lists", "anchors": ["parse.go:parser.parse", "util.go:contains"]}
{"id": "C19", "title": "ParseComments only adds comments", "statement": "For every input, parsing with ParseComments=false gives the same outcome as parsing with ParseComments=true with all comment directives deleted: same directives, errors, include order and status.", "quantifier": "every token stream, file system and option set", "why_tests_cant": "relational property over all inputs", "anchors": ["parse.go:parser.parse"]}
{"id": "C20", "title": "Argument and context checks accept exactly what the masks allow", "statement": "A statement passes validation iff the directive or the context is unknown (and unknown names are not errors), or some bit mask of the directive allows the context and (unless argument checks are off) the terminator, expression form and number/kind of arguments; the verdict does not depend on the order of masks or of sources.", "quantifier": "every directive name, argument list, terminator, context path, list of masks/sources and option combination", "why_tests_cant": "combinatorial space of masks, contexts and arguments", "anchors": ["analyze.go:analyze", "util.go:validExpr", "util.go:validFlag", "analyze.go:contexts"]}
{"id": "C21", "title": "Map-like bodies", "statement": "Inside charset_map, geo, map, match, types, split_clients, geoip2 and otel_exporter blocks each entry is kept as a map parameter without directive validation, and is accepted iff it ends with ';' and its argument count fits the parameter rule; includes inside are not followed and ignore lists do not apply.", "quantifier": "every entry, every map-like block, every option set", "why_tests_cant": "universal over entries", "anchors": ["analyze_map.go:analyzeMapBody", "analyze_map.go:hasValidArguments", "parse.go:parser.parse"]}
{"id": "C22", "title": "If-arguments lose exactly their enclosing parentheses", "statement": "For an 'if' statement the returned arguments are the arguments with the opening parenthesis removed from the first and the closing one from the last, surrounding whitespace trimmed and emptied end arguments dropped; other arguments are unchanged.  Parse must not crash while doing so.", "quantifier": "every argument list", "why_tests_cant": "universal over argument lists; the crash needs one specific shape", "anchors": ["util.go:prepareIfArgs", "util.go:validExpr", "parse.go:parser.parse"]}
{"id": "C23", "title": "Directive.Equal is structural equality up to nil/empty slices", "statement": "Equal is reflexive, symmetric and transitive, and holds exactly when the two trees have the same names, lines, arguments, files, includes, comments, map flags and blocks, where a nil and an empty slice are identified.", "quantifier": "every pair/triple of directive trees", "why_tests_cant": "trees are unbounded", "anchors": ["types.go:Directive.Equal", "types.go:equals", "types.go:strPtrEqual"]}
{"id": "C24", "title": "Directive sources combine as a union and the default table is a right-biased union", "statement": "Masks for a directive are the concatenation over all sources that know it; a directive is known iff some source knows it; unionBitmaskMaps returns for each name the masks of the last map that has it.", "quantifier": "every list of sources, every name", "why_tests_cant": "universal over sources", "anchors": ["analyze.go:analyze", "analyze.go:unionBitmaskMaps", "analyze.go:DefaultDirectivesMatchFunc"]}
{"id": "C25", "title": "Every directive of the shipped tables is usable", "statement": "For each shipped MatchFunc every matched directive has a non-empty list of non-zero masks with an argument style, and, except the context-free entries (status, header, trusted_certificate), some context and argument count for which validation accepts it.", "quantifier": "every directive in every shipped table", "why_tests_cant": "about 8000 entries of generated tables, not covered by the unit tests", "anchors": ["analyze_nplus_latest_directives.gen.go", "analyze_oss_latest_directives.gen.go", "analyze.go:DefaultDirectivesMatchFunc"]}
{"id": "C26", "title": "Files written by BuildFiles, and what a crash leaves behind", "statement": "BuildFiles writes, for each config in order, exactly the built text with trailing whitespace replaced by one newline to the config's path (joined to dir when relative), and touches no other file.  If it stops or crashes at any point, the files of earlier configs are complete, files of later configs are untouched, and at most one file is truncated or partial.", "quantifier": "every payload, every initial file system, every crash point (after any file-system operation, and in the middle of any write)", "why_tests_cant": "crash points", "anchors": ["build.go:BuildFiles", "build.go:Build"]}
{"id": "C27", "title": "BuildInto writes one stream per config", "statement": "BuildInto with a StringsCreator appends exactly one file per config, in order, named after the config and containing Build's text followed by a newline; it leaves earlier files as they were; Reset empties the creator.", "quantifier": "every payload, every earlier sequence of Create/Write/Close/Reset operations", "why_tests_cant": "operation histories", "anchors": ["build.go:BuildInto", "buffer.go:StringsCreator", "buffer.go:FileString"]}
{"id": "C28", "title": "JSON round trip of directives", "statement": "Marshalling a directive to JSON and unmarshalling it yields a directive Equal to the original; the text Build produces for it is unchanged provided no block is empty (an empty block is dropped by omitempty, which turns 'events {}' into 'events;').", "quantifier": "every directive tree", "why_tests_cant": "trees are unbounded", "anchors": ["types.go:Directive", "build.go:Build"]}
{"id": "C29", "title": "Parse terminates when finitely many files are reachable", "statement": "If only finitely many file names can be reached through includes, Parse returns (a payload or an error) after opening each of them at most once for parsing.", "quantifier": "every file system with a finite set of reachable names, every content", "why_tests_cant": "termination", "anchors": ["parse.go:Parse", "parse.go:parser.parse"]}
{"id": "C30", "title": "Lexical errors are not lost", "statement": "If the lexer reports an error in a file, Parse reports an error for that file (status failed), whatever the options.", "quantifier": "every content, every option set", "why_tests_cant": "universal over inputs and options", "anchors": ["parse.go:parser.parse", "lex.go:tokenize"]}
{"id": "C31", "title": "Included files are validated in the context of their include directive", "statement": "A file first included from a block is parsed with the block path of that include directive as its context.", "quantifier": "every nesting and order of blocks and includes", "why_tests_cant": "aliasing of Go slices shows only for particular nestings and orders", "anchors": ["analyze.go:enterBlockCtx", "parse.go:parser.parse", "parse.go:fileCtx"]}
{"id": "C32", "title": "Rejected statements do not disturb the rest of the file", "statement": "When a statement is rejected and parsing continues, the statement (with its block) is left out and the rest of the file is parsed as if the statement were absent.", "quantifier": "every well-formed file with any rejected statements", "why_tests_cant": "universal over trees", "anchors": ["parse.go:parser.parse"]}
{"id": "C33", "title": "Unclosed statements never change the nesting", "statement": "A statement that runs into the closing '}' of its block is reported as an error, or at least does not let the following text slip into the block.", "quantifier": "every content", "why_tests_cant": "universal over inputs", "anchors": ["parse.go:parser.parse", "analyze.go:analyze"]}
{"id": "C34", "title": "SingleFile parses one file", "statement": "With SingleFile, Parse opens only the given file, returns exactly one config (unless the file cannot be opened) and no directive has Includes.", "quantifier": "every file system and content", "why_tests_cant": "universal", "anchors": ["parse.go:Parse", "parse.go:parser.parse"]}
{"id": "C35", "title": "CombineConfigs labels directives with their origin", "statement": "With CombineConfigs every directive of the returned config carries the name of the file it came from; without it no directive carries a file name; nothing else depends on the option before combination.", "quantifier": "every file system and content", "why_tests_cant": "relational over all inputs", "anchors": ["parse.go:Parse", "parse.go:parser.parse", "util.go:combineConfigs"]}
{"id": "C36", "title": "The last registration wins", "statement": "With several registered lexers (builders) for the same directive the last registered one handles it and directives without registration are untouched; registering has no effect on other names.", "quantifier": "every list of registrations", "why_tests_cant": "universal over lists", "anchors": ["lex.go:registerLexer.applyLexOptions", "build.go:registerBuilder.applyBuildOptions", "lex.go:LexWithOptions", "build.go:Build"]}
{"id": "C37", "title": "External lexers are triggered by complete directive names only", "statement": "An external lexer registered for a name is invoked exactly for directives with that name.", "quantifier": "every input text", "why_tests_cant": "universal over inputs", "anchors": ["lex.go:tokenize"]}
{"id": "C38", "title": "Lua Build/Lex round trip", "statement": "The text Lua.Build produces for a *_by_lua_block directive is lexed by the Lua lexer back to the directive's arguments.", "quantifier": "every Lua directive and every brace-balanced block content", "why_tests_cant": "contents are unbounded", "anchors": ["lua.go:Build", "lua.go:Lex"]}
{"id": "C39", "title": "Generator: filters and overrides", "statement": "Generate's map contains exactly the directives found in the sources that are not filtered, with overridden masks where an override exists and the masks of all definitions (concatenated) otherwise; overrides never add directives.", "quantifier": "every extracted definition list, filter and override map, every map iteration order", "why_tests_cant": "universal over maps and orders", "anchors": ["internal/generator/generator_util.go:genFromSrcCode", "internal/generator/generator_util.go:getMasksFromPath"]}
{"id": "C40", "title": "Override flag syntax", "statement": "Parsing the text directive:mask|mask,mask of a -override flag returns exactly the directive and mask lists it spells (with surrounding blanks removed) and rejects text without a colon, with an empty name, an empty definition or an empty mask name.", "quantifier": "every flag text", "why_tests_cant": "universal over strings", "anchors": ["cmd/generate/cmd_util.go:overrideItem.UnmarshalText", "cmd/generate/cmd_util.go:override.Set"]}
{"id": "C41", "title": "No goroutine is left behind", "statement": "When Parse returns, the lexing goroutines it started have finished.", "quantifier": "every content, every option set, every schedule", "why_tests_cant": "schedules; leaks are invisible to output-based tests", "anchors": ["parse.go:Parse", "lex.go:LexWithOptions"]}
{"id": "C42", "title": "Parse reads only what it reports", "statement": "Every file Parse opens is the given file or the target of an include directive it encountered; every file parsed appears in the payload.", "quantifier": "every file system and content", "why_tests_cant": "universal", "anchors": ["parse.go:Parse", "parse.go:parser.openFile"]}
{"id": "C43", "title": "Build options can be reused", "statement": "The text Build produces does not depend on earlier uses of the same BuildOptions value by Build or BuildFiles (which write Indent and extBuilders back into it).", "quantifier": "every directive tree, every option value, every earlier sequence of Build and BuildFiles calls", "why_tests_cant": "histories and registrations are unbounded", "anchors": ["build.go:Build", "build.go:BuildFiles", "build.go:BuildWithBuilder"]}
{"id": "C44", "title": "Generator reads command tables", "statement": "From a C source the generator extracts exactly the directive definitions written in its ngx_command_t tables - names and masks, in order - whatever comments, line ends and other code surround them.", "quantifier": "every source text made of code, line ends and comments, every number of tables and definitions", "why_tests_cant": "source texts are unbounded; the repository has eleven sample files", "anchors": ["internal/generator/generator_util.go:masksFromFile", "internal/generator/generator_util.go:getMasksFromPath"]}
{"id": "C45", "title": "Generated text spells the map", "statement": "The text the generator writes contains the map as a Go literal, one row for each directive in byte order of the names, with names and masks verbatim.", "quantifier": "every map, every variable and function name", "why_tests_cant": "maps are unbounded; html/template escaping depends on characters no sample has", "anchors": ["internal/generator/generator_util.go:genFromSrcCode", "internal/generator/tmpl/support_file.tmpl"]}
{"id": "C46", "title": "JSON round trip of payloads", "statement": "A payload without errors is read back from its JSON text, up to empty lists and bytes that are not UTF-8, as long as blocks nest at most 4998 deep; a payload that reports any error, or nests deeper, cannot be read back.", "quantifier": "every payload, whatever other error types and callback values are encoded as", "why_tests_cant": "payloads are unbounded", "anchors": ["types.go:Payload", "types.go:Config", "errors.go:ParseError.MarshalJSON"]}
{"id": "C47", "title": "Combined does not depend on the schedule and leaves no goroutine behind", "statement": "For every interleaving of the goroutines performIncludes starts (one per block and per included file, with unbuffered channels), Combined returns the directives or the error of the sequential expansion, within a bounded number of steps and without deadlock; when it succeeds all goroutines have returned.", "quantifier": "every payload without include cycles and negative indices, every schedule", "why_tests_cant": "schedules cannot be enumerated by tests", "anchors": ["util.go:performIncludes", "util.go:combineConfigs"]}
{"id": "C48", "title": "Parsed words stand in the text, in order", "statement": "The names and arguments of the directives in a parsed config, read in the order of the text, are the values of distinct word tokens of that config's file in that order (arguments of if statements aside), and each directive carries the line of its name; so lines never decrease and lie within the file.", "quantifier": "every file system, content and option set without CombineConfigs", "why_tests_cant": "universal over contents and option sets", "anchors": ["parse.go:parser.parse", "parse.go:Parse", "lex.go:tokenize"]}
{"id": "C49", "title": "Every Lua block directive of the table is handled by the Lua lexer", "statement": "Each *_by_lua_block directive of the Lua table is one the Lua lexer is registered for, and each of its masks admits the form in which the lexer delivers it (the code as last argument, ended by ';').", "quantifier": "every entry of the Lua table, every argument list of the right length", "why_tests_cant": "table and list of names are maintained apart", "anchors": ["lua.go:directiveNames", "analyze_lua_directives.gen.go", "analyze.go:analyze"]}
{"id": "C50", "title": "Statements cut off by the end of the file are reported", "statement": "If the last token of a file that is not a comment is a word, Parse reports an error for that file.", "quantifier": "every content the lexer accepts, every option set", "why_tests_cant": "universal over inputs and options", "anchors": ["parse.go:parser.parse"]}
{"id": "C51", "title": "Parse returns the statements that were written", "statement": "Parse returns one config per included file, in the order the files are first included; each config holds exactly one directive for every accepted statement - name, line, arguments, children, numbers of the included files, comments among the arguments behind it - and one error, with text, file, line, statement and block, for every rejected statement; the payload's status, errors and callback results follow from these; a file with a lexer error, an unfinished statement, an unreadable pattern or an include without argument keeps no directives and lists the errors up to there; Parse fails with the cycle error exactly when the files include each other in a circle, and with CombineConfigs returns the expansion of these configs.", "quantifier": "every file system, table and option set (without StopParsingOnError, or if nothing is rejected), every number, size and depth of files and blocks; rejected statements with a block must be simple directives, include paths at most three blocks deep", "why_tests_cant": "universal over files; samples cannot cover the interplay of includes, contexts and errors", "anchors": ["parse.go:Parse", "parse.go:parser.parse", "parse.go:parser.handleError", "analyze.go:analyze", "util.go:combineConfigs"]}
{"id": "C52", "title": "Errors are located at their statements", "statement": "The errors of a parsed file are complaints about distinct statements of that file in the order of the text; each carries the file, the line of the statement's first word and its words, and only the last can be of another kind: the lexer's error, a failing glob or the end of the file. Lines ascend and lie within the file. The payload lists the same errors file by file; an error Parse itself returns is the cycle error, that of a file that could not be opened, or with StopParsingOnError such an error. The text ends with file and line.", "quantifier": "every file system, content and option set; lines within the file without external lexers", "why_tests_cant": "universal over contents and option sets", "anchors": ["parse.go:parser.parse", "parse.go:parser.handleError", "parse.go:Parse", "analyze.go:analyze", "analyze_map.go:analyzeMapBody", "errors.go:ParseError.Error"]}
{"id": "C53", "title": "Errors say why a statement was rejected", "statement": "The error for a rejected statement names the unknown directive, says that the directive is not allowed here, or gives what the last mask for this context has against it (no parentheses, no opening brace, no semicolon, not on/off, number of arguments, in this order); for an entry of a map-like block it names the unexpected end or the number of parameters. It carries file, line, statement and innermost block.", "quantifier": "every table, option set, context, directive and terminator", "why_tests_cant": "universal over tables and statements", "anchors": ["analyze.go:analyze", "analyze_map.go:analyzeMapBody"]}
{"id": "C54", "title": "The lexer is determined on every text", "statement": "Every text divides into words, quoted strings, separators and comments with white space between (the last word or string may lack its end; bytes that are no character read as U+FFFD; carriage returns and a backslash at the very end do not count). The lexer sends one token per item, with its text and the line it begins on (a separator directly behind a word shows the word's line), up to the first misplaced separator; then one error with the line of that separator, and nothing more. If blocks are left open at the end, the error comes last and carries the last line.", "quantifier": "every byte string, without external lexers", "why_tests_cant": "C01 covers texts that are well laid out; this covers all the others", "anchors": ["lex.go:tokenize", "lex.go:lexError"]}
{"id": "C55", "title": "Parse is determined on every configuration", "statement": "For every configuration, well-formed or not, what Parse returns follows from a few rules: how a stream of tokens divides into statements (each ended by the next unquoted '{', ';' or '}', whatever token comes first); whether a statement is kept, an entry of a map-like block, left out alone, left out with the tokens up to the brace that closes its block, left out with the rest of its block, or the end of the file; what is reported for it; which files it includes; when the file counts as failed; when Parse returns an error, crashes, reports a circle, and what the payload and the combined payload then hold.", "quantifier": "every file system, content, table and option set, with and without StopParsingOnError; the converse (the rules allow only what Parse returns) for include directives in at most three blocks", "why_tests_cant": "C51 covers configurations whose rejected statements leave the structure intact; this covers all the others", "anchors": ["parse.go:Parse", "parse.go:parser.parse", "parse.go:parser.handleError", "analyze.go:analyze", "analyze_map.go:analyzeMapBody", "util.go:combineConfigs"]}
{"id": "C56", "title": "Build is determined on every tree", "statement": "Enquote leaves a string as it is exactly when it is not empty, contains no white space, brace, semicolon or quote except behind a backslash that is not the first character, and does not end with a backslash or dollar sign; every other string it puts in quotes - single ones if it contains a double quote, with its apostrophes escaped - with every character that is not printable and every bad byte as an escape. The text of a tree is the header (if asked for), then one row per statement, opened block, closed block, comment and output of an external builder, each behind the blanks of its depth; a comment on the line of the statement before is appended to that row; one line break at the very end is dropped. Build panics exactly if Indent is negative and some row is deeper than 0 (with Tabs: than 100).", "quantifier": "every string, tree, set of external builders and layout option; unicode.IsPrint is fixed on ASCII and arbitrary elsewhere", "why_tests_cant": "C08 and C11 say what the text is good for; this says what it is", "anchors": ["build.go:Enquote", "build.go:needsQuote", "build.go:escape", "util.go:repr", "build.go:buildBlock", "build.go:margin", "build.go:Build"]}
{"id": "C57", "title": "The lexer with external lexers is determined on every text", "statement": "An external lexer is called exactly when the text of the item that is not over yet - a word, a string, a comment - is a registered name, another character follows, and the name of a directive is expected. It is at the start; line breaks (that character included), separators and hand-overs make it so; white space that ends a word, '${' and the start of a comment end it. The name is sent as it stands, then the lexer's tokens; it is given the name, the line and the characters behind that one. Then the rest is read from there: if that character is the quote that ends the name it is dropped, otherwise it is read again, on its own line, behind what the lexer took. Between hand-overs, and after the last one, the tokens and errors are those of C54, with braces and separators counted over everything read so far.", "quantifier": "every byte string, every set of external lexers that return (any tokens, any number of characters taken)", "why_tests_cant": "C37 covers configurations that are well laid out; this covers all the others", "anchors": ["lex.go:tokenize", "lex.go:SubScanner", "lex.go:LexWithOptions"]}
{"id": "C58", "title": "The Lua lexer is determined on every text", "statement": "LexLua registers sixteen names, those that end in _by_lua_block. Behind such a name the lexer skips white space. If another character than '{' follows, it sends one error that carries its line and takes nothing more. If '{' follows, it looks for the first '}' at which the braces between balance and no string is open - a quote opens a string that ends at its next occurrence, backslashes do not count, braces in strings neither - and sends what is between as one quoted token and then ';', both with the line of that '}'. If there is none, or nothing but white space follows, it takes the whole rest of the text and sends nothing. For set_by_lua_block the characters up to the next white space come first: one token with the line behind that white space; without such white space nothing is sent.", "quantifier": "every name, line and sequence of characters", "why_tests_cant": "C07 and C38 cover blocks that balance; this covers all the others", "anchors": ["lua.go:Lua.Lex", "lua.go:Lua.directiveNames", "lua.go:Lua.RegisterLexer"]}
{"id": "C59", "title": "Texts are read and written as UTF-8", "statement": "A text divides into characters: each is encoded in one to four bytes, its bits six to each byte behind the first, in the shortest form, no surrogates; a byte with which no such encoding begins counts as one U+FFFD. The division is the same from either end. The lexer is given the encodings of these characters. A character is written as its encoding, anything else as that of U+FFFD. White space is the 25 characters with the Unicode property White_Space.", "quantifier": "every byte string and every number", "why_tests_cant": "the other properties speak of the characters of a text and of white space; this says what they are", "anchors": ["lex.go:tokenize", "build.go:needsQuote", "util.go:isSpace", "util.go:isEOL", "util.go:repr"]}
{"id": "C60", "title": "The library functions mean what their documentation says", "statement": "HasPrefix, HasSuffix, TrimPrefix, TrimSuffix, TrimSpace, ReplaceAll, Split, Join, Cut, ContainsAny, ToLower, Repeat, sort.Strings, Itoa, filepath.IsAbs, Clean, Join and Dir, map assignment and lookup of the model satisfy, and are determined by, what the documentation says of them: for Clean, the rules are applied one at a time in any order until none applies.", "quantifier": "every string, list and path", "why_tests_cant": "many statements of the other properties use these functions; this says what they mean without reference to how they are computed", "anchors": ["parse.go:Parse", "parse.go:parser.parse", "build.go:BuildFiles", "build.go:Enquote", "util.go:prepareIfArgs", "util.go:validFlag", "lex.go:LexWithOptions"]}
{"id": "C61", "title": "What the generator extracts from a source text", "statement": "From every text the comments that match //.* and then those that match /\\*[\\s\\S]*?\\*/ are removed, then the line ends; then the tables are the successive leftmost matches of ngx_command_t\\s+(\\w+)\\[\\]\\s*=\\s*{(.*?)}\\s*; and the commands of a table the successive leftmost matches of ngx_string\\(\"(.*?)\"\\).*?,(.*?), in its body, where a match is the one a backtracking search prefers: at the first place where two matches differ a greedy repetition takes more and a lazy one less.", "quantifier": "every byte string", "why_tests_cant": "C39 and C44 speak of the definitions found in a text; this says which they are on texts of any form", "anchors": ["internal/generator/generator_util.go:masksFromFile"]}
{"id": "C62", "title": "The JSON texts that are read", "statement": "A text is read as a value exactly if it is white space, that value, white space, and nothing else, by the grammar of RFC 8259, nesting at most 10000 deep. Strings stand for the characters between the quotes with escapes replaced; a pair of surrogate escapes stands for one character, a lone surrogate and a byte that is no UTF-8 for U+FFFD. Control characters, unknown escapes, superfluous zeros, signs, commas and anything behind the value make it no JSON. Such a text is an error for Directive and Payload.", "quantifier": "every byte string", "why_tests_cant": "C28 and C46 speak of the JSON written by the library; this says which other texts are read, and as what", "anchors": ["types.go:Payload", "types.go:Directive", "errors.go:ParseError.MarshalJSON"]}
{"id": "C63", "title": "The generator's command", "statement": "The flags at the beginning of the command line are -name=value, --name=value, -name value or --name value; they end before the first other word, '-' or '--'. The first flag that is misspelt, unknown, without value or an override that is not of the form directive:mask|mask,... is reported; help and h give the usage. Of several values of a flag the last counts, filters are collected, of several overrides of a directive the last counts. The configuration file begins with a JSON object (or null) whose members are matched without regard to case and must have the right types; repeated filters are collected, of repeated texts the last counts, null resets the overrides. Each flag given goes before the configuration, as a whole. Without source path, map name or function name (looked at in this order) nothing is generated; otherwise the program prints the text for the map computed from the tree below the source path with these filters and overrides.", "quantifier": "every command line, configuration file, source tree and order of map loops", "why_tests_cant": "C39, C40 and C44 cover the parts; this is the program", "anchors": ["cmd/generate/main.go:main", "cmd/generate/main.go:configFromFile", "cmd/generate/cmd_util.go:filterFlag.Set", "cmd/generate/cmd_util.go:override.Set", "internal/generator/generator.go:Filters.UnmarshalJSON", "internal/generator/generator.go:Generate"]}
{"id": "C64", "title": "Formatting a configuration in place keeps it", "statement": "If a configuration of any number of files is read without error and every file is then replaced by the text built from what was read of it (by Build, or by BuildFiles over the same paths), reading it again gives the same files in the same order, the same includes and the same directives up to line numbers and the comments of the header. Formatting it a second time changes no file, unless the header is read as comments or a comment stands behind a closing brace. Excepted are configurations of which an argument or comment cannot be written (C09), parameters of map blocks named 'if', and files ending in a comment that ends in white space.", "quantifier": "every configuration read without errors, all its files, every indentation", "why_tests_cant": "C09 and C10 speak of one tree; a formatter works on a whole configuration with its includes", "anchors": ["parse.go:Parse", "build.go:Build", "build.go:BuildFiles"]}
{"id": "C65", "title": "One file in place of a configuration with includes", "statement": "If a configuration is read without error with CombineConfigs, and every include directive leads to some file, the text built from the combined tree is read, as a single file, to the same directives up to file names, line numbers and the header. Excepted are configurations that include a file in different blocks, comments of different files that come to stand on one line, and what C09 excepts.", "quantifier": "every configuration read without errors, every indentation", "why_tests_cant": "flattening a configuration is what CombineConfigs together with Build is used for", "anchors": ["parse.go:Parse", "util.go:combineConfigs", "util.go:performIncludes", "build.go:Build"]}
{"id": "C66", "title": "An include directive stands for the statements of the files it names", "statement": "If a configuration is read without error with CombineConfigs and every include directive leads to some file, a text in which every include directive is replaced by the statements of the files it names, in order, these treated in the same way (relative paths are resolved against the first file's directory throughout), is read, as a single file, to the same directives up to file names and line numbers. Comments among the arguments of an include directive come behind. Such a text's statements always exist. Excepted are configurations that include a file in different blocks.", "quantifier": "every configuration read without errors, every set of external lexers", "why_tests_cant": "C65 says that the library can write the combined configuration; this says what CombineConfigs means in terms of the texts", "anchors": ["parse.go:Parse", "parse.go:parser.parse", "util.go:combineConfigs", "util.go:performIncludes"]}
{"id": "C67", "title": "Putting texts together", "statement": "If nothing is left open at the end of a text (a newline behind it changes none of its tokens) and it has no errors, then the tokens of this text, a newline and another text are its tokens followed by those of the other text, whose lines, also in errors, are moved by the number of its newlines plus one. In the same way a complete text can be put between two lines of another text, in any block: the tokens before it stay, its own and the following ones are moved. Excepted are texts that begin, comments aside, with ';' or '{', for these are errors behind a complete statement.", "quantifier": "every pair and triple of byte strings, without external lexers", "why_tests_cant": "the lines of a token depend on the text before it, and so does the error for ';' and '{' with nothing before them; otherwise nothing does", "anchors": ["lex.go:LexWithOptions", "lex.go:tokenize"]}
{"id": "C68", "title": "Configurations with Lua blocks: build, then parse", "statement": "With the Lua builder and the Lua lexer, every tree that the options accept comes back from the text built from it: the same names, arguments, Lua code character by character, comments, nesting and order. Conditions: ordinary names and arguments as for C09, none of them beginning with the name of a Lua directive; the code of a Lua directive balances in braces and quotes; the variable of set_by_lua_block has no white space and is no separator and no comment. If besides no comment directly follows a block (Lua or not) on its line, and Header and comments are not both on, the tree read back builds to the same text; comments the parser drops stay dropped.", "quantifier": "every tree of the class, every indentation, every parse option otherwise", "why_tests_cant": "tools that rewrite OpenResty configurations with this library must not change the Lua code", "anchors": ["lua.go:Lua.Lex", "lua.go:Lua.Build", "build.go:Build", "build.go:buildBlock", "lex.go:tokenize", "parse.go:Parse"]}
{"id": "C69", "title": "Configurations with Lua blocks in several files: formatting and flattening", "statement": "C64 and C65 with the Lua lexer and the Lua builder. Parse, BuildFiles over the same files, Parse: the second payload is the first up to line numbers and the header, the Lua code character by character, and a second BuildFiles changes no file. Parse with CombineConfigs, Build, Parse of that text alone: the same directives up to file names, line numbers and the header. Conditions on the trees as in C68, on includes and comments as in C64 and C65.", "quantifier": "every configuration read without errors, every indentation", "why_tests_cant": "formatting in place and flattening are what the library is used for; both go through the external lexer and builder", "anchors": ["parse.go:Parse", "build.go:Build", "build.go:BuildFiles", "lua.go:Lua.Lex", "lua.go:Lua.Build", "util.go:combineConfigs"]}
{"id": "C70", "title": "How the bytes of a file arrive does not matter", "statement": "The tokens of a file are those of the bytes its reader delivers, however Read cuts them into pieces: pieces may end inside a character, up to 100 reads in a row may return nothing, and an error may come together with bytes. An error of the reader, and 101 reads in a row that return nothing, end the file as its end does. Scan then returns false for ever, and Err returns the error.", "quantifier": "every reader (every sequence of results of Read), every set of external lexers", "why_tests_cant": "the ways to cut a text are as many as texts; tests read whole files from strings", "anchors": ["lex.go:LexWithOptions", "lex.go:tokenize", "lex.go:SubScanner.Scan", "lex.go:SubScanner.Err"]}
{"id": "C71", "title": "Checking less changes nothing that was accepted", "statement": "If Parse reads a configuration without an error, it returns the same payload with options that check less: that let unknown directives through, skip the context check or the argument check, do something else about errors (StopParsingOnError, ErrorCallback), or, where unknown directives are refused and tables are named, name more tables or tables that allow more. Checks reject, they never rewrite.", "quantifier": "every configuration read without errors, every pair of options of which the second checks less", "why_tests_cant": "it relates two runs of the whole parser; every branch that looks at an option is a chance for the trees to differ", "anchors": ["parse.go:Parse", "parse.go:parser.parse", "analyze.go:analyze"]}
{"id": "C72", "title": "Parse depends on the files include directives lead to, and on nothing else in the file system", "statement": "Two file systems that agree on the files include directives lead to, starting from the first file (their contents, or the error of opening them), and, up to the order of the names, on the patterns asked for there, give the same result of Parse, whatever that is.", "quantifier": "every pair of file systems, every option set, every first file", "why_tests_cant": "file systems differ in arbitrarily many other files; tests have one", "anchors": ["parse.go:Parse", "parse.go:parser.parse", "parse.go:parser.openFile"]}
{"id": "C73", "title": "The error callback only annotates", "statement": "With any ErrorCallback Parse returns what it returns with any other or none, except that every error of the payload carries the value the callback returned for it.", "quantifier": "every callback (a function of the error), every option set, every configuration", "why_tests_cant": "it compares whole runs of the parser", "anchors": ["parse.go:Parse"]}
{"id": "C74", "title": "The JSON that is written", "statement": "The JSON text of a directive or a payload stands for an object with the fields status, errors, config; file, status, errors, parsed; file, line, error, callback; directive, line, args, file, includes, block, comment, mapBlockParameter, in this order, with their values; callback, file, includes, block, comment and mapBlockParameter are left out when empty. The text is UTF-8 without control characters, '<', '>', '&' and line separators.", "quantifier": "every tree and every payload, strings of any bytes, any depth", "why_tests_cant": "other programs read this format; C28 and C46 would hold for any field names", "anchors": ["types.go:Payload", "types.go:PayloadError", "types.go:Config", "types.go:ConfigError", "types.go:Directive", "errors.go:ParseError.MarshalJSON"]}
{"id": "C75", "title": "A newer release accepts what an older one did", "statement": "With ErrorOnUnknownDirectives, a statement that passes with the directive table of a release passes with that of a later one (NGINX Plus R30 to R37, latest, the default table; OSS 1.24 to latest; App Protect WAF v4 and v5), at every place and with whatever other sources; OSS tables are contained in that of the latest Plus release. A configuration read without errors with the older table is read the same way with the newer one. Exceptions: ssl is gone from OSS 1.26 on, proxy_ssl_alpn is missing in Plus.", "quantifier": "every statement, every place, every configuration, every pair of releases, every set of further sources", "why_tests_cant": "the tables have thousands of masks; each combination of place, arguments and terminator is a case, and nobody writes a test for what did not change", "anchors": ["analyze.go:analyze", "analyze_nplus_R30_directives.go:nginxPlusR30Directives", "analyze_nplus_latest_directives.gen.go:nginxPlusLatestDirectives", "analyze_oss_124_directives.gen.go:oss124Directives", "analyze_oss_latest_directives.gen.go:ossLatestDirectives"]}
{"id": "C76", "title": "Directive.Equal on pointers", "statement": "Directives are pointers: blocks can share them, have nil elements and, through the API, contain themselves. When Equal returns, it returns true exactly if nobody who follows the pointers can tell the two directives apart. It returns whenever one of the two does not contain itself or the two pointers are the same. On trees it is the function of C23.", "quantifier": "every memory, every pair of pointers", "why_tests_cant": "sharing and cycles have unboundedly many shapes; the tests of the repository compare a few trees", "anchors": ["types.go:Directive.Equal", "types.go:equals", "types.go:strPtrEqual"]}
{"id": "C77", "title": "JSON from elsewhere is read as what it stands for", "statement": "json.Unmarshal reads a text as a Directive, or as a Payload, exactly if it is a JSON text whose members named like the fields have values of their types (or null), and as the tree with those values: in any order, with any blanks and escapes, with fields left out, and beside members with other names. Nothing else is accepted.", "quantifier": "every text, every tree, every payload, any depth up to encoding/json's limit", "why_tests_cant": "programs in other languages write this format; C28 and C46 cover only texts this library wrote itself", "anchors": ["types.go:Directive", "types.go:Payload", "types.go:Config", "types.go:PayloadError", "types.go:ConfigError"]}
{"id": "C78", "title": "Where lines end and how words are quoted does not matter", "statement": "White space between the items of a file can be changed at will - spaces, tabs, new lines, carriage returns, as long as items that need some keep some -, and quotes can be put around words that are not braces, semicolons or comments, or taken off: the lexer sends the same tokens and Parse returns the same, line numbers aside. That includes errors, statuses, includes and combined configurations. More generally, with any options and external lexers, Parse of files with the same tokens up to line numbers and such quotes returns the same up to line numbers.", "quantifier": "every file system, every pair of layouts, all options", "why_tests_cant": "layouts are unbounded, and a use of a line number anywhere in the parser would only show for some of them", "anchors": ["lex.go:tokenize", "parse.go:Parse", "parse.go:parser.parse", "analyze.go:analyze", "util.go:combineConfigs"]}
{"id": "C79", "title": "A configuration survives the trip through JSON to files", "statement": "A payload without errors that is marshalled to JSON, unmarshalled and given to BuildFiles leaves the same files, with the same result, as the payload itself, whatever the operating system makes of each operation; for the text of one file this holds exactly if no empty block is written. Parsing the files gives the configuration that was parsed at first, line numbers aside.", "quantifier": "every payload without errors whose texts are UTF-8 and whose blocks nest at most 4998 deep, every build option, every builder that does not tell an empty list from none, every file system", "why_tests_cant": "the command line program does this with every configuration its users have; the tests of the repository build from Go values", "anchors": ["types.go:Payload", "types.go:Directive", "build.go:BuildFiles", "build.go:Build", "build.go:buildBlock", "parse.go:Parse"]}
{"id": "C80", "title": "A moved configuration is parsed the same way", "statement": "Parse of a configuration whose files have other names but the same texts, and whose includes lead to the corresponding files, returns the same configuration, statuses and errors, with the other names in their place. In particular this holds for a directory that is moved, if all its includes are relative paths that lead down from it; patterns and files that cannot be opened included.", "quantifier": "every file system, every pair of one-to-one names, all options", "why_tests_cant": "the tests of the repository use one directory; a use of a file's name for anything but opening it would show only elsewhere", "anchors": ["parse.go:Parse", "parse.go:parser.parse", "parse.go:parser.isAcyclic", "util.go:combineConfigs", "analyze.go:analyze"]}
{"id": "C81", "title": "Files that are opened are closed", "statement": "When Parse returns or panics, every file it opened - the files of the configuration and those opened to see whether an include can be read - has been closed exactly once, in reverse order of opening, and nothing else has been closed. Until then all files of the configuration are open at once.", "quantifier": "every file system, every configuration, all options, every result", "why_tests_cant": "a leaked handle shows only in long running programs; the tests of the repository do not look at handles", "anchors": ["parse.go:Parse", "parse.go:parser.parse", "parse.go:parser.openFile"]}
{"id": "C82", "title": "What BuildInto asks of a Creator", "statement": "With any Creator, BuildInto creates one file after the other in the order of the payload, writes its text in at most a header and a body, and closes it before the next is created; it makes exactly these calls up to the first that returns an error, which it returns. The texts do not depend on the creator nor on earlier uses of the options. With a StringsCreator this is what C27 says.", "quantifier": "every payload, every creator and every pattern of failing calls, all options, used any number of times", "why_tests_cant": "the tests of the repository use a creator that never fails", "anchors": ["build.go:BuildInto", "build.go:Build", "buffer.go:Creator", "buffer.go:StringsCreator.Create"]}
{"id": "C83", "title": "Combining twice is combining once", "statement": "What Payload.Combined returned without an error, it returns again unchanged; so it does with what Parse returned with CombineConfigs. The payloads it leaves as they are are exactly those without configs, and those with one config whose tree holds no resolved include at any depth and whose statuses are such as Combined gives. A tree that was expanded stays the same in any other payload.", "quantifier": "every payload, every configuration, all options", "why_tests_cant": "trees and includes are unbounded; an include left in a nested block would be expanded by the second run only", "anchors": ["util.go:combineConfigs", "util.go:performIncludes", "types.go:Payload.Combined", "types.go:Directive.IsInclude"]}
{"id": "C84", "title": "The numbers of configs are only numbers", "statement": "Give the configs of a payload other places, the first staying first, and write the new numbers into the include directives: Combined returns the same tree, in a file of the same name. If the configs are the same ones in another order, all it returns is the same but the order of the errors. Configs that are appended bring in only their errors and statuses.", "quantifier": "every payload Combined returns without an error for, every renumbering, any further configs", "why_tests_cant": "the tests of the repository only combine what Parse numbered", "anchors": ["util.go:combineConfigs", "util.go:performIncludes", "types.go:Payload.Combined"]}
{"id": "C85", "title": "The order of directive sources", "statement": "What Parse accepts without an error does not depend on the order of DirectiveSources, nor on how often one is named, nor on how the forms of a directive are spread over them: it is accepted with the one list exactly if it is with the other, and the payload is the same.", "quantifier": "every list of sources, every configuration, all options", "why_tests_cant": "sources are functions of the caller; the tests of the repository use few of them in one order", "anchors": ["analyze.go:analyze", "parse.go:Parse", "parse.go:parser.parse"]}
{"id": "C86", "title": "Indentation is only indentation", "statement": "However Build indents it - any number of spaces, or tabs -, the text of a tree has the same tokens on the same lines. A configuration in which some files are written with another indentation is parsed to exactly the same result, line numbers included. In general Parse knows of the texts of files only their tokens.", "quantifier": "every tree that survives Build and Parse (C09), all non-negative indentations, every file system, every result", "why_tests_cant": "trees are unbounded; a line break or blank written for one indentation only would show for some of them", "anchors": ["build.go:Build", "build.go:buildBlock", "build.go:margin", "lex.go:tokenize", "parse.go:Parse"]}
{"id": "C87", "title": "Parse asks only about names that occur", "statement": "Lists of IgnoreDirectives and directive tables that answer the same about the words of the files lead to exactly the same result, whatever they answer about other names. The order of the ignored names and how often one is named do not matter, nor do names that are not in the files.", "quantifier": "every list of names, all sources of directives, every configuration, all options, every result", "why_tests_cant": "tables and lists are values of the caller; a lookup under another name shows only for a table that knows that name", "anchors": ["parse.go:parser.parse", "parse.go:Parse", "util.go:contains", "analyze.go:analyze"]}
{"id": "C88", "title": "External lexers are asked about tokens only", "statement": "Registrations of external lexers that differ in no name which is a token of the text give the same tokens, whatever they hold for other names, and Parse returns the same result with them. Only which lexer a name has in the end matters, not what was registered before.", "quantifier": "every text, all external lexers, every configuration, all options, every result", "why_tests_cant": "external lexers are values of the caller; the tests of the repository register only the Lua lexer", "anchors": ["lex.go:tokenize", "lex.go:LexWithOptions", "lex.go:RegisterLexer", "parse.go:Parse"]}
