# Source of properties.jsonl (run: python3 tools/properties.py > properties.jsonl)
import json
P=[]
def p(title, statement, quantifier, why, anchors):
    P.append(dict(id="C%02d"%(len(P)+1), title=title, statement=statement, quantifier=quantifier, why_tests_cant=why, anchors=anchors))

p("Lexing inverts rendering",
  "If a configuration text is laid out from a sequence of lexical items (bare words, single- or double-quoted strings, '{', '}', ';', comments) separated by any whitespace the syntax allows, Lex delivers exactly those items, in order, each with its value, its quoted flag and the 1-based number of the line on which it starts, and then closes the channel.",
  "every sequence of lexical items whose braces and separators nest properly, every value the item kinds can carry, every choice of whitespace (including newlines, CRs and Unicode spaces) between items",
  "the set of texts is infinite in length, layout and content; fixtures sample a few files",
  ["lex.go:tokenize","lex.go:Lex","util.go:isSpace","util.go:isEOL"])
p("Carriage returns never change the tokens",
  "Removing every carriage return from an input (for instance converting CRLF line ends to LF) leaves the stream of tokens produced by Lex unchanged: same values, same quoted flags, same line numbers, same errors.",
  "every input text (sequence of characters), no external lexers registered",
  "a test fixes one file; the claim is about every placement of every CR, including inside quotes, comments and escapes",
  ["lex.go:tokenize"])
p("Brace and separator errors are exactly the malformed streams",
  "Without external lexers, Lex emits at most one error token, always as the last token. If it emits none, the unquoted braces of the stream nest properly (no prefix closes more than it opened, and all are closed at the end) and no unquoted '{' or ';' directly follows another unquoted '{', '}' or ';' (comments aside). If it emits one, the message names the rule that the text breaks and the preceding tokens show the breach.",
  "every input text",
  "needs all inputs; a fixture shows one malformed file at a time",
  ["lex.go:tokenize"])
p("Token line numbers are sound",
  "For every input, token lines are non-decreasing in stream order, at least 1 and at most one more than the number of newlines of the input.",
  "every input text, no external lexers",
  "universal over inputs",
  ["lex.go:tokenize","util.go:isEOL"])
p("Token delivery does not depend on the schedule or the channel capacity",
  "For every interleaving of the lexing goroutine and the consumer and every channel capacity (including 0), what the consumer has received is always a prefix of the token sequence of the input; the pair never deadlocks; and when the consumer drains the channel it has received exactly the whole sequence and then sees the channel closed.",
  "every token sequence, every capacity, every schedule (interleaving of send, receive and close steps)",
  "schedules cannot be enumerated by tests",
  ["lex.go:LexWithOptions","lex.go:tokenize","lex.go:SetTokenChanCap","parse.go:Parse"])
p("Shape of emitted tokens",
  "For every input without external lexers, every token without an error is valid UTF-8, every unquoted one is non-empty and is either one of '{' '}' ';', or a comment starting with '#' and containing no newline, or a word whose first character is neither whitespace nor one of '{};#' nor a quote.",
  "every input byte string, including invalid UTF-8",
  "universal over byte strings",
  ["lex.go:tokenize","lex.go:SubScanner"])
p("Lua blocks are captured verbatim",
  "With the Lua lexer registered, a *_by_lua_block directive followed by whitespace and a brace-balanced block yields the directive name, the block content byte for byte as one quoted token, and ';'; set_by_lua_block additionally yields its variable argument; lexing resumes directly after the closing brace.",
  "every Lua directive name, every block content whose braces balance under the lexer's own quote rule, every amount of leading whitespace, every following text",
  "contents are unbounded",
  ["lua.go:Lex","lex.go:tokenize","lex.go:SubScanner"])
p("Enquote produces text that lexes back to the argument",
  "Enquote(s), placed where an argument is expected, is lexed back as exactly one token with value s, for every string s in a decidable class; outside that class (leading '#', backslash parity defects, control characters) the built text provably does not lex back.",
  "every Go string s and every oracle for strconv.IsPrint that is right on ASCII",
  "universal over strings",
  ["build.go:Enquote","build.go:needsQuote","build.go:escape","util.go:repr"])
p("Build then Parse returns the same configuration",
  "For every directive tree in a decidable class that is valid under the parse options, parsing the text produced by Build (any Indent>=1, Tabs, Header) succeeds with status ok and returns the same tree: same names, arguments, comments, nesting and order.",
  "every directive tree of any size and depth in the class, every Indent/Tabs/Header setting, every set of parse options that accepts the tree",
  "trees are unbounded; the compare tests cover eight files",
  ["build.go:Build","build.go:buildBlock","build.go:Enquote","parse.go:Parse","parse.go:parser.parse","lex.go:tokenize"])
p("Build is idempotent through Parse",
  "Building the tree obtained by parsing Build's output reproduces Build's output byte for byte.",
  "every tree in the round-trip class, every build option",
  "trees are unbounded",
  ["build.go:Build","parse.go:Parse"])
p("Layout of built text",
  "Every statement that Build starts on its own line is preceded by exactly depth*Indent spaces (depth tabs with Tabs) whatever the depth, and Indent 0 means 4; margin computation cannot panic for Indent>=0.",
  "every depth, every indent, both tab settings",
  "depth and indent are unbounded; the code has a fast path below 100 columns and a slow path above",
  ["build.go:margin","build.go:buildBlock","build.go:Build"])
p("Status and error lists agree",
  "In every payload returned by Parse, Status is 'failed' exactly when Errors is non-empty (otherwise 'ok'), each Config's Status is 'failed' exactly when its Errors is non-empty, and the payload's Errors are the concatenation of the configs' Errors in order, each labelled with its config's File.",
  "every file system, every set of options, every file content",
  "universal over contents, options and include graphs",
  ["parse.go:Parse","types.go:Payload","types.go:Config"])
p("StopParsingOnError returns the first error",
  "If Parse without StopParsingOnError would record errors, then with StopParsingOnError it returns exactly the first of them (and no payload); if it would record none, both runs return the same result.",
  "every file system, every option set, every content",
  "relational property of two runs over all inputs",
  ["parse.go:Parse","parse.go:parser.parse"])
p("Include indices point at the included files",
  "In every payload returned by Parse (not combined), Config[0].File is the given file name, the Files are pairwise distinct (each file is parsed once), and every index in the Includes of any directive at any depth of any config is within range.  Moreover the indices of an include directive select, in order, exactly the files its pattern resolves to (the joined path, or the sorted glob matches).",
  "every file system, glob result, nesting and include graph",
  "universal over include graphs",
  ["parse.go:Parse","parse.go:parser.parse","types.go:Directive.Includes"])
p("Include cycles are reported exactly when they exist",
  "Parse fails with 'configs contain include cycle' if and only if the directed graph of includes it collected has a cycle, independently of the map iteration order.",
  "every include graph with any multiplicities, every iteration order of Go maps",
  "graphs and map orders are unbounded/random",
  ["parse.go:parser.isAcyclic"])
p("Combined configuration is the in-order expansion",
  "Combined() returns a payload whose single config lists the directives of the first config with every include directive replaced, at every depth, by the (recursively expanded) directives of the configs it names, in order; errors are the concatenation, the status is failed iff some config failed, and no resolved include directive remains.",
  "every payload without include cycles, any nesting",
  "universal over payloads",
  ["util.go:combineConfigs","util.go:performIncludes","types.go:Payload.Combined"])
p("Combining what Parse accepted terminates",
  "Whenever Parse collected an acyclic include graph, expanding its payload terminates without error and without out-of-range indices.",
  "every file system and option set for which Parse returns a payload",
  "termination over all include graphs",
  ["util.go:performIncludes","parse.go:Parse","parse.go:parser.isAcyclic"])
p("IgnoreDirectives removes exactly the named statements",
  "Parsing a well-formed configuration with IgnoreDirectives=I yields the tree obtained without it with every statement named in I (and its whole block and its argument comments) deleted at every depth outside map-like bodies, and nothing else changed.",
  "every well-formed tree, every ignore list",
  "universal over trees and lists",
  ["parse.go:parser.parse","util.go:contains"])
p("ParseComments only adds comments",
  "For every input, parsing with ParseComments=false gives the same outcome as parsing with ParseComments=true with all comment directives deleted: same directives, errors, include order and status.",
  "every token stream, file system and option set",
  "relational property over all inputs",
  ["parse.go:parser.parse"])
p("Argument and context checks accept exactly what the masks allow",
  "A statement passes validation iff the directive or the context is unknown (and unknown names are not errors), or some bit mask of the directive allows the context and (unless argument checks are off) the terminator, expression form and number/kind of arguments; the verdict does not depend on the order of masks or of sources.",
  "every directive name, argument list, terminator, context path, list of masks/sources and option combination",
  "combinatorial space of masks, contexts and arguments",
  ["analyze.go:analyze","util.go:validExpr","util.go:validFlag","analyze.go:contexts"])
p("Map-like bodies",
  "Inside charset_map, geo, map, match, types, split_clients, geoip2 and otel_exporter blocks each entry is kept as a map parameter without directive validation, and is accepted iff it ends with ';' and its argument count fits the parameter rule; includes inside are not followed and ignore lists do not apply.",
  "every entry, every map-like block, every option set",
  "universal over entries",
  ["analyze_map.go:analyzeMapBody","analyze_map.go:hasValidArguments","parse.go:parser.parse"])
p("If-arguments lose exactly their enclosing parentheses",
  "For an 'if' statement the returned arguments are the arguments with the opening parenthesis removed from the first and the closing one from the last, surrounding whitespace trimmed and emptied end arguments dropped; other arguments are unchanged.  Parse must not crash while doing so.",
  "every argument list",
  "universal over argument lists; the crash needs one specific shape",
  ["util.go:prepareIfArgs","util.go:validExpr","parse.go:parser.parse"])
p("Directive.Equal is structural equality up to nil/empty slices",
  "Equal is reflexive, symmetric and transitive, and holds exactly when the two trees have the same names, lines, arguments, files, includes, comments, map flags and blocks, where a nil and an empty slice are identified.",
  "every pair/triple of directive trees",
  "trees are unbounded",
  ["types.go:Directive.Equal","types.go:equals","types.go:strPtrEqual"])
p("Directive sources combine as a union and the default table is a right-biased union",
  "Masks for a directive are the concatenation over all sources that know it; a directive is known iff some source knows it; unionBitmaskMaps returns for each name the masks of the last map that has it.",
  "every list of sources, every name",
  "universal over sources",
  ["analyze.go:analyze","analyze.go:unionBitmaskMaps","analyze.go:DefaultDirectivesMatchFunc"])
p("Every directive of the shipped tables is usable",
  "For each shipped MatchFunc every matched directive has a non-empty list of non-zero masks with an argument style, and, except the context-free entries (status, header, trusted_certificate), some context and argument count for which validation accepts it.",
  "every directive in every shipped table",
  "about 8000 entries of generated tables, not covered by the unit tests",
  ["analyze_nplus_latest_directives.gen.go","analyze_oss_latest_directives.gen.go","analyze.go:DefaultDirectivesMatchFunc"])
p("Files written by BuildFiles, and what a crash leaves behind",
  "BuildFiles writes, for each config in order, exactly the built text with trailing whitespace replaced by one newline to the config's path (joined to dir when relative), and touches no other file.  If it stops or crashes at any point, the files of earlier configs are complete, files of later configs are untouched, and at most one file is truncated or partial.",
  "every payload, every initial file system, every crash point (after any file-system operation, and in the middle of any write)",
  "crash points",
  ["build.go:BuildFiles","build.go:Build"])
p("BuildInto writes one stream per config",
  "BuildInto with a StringsCreator appends exactly one file per config, in order, named after the config and containing Build's text followed by a newline; it leaves earlier files as they were; Reset empties the creator.",
  "every payload, every earlier sequence of Create/Write/Close/Reset operations",
  "operation histories",
  ["build.go:BuildInto","buffer.go:StringsCreator","buffer.go:FileString"])
p("JSON round trip of directives",
  "Marshalling a directive to JSON and unmarshalling it yields a directive Equal to the original; the text Build produces for it is unchanged provided no block is empty (an empty block is dropped by omitempty, which turns 'events {}' into 'events;').",
  "every directive tree",
  "trees are unbounded",
  ["types.go:Directive","build.go:Build"])
p("Parse terminates when finitely many files are reachable",
  "If only finitely many file names can be reached through includes, Parse returns (a payload or an error) after opening each of them at most once for parsing.",
  "every file system with a finite set of reachable names, every content",
  "termination",
  ["parse.go:Parse","parse.go:parser.parse"])
p("Lexical errors are not lost",
  "If the lexer reports an error in a file, Parse reports an error for that file (status failed), whatever the options.",
  "every content, every option set",
  "universal over inputs and options",
  ["parse.go:parser.parse","lex.go:tokenize"])
p("Included files are validated in the context of their include directive",
  "A file first included from a block is parsed with the block path of that include directive as its context.",
  "every nesting and order of blocks and includes",
  "aliasing of Go slices shows only for particular nestings and orders",
  ["analyze.go:enterBlockCtx","parse.go:parser.parse","parse.go:fileCtx"])
p("Rejected statements do not disturb the rest of the file",
  "When a statement is rejected and parsing continues, the statement (with its block) is left out and the rest of the file is parsed as if the statement were absent.",
  "every well-formed file with any rejected statements",
  "universal over trees",
  ["parse.go:parser.parse"])
p("Unclosed statements never change the nesting",
  "A statement that runs into the closing '}' of its block is reported as an error, or at least does not let the following text slip into the block.",
  "every content",
  "universal over inputs",
  ["parse.go:parser.parse","analyze.go:analyze"])
p("SingleFile parses one file",
  "With SingleFile, Parse opens only the given file, returns exactly one config (unless the file cannot be opened) and no directive has Includes.",
  "every file system and content",
  "universal",
  ["parse.go:Parse","parse.go:parser.parse"])
p("CombineConfigs labels directives with their origin",
  "With CombineConfigs every directive of the returned config carries the name of the file it came from; without it no directive carries a file name; nothing else depends on the option before combination.",
  "every file system and content",
  "relational over all inputs",
  ["parse.go:Parse","parse.go:parser.parse","util.go:combineConfigs"])
p("The last registration wins",
  "With several registered lexers (builders) for the same directive the last registered one handles it and directives without registration are untouched; registering has no effect on other names.",
  "every list of registrations",
  "universal over lists",
  ["lex.go:registerLexer.applyLexOptions","build.go:registerBuilder.applyBuildOptions","lex.go:LexWithOptions","build.go:Build"])
p("External lexers are triggered by complete directive names only",
  "An external lexer registered for a name is invoked exactly for directives with that name.",
  "every input text",
  "universal over inputs",
  ["lex.go:tokenize"])
p("Lua Build/Lex round trip",
  "The text Lua.Build produces for a *_by_lua_block directive is lexed by the Lua lexer back to the directive's arguments.",
  "every Lua directive and every brace-balanced block content",
  "contents are unbounded",
  ["lua.go:Build","lua.go:Lex"])
p("Generator: filters and overrides",
  "Generate's map contains exactly the directives found in the sources that are not filtered, with overridden masks where an override exists and the masks of all definitions (concatenated) otherwise; overrides never add directives.",
  "every extracted definition list, filter and override map, every map iteration order",
  "universal over maps and orders",
  ["internal/generator/generator_util.go:genFromSrcCode","internal/generator/generator_util.go:getMasksFromPath"])
p("Override flag syntax",
  "Parsing the text directive:mask|mask,mask of a -override flag returns exactly the directive and mask lists it spells (with surrounding blanks removed) and rejects text without a colon, with an empty name, an empty definition or an empty mask name.",
  "every flag text",
  "universal over strings",
  ["cmd/generate/cmd_util.go:overrideItem.UnmarshalText","cmd/generate/cmd_util.go:override.Set"])
p("No goroutine is left behind",
  "When Parse returns, the lexing goroutines it started have finished.",
  "every content, every option set, every schedule",
  "schedules; leaks are invisible to output-based tests",
  ["parse.go:Parse","lex.go:LexWithOptions"])
p("Parse reads only what it reports",
  "Every file Parse opens is the given file or the target of an include directive it encountered; every file parsed appears in the payload.",
  "every file system and content",
  "universal",
  ["parse.go:Parse","parse.go:parser.openFile"])
p("Build options can be reused",
  "The text Build produces does not depend on earlier uses of the same BuildOptions value by Build or BuildFiles (which write Indent and extBuilders back into it).",
  "every directive tree, every option value, every earlier sequence of Build and BuildFiles calls",
  "histories and registrations are unbounded",
  ["build.go:Build","build.go:BuildFiles","build.go:BuildWithBuilder"])
p("Generator reads command tables",
  "From a C source the generator extracts exactly the directive definitions written in its ngx_command_t tables - names and masks, in order - whatever comments, line ends and other code surround them.",
  "every source text made of code, line ends and comments, every number of tables and definitions",
  "source texts are unbounded; the repository has eleven sample files",
  ["internal/generator/generator_util.go:masksFromFile","internal/generator/generator_util.go:getMasksFromPath"])
p("Generated text spells the map",
  "The text the generator writes contains the map as a Go literal, one row for each directive in byte order of the names, with names and masks verbatim.",
  "every map, every variable and function name",
  "maps are unbounded; html/template escaping depends on characters no sample has",
  ["internal/generator/generator_util.go:genFromSrcCode","internal/generator/tmpl/support_file.tmpl"])
p("JSON round trip of payloads",
  "A payload without errors is read back from its JSON text, up to empty lists and bytes that are not UTF-8, as long as blocks nest at most 4998 deep; a payload that reports any error, or nests deeper, cannot be read back.",
  "every payload, whatever other error types and callback values are encoded as",
  "payloads are unbounded",
  ["types.go:Payload","types.go:Config","errors.go:ParseError.MarshalJSON"])
p("Combined does not depend on the schedule and leaves no goroutine behind",
  "For every interleaving of the goroutines performIncludes starts (one per block and per included file, with unbuffered channels), Combined returns the directives or the error of the sequential expansion, within a bounded number of steps and without deadlock; when it succeeds all goroutines have returned.",
  "every payload without include cycles and negative indices, every schedule",
  "schedules cannot be enumerated by tests",
  ["util.go:performIncludes","util.go:combineConfigs"])
p("Parsed words stand in the text, in order",
  "The names and arguments of the directives in a parsed config, read in the order of the text, are the values of distinct word tokens of that config's file in that order (arguments of if statements aside), and each directive carries the line of its name; so lines never decrease and lie within the file.",
  "every file system, content and option set without CombineConfigs",
  "universal over contents and option sets",
  ["parse.go:parser.parse","parse.go:Parse","lex.go:tokenize"])
p("Every Lua block directive of the table is handled by the Lua lexer",
  "Each *_by_lua_block directive of the Lua table is one the Lua lexer is registered for, and each of its masks admits the form in which the lexer delivers it (the code as last argument, ended by ';').",
  "every entry of the Lua table, every argument list of the right length",
  "table and list of names are maintained apart",
  ["lua.go:directiveNames","analyze_lua_directives.gen.go","analyze.go:analyze"])
p("Statements cut off by the end of the file are reported",
  "If the last token of a file that is not a comment is a word, Parse reports an error for that file.",
  "every content the lexer accepts, every option set",
  "universal over inputs and options",
  ["parse.go:parser.parse"])
p("Parse returns the statements that were written",
  "Parse returns one config per included file, in the order the files are first included; each config holds exactly one directive for every accepted statement - name, line, arguments, children, numbers of the included files, comments among the arguments behind it - and one error, with text, file, line, statement and block, for every rejected statement; the payload's status, errors and callback results follow from these; a file with a lexer error, an unfinished statement, an unreadable pattern or an include without argument keeps no directives and lists the errors up to there; Parse fails with the cycle error exactly when the files include each other in a circle, and with CombineConfigs returns the expansion of these configs.",
  "every file system, table and option set (without StopParsingOnError, or if nothing is rejected), every number, size and depth of files and blocks; rejected statements with a block must be simple directives, include paths at most three blocks deep",
  "universal over files; samples cannot cover the interplay of includes, contexts and errors",
  ["parse.go:Parse","parse.go:parser.parse","parse.go:parser.handleError","analyze.go:analyze","util.go:combineConfigs"])
p("Errors are located at their statements",
  "The errors of a parsed file are complaints about distinct statements of that file in the order of the text; each carries the file, the line of the statement's first word and its words, and only the last can be of another kind: the lexer's error, a failing glob or the end of the file. Lines ascend and lie within the file. The payload lists the same errors file by file; an error Parse itself returns is the cycle error, that of a file that could not be opened, or with StopParsingOnError such an error. The text ends with file and line.",
  "every file system, content and option set; lines within the file without external lexers",
  "universal over contents and option sets",
  ["parse.go:parser.parse","parse.go:parser.handleError","parse.go:Parse","analyze.go:analyze","analyze_map.go:analyzeMapBody","errors.go:ParseError.Error"])
p("Errors say why a statement was rejected",
  "The error for a rejected statement names the unknown directive, says that the directive is not allowed here, or gives what the last mask for this context has against it (no parentheses, no opening brace, no semicolon, not on/off, number of arguments, in this order); for an entry of a map-like block it names the unexpected end or the number of parameters. It carries file, line, statement and innermost block.",
  "every table, option set, context, directive and terminator",
  "universal over tables and statements",
  ["analyze.go:analyze","analyze_map.go:analyzeMapBody"])
p("The lexer is determined on every text",
  "Every text divides into words, quoted strings, separators and comments with white space between (the last word or string may lack its end; bytes that are no character read as U+FFFD; carriage returns and a backslash at the very end do not count). The lexer sends one token per item, with its text and the line it begins on (a separator directly behind a word shows the word's line), up to the first misplaced separator; then one error with the line of that separator, and nothing more. If blocks are left open at the end, the error comes last and carries the last line.",
  "every byte string, without external lexers",
  "C01 covers texts that are well laid out; this covers all the others",
  ["lex.go:tokenize","lex.go:lexError"])
p("Parse is determined on every configuration",
  "For every configuration, well-formed or not, what Parse returns follows from a few rules: how a stream of tokens divides into statements (each ended by the next unquoted '{', ';' or '}', whatever token comes first); whether a statement is kept, an entry of a map-like block, left out alone, left out with the tokens up to the brace that closes its block, left out with the rest of its block, or the end of the file; what is reported for it; which files it includes; when the file counts as failed; when Parse returns an error, crashes, reports a circle, and what the payload and the combined payload then hold.",
  "every file system, content, table and option set, with and without StopParsingOnError; the converse (the rules allow only what Parse returns) for include directives in at most three blocks",
  "C51 covers configurations whose rejected statements leave the structure intact; this covers all the others",
  ["parse.go:Parse","parse.go:parser.parse","parse.go:parser.handleError","analyze.go:analyze","analyze_map.go:analyzeMapBody","util.go:combineConfigs"])
p("Build is determined on every tree",
  "Enquote leaves a string as it is exactly when it is not empty, contains no white space, brace, semicolon or quote except behind a backslash that is not the first character, and does not end with a backslash or dollar sign; every other string it puts in quotes - single ones if it contains a double quote, with its apostrophes escaped - with every character that is not printable and every bad byte as an escape. The text of a tree is the header (if asked for), then one row per statement, opened block, closed block, comment and output of an external builder, each behind the blanks of its depth; a comment on the line of the statement before is appended to that row; one line break at the very end is dropped. Build panics exactly if Indent is negative and some row is deeper than 0 (with Tabs: than 100).",
  "every string, tree, set of external builders and layout option; unicode.IsPrint is fixed on ASCII and arbitrary elsewhere",
  "C08 and C11 say what the text is good for; this says what it is",
  ["build.go:Enquote","build.go:needsQuote","build.go:escape","util.go:repr","build.go:buildBlock","build.go:margin","build.go:Build"])
p("The lexer with external lexers is determined on every text",
  "An external lexer is called exactly when the text of the item that is not over yet - a word, a string, a comment - is a registered name, another character follows, and the name of a directive is expected. It is at the start; line breaks (that character included), separators and hand-overs make it so; white space that ends a word, '${' and the start of a comment end it. The name is sent as it stands, then the lexer's tokens; it is given the name, the line and the characters behind that one. Then the rest is read from there: if that character is the quote that ends the name it is dropped, otherwise it is read again, on its own line, behind what the lexer took. Between hand-overs, and after the last one, the tokens and errors are those of C54, with braces and separators counted over everything read so far.",
  "every byte string, every set of external lexers that return (any tokens, any number of characters taken)",
  "C37 covers configurations that are well laid out; this covers all the others",
  ["lex.go:tokenize","lex.go:SubScanner","lex.go:LexWithOptions"])
p("The Lua lexer is determined on every text",
  "LexLua registers sixteen names, those that end in _by_lua_block. Behind such a name the lexer skips white space. If another character than '{' follows, it sends one error that carries its line and takes nothing more. If '{' follows, it looks for the first '}' at which the braces between balance and no string is open - a quote opens a string that ends at its next occurrence, backslashes do not count, braces in strings neither - and sends what is between as one quoted token and then ';', both with the line of that '}'. If there is none, or nothing but white space follows, it takes the whole rest of the text and sends nothing. For set_by_lua_block the characters up to the next white space come first: one token with the line behind that white space; without such white space nothing is sent.",
  "every name, line and sequence of characters",
  "C07 and C38 cover blocks that balance; this covers all the others",
  ["lua.go:Lua.Lex","lua.go:Lua.directiveNames","lua.go:Lua.RegisterLexer"])
p("Texts are read and written as UTF-8",
  "A text divides into characters: each is encoded in one to four bytes, its bits six to each byte behind the first, in the shortest form, no surrogates; a byte with which no such encoding begins counts as one U+FFFD. The division is the same from either end. The lexer is given the encodings of these characters. A character is written as its encoding, anything else as that of U+FFFD. White space is the 25 characters with the Unicode property White_Space.",
  "every byte string and every number",
  "the other properties speak of the characters of a text and of white space; this says what they are",
  ["lex.go:tokenize","build.go:needsQuote","util.go:isSpace","util.go:isEOL","util.go:repr"])
p("The library functions mean what their documentation says",
  "HasPrefix, HasSuffix, TrimPrefix, TrimSuffix, TrimSpace, ReplaceAll, Split, Join, Cut, ContainsAny, ToLower, Repeat, sort.Strings, Itoa, filepath.IsAbs, Clean, Join and Dir, map assignment and lookup of the model satisfy, and are determined by, what the documentation says of them: for Clean, the rules are applied one at a time in any order until none applies.",
  "every string, list and path",
  "many statements of the other properties use these functions; this says what they mean without reference to how they are computed",
  ["parse.go:Parse","parse.go:parser.parse","build.go:BuildFiles","build.go:Enquote","util.go:prepareIfArgs","util.go:validFlag","lex.go:LexWithOptions"])
p("What the generator extracts from a source text",
  "From every text the comments that match //.* and then those that match /\\*[\\s\\S]*?\\*/ are removed, then the line ends; then the tables are the successive leftmost matches of ngx_command_t\\s+(\\w+)\\[\\]\\s*=\\s*{(.*?)}\\s*; and the commands of a table the successive leftmost matches of ngx_string\\(\"(.*?)\"\\).*?,(.*?), in its body, where a match is the one a backtracking search prefers: at the first place where two matches differ a greedy repetition takes more and a lazy one less.",
  "every byte string",
  "C39 and C44 speak of the definitions found in a text; this says which they are on texts of any form",
  ["internal/generator/generator_util.go:masksFromFile"])
p("The JSON texts that are read",
  "A text is read as a value exactly if it is white space, that value, white space, and nothing else, by the grammar of RFC 8259, nesting at most 10000 deep. Strings stand for the characters between the quotes with escapes replaced; a pair of surrogate escapes stands for one character, a lone surrogate and a byte that is no UTF-8 for U+FFFD. Control characters, unknown escapes, superfluous zeros, signs, commas and anything behind the value make it no JSON. Such a text is an error for Directive and Payload.",
  "every byte string",
  "C28 and C46 speak of the JSON written by the library; this says which other texts are read, and as what",
  ["types.go:Payload","types.go:Directive","errors.go:ParseError.MarshalJSON"])
p("The generator's command",
  "The flags at the beginning of the command line are -name=value, --name=value, -name value or --name value; they end before the first other word, '-' or '--'. The first flag that is misspelt, unknown, without value or an override that is not of the form directive:mask|mask,... is reported; help and h give the usage. Of several values of a flag the last counts, filters are collected, of several overrides of a directive the last counts. The configuration file begins with a JSON object (or null) whose members are matched without regard to case and must have the right types; repeated filters are collected, of repeated texts the last counts, null resets the overrides. Each flag given goes before the configuration, as a whole. Without source path, map name or function name (looked at in this order) nothing is generated; otherwise the program prints the text for the map computed from the tree below the source path with these filters and overrides.",
  "every command line, configuration file, source tree and order of map loops",
  "C39, C40 and C44 cover the parts; this is the program",
  ["cmd/generate/main.go:main","cmd/generate/main.go:configFromFile","cmd/generate/cmd_util.go:filterFlag.Set","cmd/generate/cmd_util.go:override.Set","internal/generator/generator.go:Filters.UnmarshalJSON","internal/generator/generator.go:Generate"])
p("Formatting a configuration in place keeps it",
  "If a configuration of any number of files is read without error and every file is then replaced by the text built from what was read of it (by Build, or by BuildFiles over the same paths), reading it again gives the same files in the same order, the same includes and the same directives up to line numbers and the comments of the header. Formatting it a second time changes no file, unless the header is read as comments or a comment stands behind a closing brace. Excepted are configurations of which an argument or comment cannot be written (C09), parameters of map blocks named 'if', and files ending in a comment that ends in white space.",
  "every configuration read without errors, all its files, every indentation",
  "C09 and C10 speak of one tree; a formatter works on a whole configuration with its includes",
  ["parse.go:Parse","build.go:Build","build.go:BuildFiles"])
p("One file in place of a configuration with includes",
  "If a configuration is read without error with CombineConfigs, and every include directive leads to some file, the text built from the combined tree is read, as a single file, to the same directives up to file names, line numbers and the header. Excepted are configurations that include a file in different blocks, comments of different files that come to stand on one line, and what C09 excepts.",
  "every configuration read without errors, every indentation",
  "flattening a configuration is what CombineConfigs together with Build is used for",
  ["parse.go:Parse","util.go:combineConfigs","util.go:performIncludes","build.go:Build"])
p("An include directive stands for the statements of the files it names",
  "If a configuration is read without error with CombineConfigs and every include directive leads to some file, a text in which every include directive is replaced by the statements of the files it names, in order, these treated in the same way (relative paths are resolved against the first file's directory throughout), is read, as a single file, to the same directives up to file names and line numbers. Comments among the arguments of an include directive come behind. Such a text's statements always exist. Excepted are configurations that include a file in different blocks.",
  "every configuration read without errors, every set of external lexers",
  "C65 says that the library can write the combined configuration; this says what CombineConfigs means in terms of the texts",
  ["parse.go:Parse","parse.go:parser.parse","util.go:combineConfigs","util.go:performIncludes"])
p("Putting texts together",
  "If nothing is left open at the end of a text (a newline behind it changes none of its tokens) and it has no errors, then the tokens of this text, a newline and another text are its tokens followed by those of the other text, whose lines, also in errors, are moved by the number of its newlines plus one. In the same way a complete text can be put between two lines of another text, in any block: the tokens before it stay, its own and the following ones are moved. Excepted are texts that begin, comments aside, with ';' or '{', for these are errors behind a complete statement.",
  "every pair and triple of byte strings, without external lexers",
  "the lines of a token depend on the text before it, and so does the error for ';' and '{' with nothing before them; otherwise nothing does",
  ["lex.go:LexWithOptions","lex.go:tokenize"])
p("Configurations with Lua blocks: build, then parse",
  "With the Lua builder and the Lua lexer, every tree that the options accept comes back from the text built from it: the same names, arguments, Lua code character by character, comments, nesting and order. Conditions: ordinary names and arguments as for C09, none of them beginning with the name of a Lua directive; the code of a Lua directive balances in braces and quotes; the variable of set_by_lua_block has no white space and is no separator and no comment. If besides no comment directly follows a block (Lua or not) on its line, and Header and comments are not both on, the tree read back builds to the same text; comments the parser drops stay dropped.",
  "every tree of the class, every indentation, every parse option otherwise",
  "tools that rewrite OpenResty configurations with this library must not change the Lua code",
  ["lua.go:Lua.Lex","lua.go:Lua.Build","build.go:Build","build.go:buildBlock","lex.go:tokenize","parse.go:Parse"])
p("Configurations with Lua blocks in several files: formatting and flattening",
  "C64 and C65 with the Lua lexer and the Lua builder. Parse, BuildFiles over the same files, Parse: the second payload is the first up to line numbers and the header, the Lua code character by character, and a second BuildFiles changes no file. Parse with CombineConfigs, Build, Parse of that text alone: the same directives up to file names, line numbers and the header. Conditions on the trees as in C68, on includes and comments as in C64 and C65.",
  "every configuration read without errors, every indentation",
  "formatting in place and flattening are what the library is used for; both go through the external lexer and builder",
  ["parse.go:Parse","build.go:Build","build.go:BuildFiles","lua.go:Lua.Lex","lua.go:Lua.Build","util.go:combineConfigs"])
p("How the bytes of a file arrive does not matter",
  "The tokens of a file are those of the bytes its reader delivers, however Read cuts them into pieces: pieces may end inside a character, up to 100 reads in a row may return nothing, and an error may come together with bytes. An error of the reader, and 101 reads in a row that return nothing, end the file as its end does. Scan then returns false for ever, and Err returns the error.",
  "every reader (every sequence of results of Read), every set of external lexers",
  "the ways to cut a text are as many as texts; tests read whole files from strings",
  ["lex.go:LexWithOptions","lex.go:tokenize","lex.go:SubScanner.Scan","lex.go:SubScanner.Err"])
p("Checking less changes nothing that was accepted",
  "If Parse reads a configuration without an error, it returns the same payload with options that check less: that let unknown directives through, skip the context check or the argument check, do something else about errors (StopParsingOnError, ErrorCallback), or, where unknown directives are refused and tables are named, name more tables or tables that allow more. Checks reject, they never rewrite.",
  "every configuration read without errors, every pair of options of which the second checks less",
  "it relates two runs of the whole parser; every branch that looks at an option is a chance for the trees to differ",
  ["parse.go:Parse","parse.go:parser.parse","analyze.go:analyze"])
p("Parse depends on the files include directives lead to, and on nothing else in the file system",
  "Two file systems that agree on the files include directives lead to, starting from the first file (their contents, or the error of opening them), and, up to the order of the names, on the patterns asked for there, give the same result of Parse, whatever that is.",
  "every pair of file systems, every option set, every first file",
  "file systems differ in arbitrarily many other files; tests have one",
  ["parse.go:Parse","parse.go:parser.parse","parse.go:parser.openFile"])
p("The error callback only annotates",
  "With any ErrorCallback Parse returns what it returns with any other or none, except that every error of the payload carries the value the callback returned for it.",
  "every callback (a function of the error), every option set, every configuration",
  "it compares whole runs of the parser",
  ["parse.go:Parse"])
p("The JSON that is written",
  "The JSON text of a directive or a payload stands for an object with the fields status, errors, config; file, status, errors, parsed; file, line, error, callback; directive, line, args, file, includes, block, comment, mapBlockParameter, in this order, with their values; callback, file, includes, block, comment and mapBlockParameter are left out when empty. The text is UTF-8 without control characters, '<', '>', '&' and line separators.",
  "every tree and every payload, strings of any bytes, any depth",
  "other programs read this format; C28 and C46 would hold for any field names",
  ["types.go:Payload","types.go:PayloadError","types.go:Config","types.go:ConfigError","types.go:Directive","errors.go:ParseError.MarshalJSON"])
p("A newer release accepts what an older one did",
  "With ErrorOnUnknownDirectives, a statement that passes with the directive table of a release passes with that of a later one (NGINX Plus R30 to R37, latest, the default table; OSS 1.24 to latest; App Protect WAF v4 and v5), at every place and with whatever other sources; OSS tables are contained in that of the latest Plus release. A configuration read without errors with the older table is read the same way with the newer one. Exceptions: ssl is gone from OSS 1.26 on, proxy_ssl_alpn is missing in Plus.",
  "every statement, every place, every configuration, every pair of releases, every set of further sources",
  "the tables have thousands of masks; each combination of place, arguments and terminator is a case, and nobody writes a test for what did not change",
  ["analyze.go:analyze","analyze_nplus_R30_directives.go:nginxPlusR30Directives","analyze_nplus_latest_directives.gen.go:nginxPlusLatestDirectives","analyze_oss_124_directives.gen.go:oss124Directives","analyze_oss_latest_directives.gen.go:ossLatestDirectives"])
p("Directive.Equal on pointers",
  "Directives are pointers: blocks can share them, have nil elements and, through the API, contain themselves. When Equal returns, it returns true exactly if nobody who follows the pointers can tell the two directives apart. It returns whenever one of the two does not contain itself or the two pointers are the same. On trees it is the function of C23.",
  "every memory, every pair of pointers",
  "sharing and cycles have unboundedly many shapes; the tests of the repository compare a few trees",
  ["types.go:Directive.Equal","types.go:equals","types.go:strPtrEqual"])
p("JSON from elsewhere is read as what it stands for",
  "json.Unmarshal reads a text as a Directive, or as a Payload, exactly if it is a JSON text whose members named like the fields have values of their types (or null), and as the tree with those values: in any order, with any blanks and escapes, with fields left out, and beside members with other names. Nothing else is accepted.",
  "every text, every tree, every payload, any depth up to encoding/json's limit",
  "programs in other languages write this format; C28 and C46 cover only texts this library wrote itself",
  ["types.go:Directive","types.go:Payload","types.go:Config","types.go:PayloadError","types.go:ConfigError"])
p("Where lines end and how words are quoted does not matter",
  "White space between the items of a file can be changed at will - spaces, tabs, new lines, carriage returns, as long as items that need some keep some -, and quotes can be put around words that are not braces, semicolons or comments, or taken off: the lexer sends the same tokens and Parse returns the same, line numbers aside. That includes errors, statuses, includes and combined configurations. More generally, with any options and external lexers, Parse of files with the same tokens up to line numbers and such quotes returns the same up to line numbers.",
  "every file system, every pair of layouts, all options",
  "layouts are unbounded, and a use of a line number anywhere in the parser would only show for some of them",
  ["lex.go:tokenize","parse.go:Parse","parse.go:parser.parse","analyze.go:analyze","util.go:combineConfigs"])
p("A configuration survives the trip through JSON to files",
  "A payload without errors that is marshalled to JSON, unmarshalled and given to BuildFiles leaves the same files, with the same result, as the payload itself, whatever the operating system makes of each operation; for the text of one file this holds exactly if no empty block is written. Parsing the files gives the configuration that was parsed at first, line numbers aside.",
  "every payload without errors whose texts are UTF-8 and whose blocks nest at most 4998 deep, every build option, every builder that does not tell an empty list from none, every file system",
  "the command line program does this with every configuration its users have; the tests of the repository build from Go values",
  ["types.go:Payload","types.go:Directive","build.go:BuildFiles","build.go:Build","build.go:buildBlock","parse.go:Parse"])
p("A moved configuration is parsed the same way",
  "Parse of a configuration whose files have other names but the same texts, and whose includes lead to the corresponding files, returns the same configuration, statuses and errors, with the other names in their place. In particular this holds for a directory that is moved, if all its includes are relative paths that lead down from it; patterns and files that cannot be opened included.",
  "every file system, every pair of one-to-one names, all options",
  "the tests of the repository use one directory; a use of a file's name for anything but opening it would show only elsewhere",
  ["parse.go:Parse","parse.go:parser.parse","parse.go:parser.isAcyclic","util.go:combineConfigs","analyze.go:analyze"])
p("Files that are opened are closed",
  "When Parse returns or panics, every file it opened - the files of the configuration and those opened to see whether an include can be read - has been closed exactly once, in reverse order of opening, and nothing else has been closed. Until then all files of the configuration are open at once.",
  "every file system, every configuration, all options, every result",
  "a leaked handle shows only in long running programs; the tests of the repository do not look at handles",
  ["parse.go:Parse","parse.go:parser.parse","parse.go:parser.openFile"])
p("What BuildInto asks of a Creator",
  "With any Creator, BuildInto creates one file after the other in the order of the payload, writes its text in at most a header and a body, and closes it before the next is created; it makes exactly these calls up to the first that returns an error, which it returns. The texts do not depend on the creator nor on earlier uses of the options. With a StringsCreator this is what C27 says.",
  "every payload, every creator and every pattern of failing calls, all options, used any number of times",
  "the tests of the repository use a creator that never fails",
  ["build.go:BuildInto","build.go:Build","buffer.go:Creator","buffer.go:StringsCreator.Create"])
p("Combining twice is combining once",
  "What Payload.Combined returned without an error, it returns again unchanged; so it does with what Parse returned with CombineConfigs. The payloads it leaves as they are are exactly those without configs, and those with one config whose tree holds no resolved include at any depth and whose statuses are such as Combined gives. A tree that was expanded stays the same in any other payload.",
  "every payload, every configuration, all options",
  "trees and includes are unbounded; an include left in a nested block would be expanded by the second run only",
  ["util.go:combineConfigs","util.go:performIncludes","types.go:Payload.Combined","types.go:Directive.IsInclude"])
p("The numbers of configs are only numbers",
  "Give the configs of a payload other places, the first staying first, and write the new numbers into the include directives: Combined returns the same tree, in a file of the same name. If the configs are the same ones in another order, all it returns is the same but the order of the errors. Configs that are appended bring in only their errors and statuses.",
  "every payload Combined returns without an error for, every renumbering, any further configs",
  "the tests of the repository only combine what Parse numbered",
  ["util.go:combineConfigs","util.go:performIncludes","types.go:Payload.Combined"])
p("The order of directive sources",
  "What Parse accepts without an error does not depend on the order of DirectiveSources, nor on how often one is named, nor on how the forms of a directive are spread over them: it is accepted with the one list exactly if it is with the other, and the payload is the same.",
  "every list of sources, every configuration, all options",
  "sources are functions of the caller; the tests of the repository use few of them in one order",
  ["analyze.go:analyze","parse.go:Parse","parse.go:parser.parse"])
p("Indentation is only indentation",
  "However Build indents it - any number of spaces, or tabs -, the text of a tree has the same tokens on the same lines. A configuration in which some files are written with another indentation is parsed to exactly the same result, line numbers included. In general Parse knows of the texts of files only their tokens.",
  "every tree that survives Build and Parse (C09), all non-negative indentations, every file system, every result",
  "trees are unbounded; a line break or blank written for one indentation only would show for some of them",
  ["build.go:Build","build.go:buildBlock","build.go:margin","lex.go:tokenize","parse.go:Parse"])
p("Parse asks only about names that occur",
  "Lists of IgnoreDirectives and directive tables that answer the same about the words of the files lead to exactly the same result, whatever they answer about other names. The order of the ignored names and how often one is named do not matter, nor do names that are not in the files.",
  "every list of names, all sources of directives, every configuration, all options, every result",
  "tables and lists are values of the caller; a lookup under another name shows only for a table that knows that name",
  ["parse.go:parser.parse","parse.go:Parse","util.go:contains","analyze.go:analyze"])
p("External lexers are asked about tokens only",
  "Registrations of external lexers that differ in no name which is a token of the text give the same tokens, whatever they hold for other names, and Parse returns the same result with them. Only which lexer a name has in the end matters, not what was registered before.",
  "every text, all external lexers, every configuration, all options, every result",
  "external lexers are values of the caller; the tests of the repository register only the Lua lexer",
  ["lex.go:tokenize","lex.go:LexWithOptions","lex.go:RegisterLexer","parse.go:Parse"])
for x in P: print(json.dumps(x))
