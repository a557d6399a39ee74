{"id": "C01", "title": "objdump: line endings do not matter", "statement": "Deleting every carriage return from the bytes given to ObjDumpParser::fromStream changes nothing observable: same lines, labels, line count and outcome.", "quantifier": "every byte stream, every filter, every multibyte locale, every parser state before the call", "why_tests_cant": "The input space is all byte strings; a test fixes a few CRLF files.", "anchors": ["src/objdump/parser.cpp:fromStream"]}
{"id": "C02", "title": "objdump: an unterminated last line is never shown", "statement": "Bytes after the last newline of the input contribute no output line, no label definition and nothing to the line count.", "quantifier": "every byte stream and every newline-free tail appended to it, every filter", "why_tests_cant": "Needs all tails, including ones that drive every parser mode.", "anchors": ["src/objdump/parser.cpp:fromStream", "src/objdump/parser.cpp:eol"]}
{"id": "C03", "title": "objdump: output is capped", "statement": "The parser never holds more than 5001 lines; if it holds 5001, the last is exactly the truncation marker and parsing has stopped, so any further input is ignored.", "quantifier": "every byte stream, every filter, every number of fromStream calls", "why_tests_cant": "A bound over all inputs and call histories.", "anchors": ["src/objdump/parser.cpp:eol", "src/objdump/parser.cpp:fromStream"]}
{"id": "C04", "title": "objdump: line accounting", "statement": "After one fromStream on a fresh parser, the counted lines equal the number of newlines consumed, and the reported filteredCount equals newlines minus output lines and is never negative.", "quantifier": "every byte stream, every filter", "why_tests_cant": "filteredCount is an unsigned subtraction; only a proof excludes wrap-around for all inputs.", "anchors": ["src/objdump/parser.cpp:eol", "src/utils/jsonwriter.cpp:JsonWriter::write"]}
{"id": "C05", "title": "objdump: labelDefinitions is exactly the table of label lines", "statement": "Until truncation, the label definitions are, in order, the names of the label lines of the output with their 1-based line numbers, and the text of such a line is the name followed by a colon.", "quantifier": "every byte stream, every filter", "why_tests_cant": "An invariant relating two vectors through pushes, pops and erases over all histories.", "anchors": ["src/objdump/parser.cpp:label", "src/objdump/parser.cpp:maybe_remove_last_function", "src/objdump/parser.cpp:eol"]}
{"id": "C06", "title": "objdump: truncation leaves one label pointing at the marker", "statement": "Exactly when the line that overflows the cap is a label line, labelDefinitions holds one extra entry whose line is the truncation marker and not a label.", "quantifier": "every byte stream that reaches the cap", "why_tests_cant": "Only inputs above 5000 surviving lines reach it.", "anchors": ["src/objdump/parser.cpp:label", "src/objdump/parser.cpp:eol"]}
{"id": "C07", "title": "objdump: ignored functions never surface", "statement": "No output label line and no label reference in the output has a name that the ignore rule (internal runtime functions, .plt, optionally @plt) rejects.", "quantifier": "every byte stream, every filter", "why_tests_cant": "Quantifies over all names and all positions in the stream.", "anchors": ["src/objdump/parser.cpp:label", "src/objdump/parser.cpp:labelref", "src/utils/regexwrappers.cpp:shouldIgnoreFunction"]}
{"id": "C08", "title": "objdump: label reference ranges select the label name", "statement": "For each label reference of an output line of ASCII text shorter than 65534 bytes, the text between startCol (inclusive, 1-based) and endCol (exclusive) is exactly the reference's name.", "quantifier": "every byte stream, every output line, every reference in it", "why_tests_cant": "Column bookkeeping is spread over four functions and one late shift by two.", "anchors": ["src/objdump/parser.cpp:labelref", "src/objdump/parser.cpp:eol", "src/objdump/parser.cpp:fromStream"]}
{"id": "C09", "title": "objdump: label reference ranges and non-ASCII text", "statement": "The selection property fails for lines with multibyte characters before the reference: the columns count characters but the name is cut at a byte offset, so a reference can get a name that is not the text between its columns.", "quantifier": "some byte stream in a UTF-8 locale (refutation by witness)", "why_tests_cant": "Mixes character and byte indices; only some inputs show it.", "anchors": ["src/objdump/parser.cpp:labelref", "src/utils/utils.cpp:ustrlen"]}
{"id": "C10", "title": "objdump: addresses are read correctly", "statement": "For an address of at most 64 lower-case hex digits whose value is below 2^31, the line's address is that value.", "quantifier": "every hex digit string with value below 2^31", "why_tests_cant": "All digit strings.", "anchors": ["src/objdump/parser.cpp:actually_address", "src/utils/utils.cpp:hex2int"]}
{"id": "C11", "title": "objdump: which addresses are misread or undefined", "statement": "Of hex strings with at most 64 digits, those with value in [2^31,2^32) are reported minus 2^32 (negative) and those with value at or above 2^32 make the program execute an out-of-range shift (undefined behaviour).", "quantifier": "every hex digit string of at most 64 digits", "why_tests_cant": "Undefined behaviour may go unnoticed in any particular test run.", "anchors": ["src/objdump/parser.cpp:actually_address"]}
{"id": "C12", "title": "objdump: undefined behaviour has only two sources", "statement": "Parsing has defined behaviour for every input except when a hex address needs an out-of-range shift or a source line number does not fit an int; in particular indexing, erasing and substring operations are always in range.", "quantifier": "every byte stream, every filter, every call history", "why_tests_cant": "Absence of UB over all inputs cannot be tested.", "anchors": ["src/objdump/parser.cpp:actually_address", "src/objdump/parser.cpp:updateSourceRefLineNumber", "src/objdump/parser.cpp:maybe_remove_last_function", "src/objdump/parser.cpp:labelref"]}
{"id": "C13", "title": "objdump: instruction lines are decoded", "statement": "A line of the form blanks, hex address, colon, tab, hex byte groups, padding, tab, instruction text yields one output line with that address, exactly those byte groups as opcodes, and the instruction text indented by one space.", "quantifier": "every address, every list of byte groups, every instruction text without opening angle bracket, hash sign or line break, every input ending in a line break before it that left no reference open and no ignored function", "why_tests_cant": "Functional correctness over an infinite grammar.", "anchors": ["src/objdump/parser.cpp:fromStream", "src/objdump/parser.cpp:opcodes", "src/objdump/parser.cpp:address", "src/objdump/parser.cpp:eol"]}
{"id": "C14", "title": "objdump: source reference lines set the location of following lines", "statement": "A line /file:number (optionally followed by blank and anything) yields no output line and makes file and number the source of every later line until the next source line.", "quantifier": "every file name without colon or newline, every positive int line number", "why_tests_cant": "All names and numbers.", "anchors": ["src/objdump/parser.cpp:fromStream", "src/objdump/parser.cpp:updateSourceRefLineNumber"]}
{"id": "C15", "title": "objdump: section headers set the section of following lines", "statement": "A line 'Disassembly of section NAME:' yields no output line and makes NAME the section of all later lines until the next header.", "quantifier": "every section name without colon, CR or newline", "why_tests_cant": "All names.", "anchors": ["src/objdump/parser.cpp:fromStream"]}
{"id": "C16", "title": "objdump: label lines start functions", "statement": "A line 'HEX <NAME>:' yields one label line NAME: and the definition of NAME unless the ignore rule rejects NAME, in which case it and every following line up to the next label line yield nothing.", "quantifier": "every address, every name, every following lines", "why_tests_cant": "All names and continuations.", "anchors": ["src/objdump/parser.cpp:label", "src/objdump/parser.cpp:eol"]}
{"id": "C17", "title": "objdump: a whole listing round-trips", "statement": "Rendering any well-formed abstract listing (sections, functions, source lines, instructions) in objdump's format and parsing it gives exactly the lines and labels that the abstract listing denotes.", "quantifier": "every well-formed abstract listing, any length, every filter", "why_tests_cant": "End-to-end functional correctness.", "anchors": ["src/objdump/parser.cpp:fromStream"]}
{"id": "C18", "title": "objdump: library filter keeps only functions touching user code", "statement": "With library_functions set, every function of the output except possibly the last has at least one line attributed to a user source file.", "quantifier": "every byte stream, every filter with library_functions", "why_tests_cant": "Invariant over erase history.", "anchors": ["src/objdump/parser.cpp:maybe_remove_last_function"]}
{"id": "C19", "title": "objdump: library filter leaves library-only functions", "statement": "With library_functions set, a function none of whose own source references is user code should be removed, but two kinds stay: one that follows a function with user code (its label line still carries that function's location), and the last function of the output, which is kept whatever it holds unless a hidden function follows it.", "quantifier": "some byte stream for the first kind, every byte stream below the cap for the second", "why_tests_cant": "The label line takes the location of the previous function, and the last function is never examined.", "anchors": ["src/objdump/parser.cpp:maybe_remove_last_function", "src/objdump/parser.cpp:eol"]}
{"id": "C20", "title": "objdump: library filter only removes whole functions", "statement": "Turning library_functions on removes exactly the whole functions without user code, sparing the last function unless a hidden one follows, from the output obtained with it off (below the cap); all other lines are unchanged and in order, the label table is that of the remaining lines and the line count is the same.", "quantifier": "every byte stream whose output without the filter stays below the cap", "why_tests_cant": "Relational property over two runs.", "anchors": ["src/objdump/parser.cpp:maybe_remove_last_function", "src/objdump/parser.cpp:label"]}
{"id": "C21", "title": "objdump: feeding in pieces", "statement": "Two consecutive fromStream calls, the first input ending in a newline, leave the same lines and labels as one call with the concatenation; only the line count restarts.", "quantifier": "every pair of byte streams, every filter", "why_tests_cant": "History property.", "anchors": ["src/objdump/parser.cpp:fromStream"]}
{"id": "C22", "title": "objdump: text never contains a line break", "statement": "No output line's text contains LF or CR, so outputText has exactly one newline per output line and line n of the text output is asm[n-1].text of the JSON output.", "quantifier": "every byte stream, every filter", "why_tests_cant": "All inputs.", "anchors": ["src/objdump/parser.cpp:outputText", "src/objdump/parser.cpp:fromStream"]}
{"id": "C23", "title": "objdump: opcode groups are clean", "statement": "Each opcode group is non-empty and has only lower-case hex digits or tabs; without tabs inside the byte columns it needs no JSON escaping.", "quantifier": "every byte stream, every output line", "why_tests_cant": "All inputs; the writer relies on it by not escaping opcodes.", "anchors": ["src/objdump/parser.cpp:opcodes", "src/utils/jsonwriter.cpp:writeOpcodesArray"]}
{"id": "C24", "title": "objdump: the filename branch of address parsing is unreachable", "statement": "In one fromStream on a fresh parser no input makes the address parser take its text-starts-with-slash branch; a second call on the same parser can.", "quantifier": "every byte stream; some call history", "why_tests_cant": "Unreachability.", "anchors": ["src/objdump/parser.cpp:address", "src/objdump/parser.cpp:actually_filename"]}
{"id": "C25", "title": "json: string escaping is lossless", "statement": "Decoding the JSON escapes of an escaped string gives back the string, for every byte string; so different strings never print alike.", "quantifier": "every byte string", "why_tests_cant": "All strings.", "anchors": ["src/utils/jsonwriter.cpp:escape"]}
{"id": "C26", "title": "json: the document is valid and says what the lines say", "statement": "Parsing the JSON output by the RFC 8259 grammar succeeds and gives exactly one object per line with its labels, opcodes, address, source, section and text, then labelDefinitions and filteredCount, provided no string holds a control character other than tab and no opcode holds a quote, backslash or control character.", "quantifier": "every list of lines, every label table, every filter, both reproducible modes", "why_tests_cant": "Validity for all contents.", "anchors": ["src/utils/jsonwriter.cpp:JsonWriter::write", "src/utils/jsonwriter.cpp:writeLine", "src/utils/jsonwriter.cpp:writeSource", "src/utils/jsonwriter.cpp:writeLabelArray", "src/utils/jsonwriter.cpp:writeOpcodesArray"]}
{"id": "C27", "title": "json: control characters", "statement": "The document is valid JSON exactly when no string shown holds a control character other than tab and no opcode holds a control character; so a control character in the input can make the output of either parser invalid JSON. For objdump input without control characters other than tab, LF and CR, the document is valid exactly when no opcode group holds a tab.", "quantifier": "every list of lines; every objdump byte stream without control characters, every filter", "why_tests_cant": "Only inputs with such bytes show it.", "anchors": ["src/utils/jsonwriter.cpp:escape"]}
{"id": "C28", "title": "json: reproducible mode", "statement": "After setReproducible the objdump parser's JSON output is independent of the clock; the text parser ignores setReproducible, and its output differs for any two clock values.", "quantifier": "every clock value, every state of either parser, every filter", "why_tests_cant": "Tests cannot vary the clock over all values.", "anchors": ["src/utils/jsonwriter.cpp:JsonWriter::write", "src/objdump/parser.cpp:outputJson", "src/assembly/parser.cpp:outputJson"]}
{"id": "C29", "title": "json: file name masking", "statement": "A source object's file is null exactly when the line has no file, or the file is the main example file and masking is on; otherwise it is the name with a leading /app/ removed; mainsource is the string true exactly for the main file or no file.", "quantifier": "every line, every filter", "why_tests_cant": "All names.", "anchors": ["src/utils/jsonwriter.cpp:writeSource"]}
{"id": "C30", "title": "json: compat mode hides sections and label addresses", "statement": "In compat mode no line object has a section field and no label line object has an address field; the other fields do not depend on compat mode.", "quantifier": "every line, every filter", "why_tests_cant": "All lines.", "anchors": ["src/utils/jsonwriter.cpp:writeLine"]}
{"id": "C31", "title": "json: debug dump validity", "statement": "The debug dump is valid JSON and says what the tables say when numbers are printed without digit grouping; with the en_US grouping that main installs for the dump file, it is valid exactly when every number shown has at most three digits.", "quantifier": "every state; both number formats", "why_tests_cant": "Depends on the locale of the stream.", "anchors": ["src/utils/jsonwriter.cpp:DebugJsonWriter::write", "src/main.cpp:main"]}
{"id": "C32", "title": "asm: labelDefinitions is exactly the table of label lines", "statement": "The label definitions written are, in order, the names of the label lines of the output with their 1-based line numbers.", "quantifier": "every byte stream, every filter, every hash order", "why_tests_cant": "All inputs.", "anchors": ["src/assembly/parser.cpp:redetermineLabels"]}
{"id": "C33", "title": "asm: filtering only deletes", "statement": "The lines shown are a subsequence of the lines recognised, with unchanged text and order; filtering changes only label references and source attribution.", "quantifier": "every byte stream, every filter, every hash order", "why_tests_cant": "All inputs and removal patterns.", "anchors": ["src/assembly/parser.cpp:removeUnused"]}
{"id": "C34", "title": "asm: without filters nothing is lost", "statement": "With every filter off, the output text is the input lines, tabs expanded, runs of blank lines collapsed and leading blank lines dropped, when no line is white space only and no inline-assembly marker occurs.", "quantifier": "every such byte stream", "why_tests_cant": "All inputs.", "anchors": ["src/assembly/parser.cpp:eol", "src/assembly/parser.cpp:maybeAddBlank", "src/utils/regexwrappers.cpp:expandTabs"]}
{"id": "C35", "title": "asm: lines of only white space", "statement": "A line of only blanks and tabs acts as an empty line whose white space is moved to the start of the next line (so it does change the next line), when no block comment is being skipped.", "quantifier": "every byte stream", "why_tests_cant": "Only inputs with such lines show it.", "anchors": ["src/assembly/parser.cpp:eol"]}
{"id": "C36", "title": "asm: carriage returns", "statement": "Carriage returns are kept as part of the line: with the filters off CRLF input gives one output line per input line ending in CR, empty lines included, so CRLF input does not give the same result as LF input.", "quantifier": "every byte stream", "why_tests_cant": "The branch that should skip CR falls through.", "anchors": ["src/assembly/parser.cpp:fromStream"]}
{"id": "C37", "title": "asm: an unterminated last line is parsed", "statement": "Input without a final newline gives the same result as with one, when its last line is not white space only.", "quantifier": "every byte stream, every filter", "why_tests_cant": "All inputs.", "anchors": ["src/assembly/parser.cpp:fromStream"]}
{"id": "C38", "title": "asm: directive filter", "statement": "With the directives filter no directive line that is not a label, data definition or .inst is in the output (outside CUDA parameter lists).", "quantifier": "every byte stream", "why_tests_cant": "All inputs.", "anchors": ["src/assembly/parser.cpp:eol", "src/utils/regexwrappers.cpp:isDirective"]}
{"id": "C39", "title": "asm: comment filter", "statement": "With the comment filter no output line comes from a line that is only a comment, and no line of a block comment is output.", "quantifier": "every byte stream", "why_tests_cant": "All inputs.", "anchors": ["src/assembly/parser.cpp:eol", "src/utils/regexwrappers.cpp:isJustComments"]}
{"id": "C40", "title": "asm: library filter", "statement": "With library_functions the text parser outputs no line at all, whatever the input; the line count is unaffected.", "quantifier": "every byte stream", "why_tests_cant": "The code drops every line; a test with one file could look like filtering.", "anchors": ["src/assembly/parser.cpp:eol"]}
{"id": "C41", "title": "asm: labels shown as used really are used", "statement": "A label is marked used only if a chain of references leads from it to a global label or to code outside any label.", "quantifier": "every byte stream, every hash order, every earlier history of the thread", "why_tests_cant": "Soundness over all graphs.", "anchors": ["src/assembly/parser.cpp:isUsed", "src/assembly/parser.cpp:markLabelUsage"]}
{"id": "C42", "title": "asm: used labels can be missed", "statement": "Used labels should be marked, but the set of visited labels survives a successful search: there is an input whose two labels are both used and where in every hash order one of them is not marked. For a single search from an empty set the answer is exact, and if any label has a chain of uses by code some label is marked (no data references).", "quantifier": "every byte stream, every hash order", "why_tests_cant": "Completeness over all graphs and orders.", "anchors": ["src/assembly/parser.cpp:isUsed"]}
{"id": "C43", "title": "asm: parsing terminates without data references, and need not with them", "statement": "If no data line names a label, parsing ends for every input below 2^31 bytes, every hash order and every history. With a data table naming a function that uses the table it recurses without end in every hash order.", "quantifier": "every byte stream", "why_tests_cant": "Termination.", "anchors": ["src/assembly/parser.cpp:isUsed"]}
{"id": "C44", "title": "asm: what the result depends on", "statement": "Without the unused-labels filter (and without compat mode combined with the directives filter) the text and JSON output do not depend on hash order, recursion depth or earlier parses in the thread. With the unused-labels filter they do: witnesses for the order and for the history.", "quantifier": "every input, every hash order, every history", "why_tests_cant": "Order and history are not under a test's control.", "anchors": ["src/assembly/parser.cpp:isUsed", "src/assembly/parser.cpp:markLabelUsage"]}
{"id": "C45", "title": "asm: label table indices are in range", "statement": "In one fromStream on a fresh parser every access to the line table through a defined label is in range and hits the line defining that label.", "quantifier": "every byte stream, every filter", "why_tests_cant": "All inputs.", "anchors": ["src/assembly/parser.cpp:markLabelUsage", "src/assembly/parser.cpp:handleLabelDefinition"]}
{"id": "C46", "title": "asm: no dangling views", "statement": "Without the comment and library filters, every stored name, section and file view refers to a line object or file name that is still alive and still contains the viewed text.", "quantifier": "every byte stream, every state reached", "why_tests_cant": "Lifetime over all histories.", "anchors": ["src/assembly/parser.cpp:eol"]}
{"id": "C47", "title": "asm: a dangling view with the comment filter", "statement": "With the comment filter the section name of a shown line can be a view into a line object that has been destroyed: a comment that mentions .section is dropped after its text was taken as the current section.", "quantifier": "some byte stream; the violation of the property above", "why_tests_cant": "Needs a directive inside a removed comment.", "anchors": ["src/assembly/parser.cpp:eol", "src/assembly/parser.cpp:handleSection"]}
{"id": "C48", "title": "asm: references name defined labels", "statement": "Every label reference in the output names a label defined in the input.", "quantifier": "every byte stream, every filter", "why_tests_cant": "All inputs.", "anchors": ["src/assembly/parser.cpp:filterOutReferedLabelsThatArentDefined"]}
{"id": "C49", "title": "asm: line accounting", "statement": "After one fromStream on a fresh parser the number of output lines never exceeds the counted lines, so filteredCount is never negative.", "quantifier": "every byte stream, every filter", "why_tests_cant": "Unsigned subtraction.", "anchors": ["src/assembly/parser.cpp:eol", "src/utils/jsonwriter.cpp:JsonWriter::write"]}
{"id": "C50", "title": "asm: source locations", "statement": "Every shown line comes from its own input line, in order, and if it is not a label it has the location in force there: a .loc line sets file, line and column of later lines until the next location or end of block, a file number without .file definition yields a line without source, and file number 0 is not taken as a location.", "quantifier": "every file, line and column number in int range", "why_tests_cant": "All numbers.", "anchors": ["src/assembly/parser.cpp:handleSource", "src/assembly/parser.cpp:removeUnused", "src/utils/regexwrappers.cpp:getSourceRef"]}
{"id": "C51", "title": "utils: ignore rule", "statement": "shouldIgnoreFunction is true exactly for names starting with two underscores or .plt, the listed runtime names, and, with the plt filter, names containing @plt followed only by letters, digits or dashes, or ending in @plt>.", "quantifier": "every name, every filter", "why_tests_cant": "All names.", "anchors": ["src/utils/regexwrappers.cpp:shouldIgnoreFunction", "src/utils/regexes.hpp:binaryIgnoreFunction"]}
{"id": "C52", "title": "utils: tab expansion", "statement": "expandTabs removes all tabs, keeps every other character in order, replaces each tab by 1 to 8 spaces, and moves the first tab to the next multiple of 8.", "quantifier": "every line", "why_tests_cant": "All lines.", "anchors": ["src/utils/regexwrappers.cpp:expandTabs"]}
{"id": "C53", "title": "utils: every tab reaches a tab stop", "statement": "One might expect every tab to advance to the next multiple of 8. It does when each tab but the last comes after a multiple of 8 other characters; the second tab misses its stop whenever the first tab was not at a multiple of 8.", "quantifier": "every line", "why_tests_cant": "Shows only from the second tab on.", "anchors": ["src/utils/regexwrappers.cpp:expandTabs"]}
{"id": "C54", "title": "utils: white space squashing keeps the words", "statement": "squashHorizontalWhitespace keeps the sequence of words, joined by single spaces after an indentation of at most two, unless the first word is a single character at column 0 or 1, when the following space is lost.", "quantifier": "every line", "why_tests_cant": "All lines.", "anchors": ["src/utils/regexwrappers.cpp:squashHorizontalWhitespace"]}
{"id": "C55", "title": "utils: quoted strings survive squashing", "statement": "Every double-quoted string of a line is copied unchanged by squashHorizontalWhitespaceWithQuotes.", "quantifier": "every line", "why_tests_cant": "All lines.", "anchors": ["src/utils/regexwrappers.cpp:squashHorizontalWhitespaceWithQuotes"]}
{"id": "C56", "title": "utils: comment stripping", "statement": "getLineWithoutComment returns a prefix of the line containing no ; or #. Before a comment every word is kept; on a line of several words without comment or trailing blanks the last word is lost.", "quantifier": "every line", "why_tests_cant": "All lines.", "anchors": ["src/utils/regexwrappers.cpp:getLineWithoutComment"]}
{"id": "C57", "title": "utils: first word stripping stays in range", "statement": "getLineWithoutCommentAndStripFirstWord always returns a contiguous part of the line (never an inverted range).", "quantifier": "every line", "why_tests_cant": "Inverted ranges are undefined behaviour.", "anchors": ["src/utils/regexwrappers.cpp:getLineWithoutCommentAndStripFirstWord"]}
{"id": "C58", "title": "utils: used labels", "statement": "getUsedLabelsInLine returns exactly the maximal identifier-like tokens of the operand part, in order, each also with its $ or % prefix; without trailing comment or blanks the columns select the name.", "quantifier": "every line", "why_tests_cant": "All lines.", "anchors": ["src/utils/regexwrappers.cpp:getUsedLabelsInLine"]}
{"id": "C59", "title": "utils: used label columns with a trailing comment", "statement": "One might expect the columns to select the name also when the line ends in a comment. They lie to the right of the name by exactly the number of characters cut off the end.", "quantifier": "every line", "why_tests_cant": "Needs a comment.", "anchors": ["src/utils/regexwrappers.cpp:getUsedLabelsInLine"]}
{"id": "C60", "title": "utils: character counting", "statement": "ustrlen is at most the byte length, equals it on ASCII text, and equals the number of code points on valid UTF-8 without NUL.", "quantifier": "every byte string, every locale meeting the mblen contract", "why_tests_cant": "All strings.", "anchors": ["src/utils/utils.cpp:ustrlen"]}
{"id": "C61", "title": "utils: regular expression engine", "statement": "The matching relation used for all patterns accepts exactly the strings in the language of the pattern.", "quantifier": "every pattern, every string", "why_tests_cant": "All patterns.", "anchors": ["src/utils/regexes.hpp"]}
{"id": "C62", "title": "utils: CUDA labels", "statement": "getCudaLabel accepts exactly lines ending in .entry or .func, a name and an open parenthesis, and returns the keyword entry or func, never the name, for each of them.", "quantifier": "every line", "why_tests_cant": "All lines.", "anchors": ["src/utils/regexwrappers.cpp:getCudaLabel", "src/utils/regexes.hpp:cudaBeginDef"]}
{"id": "C63", "title": "utils: library paths", "statement": "file_in_library is true exactly for names starting with /opt/compiler-explorer/, /usr/include or /usr/local/include.", "quantifier": "every name", "why_tests_cant": "All names.", "anchors": ["src/utils/library_detection.cpp:file_in_library"]}
{"id": "C64", "title": "cli: options", "statement": "Each option's field is set exactly when the option occurs anywhere in the arguments; the file name is the last non-option; parsing happens only if -stdin or a file name occurs.", "quantifier": "every argument list", "why_tests_cant": "All lists and orders.", "anchors": ["src/main.cpp:getConfigurationFromCommandline"]}
{"id": "C65", "title": "recognisers: kinds of lines and block marks", "statement": "isDirective, isDataDefn, isInstOpcode, isCudaEndDef, the comment/app/asm/proc block marks and the user-file test accept exactly the lines that begin with, contain or are made of the given words; the words are found inside longer words.", "quantifier": "every line", "why_tests_cant": "All lines.", "anchors": ["src/utils/regexwrappers.cpp:isDirective", "src/utils/regexes.hpp"]}
{"id": "C66", "title": "recognisers: comment-only lines", "statement": "A line counts as a comment exactly when its first non-blank text starts with #, @, // or ; or is wholly enclosed in /* */; two semicolons followed by white space only do not count, except in nvcc code.", "quantifier": "every line", "why_tests_cant": "All lines.", "anchors": ["src/utils/regexwrappers.cpp:isJustComments", "src/utils/regexes.hpp:commentOnly"]}
{"id": "C67", "title": "recognisers: label lines", "statement": "getLabel accepts exactly the lines that begin with a name of label characters and a colon, optionally after one character, proc and white space, and returns the name; getLabelAssignment exactly those beginning with a word, white space and =.", "quantifier": "every line", "why_tests_cant": "All lines.", "anchors": ["src/utils/regexwrappers.cpp:getLabel", "src/utils/regexes.hpp:labelDef"]}
{"id": "C68", "title": "recognisers: symbol directives", "statement": "The .globl/.global/.GLB/.export, .weak/.weakext and .type recognisers accept exactly the directives that name a symbol and return that symbol; for .type the first directive of the line counts.", "quantifier": "every line", "why_tests_cant": "All lines.", "anchors": ["src/utils/regexwrappers.cpp:getGlobalDefinedLabel", "src/utils/regexes.hpp:definesGlobal"]}
{"id": "C69", "title": "recognisers: section names", "statement": "getSectionNameDef accepts exactly the lines containing .data, .text or .section, and returns data, text or the name after the first such word.", "quantifier": "every line", "why_tests_cant": "All lines.", "anchors": ["src/utils/regexwrappers.cpp:getSectionNameDef", "src/utils/regexes.hpp:sectionDef"]}
{"id": "C70", "title": "recognisers: stab, 6502 and d2 locations", "statement": "The recognisers of .stabn, .dbg, .d2line and .d2file accept exactly the directives of their form and return exactly the numbers and names written there (0 for a number out of range).", "quantifier": "every line", "why_tests_cant": "All lines.", "anchors": ["src/utils/regexwrappers.cpp:getSourceInfoFromStabs", "src/utils/regexwrappers.cpp:get6502DbgInfo"]}
{"id": "C71", "title": "recognisers: instructions", "statement": "hasOpcode is true exactly when the line without comment (which loses its last word when there is no comment) contains .inst or starts with a letter and is not an assignment; in nvcc code it must be a single character.", "quantifier": "every line", "why_tests_cant": "All lines.", "anchors": ["src/utils/regexwrappers.cpp:hasOpcode", "src/utils/regexes.hpp:hasOpcodeRe"]}
{"id": "C72", "title": "cli: exit status and debug file", "statement": "The program exits 0 exactly when the locale exists and -stdin or a non-option is given; otherwise it exits 1 with the fixed message or nothing. The debug dump is written exactly for -debugdump with a file in text mode, never with -stdin or -binary.", "quantifier": "every argument list, file system, input and hash order", "why_tests_cant": "All argument lists.", "anchors": ["src/main.cpp:main"]}
{"id": "C73", "title": "cli: what is read", "statement": "With -stdin the result does not depend on any file. Without it, it does not depend on standard input nor on any file but the one named last.", "quantifier": "every argument list, file system, input and hash order", "why_tests_cant": "Absence of influence cannot be tested.", "anchors": ["src/main.cpp:main"]}
{"id": "C74", "title": "cli: options that matter", "statement": "The result depends only on which of the relevant options occur and on the last name, not on order or repetition. In binary mode -unused_labels, -directives, -comment_only, -whitespace and -debugdump change nothing; in text mode -plt changes nothing.", "quantifier": "every pair of argument lists, every input and hash order", "why_tests_cant": "Absence of influence cannot be tested.", "anchors": ["src/main.cpp:main", "src/main.cpp:getConfigurationFromCommandline"]}
{"id": "C75", "title": "cli: outcomes", "statement": "A run ends normally, or meets one of the two overflows of the objdump parser in binary mode, or does not end in text mode; there is no other outcome. An empty or missing input gives exit 0 and the fixed empty document.", "quantifier": "every argument list, inputs below 2^31 bytes", "why_tests_cant": "All inputs.", "anchors": ["src/main.cpp:main"]}
{"id": "C76", "title": "json: text parser output is valid JSON", "statement": "If the input has no control characters except tab and line feed, the JSON of the text parser is valid for every filter and hash order. It is valid exactly when the strings shown have none; input with CRLF line ends never gives valid JSON when nothing is filtered.", "quantifier": "every input, filter, hash order", "why_tests_cant": "All inputs.", "anchors": ["src/utils/jsonwriter.cpp:write", "src/assembly/parser.cpp:outputJson"]}
{"id": "C77", "title": "objdump: text before the first word", "statement": "Semicolons, carriage returns and white space other than line feeds at the start of a line have no effect on the result, whatever follows and whatever came before.", "quantifier": "every input, filter", "why_tests_cant": "All lines.", "anchors": ["src/objdump/parser.cpp:fromStream"]}
{"id": "C78", "title": "objdump: counts of a parser used again", "statement": "Each call counts the line feeds of its own stream, up to the one at which the parser stops, while the lines of all calls are kept. After the cap was reached a further call changes no line and filteredCount becomes -5001.", "quantifier": "every parser state, input, filter", "why_tests_cant": "Needs 5000 lines and a second call.", "anchors": ["src/objdump/parser.cpp:fromStream", "src/utils/jsonwriter.cpp:write"]}
{"id": "C79", "title": "asm: exactly which lines the unused-label pass removes", "statement": "A line goes exactly when the unused-labels filter is on and it stands below an unmarked, non-internal, non-inline label with no used label since, or is itself a label that is unused but reached through an alias, or unmarked and internal or inline; or in compatibility mode when it is data outside a procedure below an unmarked label. Non-internal labels never have a parent, so the parent branch of removeUnused is dead code.", "quantifier": "every input, filter, hash order", "why_tests_cant": "All inputs.", "anchors": ["src/assembly/parser.cpp:removeUnused"]}
{"id": "C80", "title": "asm: exactly which lines are read, set aside and dropped", "statement": "A text line is dropped exactly when it is the start of a procedure hidden with the directives or, with the comment filter, only a comment; it is set aside exactly when the directives filter is on and it is a location or other directive that is no label, no data and no .inst and stands outside a CUDA definition; all other text lines are stored, in order. A blank line is stored exactly when a stored line precedes it and the last stored one is not blank. Without the filters of the last pass these are the lines of the result.", "quantifier": "every input, every filter without library filter", "why_tests_cant": "All inputs.", "anchors": ["src/assembly/parser.cpp:eol", "src/assembly/parser.cpp:maybeAddBlank"]}
{"id": "C81", "title": "asm: what is recorded for a line", "statement": "For each stored line the text, section, location (unless a label), label name and its flags, data, directive, opcode and inline flags, closest parent and references are given by a fixed rule from the line and what is carried from the lines before it. Names are internal exactly when they begin with a dot, a dollar or a capital L.", "quantifier": "every input, every filter without library filter", "why_tests_cant": "All inputs.", "anchors": ["src/assembly/parser.cpp:eol", "src/utils/regexwrappers.cpp:hasOpcode"]}
{"id": "C82", "title": "asm: section, label and parent in force", "statement": "The section of a line is the one of the last line that names one and is no location directive; the last label is that of the last label line, or none after the end of a block; the parent is the last label that is not internal, and is never reset.", "quantifier": "every sequence of lines, every filter", "why_tests_cant": "All inputs.", "anchors": ["src/assembly/parser.cpp:eol", "src/assembly/parser.cpp:handleSection"]}
{"id": "C83", "title": "asm: reference tables", "statement": "After a parse the three reference tables hold exactly the entries made by the lines: code refers from its parent to the names it mentions except the parent itself, data from the last label (and from the parent too inside a procedure), symbol directives from the last label; the first table only for defined names.", "quantifier": "every input, hash order, every filter without library filter", "why_tests_cant": "All inputs.", "anchors": ["src/assembly/parser.cpp:eol", "src/assembly/parser.cpp:extractUsedLabelsFromDirective", "src/assembly/parser.cpp:filterNonLabels"]}
{"id": "C84", "title": "asm: table of aliases", "statement": "The alias of a label is the stored label before it, provided neither line is an assignment and no stored line between them has an opcode or is data; the last such definition of the name counts.", "quantifier": "every input, hash order, every filter without library filter", "why_tests_cant": "All inputs.", "anchors": ["src/assembly/parser.cpp:handleLabelAliasing"]}
{"id": "C85", "title": "asm: location of label lines", "statement": "A label followed, with only internal labels stored in between, by a .loc or .d2line takes that location (the last one before the next stored line that is no internal label), without end mark and as user code only if it is not internal; a label followed by another stored line keeps the location in force.", "quantifier": "every input, every filter without library filter", "why_tests_cant": "All inputs.", "anchors": ["src/assembly/parser.cpp:amendPreviousLinesWith", "src/assembly/parser.cpp:markPreviousInternalLabelAsInsideProc"]}
{"id": "C86", "title": "asm: references shown", "statement": "The references of a line of the result are those found in the line whose name is the name of a label line that was read, also one that was removed since, in their order.", "quantifier": "every input below 2^31 bytes, filter, hash order", "why_tests_cant": "All inputs.", "anchors": ["src/assembly/parser.cpp:filterOutReferedLabelsThatArentDefined"]}
{"id": "C87", "title": "objdump: every line whatsoever", "statement": "For every sequence of lines, well formed or not, the lines and labels of the result (or the undefined behaviour met) are given line by line by a reading of each line as first word and rest; between lines only the section, the location, hiding, stopping and a '<' left open are carried.", "quantifier": "every sequence of lines, filter, locale", "why_tests_cant": "All inputs: refinement of the character machine.", "anchors": ["src/objdump/parser.cpp:fromStream", "src/objdump/parser.cpp:eol"]}
{"id": "C88", "title": "objdump: lines of one word", "statement": "Outside hidden functions a line consisting of one word without '/', ':' and ';' is shown as it is, without address, opcodes and references.", "quantifier": "every sequence of lines before it, every word", "why_tests_cant": "All words after all inputs.", "anchors": ["src/objdump/parser.cpp:actually_address", "src/objdump/parser.cpp:eol"]}
{"id": "C89", "title": "objdump: source lines with several colons", "statement": "Of a line FIRST:m1:...:mk:NUM with a slash in FIRST the location becomes line NUM of file mk (FIRST if k = 0); so file:line:column is read as line 'column' of file 'line'.", "quantifier": "every sequence of lines before it, every number of pieces", "why_tests_cant": "All shapes.", "anchors": ["src/objdump/parser.cpp:updateSourceRefLineNumber", "src/objdump/parser.cpp:fromStream"]}
{"id": "C90", "title": "objdump: lines read alike wherever they stand", "statement": "After lines in which each '<' is followed by '>' or '+' before any '#', a line yields the same text, address, opcodes, references and labels as alone; after a '<' left open it need not.", "quantifier": "every sequence of lines before it, every line", "why_tests_cant": "All contexts of all lines.", "anchors": ["src/objdump/parser.cpp:fromStream", "src/objdump/parser.cpp:labelref"]}
{"id": "C91", "title": "objdump: references are exactly the bracketed names", "statement": "In ASCII lines that close their brackets, the references of an instruction line are exactly the names between a '<' and the next '>' or '+' before any '#', without another '<' in between and not ignored, with their columns; so names of templates are never referred to.", "quantifier": "every sequence of such lines, every filter", "why_tests_cant": "All inputs.", "anchors": ["src/objdump/parser.cpp:labelref", "src/objdump/parser.cpp:fromStream"]}
{"id": "C92", "title": "objdump: a hexadecimal word followed by text is a label", "statement": "Every line of a hexadecimal word, a blank and further text defines a label of that text (instructions such as 'add rax, rbx' too).", "quantifier": "every sequence of lines before it, every text", "why_tests_cant": "All texts after all inputs.", "anchors": ["src/objdump/parser.cpp:actually_address", "src/objdump/parser.cpp:label"]}
{"id": "C93", "title": "objdump: what ends a hidden function", "statement": "While a hidden function is read, every line of a word (hexadecimal or not), a blank and further text ends the hiding and defines a label of that text without address.", "quantifier": "every sequence of lines before it, every word and text", "why_tests_cant": "All texts after all inputs.", "anchors": ["src/objdump/parser.cpp:actually_address", "src/objdump/parser.cpp:eol"]}
{"id": "C94", "title": "asm: every mark takes a root", "statement": "Without references from data to labels, each label a parse marks takes a root (a name declared global or weak, or mentioned by code before the first function) out of the set of names not yet visited in the thread. So with a single global function at most one label is marked however many are used, and once one was marked, later parses in the thread with that function as the only global one mark nothing.", "quantifier": "every input below 2^31 bytes, filter, hash order, history", "why_tests_cant": "All graphs, orders and histories.", "anchors": ["src/assembly/parser.cpp:isUsed", "src/assembly/parser.cpp:markLabelUsage"]}
{"id": "C95", "title": "asm: exactly which labels are marked", "statement": "Without references from data to labels: the labels are tried in some order; each gets its mark by a trail of uses to a root that avoids all names taken so far, or by one of its alias, and the names of the trail are then taken and stay so for the next parse. The mark goes to the last line that defines the name, no other line has a mark, and the result follows from these marks by the removal rule.", "quantifier": "every input below 2^31 bytes, filter, hash order, history", "why_tests_cant": "All graphs, orders and histories.", "anchors": ["src/assembly/parser.cpp:isUsed", "src/assembly/parser.cpp:isUsedThroughAlias", "src/assembly/parser.cpp:markLabelUsage"]}
{"id": "C96", "title": "asm: several calls on one parser", "statement": "Without the unused-labels filter and compatibility mode any number of calls of fromStream on one parser object keeps every label's line number inside the lines. With the unused-labels filter it does not: the table of labels is kept while lines are removed, so after a parse in which an unused function was removed the next call, even on an empty stream, indexes past the end of the lines in every hash order.", "quantifier": "every sequence of inputs below 2^31 bytes in total, hash order, history", "why_tests_cant": "Tests call each parser once.", "anchors": ["src/assembly/parser.cpp:fromStream", "src/assembly/parser.cpp:markLabelUsage", "src/assembly/parser.cpp:removeUnused"]}
{"id": "C97", "title": "asm: views left behind in the thread", "statement": "What a parse adds to the thread-local set of visited labels are views into its own line objects. Without references from data to labels: when the parser that left a view was destroyed and a later input of the thread defines a label of that name, the search reads the destroyed characters, in every hash order. So parsing the same input with two parsers one after the other in one thread is undefined whenever the first parse marks a label.", "quantifier": "every input below 2^31 bytes, hash order, history of the thread", "why_tests_cant": "The characters usually survive in freed memory, so tests pass.", "anchors": ["src/assembly/parser.cpp:isUsed", "src/assembly/parser.cpp:markLabelUsage"]}
{"id": "C98", "title": "asm: the search for used labels can take exponential time", "statement": "isUsed forgets a name again when its search fails, so without references from data to labels a parse makes at least as many calls of isUsed as there are chains of uses without repetition from any one label that avoid the names taken in the end. On levels of three functions, each calling the three of the next level, below one global function (6n^2+96n+39 bytes) the parse ends, but makes at least 2^(n-1) calls in every hash order.", "quantifier": "every n, filter without whitespace and library-function filters, hash order", "why_tests_cant": "Lower bound for a family of inputs of every size; cannot be run.", "anchors": ["src/assembly/parser.cpp:isUsed", "src/assembly/parser.cpp:markLabelUsage"]}
{"id": "C99", "title": "asm: how deep the search for used labels recurses", "statement": "Without references from data to labels isUsed calls itself no deeper than the number of names used plus two, but to the end of every chain of uses without repetition that avoids the names taken in the end. For a global function and any list of other functions, each calling the next, the depth is at least the number of these functions in every hash order, so the stack needed grows linearly with the input.", "quantifier": "every input below 2^31 bytes, every list of names, hash order", "why_tests_cant": "All sizes; the tests' inputs are small.", "anchors": ["src/assembly/parser.cpp:isUsed", "src/assembly/parser.cpp:markLabelUsage"]}
{"id": "C100", "title": "asm: with which references the search for used labels ends", "statement": "The search for used labels ends for every order of the hash tables and every history if no chain of references leads from a name back to itself with as many uses by code as by data. If there is such a ring of different labels and none of them leads to a global label or to code outside functions, the recursion has no end, whatever else the input holds and in whatever order the tables are walked.", "quantifier": "all filters, hash orders, histories and inputs shorter than 2^31 bytes; the endless case with the library filter off and none of the ring's names in the set left by earlier parses", "why_tests_cant": "No test can show that a recursion never ends, nor that it ends for all reference graphs and hash orders", "anchors": ["src/assembly/parser.cpp:isUsed", "src/assembly/parser.cpp:markLabelUsage"]}
{"id": "C101", "title": "utils: cleaning a line again changes nothing", "statement": "Squashing white space, with or without regard to quotes, expanding tabs and moving labels to the margin are idempotent, whatever the flags of the second call. Taking the comment off is not: each call loses one more word. White space between two quoted strings is lost altogether.", "quantifier": "every string", "why_tests_cant": "Tests show single lines; idempotence is about all of them.", "anchors": ["src/utils/regexwrappers.cpp:squashHorizontalWhitespaceWithQuotes", "src/utils/regexwrappers.cpp:expandTabs", "src/utils/regexwrappers.cpp:fixLabelIndentation", "src/utils/regexwrappers.cpp:getLineWithoutComment"]}
{"id": "C102", "title": "asm: the output of the parser read again", "statement": "With the directive, comment, library and unused-label filters off and outside inline assembly, the lines shown, read again with the same filters, are shown unchanged, in every locale and hash order, with and without the white-space filter. A tab that is expanded into the mark of inline assembly breaks this.", "quantifier": "every input, locale, hash order, history", "why_tests_cant": "Relates two runs on unbounded inputs.", "anchors": ["src/assembly/parser.cpp:fromStream", "src/assembly/parser.cpp:eol"]}
{"id": "C103", "title": "asm: what the directives filter changes", "statement": "When lines with .cfi_startproc hold nothing else, turning the directives filter on leaves out directives, starts of procedures and blank lines and changes nothing about the other lines: same text, section, flags, label, parent, references and location, location of labels excepted. Labels can get a location only with the filter; a label on the line of .cfi_startproc is lost.", "quantifier": "every input below 2^31 bytes, locale, pair of hash orders and histories, with the library and unused-label filters off", "why_tests_cant": "Relates two runs on unbounded inputs.", "anchors": ["src/assembly/parser.cpp:eol", "src/assembly/parser.cpp:amendPreviousLinesWith"]}
{"id": "C104", "title": "asm: what the comment filter changes", "statement": "When no line begins a block comment and no line that is only a comment is a label, turning the comment filter on leaves out comments and blank lines and changes nothing about the other lines. Labels beginning with @ are dropped as comments; marks of inline assembly inside a block comment are ignored only with the filter, so the text of later labels changes.", "quantifier": "every input below 2^31 bytes, locale, pair of hash orders and histories, with the library and unused-label filters off", "why_tests_cant": "Relates two runs on unbounded inputs.", "anchors": ["src/assembly/parser.cpp:eol", "src/utils/regexwrappers.cpp:isJustComments"]}
{"id": "C105", "title": "asm: what the locale changes", "statement": "Two runs of the text parser in two locales end the same way and agree on the lines, filtered lines, text output, label tables, reference tables and history; lines differ at most in the end columns of their references. In locales in which every ASCII byte is one character nothing differs, whatever bytes the input holds.", "quantifier": "every pair of locales, input, filter, hash order, depth, history", "why_tests_cant": "Quantifies over all behaviours of mblen.", "anchors": ["src/utils/regexwrappers.cpp:getUsedLabelsInLine", "src/utils/utils.cpp:ustrlen"]}
{"id": "C106", "title": "objdump: what the locale changes", "statement": "Two runs of the objdump parser in two locales end the same way and agree on the texts, addresses, opcodes, locations and sections of the lines and on the label table; only the references listed for a line can differ. With ASCII input and locales in which an ASCII byte is one character nothing differs. Otherwise the names of references do: a count of characters is used as an offset in bytes.", "quantifier": "every pair of locales, input, filter", "why_tests_cant": "Quantifies over all behaviours of mblen.", "anchors": ["src/objdump/parser.cpp:labelref", "src/objdump/parser.cpp:fromStream", "src/utils/utils.cpp:ustrlen"]}
{"id": "C107", "title": "text parser: UTF-8 in, UTF-8 out", "statement": "If the input is well-formed UTF-8, so are the text output, the JSON output and every text, label, section, file name and reference name of the result, for every filter and locale: no filter, tab expansion, squashing or name capture cuts a character in two. The same holds of what the program prints in text mode. The file table gets exactly the names given by lines that begin with .file, a number and one or two quoted names.", "quantifier": "every well-formed UTF-8 input, filter, locale, hash order, depth", "why_tests_cant": "Tests use ASCII files; the statement is about all code points in all positions.", "anchors": ["src/assembly/parser.cpp:eol", "src/utils/regexwrappers.cpp:expandTabs", "src/utils/regexwrappers.cpp:getFileDef", "src/utils/jsonwriter.cpp:write"]}
{"id": "C108", "title": "objdump: UTF-8 in, UTF-8 out except for references", "statement": "If the input is well-formed UTF-8, so are the text output and every text, section, label, file name and opcode group of the result. The JSON output is well-formed if and only if every reference name is; in a UTF-8 locale a reference name may begin in the middle of a character, since its start is counted in characters and used as a number of bytes.", "quantifier": "every well-formed UTF-8 input, filter, locale", "why_tests_cant": "Tests use ASCII files; the statement is about all code points in all positions.", "anchors": ["src/objdump/parser.cpp:fromStream", "src/objdump/parser.cpp:labelref", "src/utils/jsonwriter.cpp:write"]}
{"id": "C109", "title": "text parser: reading on only adds lines", "statement": "Without the filter for unused labels and compatibility mode, the result for an input of whole lines followed by anything begins with the result for those lines: text output and label table are prefixes, and a line keeps its text, label, section, parent label, kind and references. A line may get more references (to labels defined later) and another location. With the filter for unused labels lines may appear and disappear.", "quantifier": "every pair of inputs, the first empty or ending in a line feed; every other filter, locale, hash order, depth", "why_tests_cant": "Tests compare whole outputs of whole files; none cuts an input.", "anchors": ["src/assembly/parser.cpp:eol", "src/assembly/parser.cpp:fromStream", "src/assembly/parser.cpp:removeUnused"]}
{"id": "C110", "title": "objdump: reading on only adds lines", "statement": "Without the library filter the lines and the label table for the beginning of an input, cut anywhere, are prefixes of those for the whole input. With the library filter this holds of the lines before the last label, and of all lines if the last function has a line of user code or there is no label; a last function without user code may disappear.", "quantifier": "every input and every cut, filter, locale", "why_tests_cant": "Tests compare whole outputs of whole files; none cuts an input.", "anchors": ["src/objdump/parser.cpp:eol", "src/objdump/parser.cpp:label", "src/objdump/parser.cpp:maybe_remove_last_function"]}
{"id": "C111", "title": "text parser: what the white-space filter changes", "statement": "Reading with the white-space filter is the same as squeezing each line of the input (and emptying its blank lines) and reading the result without that filter: same outcome, lines, labels, tables and outputs, provided the tests made on a line before it is squeezed (marks of inline assembly, comment-only line) give the same answer afterwards - in particular if no line begins with a slash or semicolon and no line beginning with a number sign marks inline assembly. Every line .file number 'directory' 'name' thereby loses its second name, so that the location of its lines is the directory.", "quantifier": "every input satisfying the condition, every filter, locale, hash order, depth", "why_tests_cant": "Tests use the filter on a few files without comparing to squeezed input; no test has both a directory and the white-space filter.", "anchors": ["src/assembly/parser.cpp:eol", "src/utils/regexwrappers.cpp:squashHorizontalWhitespaceWithQuotes", "src/utils/regexes.hpp:findQuotes"]}
{"id": "C112", "title": "JSON writers: statement by statement", "statement": "The methods of JsonWriter and DebugJsonWriter, followed statement by statement with their first-element flags, the flag wroteSomethingInRoot, the comma options and the chosen overloads, append to the stream exactly the documents described by the other JSON properties: every separator is written once, between two elements and nowhere else, also with optional parts missing.", "quantifier": "all lines, label tables, reference tables, filters, number formats, contents of the stream", "why_tests_cant": "Tests compare a few whole documents; they do not cover every combination of missing optional parts.", "anchors": ["src/utils/jsonwriter.cpp:writeLine", "src/utils/jsonwriter.cpp:writeKv", "src/utils/jsonwriter.cpp:write", "src/utils/jsonwriter.cpp:writeDebugLine"]}
{"id": "C113", "title": "JSON writers: pretty printing", "statement": "With prettyPrint on, either document differs from the plain one by line feeds only, these stand only where JSON allows white space, and the text has the same JSON value.", "quantifier": "all lines, label tables and reference tables whose strings are printable; for the line feeds all documents", "why_tests_cant": "prettyPrint is never switched on, so no test runs these branches.", "anchors": ["src/utils/jsonwriter.cpp:writeLine", "src/utils/jsonwriter.cpp:writeKvNull", "src/utils/jsonwriter.cpp:writeValue", "src/utils/jsonwriter.cpp:write"]}
{"id": "C114", "title": "Regular expressions: as written in the source", "statement": "All 43 pattern texts (the wrappers of regexes.hpp and the range in getUsedLabelsInLine) are read as regular expressions, and each function that tests a line gives exactly the match, search or captures of the text it names, for every line.", "quantifier": "all lines, names, positions and filters; all 43 pattern texts", "why_tests_cant": "A test shows that one line matches; it cannot show that no line is treated otherwise.", "anchors": ["src/utils/regexes.hpp:labelDef", "src/utils/regexwrappers.cpp:getLabel", "src/utils/regexwrappers.cpp:hasOpcode", "src/utils/regexwrappers.cpp:getUsedLabelsInLine"]}
{"id": "C115", "title": "Objdump parser: the model is the source text, interpreted", "statement": "The texts of objdump/parser, types and utils are read as C++ syntax trees, and the program they form is run by an interpreter. For every filter and every input below 2^29 bytes the interpreted ObjDumpParser::fromStream on a new object ends in the object the model computes, or in the same undefined operation. Each method and each utility it calls gives the model's result too, on every object that meets the stated conditions.", "quantifier": "all filters, inputs, objects, multibyte length functions and depths", "why_tests_cant": "No test compares a model with a program text.", "anchors": ["src/objdump/parser.cpp:ObjDumpParser::fromStream", "src/objdump/parser.cpp:ObjDumpParser::eol", "src/objdump/parser.cpp:ObjDumpParser::label", "src/objdump/parser.cpp:ObjDumpParser::labelref", "src/utils/utils.cpp:ustrlen"]}
{"id": "C116", "title": "Text parser: the utilities are the source text, interpreted", "statement": "The texts of assembly/parser, types and utils are read as C++ syntax trees and run by the interpreter. Every function of regexwrappers.cpp and utils.cpp that the text parser calls (the line tests, the label and section names, the source places, tab expansion, comment stripping, label indentation, white-space squashing, opcode test, used labels) gives what the model function of the same name gives, on every line below 2^31 bytes.", "quantifier": "all lines, multibyte length functions, container orders and sufficient call depths", "why_tests_cant": "No test compares a model with a program text.", "anchors": ["src/utils/regexwrappers.cpp:getUsedLabelsInLine", "src/utils/regexwrappers.cpp:squashHorizontalWhitespaceWithQuotes", "src/utils/regexwrappers.cpp:getLineWithoutComment", "src/utils/regexwrappers.cpp:hasOpcode", "src/utils/utils.cpp:ltrim"]}
{"id": "C117", "title": "Text parser: the methods for one line are the source text, interpreted", "statement": "The methods of AssemblyTextParser that handle a directive (file, source place, stabs, 6502, D2, section, used labels), go back over the lines read so far (amending their source, marking the last label, adding a blank) or handle the labels of a line (definition, references of opcode and data lines, aliases) are run by the interpreter from the text of parser.cpp. On the object of every model state each gives the answer of the model function of the same name and leaves the object of the state that function computes.", "quantifier": "all states, lines, filters, multibyte length functions, container orders and sufficient call depths, lengths below 2^31", "why_tests_cant": "No test compares a model with a program text.", "anchors": ["src/assembly/parser.cpp:handleFiledef", "src/assembly/parser.cpp:handleSource", "src/assembly/parser.cpp:amendPreviousLinesWith", "src/assembly/parser.cpp:handleLabelDefinition", "src/assembly/parser.cpp:extractUsedLabelsFromDataLine"]}
{"id": "C118", "title": "Text parser: the end of a line is the source text, interpreted", "statement": "AssemblyTextParser::eol, run by the interpreter from the text of parser.cpp together with every method and function it calls, leaves on the object of a model state exactly the object of the state the model function eol computes: comment blocks, blank lines, inline assembly nesting, tab expansion and squashing, procedure marks, source directives, sections, the library filter, labels, data, directives, references, aliases and the storing of the line, in that order.", "quantifier": "all states, filters, multibyte length functions, container orders and sufficient call depths, counters and lengths within their types", "why_tests_cant": "No test compares a model with a program text.", "anchors": ["src/assembly/parser.cpp:eol"]}
{"id": "C119", "title": "Text parser: which labels are used is the source text, interpreted", "statement": "isUsed, isUsedThroughAlias, isDataUsedThroughAlias, filterNonLabels, filterOutReferedLabelsThatArentDefined and markLabelUsage, run by the interpreter from the text of parser.cpp, do what the model functions do: same answers, same contents of the static visited set afterwards, same marks on the lines, whatever the iteration order of the unordered containers; isUsed recurs in the interpreter exactly as deeply as in the model.", "quantifier": "all states, labels, visited sets, filters, container orders and call depths below 2^31", "why_tests_cant": "No test compares a model with a program text.", "anchors": ["src/assembly/parser.cpp:isUsed", "src/assembly/parser.cpp:markLabelUsage"]}
{"id": "C120", "title": "Text parser: the whole run is the source text, interpreted", "statement": "removeUnused does to the lines what the model function does, and fromStream, called on a fresh parser and a stream, ends with exactly the parser object of the model run on the same bytes: the read loop, every handler of a line, the marking and the removal are all taken from the text of parser.cpp by the interpreter.", "quantifier": "all inputs, filters, container orders and mblen functions that never exceed the length, whenever the model run ends with an object; interpreter bounds any large enough", "why_tests_cant": "No test compares a model with a program text.", "anchors": ["src/assembly/parser.cpp:fromStream", "src/assembly/parser.cpp:removeUnused"]}
{"id": "C121", "title": "Text parser: the debug dump shows every table under its own name", "statement": "For a state whose names and texts hold no control character but the tab, the dump is one JSON document with exactly six members: the lines, the label definitions, the references by code, the weak references, the references by data and the aliases, each the contents of the table of that name in the order in which it is gone through.", "quantifier": "all printable states, filters and container orders", "why_tests_cant": "The tests have no dump with two different reference tables.", "anchors": ["src/assembly/parser.cpp:outputDebugJson", "src/utils/jsonwriter.cpp:DebugJsonWriter::write"]}
{"id": "C122", "title": "Program: the text output is the texts of the JSON output", "statement": "Whenever the program prints a JSON document, the same command line with -outputtext exits 0, leaves the same debug file and prints exactly the text members of the lines of that document, in order, each followed by a line feed; in both modes.", "quantifier": "all inputs, arguments, files, clocks and container orders", "why_tests_cant": "The tests compare each output with its own approved file, never one output with the other.", "anchors": ["src/main.cpp:main", "src/assembly/parser.cpp:outputText", "src/assembly/parser.cpp:outputJson"]}
{"id": "C123", "title": "Text parser: the label definitions are the source text, interpreted", "statement": "redetermineLabels, run by the interpreter from the text of parser.cpp, leaves the parser as it is and returns exactly the names and 1-based numbers of the lines that are labels, in the order of the lines.", "quantifier": "all states with fewer than 2^31-1 lines", "why_tests_cant": "No test compares a model with a program text.", "anchors": ["src/assembly/parser.cpp:redetermineLabels"]}
