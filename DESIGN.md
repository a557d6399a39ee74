# Formal model of compiler-explorer/asm-parser in Rocq (Coq 8.16.1)

The program reads the output of a compiler or of objdump and writes the lines worth showing, with
labels, references and source locations, as text or JSON. The model is a set of total Gallina
functions that follow the C++ function by function; the properties of `properties.jsonl` are theorems
about these functions, for all inputs, filters, locales, hash orders and histories they mention.

## 1. Trusted base

* Coq's kernel (8.16.1), re-checked with `coqchk`. No axiom: `ASSUMPTIONS.md` lists what
  `Print Assumptions` says for every theorem named in `MANIFEST.json`, and each one is "Closed under
  the global context" (written by `tools/assumptions.py`; the same commands stand below each theorem
  in the `Prop*.v` files). Only the standard library is used.
* The reading of the C++ source. Every model definition cites the file and lines it transcribes.
  For the objdump parser and the utilities it uses the transcription is proved: the model equals the text of the
  source, read and interpreted inside Coq (C115). What is trusted there is the reader and the interpreter
  (`CppSyntax.v`, `CppSem.v`) and `tools/gen_source.py`, which copies the texts (`--check` compares them again).
  The code is not built or run here. One independent check of the reading exists: the repository
  holds approved outputs (recorded runs of the real program) for its objdump tests;
  `tools/conformance.sh` extracts the model and compares. All seven agree byte for byte. There are no
  such recordings for the text parser; its transcription was re-read and its unit tests are replayed
  in `Tests.v`.
* The wording: that the theorem says what the property says. To help, statements avoid the model's
  helpers where they can, stand in files of their own (`Prop*.v`, only `exact lemma`), and have an
  `Example` beside them that shows the hypotheses can be met and that the conclusion says something.
  Mutation testing (section 6) tests that they are not too weak.

## 2. What is modelled

All of `/repo/src` except the test programs.

| Coq file | models |
|---|---|
| `Bytes.v` | bytes, strings, integer wrap-around, the outcome type |
| `Types.v` | `types/filter.hpp`, `types/line.hpp` (string views carry their owner) |
| `Regex.v`, `Regexes.v` | a backtracking matcher with captures, and every live pattern of `utils/regexes.hpp` |
| `Utils.v` | `utils/utils.cpp`, `utils/regexwrappers.cpp`, `utils/library_detection.cpp` |
| `Json.v` | `utils/jsonwriter.cpp` (both writers) |
| `ObjDump.v` | `objdump/parser.cpp`: the character machine, library filter, text and JSON output |
| `AsmText.v` | `assembly/parser.cpp`: reading, use analysis, removal, output |
| `Cli.v` | `main.cpp`: options, exit status, what is read and written |
| `SourceText.v`, `CppSyntax.v`, `CppSem.v` | the text of the source, a reader of C++ and an interpreter, independent of the above (C115) |

Undefined behaviour is a distinct outcome (`UB kind`), as is a recursion without end (`Diverges`,
explicit fuel that ran out, quantified over in the theorems). Theorems about `Ok` outcomes say so, and
which inputs lead to the other outcomes is the subject of theorems of its own (C11, C12, C43, C45, C75).
A string view carries the identity of the object whose characters it shows, so that a view into a
destroyed line is expressible (C46, C47).

Parameters, always universally quantified:

* `mb`: the C library's `mblen`. Where a theorem needs something of it (ASCII bytes are single
  characters; UTF-8) the hypothesis is written out, and two instances are shown to meet it.
* `oref`, `olab`: the iteration orders of the unordered containers (any permutation).
* `fuel`: how deep the recursion of `isUsed` may go.
* `vis`: what earlier parses left in the thread-local `visited` list.
* the clock, and the number format of the stream's locale, for the JSON writer.

## 3. What is not modelled

* CTRE itself, a dependency outside the repository. `Regex.v` has the Perl-like rule (first match in
  priority order, greedy and lazy repetition, captures of the last iteration). `RegexSpec.v` gives the
  patterns' meaning as an inductive relation, and C61 proves that the matcher of the model finds
  exactly those matches, leftmost first. The patterns of
  `Regexes.v` are proved equal to the texts of the source read by `RegexSyntax.v` (C114); what is trusted is
  that reader and `tools/gen_patterns.py`, which copies the texts (`--check` compares them again). `\h` is blank or tab:
  the other horizontal spaces of CTRE are code points above 127 and never equal a signed `char`. `.`
  is any byte: no subject from the parsers holds a line feed.
* Of C++, what the interpreter of `CppSem.v` leaves out: values are copied and never shared (a string_view is its
  characters, so lifetimes are not seen there), destructors, templates and overloads beyond those the sources use. References and
  vector iterators are places (a variable and a path). An unordered container is a list in order of insertion;
  a loop over one asks for its order from outside. A static local variable is a hidden field of the object.
* Memory exhaustion and running time; the number of calls and the depth of the search for used labels
  are counted (C98, C99).
* `int` overflow of counters that needs more than 2^31 lines: where it matters the theorem has the
  bound on the input's length as a hypothesis.
* `std::istream` is a finite list of bytes; a failing read is the end of the list. Files are named by
  a function from names to contents.
* The unused patterns of `regexes.hpp` (listed in `Regexes.v`).

## 4. Plan and proof method per property

Objdump parser. `step : state -> byte -> outcome state`, run over the input.

* C01-C07, C12, C22-C24: the step is first shown to be one of a list of transitions (`ObjInv.v`);
  invariants by induction over the input (`ObjMode.v`, `ObjMore.v`).
* C08, C09: invariant on the columns of references (`ObjRefs.v`); C09 by witness.
* C10, C11: reading a hexadecimal numeral backwards (`ObjAddr.v`), lifted to whole lines.
* C13-C17: listings as data, with `render` (what they look like) and `denote` (what they mean), both
  independent of the parser; parsing a rendered listing gives its meaning (`ObjListing*.v`, `ObjItems.v`).
* C18-C20: the library filter as a function on lists of functions (`ObjLib.v`).
* C21, C78: feeding in pieces; the line count does not influence anything else (`ObjPieces.v`, `ObjSmall.v`).
* C77: what precedes the first word of a line (`ObjSmall.v`).

JSON. `JsonSpec.v` is the grammar of RFC 8259 with meanings, as an inductive relation;
`JsonParse.v` is a reader proved complete for it, so a text has at most one meaning.

* C25-C31, C76: the writer's text derives the meaning written out in the statement; where it does not,
  an invariant of the grammar is broken (`JsonWrite.v`, `JsonDebug.v`, `JsonGroup.v`, `JsonText.v`).

Text parser.

* C32-C40, C45, C48, C49: reading as a run over the input's lines, its result related to them by an
  inductive trace (`AsmTrace.v`, `AsmThms.v`, `AsmLines.v`).
* C41-C44: the use tables describe the lines; marking against an inductive reachability relation
  (`AsmUse.v`, `AsmSearch.v`, `AsmComplete.v`, `AsmDet.v`); counterexamples in `AsmWitness.v`.
* C46, C47: views and owners (`AsmViews.v`). C50: locations in force (`AsmPlace.v`, `AsmLoc.v`).
* C79: the removal pass (`AsmRemove.v`).
* C80-C84: each stored line from the line of the input it came from and the lines before it
  (`AsmWorld.v`, `AsmStored.v`, `AsmCarry.v`).
* C85, C86: pending locations of labels; references shown (`AsmSpot.v`).
* C94, C95: a search that succeeds leaves a trail of uses in `visited`; the marks are a sequence of
  disjoint trails, each ending at a root (`AsmRoots.v`, `AsmMarking.v`).
* C96: an invariant kept between calls on one parser (`AsmAgain.v`).
* C97: the search again with `visited` as a set of views, each with the parser that inserted it; it
  agrees with the search over names until a view of a destroyed parser is met (`AsmVisited.v`,
  `AsmLeft.v`). The statements about later parses in C44, C94 and C95 hold for parsers that still exist
  together; after a destruction they describe what happens if the freed characters survive.
* C98: the search with its calls counted (`AsmCost.v`): a failed search makes a call for each chain of
  uses without repetition. For the family of inputs (`AsmLadder.v`) the reference tables are computed for
  every size from C83, and one trail takes at most one of the three names of a level (C95).
* C99: the same for the depth of the recursion, which is the model's fuel (`AsmDeep.v`).
* C100: strengthens C43 (`AsmBalance.v`). Deeper than the number of names used by data, `visited` is never
  emptied. Below, a branch that comes back to a name at the same depth closes a balanced chain. Conversely a
  balanced ring can be entered where it never falls below depth 0, and what failing searches leave behind
  does not stop it.
* C101, C102: idempotence of the clean-up of one line (`UtilAgain.v`), from it that of a whole parse without
  the removing filters (`AsmTwice.v`), through the exact list of candidate lines of C81.
* C103, C104: both runs pass through the same list of lines (C80); what is carried from line to line agrees
  in both up to the label at the current address (`worlds_like`), hence the records of C81 agree; a blank
  line shown with the filter is also shown without (`AsmDirect.v`, `AsmNotes.v`).
* C105, C106: a map that erases the end columns (text) or the references (objdump) commutes with every step up to
  itself, marking and removal included, so two runs agree after erasing. For ASCII: a name found by the pattern holds
  only ASCII bytes (text); the text collected so far is ASCII (objdump).
* C107, C108: well-formed texts are closed under concatenation, cutting at an ASCII character and replacing ASCII
  characters (Utf8Keep.v); every capture consists of ASCII characters or is cut out between quotes (AsmUtf8.v, Recog5.v);
  the text parser keeps any such property of texts (AsmTexts.v, which also serves C26 for the text parser); the objdump
  parser puts the bytes of one character all in the text, all in the section name or nowhere (ObjUtf8.v).
* C109, C110: a line of input only appends to the stored lines, up to locations (AsmGrow.v); white space pending at the
  end adds no second blank line; the objdump parser appends, and with the library filter what `settled` (ObjGrow.v) says stays.
* C111: the scanning of lines is followed with the text replaced by its squeezed form (AsmSpace.v); when the tests agree
  is decided by the first visible character (AsmFair.v).
* C112, C113: what each statement appends, composed (JsonPretty.v); the documents with their line feeds are JSON texts with
  white space around members and elements (JsonSpaced.v).
* C114: a reader of pattern texts (RegexSyntax.v), a normal form and an equality test for regular expressions, both proved
  sound for the matcher (RegexNorm.v); the texts are copied by tools/gen_patterns.py (Patterns.v).
* C115: a reader of C++ (CppSyntax.v) applied to the texts of the source (SourceText.v, copied by tools/gen_source.py) and an
  interpreter (CppSem.v). A symbolic stepper with explicit continuations (SrcStep.v) runs each function on an encoded object
  (SrcUtil.v to SrcBody.v, one file per group of methods); the loops by induction; an invariant of the reading loop
  (SrcInv.v) gives the conditions the methods need.
* C116: as C115 for the program made of the text parser's files (AStep.v); loops over string iterators with break and
  continue by one lemma about iterated turns (AScan.v), recursion of the quote squasher by induction on the call depth (ASquash.v).
* C117: the parser object is the encoding of a model state (AStep.v enc); map and set updates by lemmas about one
  statement (AMap.v), the loops over reverse iterators and over references by induction on the lines or labels left.
* C118: one lemma for each of the 26 statements of eol (AEol1.v to AEol4.v) on the object of an arbitrary state, then
  their sequence (AEol.v); lengths of the rewritten line by induction.
* C119: induction on the depth of the recursion (AMark1.v), on the elements of the containers and on the labels of a
  line (AMark2.v to AMark4.v).
* C120: induction on the lines for removeUnused (AMark5.v) and on the bytes of the stream for fromStream (AStream.v), with
  an invariant that bounds text, lines and nesting by the number of bytes read; then C117 to C119.
* C121: the validity theorem of the dump (C31) at the tables of the parser.
* C122: uniqueness of the value of a document (C26) and a reader of documents defined in the statement.
* C123: induction on the lines (ARedo.v).

Objdump lines of any form.

* C87: `ObjEvery.v` says what any line means, without the character machine; `ObjEveryProofs.v` shows the
  machine does that, one phase (first word, bytes, text, location, section, label) at a time.
* C88, C89, C92, C93: read off C87 (`ObjEveryThm.v`). C90, C91: induction over the scan for "<"
  (`ObjBrackets.v`, `ObjAlone.v`).

Utilities and recognisers.

* C51-C60, C62, C63: plain list specifications (`Util*.v`).
* C61: matcher against the inductive meaning (`RegexLemmas.v`, `RegexCaps.v`).
* C65-C71: each line recogniser characterised by an explicit shape of the line, no regular expression
  in the statement (`Recog*.v`).

Command line. C64, C72-C75: fold over the arguments against membership; the whole program as a
function from arguments, standard input and files to output and exit status (`CliThm.v`).

Later properties are appended to this list as they are added to `properties.jsonl`.

## 5. What the proofs found

Properties that one would expect and that the code does not have. In each case the property in
`properties.jsonl` states what does hold, and the witness is a theorem about the faithful model.

| property | finding |
|---|---|
| C09 | objdump: with multibyte text before a reference, columns and name disagree (`objdump_multibyte_columns_refuted`) |
| C11 | objdump: addresses in [2^31, 2^32) come out negative, larger ones are an out-of-range shift: undefined behaviour |
| C14 | objdump: inside an ignored function a source line without tail is lost (`objdump_source_line_lost_refuted`) |
| C19 | objdump: the library filter keeps a library function after a user one, and the last function (two `_refuted` theorems) |
| C24 | objdump: a dead branch that a second call on the same parser does reach |
| C27 | JSON: a control character of the input makes the output invalid JSON (`json_control_characters_refuted`) |
| C28 | JSON: the text parser ignores `setReproducible` |
| C31 | JSON: the debug dump is not JSON once a number has four digits (`json_debug_grouping_refuted`) |
| C35, C36 | text: a white space line changes the next line; CRLF input differs from LF input |
| C40 | text: the library filter removes every line |
| C42 | text: used labels are missed, because `visited` survives a successful search |
| C43 | text: a table naming a function that uses the table recurses without end |
| C44 | text: the result depends on hash order and on earlier parses in the thread |
| C47 | text: with the comment filter a section name can be a dangling view |
| C53 | utils: the second tab can miss its tab stop |
| C56 | utils: the last word of a line without comment is lost |
| C59 | utils: with a trailing comment the columns of a used label are shifted |
| C78 | objdump: after the cap a further call gives filteredCount -5001 |
| C89 | objdump: of `file:line:column` the file becomes the line and the line the column (`objdump_source_column_refuted`) |
| C90 | objdump: a "<" left open makes a reference of text of the next line (`objdump_open_bracket_refuted`) |
| C91 | objdump: template names are never referred to (`objdump_template_reference_refuted`) |
| C92, C93 | objdump: instructions whose mnemonic is hexadecimal, and any two words in a hidden function, become labels |
| C94 | text: with one global function at most one label is marked, and none in later parses of the thread |
| C96 | text: a second call after lines were removed indexes past the end of the lines (`asm_second_call_refuted`) |
| C97 | text: the thread-local set keeps views into destroyed lines; parsing the same input twice in a thread reads them (`asm_parsed_twice`) |
| C98 | text: the search for used labels takes exponential time on inputs of quadratic size (`asm_search_exponential`) |
| C99 | text: the recursion of the search is as deep as chains of calls are long, so the stack is not bounded (`asm_recursion_deep`) |
| C100 | text: every ring with as many uses by code as by data that nothing global reaches makes the parser recurse without end (`asm_endless_balanced`) |
| C101 | text: white space between two quoted strings is lost by the white-space filter (`strings_run_together`); taking a comment off twice loses a further word (`comment_settles_refuted`) |
| C102 | text: a tab may expand to the mark of inline assembly, so output read again may change (`asm_shown_settles_refuted`) |
| C103 | text: with directives shown, a label followed by a directive has no location; with the filter it has (`asm_filter_moves_labels_refuted`). The filter drops a label that shares its line with .cfi_startproc (`asm_filter_drops_label_refuted`) |
| C104 | text: a label beginning with @ is dropped as a comment (`asm_at_label_dropped_refuted`) |
| C106 | objdump: after a non-ASCII character the name of a reference begins too early, e.g. `<f` for f in UTF-8, since characters are counted and bytes are cut (`objdump_locale_names_refuted`) |
| C108 | objdump: in a UTF-8 locale a reference name may start inside a character, so that the JSON is not valid UTF-8 (`objdump_utf8_refuted`) |
| C109 | with the filter for unused labels, reading on may remove lines shown before (`asm_reading_on_unused_refuted`) |
| C111 | with the white-space filter `.file 1 "/app" "ex.c"` becomes `"/app""ex.c"` and lines are located in `/app` (`asm_whitespace_file_refuted`); `# APP` becomes the mark `#APP` in the output |


## 6. Testing the theorems

`tools/mutate.py` takes a list of edits of model definitions (`seeded/mutants*.json`), applies each in
a scratch copy outside this directory, rebuilds and records which theorems no longer hold.
`seeded/LOG.jsonl` (from `tools/gen_log.py`) has one entry per mutant: definition, edit, the claim it
breaks, the theorems that failed, and those that were tightened because a mutant had survived.
A theorem is counted as failed when its proof, or one it rests on, does not compile, so
`theorems_failed` can list some whose statement would still hold; the claim named in each entry was
judged by hand. So far 193 mutants in four sets. M108 is the same program on every reachable
state; it is caught only by the equality with the source on arbitrary states. The runs in `results4.jsonl`
(M108, M153, M188, M192, M194) rebuilt only the files that the property file in question depends on, so
their `theorems_failed` is not a list over all theorems. Survivors of a first run
led to stronger statements (field `theorems_tightened`) or to new properties (C112, C113, C115, C121).

## 7. Files

`rocq/theories`: the model (`Bytes.v` to `Cli.v`), tests of the transcription (`Tests.v`), proofs, and the
statements in `Prop*.v`. `tools`: generators of `properties.jsonl` and `MANIFEST.json`, the conformance
check, the mutation runner. `seeded`: mutants, results, log.
