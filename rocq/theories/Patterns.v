(** Written by tools/gen_patterns.py: name, kind and text of every regular
    expression of src/utils/regexes.hpp, and of the one in
    src/utils/regexwrappers.cpp, copied character by character. *)
From Coq Require Import String List.
Import ListNotations.
Local Open Scope string_scope.

(** ctre::match, ctre::search, ctre::range *)
Inductive kind := k_match | k_search | k_range.
Definition patterns : list (string * kind * string) :=
  [
    ("labelDef", k_search, "^(?:.proc\h+)?([\w$.@]+):") (* regexes.hpp:11 *);
    ("labelAssignmentDef", k_search, "^([\.$\w][\w\d]*)\h+=") (* regexes.hpp:12 *);
    ("labelFindNonMips", k_match, "[.A-Z_a-z][\w$.]*") (* regexes.hpp:13 *);
    ("labelFindMips", k_match, "[$.A-Z_a-z][\w$.]*") (* regexes.hpp:14 *);
    ("mipsLabelDefinition", k_match, "^\$[\w$.]+:") (* regexes.hpp:15 *);
    ("dataDefn", k_search, "^\h*\.(string|asciz|ascii|base64|[1248]?byte|short|half|[dhx]?word|long|quad|octa|value|zero)") (* regexes.hpp:18 *);
    ("fileFind", k_match, "^\h*\.file\h+(\d+)\h+""([^""]+)""(\h+""([^""]+)"")?.*") (* regexes.hpp:19 *);
    ("hasOpcodeRe", k_search, "^\h*[A-Za-z]") (* regexes.hpp:20 *);
    ("hasNvccOpcodeRe", k_match, "^\h*[@A-Za-z\|]") (* regexes.hpp:22 *);
    ("definesFunction", k_match, "^\h*\.(type.*,\h*[#%@]function|proc\h+[.A-Z_a-z][\w$.]*:.*)$") (* regexes.hpp:23 *);
    ("definesFunctionOrObject", k_search, "\.type\h*([a-z_A-Z0-9]*),\h*@?(function|object|proc)") (* regexes.hpp:24 *);
    ("definesGlobal", k_search, "^\h*\.(?:globa?l|GLB|export)\h*([.A-Z_a-z][\w$.]*)") (* regexes.hpp:25 *);
    ("definesWeak", k_search, "^\h*\.(?:weakext|weak)\h*([.A-Z_a-z][\w$.]*)") (* regexes.hpp:26 *);
    ("assignmentDef", k_match, "^\h*([$.A-Z_a-z][\w$.]+)\h*=") (* regexes.hpp:28 *);
    ("directive", k_match, "^\h*\..*$") (* regexes.hpp:29 *);
    ("startAppBlock", k_match, "\h*#APP.*") (* regexes.hpp:30 *);
    ("endAppBlock", k_match, "\h*#NO_APP.*") (* regexes.hpp:31 *);
    ("startAsmNesting", k_match, "\h*# Begin ASM.*") (* regexes.hpp:32 *);
    ("endAsmNesting", k_match, "\h*# End ASM.*") (* regexes.hpp:33 *);
    ("cudaBeginDef", k_search, "\.(entry|func)\h+(?:\([^)]*\)\h*)?([$.A-Z_a-z][\w$.]*)\($") (* regexes.hpp:34 *);
    ("cudaEndDef", k_match, "^\h*\)\h*$") (* regexes.hpp:35 *);
    ("commentRe", k_search, "[#;]") (* regexes.hpp:40 *);
    ("instOpcodeRe", k_search, "(\.inst\.?\w?)\h*(.*)") (* regexes.hpp:41 *);
    ("blockCommentStart", k_search, "^\h*/\*") (* regexes.hpp:42 *);
    ("blockCommentStop", k_search, "\*/") (* regexes.hpp:43 *);
    ("commentOnly", k_match, "^\h*(((#|@|//).*)|(/\*.*\*/)|(;\s*)|(;[^;].*)|(;;.*\S.*))$") (* regexes.hpp:44 *);
    ("commentOnlyNvcc", k_match, "^\h*(((#|;|//).*)|(/\*.*\*/))$") (* regexes.hpp:45 *);
    ("sourceTag", k_match, "^\h*\.loc\h+(\d+)\h+(\d+).*") (* regexes.hpp:46 *);
    ("sourceTagWithColumn", k_match, "^\h*\.loc\h+(\d+)\h+(\d+)\h+(\d+).*") (* regexes.hpp:47 *);
    ("source6502Dbg", k_match, "^\h*\.dbg\h+line,\h*""([^""]+)"",\h*(\d+)") (* regexes.hpp:48 *);
    ("source6502DbgEnd", k_search, "^\h*\.dbg\h+line") (* regexes.hpp:49 *);
    ("sourceStab", k_search, "^\h*\.stabn\h+(\d+),0,(\d+),.*") (* regexes.hpp:50 *);
    ("sourceD2Tag", k_match, "^\h*\.d2line\h+(\d+),?\h*(\d*).*") (* regexes.hpp:51 *);
    ("sourceD2File", k_match, "^\h*\.d2file\h+""(.*)""") (* regexes.hpp:52 *);
    ("stdInLooking", k_search, "<stdin>|^-$|example\.[^/]+$|<source>") (* regexes.hpp:53 *);
    ("startProcBlock", k_search, "\.cfi_startproc") (* regexes.hpp:54 *);
    ("endBlock", k_search, "\.(cfi_endproc|data|text|section)") (* regexes.hpp:55 *);
    ("endProcBlock", k_search, "\.cfi_endproc") (* regexes.hpp:56 *);
    ("sectionDef", k_search, "\.(data|text|section)\h*""?([.a-zA-Z0-9\-]*)""?") (* regexes.hpp:58 *);
    ("findQuotes", k_search, "(.*?)(""(?:[^""\\]|\\.)*"")(.*)") (* regexes.hpp:60 *);
    ("binaryIgnoreFunction", k_search, "^(__.*|_(init|start|fini)|(de)?register_tm_clones|call_gmon_start|frame_dummy|\.plt.*|_dl_relocate_static_pie)$") (* regexes.hpp:63 *);
    ("pltFunction", k_search, "^(.*@plt[\-xa-zA-Z0-9]*)$") (* regexes.hpp:65 *);
    ("usedLabels", k_range, "([$%]?)([.@A-Z_a-z][.\dA-Z_a-z]*)") (* regexwrappers.cpp:223 *)
  ].
