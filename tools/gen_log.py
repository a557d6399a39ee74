#!/usr/bin/env python3
"""Writes seeded/LOG.jsonl from the raw results of tools/mutate.py
(seeded/results*.jsonl, later runs of the same mutant after earlier ones) and the
judgements below.

theorems_failed lists every theorem of the manifest that no longer goes through
for the wrong program: its own proof, or that of a lemma it rests on, breaks.
That overstates: a broken script is not yet a false statement.  JUDGED therefore
names the theorems whose statement is false for the wrong program, by reading
(the mechanical list always contains them).  TIGHTENED: theorems added or
strengthened because of the mutant."""
import json, os, glob
HERE = os.path.join(os.path.dirname(os.path.abspath(__file__)), "..", "seeded")
JUDGED, TIGHTENED, REMARK = {}, {}, {}
def j(ids, theorems, tightened="", remark=""):
    for i in ids.split():
        JUDGED[i] = theorems.split()
        if tightened: TIGHTENED[i] = tightened.split()
        if remark: REMARK[i] = remark
j("M01", "objdump_label_at_cap")
j("M02", "objdump_cap")
j("M03", "objdump_instruction_line")
j("M04", "objdump_reference_columns")
j("M05", "objdump_label_definitions")
j("M06", "objdump_label_shown objdump_listing")
j("M07", "objdump_cr_irrelevant")
j("M08", "objdump_address_undefined")
j("M09", "objdump_address_wraps")
j("M10", "objdump_opcode_groups")
j("M11", "objdump_listing objdump_library_functions_touch_user objdump_library_filter_removes")
j("M12", "objdump_ignored_never_shown", remark="the first form of the mutant was not a valid edit; run again in the form recorded here")
j("M13 M16", "objdump_listing")
j("M14", "objdump_source_line")
j("M15", "objdump_library_functions_touch_user objdump_source_line")
j("M17", "objdump_lines_counted")
j("M18", "objdump_count_again", "objdump_count_again objdump_count_after_cap",
  "at first no statement was false for it (all were about a fresh parser); the theorems on a reused parser were added for it")
j("M19", "objdump_instruction_line")
j("M20", "objdump_lead_ignored", "objdump_lead_ignored",
  "at first no statement was false for it; objdump_lead_ignored was added for it")
j("M21", "objdump_section_line")
j("M22", "objdump_text_output_lines")
j("M23", "objdump_address_value")
j("M24", "library_paths")
j("M25", "asm_loc_in_force asm_file_lines", "asm_locations asm_loc_in_force asm_loc_ended asm_file_lines",
  "survived the first run; the theorems on locations of the text parser were added for it")
j("M31", "asm_loc_in_force", "asm_loc_in_force asm_loc_ended", "survived the first run, as M25")
j("M32", "asm_file_lines", "asm_file_lines", "survived the first run, as M25")
j("M26", "tabs_expanded")
j("M27", "comment_words_kept")
j("M28", "first_word_stripped operands_kept")
j("M29", "used_labels_columns")
j("M30", "used_labels_exact")
j("M33", "words_kept")
j("M34", "quotes_kept")
j("M35", "ignored_names")
j("M36", "objdump_label_shown")
j("M37", "objdump_source_line")
j("M38 M39", "json_escape_lossless")
j("M40 M41 M42", "json_file_shown json_document_says")
j("M43 M44", "json_compat_mode")
j("M45", "json_objdump_reproducible")
j("M46", "objdump_filtered_count")
j("M47 M48 M49", "json_document_says")
j("M50", "json_debug_says")
j("M51 M52", "command_line")
j("M53", "cli_debug_file", "cli_exit cli_debug_file cli_reads_stdin cli_reads_file cli_options cli_outcomes",
  "survived the first run; main() was modelled and the theorems on the whole program added for it")

# sets 2 and 3
j("M54", "asm_internal_names", "asm_internal_names", "no statement spoke of the names of internal labels when the mutant was written; added for it")
j("M55 M56 M57", "asm_label_location")
j("M58", "asm_line_record")
j("M59 M60 M62 M63 M64 M102 M103 M156 M157", "asm_locations")
j("M61 M65 M69 M90", "asm_line_record")
j("M66 M67 M73 M74 M83", "asm_reference_tables")
j("M68", "asm_label_table_indices")
j("M100", "asm_marks_exactly")
j("M70 M71", "asm_alias_table")
j("M72 M75 M76 M77 M80 M86 M87 M88 M89 M91 M112", "asm_stored_exactly")
j("M78 M79 M81 M82 M84 M85 M158 M159 M163", "asm_line_record")
j("M92", "asm_carriage_returns_kept")
j("M93 M94 M95 M96 M97 M98 M99 M151 M165 M166 M167 M168", "asm_marks_exactly")
j("M101", "asm_references_defined")
j("M104 M105 M106 M107 M109 M110 M171", "asm_removed_exactly asm_result_exactly")
j("M111", "asm_removed_exactly")
j("M108", "text_removal_is_its_source", "text_removal_is_its_source",
  "not caught for long: the branch on the parent label is dead code in a run (asm_no_parent_of_functions: a label line that "
  "reaches it has no parent), so the mutant is the same program there; the theorem on removeUnused alone is about every state")
j("M153", "text_directive_methods_are_their_source", "text_directive_methods_are_their_source")
j("M188", "asm_dump_says", "asm_dump_says")
j("M192", "text_marking_is_its_source")
j("M194", "text_directive_methods_are_their_source")
j("M113 M114", "asm_label_table")
j("M115", "json_text_never_reproducible")
j("M116", "label_lines")
j("M117 M180", "line_kinds")
j("M118", "global_symbols")
j("M119", "typed_symbols")
j("M120", "weak_symbols")
j("M121", "instruction_lines")
j("M122", "asm_file_lines")
j("M123", "cli_debug_file")
j("M124", "cli_reads_stdin")
j("M125 M191", "cli_exit")
j("M126", "cli_options")
j("M137", "source_methods", "source_methods objdump_is_its_source", "survived the first run; caught since the parser is compared with its interpreted source")
j("M190", "cli_outcomes")
j("M189", "command_line")
j("M127 M128 M133 M134 M136 M138 M140 M142", "objdump_listing")
j("M129 M130 M143", "objdump_reference_columns")
j("M131 M132 M135", "objdump_source_line")
j("M139", "objdump_opcode_groups")
j("M141", "objdump_cap")
j("M144", "objdump_library_functions_touch_user")
j("M145 M146", "", remark="a flag that nothing reads: the listing is the same; only scripts break")
j("M147", "objdump_address_value")
j("M148", "library_paths")
j("M149 M150", "ignored_names")
j("M152", "asm_label_table_indices")
j("M154 M155 M160 M161 M162 M164", "asm_stored_exactly")
j("M169", "", remark="changes only the set visited; the scripts about the search break")
j("M170", "", remark="changes only what the debug dump says of removed lines")
j("M172", "asm_line_count")
j("M173", "assigned_labels")
j("M174", "section_names")
j("M175", "comment_lines")
j("M176", "cuda_label_keyword")
j("M177", "user_file_names")
j("M178", "used_labels_exact")
j("M179 M184", "quotes_kept")
j("M181", "stab_lines")
j("M182", "block_marks asm_loc_ended")
j("M183", "", remark="no statement spoke of the moved label lines; only scripts about validity break")
j("M185", "dbg_lines")
j("M186 M187", "json_debug_says")

def main():
    runs = {}
    for f in sorted(glob.glob(os.path.join(HERE, "results*.jsonl"))):
        for line in open(f):
            r = json.loads(line)
            runs.setdefault(r["id"], []).append(r)
    ids = sorted(runs, key=lambda i: int(i[1:]))
    with open(os.path.join(HERE, "LOG.jsonl"), "w") as out:
        for i in ids:
            ok = [r for r in runs[i] if "error" not in r]
            r = ok[-1]
            e = {"id": i, "definition": r["definition"], "edit": r["edit"], "claim_broken": r["claim_broken"],
                 "caught": r["caught"], "caught_first_run": ok[0]["caught"],
                 "theorems_failed": list(dict.fromkeys(r["theorems_failed"])),
                 "theorems_false_by_reading": JUDGED.get(i, []),
                 "theorems_tightened": TIGHTENED.get(i, [])}
            if i in REMARK: e["remark"] = REMARK[i]
            out.write(json.dumps(e) + "\n")
            bad = [t for t in e["theorems_false_by_reading"] if t not in e["theorems_failed"]]
            if bad: print(i, "judged but did not fail:", bad)
            if i not in JUDGED: print(i, "no judgement", e["caught"])
            if not e["caught"]: print(i, "not caught")
    print(len(ids))
main()
