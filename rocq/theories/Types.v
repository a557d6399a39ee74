(** Data types: src/types/filter.hpp and src/types/line.hpp. *)
From Verif Require Export Bytes.

(** src/types/filter.hpp:6-20.  All fields default to false. *)
Record Filter := mkFilter {
  f_binary : bool;
  f_unused_labels : bool;
  f_library_functions : bool;
  f_directives : bool;
  f_comment_only : bool;
  f_whitespace : bool;
  f_plt : bool;
  f_dont_mask_filenames : bool;
  f_compatmode : bool;
  f_code_only : bool }.

Definition no_filter : Filter := mkFilter false false false false false false false false false false.

(** src/types/line.hpp:13-17 asm_stabn *)
Record asm_stabn := mkStabn { sb_type : Z; sb_line : Z }.

(** src/types/line.hpp:19-23 asm_range; both fields are uint16_t: every write
    in the model goes through [u16]. *)
Record asm_range := mkRange { r_start : Z; r_end : Z }.
Definition range0 : asm_range := mkRange 0 0.

(** src/types/line.hpp:34-38 asm_label *)
Record asm_label := mkLabel { lb_name : str; lb_range : asm_range }.
Definition label0 : asm_label := mkLabel [] range0.

(** src/types/line.hpp:46-54 asm_source; the int32_t fields hold values the code
    obtained from int-typed expressions, so no wrap is applied here. *)
Record asm_source := mkSource {
  s_file : str; s_file_idx : Z; s_line : Z; s_column : Z; s_is_usercode : bool; s_inside_proc : bool }.
Definition source0 : asm_source := mkSource [] 0 0 0 false false.

(** Who owns the characters a [std::string_view] points at.  Ghost data: it is
    never printed or compared, and only used to state lifetime properties.
    [ONull]: default-constructed view; [OLine id]: the text of the asm_line_v
    object number [id]; [OFile i]: the string stored in files[i]; [OHost]: an
    object that outlives the view (asm_line of the objdump parser). *)
Inductive owner := ONull | OLine (id : N) | OFile (idx : Z) | OHost.

Record view := mkView { v_own : owner; v_str : str }.
Definition view0 : view := mkView ONull [].

(** src/types/line.hpp:40-44 asm_label_v *)
Record asm_label_v := mkLabelV { lbv_name : view; lbv_range : asm_range }.

(** src/types/line.hpp:56-65 asm_source_v *)
Record asm_source_v := mkSourceV {
  sv_file : view; sv_file_idx : Z; sv_line : Z; sv_column : Z;
  sv_is_end : bool; sv_is_usercode : bool; sv_inside_proc : bool }.
Definition source_v0 : asm_source_v := mkSourceV view0 0 0 0 false false false.

Record asm_line := mkLine {
  l_text : str;
  l_section : str;
  l_labels : list asm_label;
  l_opcodes : list str;
  l_closest_parent_label : str;
  l_is_label : bool;
  l_is_internal_label : bool;
  l_label : str;
  l_source : asm_source;
  l_address : option Z;
  l_is_used : bool;
  l_is_used_through_alias : bool;
  l_is_used_data_through_alias : bool;
  l_is_data : bool;
  l_is_inline_asm : bool;
  l_has_opcode : bool;
  l_is_directive : bool;
  l_is_assignment : bool
}.
Definition set_l_text (v : str) (s : asm_line) : asm_line :=
  mkLine v (l_section s) (l_labels s) (l_opcodes s) (l_closest_parent_label s) (l_is_label s) (l_is_internal_label s) (l_label s) (l_source s) (l_address s) (l_is_used s) (l_is_used_through_alias s) (l_is_used_data_through_alias s) (l_is_data s) (l_is_inline_asm s) (l_has_opcode s) (l_is_directive s) (l_is_assignment s).
Definition set_l_section (v : str) (s : asm_line) : asm_line :=
  mkLine (l_text s) v (l_labels s) (l_opcodes s) (l_closest_parent_label s) (l_is_label s) (l_is_internal_label s) (l_label s) (l_source s) (l_address s) (l_is_used s) (l_is_used_through_alias s) (l_is_used_data_through_alias s) (l_is_data s) (l_is_inline_asm s) (l_has_opcode s) (l_is_directive s) (l_is_assignment s).
Definition set_l_labels (v : list asm_label) (s : asm_line) : asm_line :=
  mkLine (l_text s) (l_section s) v (l_opcodes s) (l_closest_parent_label s) (l_is_label s) (l_is_internal_label s) (l_label s) (l_source s) (l_address s) (l_is_used s) (l_is_used_through_alias s) (l_is_used_data_through_alias s) (l_is_data s) (l_is_inline_asm s) (l_has_opcode s) (l_is_directive s) (l_is_assignment s).
Definition set_l_opcodes (v : list str) (s : asm_line) : asm_line :=
  mkLine (l_text s) (l_section s) (l_labels s) v (l_closest_parent_label s) (l_is_label s) (l_is_internal_label s) (l_label s) (l_source s) (l_address s) (l_is_used s) (l_is_used_through_alias s) (l_is_used_data_through_alias s) (l_is_data s) (l_is_inline_asm s) (l_has_opcode s) (l_is_directive s) (l_is_assignment s).
Definition set_l_closest_parent_label (v : str) (s : asm_line) : asm_line :=
  mkLine (l_text s) (l_section s) (l_labels s) (l_opcodes s) v (l_is_label s) (l_is_internal_label s) (l_label s) (l_source s) (l_address s) (l_is_used s) (l_is_used_through_alias s) (l_is_used_data_through_alias s) (l_is_data s) (l_is_inline_asm s) (l_has_opcode s) (l_is_directive s) (l_is_assignment s).
Definition set_l_is_label (v : bool) (s : asm_line) : asm_line :=
  mkLine (l_text s) (l_section s) (l_labels s) (l_opcodes s) (l_closest_parent_label s) v (l_is_internal_label s) (l_label s) (l_source s) (l_address s) (l_is_used s) (l_is_used_through_alias s) (l_is_used_data_through_alias s) (l_is_data s) (l_is_inline_asm s) (l_has_opcode s) (l_is_directive s) (l_is_assignment s).
Definition set_l_is_internal_label (v : bool) (s : asm_line) : asm_line :=
  mkLine (l_text s) (l_section s) (l_labels s) (l_opcodes s) (l_closest_parent_label s) (l_is_label s) v (l_label s) (l_source s) (l_address s) (l_is_used s) (l_is_used_through_alias s) (l_is_used_data_through_alias s) (l_is_data s) (l_is_inline_asm s) (l_has_opcode s) (l_is_directive s) (l_is_assignment s).
Definition set_l_label (v : str) (s : asm_line) : asm_line :=
  mkLine (l_text s) (l_section s) (l_labels s) (l_opcodes s) (l_closest_parent_label s) (l_is_label s) (l_is_internal_label s) v (l_source s) (l_address s) (l_is_used s) (l_is_used_through_alias s) (l_is_used_data_through_alias s) (l_is_data s) (l_is_inline_asm s) (l_has_opcode s) (l_is_directive s) (l_is_assignment s).
Definition set_l_source (v : asm_source) (s : asm_line) : asm_line :=
  mkLine (l_text s) (l_section s) (l_labels s) (l_opcodes s) (l_closest_parent_label s) (l_is_label s) (l_is_internal_label s) (l_label s) v (l_address s) (l_is_used s) (l_is_used_through_alias s) (l_is_used_data_through_alias s) (l_is_data s) (l_is_inline_asm s) (l_has_opcode s) (l_is_directive s) (l_is_assignment s).
Definition set_l_address (v : option Z) (s : asm_line) : asm_line :=
  mkLine (l_text s) (l_section s) (l_labels s) (l_opcodes s) (l_closest_parent_label s) (l_is_label s) (l_is_internal_label s) (l_label s) (l_source s) v (l_is_used s) (l_is_used_through_alias s) (l_is_used_data_through_alias s) (l_is_data s) (l_is_inline_asm s) (l_has_opcode s) (l_is_directive s) (l_is_assignment s).
Definition set_l_is_used (v : bool) (s : asm_line) : asm_line :=
  mkLine (l_text s) (l_section s) (l_labels s) (l_opcodes s) (l_closest_parent_label s) (l_is_label s) (l_is_internal_label s) (l_label s) (l_source s) (l_address s) v (l_is_used_through_alias s) (l_is_used_data_through_alias s) (l_is_data s) (l_is_inline_asm s) (l_has_opcode s) (l_is_directive s) (l_is_assignment s).
Definition set_l_is_used_through_alias (v : bool) (s : asm_line) : asm_line :=
  mkLine (l_text s) (l_section s) (l_labels s) (l_opcodes s) (l_closest_parent_label s) (l_is_label s) (l_is_internal_label s) (l_label s) (l_source s) (l_address s) (l_is_used s) v (l_is_used_data_through_alias s) (l_is_data s) (l_is_inline_asm s) (l_has_opcode s) (l_is_directive s) (l_is_assignment s).
Definition set_l_is_used_data_through_alias (v : bool) (s : asm_line) : asm_line :=
  mkLine (l_text s) (l_section s) (l_labels s) (l_opcodes s) (l_closest_parent_label s) (l_is_label s) (l_is_internal_label s) (l_label s) (l_source s) (l_address s) (l_is_used s) (l_is_used_through_alias s) v (l_is_data s) (l_is_inline_asm s) (l_has_opcode s) (l_is_directive s) (l_is_assignment s).
Definition set_l_is_data (v : bool) (s : asm_line) : asm_line :=
  mkLine (l_text s) (l_section s) (l_labels s) (l_opcodes s) (l_closest_parent_label s) (l_is_label s) (l_is_internal_label s) (l_label s) (l_source s) (l_address s) (l_is_used s) (l_is_used_through_alias s) (l_is_used_data_through_alias s) v (l_is_inline_asm s) (l_has_opcode s) (l_is_directive s) (l_is_assignment s).
Definition set_l_is_inline_asm (v : bool) (s : asm_line) : asm_line :=
  mkLine (l_text s) (l_section s) (l_labels s) (l_opcodes s) (l_closest_parent_label s) (l_is_label s) (l_is_internal_label s) (l_label s) (l_source s) (l_address s) (l_is_used s) (l_is_used_through_alias s) (l_is_used_data_through_alias s) (l_is_data s) v (l_has_opcode s) (l_is_directive s) (l_is_assignment s).
Definition set_l_has_opcode (v : bool) (s : asm_line) : asm_line :=
  mkLine (l_text s) (l_section s) (l_labels s) (l_opcodes s) (l_closest_parent_label s) (l_is_label s) (l_is_internal_label s) (l_label s) (l_source s) (l_address s) (l_is_used s) (l_is_used_through_alias s) (l_is_used_data_through_alias s) (l_is_data s) (l_is_inline_asm s) v (l_is_directive s) (l_is_assignment s).
Definition set_l_is_directive (v : bool) (s : asm_line) : asm_line :=
  mkLine (l_text s) (l_section s) (l_labels s) (l_opcodes s) (l_closest_parent_label s) (l_is_label s) (l_is_internal_label s) (l_label s) (l_source s) (l_address s) (l_is_used s) (l_is_used_through_alias s) (l_is_used_data_through_alias s) (l_is_data s) (l_is_inline_asm s) (l_has_opcode s) v (l_is_assignment s).
Definition set_l_is_assignment (v : bool) (s : asm_line) : asm_line :=
  mkLine (l_text s) (l_section s) (l_labels s) (l_opcodes s) (l_closest_parent_label s) (l_is_label s) (l_is_internal_label s) (l_label s) (l_source s) (l_address s) (l_is_used s) (l_is_used_through_alias s) (l_is_used_data_through_alias s) (l_is_data s) (l_is_inline_asm s) (l_has_opcode s) (l_is_directive s) v.

(** asm_line{} (value-initialised: src/types/line.hpp:95-115) *)
Definition line0 : asm_line :=
  mkLine [] [] [] [] [] false false [] source0 None false false false false false false false false.

(** src/types/line.hpp:117-139 asm_line_v.  [lv_id] is ghost: the identity of
    the heap object. *)
Record asm_line_v := mkLineV {
  lv_id : N;
  lv_text : str;
  lv_section : view;
  lv_labels : list asm_label_v;
  lv_opcodes : list str;
  lv_closest_parent_label : str;
  lv_is_label : bool;
  lv_is_internal_label : bool;
  lv_label : view;
  lv_source : asm_source_v;
  lv_address : option Z;
  lv_is_used : bool;
  lv_is_used_through_alias : bool;
  lv_is_used_data_through_alias : bool;
  lv_is_data : bool;
  lv_is_inline_asm : bool;
  lv_has_opcode : bool;
  lv_is_directive : bool;
  lv_is_assignment : bool
}.
Definition set_lv_id (v : N) (s : asm_line_v) : asm_line_v :=
  mkLineV v (lv_text s) (lv_section s) (lv_labels s) (lv_opcodes s) (lv_closest_parent_label s) (lv_is_label s) (lv_is_internal_label s) (lv_label s) (lv_source s) (lv_address s) (lv_is_used s) (lv_is_used_through_alias s) (lv_is_used_data_through_alias s) (lv_is_data s) (lv_is_inline_asm s) (lv_has_opcode s) (lv_is_directive s) (lv_is_assignment s).
Definition set_lv_text (v : str) (s : asm_line_v) : asm_line_v :=
  mkLineV (lv_id s) v (lv_section s) (lv_labels s) (lv_opcodes s) (lv_closest_parent_label s) (lv_is_label s) (lv_is_internal_label s) (lv_label s) (lv_source s) (lv_address s) (lv_is_used s) (lv_is_used_through_alias s) (lv_is_used_data_through_alias s) (lv_is_data s) (lv_is_inline_asm s) (lv_has_opcode s) (lv_is_directive s) (lv_is_assignment s).
Definition set_lv_section (v : view) (s : asm_line_v) : asm_line_v :=
  mkLineV (lv_id s) (lv_text s) v (lv_labels s) (lv_opcodes s) (lv_closest_parent_label s) (lv_is_label s) (lv_is_internal_label s) (lv_label s) (lv_source s) (lv_address s) (lv_is_used s) (lv_is_used_through_alias s) (lv_is_used_data_through_alias s) (lv_is_data s) (lv_is_inline_asm s) (lv_has_opcode s) (lv_is_directive s) (lv_is_assignment s).
Definition set_lv_labels (v : list asm_label_v) (s : asm_line_v) : asm_line_v :=
  mkLineV (lv_id s) (lv_text s) (lv_section s) v (lv_opcodes s) (lv_closest_parent_label s) (lv_is_label s) (lv_is_internal_label s) (lv_label s) (lv_source s) (lv_address s) (lv_is_used s) (lv_is_used_through_alias s) (lv_is_used_data_through_alias s) (lv_is_data s) (lv_is_inline_asm s) (lv_has_opcode s) (lv_is_directive s) (lv_is_assignment s).
Definition set_lv_opcodes (v : list str) (s : asm_line_v) : asm_line_v :=
  mkLineV (lv_id s) (lv_text s) (lv_section s) (lv_labels s) v (lv_closest_parent_label s) (lv_is_label s) (lv_is_internal_label s) (lv_label s) (lv_source s) (lv_address s) (lv_is_used s) (lv_is_used_through_alias s) (lv_is_used_data_through_alias s) (lv_is_data s) (lv_is_inline_asm s) (lv_has_opcode s) (lv_is_directive s) (lv_is_assignment s).
Definition set_lv_closest_parent_label (v : str) (s : asm_line_v) : asm_line_v :=
  mkLineV (lv_id s) (lv_text s) (lv_section s) (lv_labels s) (lv_opcodes s) v (lv_is_label s) (lv_is_internal_label s) (lv_label s) (lv_source s) (lv_address s) (lv_is_used s) (lv_is_used_through_alias s) (lv_is_used_data_through_alias s) (lv_is_data s) (lv_is_inline_asm s) (lv_has_opcode s) (lv_is_directive s) (lv_is_assignment s).
Definition set_lv_is_label (v : bool) (s : asm_line_v) : asm_line_v :=
  mkLineV (lv_id s) (lv_text s) (lv_section s) (lv_labels s) (lv_opcodes s) (lv_closest_parent_label s) v (lv_is_internal_label s) (lv_label s) (lv_source s) (lv_address s) (lv_is_used s) (lv_is_used_through_alias s) (lv_is_used_data_through_alias s) (lv_is_data s) (lv_is_inline_asm s) (lv_has_opcode s) (lv_is_directive s) (lv_is_assignment s).
Definition set_lv_is_internal_label (v : bool) (s : asm_line_v) : asm_line_v :=
  mkLineV (lv_id s) (lv_text s) (lv_section s) (lv_labels s) (lv_opcodes s) (lv_closest_parent_label s) (lv_is_label s) v (lv_label s) (lv_source s) (lv_address s) (lv_is_used s) (lv_is_used_through_alias s) (lv_is_used_data_through_alias s) (lv_is_data s) (lv_is_inline_asm s) (lv_has_opcode s) (lv_is_directive s) (lv_is_assignment s).
Definition set_lv_label (v : view) (s : asm_line_v) : asm_line_v :=
  mkLineV (lv_id s) (lv_text s) (lv_section s) (lv_labels s) (lv_opcodes s) (lv_closest_parent_label s) (lv_is_label s) (lv_is_internal_label s) v (lv_source s) (lv_address s) (lv_is_used s) (lv_is_used_through_alias s) (lv_is_used_data_through_alias s) (lv_is_data s) (lv_is_inline_asm s) (lv_has_opcode s) (lv_is_directive s) (lv_is_assignment s).
Definition set_lv_source (v : asm_source_v) (s : asm_line_v) : asm_line_v :=
  mkLineV (lv_id s) (lv_text s) (lv_section s) (lv_labels s) (lv_opcodes s) (lv_closest_parent_label s) (lv_is_label s) (lv_is_internal_label s) (lv_label s) v (lv_address s) (lv_is_used s) (lv_is_used_through_alias s) (lv_is_used_data_through_alias s) (lv_is_data s) (lv_is_inline_asm s) (lv_has_opcode s) (lv_is_directive s) (lv_is_assignment s).
Definition set_lv_address (v : option Z) (s : asm_line_v) : asm_line_v :=
  mkLineV (lv_id s) (lv_text s) (lv_section s) (lv_labels s) (lv_opcodes s) (lv_closest_parent_label s) (lv_is_label s) (lv_is_internal_label s) (lv_label s) (lv_source s) v (lv_is_used s) (lv_is_used_through_alias s) (lv_is_used_data_through_alias s) (lv_is_data s) (lv_is_inline_asm s) (lv_has_opcode s) (lv_is_directive s) (lv_is_assignment s).
Definition set_lv_is_used (v : bool) (s : asm_line_v) : asm_line_v :=
  mkLineV (lv_id s) (lv_text s) (lv_section s) (lv_labels s) (lv_opcodes s) (lv_closest_parent_label s) (lv_is_label s) (lv_is_internal_label s) (lv_label s) (lv_source s) (lv_address s) v (lv_is_used_through_alias s) (lv_is_used_data_through_alias s) (lv_is_data s) (lv_is_inline_asm s) (lv_has_opcode s) (lv_is_directive s) (lv_is_assignment s).
Definition set_lv_is_used_through_alias (v : bool) (s : asm_line_v) : asm_line_v :=
  mkLineV (lv_id s) (lv_text s) (lv_section s) (lv_labels s) (lv_opcodes s) (lv_closest_parent_label s) (lv_is_label s) (lv_is_internal_label s) (lv_label s) (lv_source s) (lv_address s) (lv_is_used s) v (lv_is_used_data_through_alias s) (lv_is_data s) (lv_is_inline_asm s) (lv_has_opcode s) (lv_is_directive s) (lv_is_assignment s).
Definition set_lv_is_used_data_through_alias (v : bool) (s : asm_line_v) : asm_line_v :=
  mkLineV (lv_id s) (lv_text s) (lv_section s) (lv_labels s) (lv_opcodes s) (lv_closest_parent_label s) (lv_is_label s) (lv_is_internal_label s) (lv_label s) (lv_source s) (lv_address s) (lv_is_used s) (lv_is_used_through_alias s) v (lv_is_data s) (lv_is_inline_asm s) (lv_has_opcode s) (lv_is_directive s) (lv_is_assignment s).
Definition set_lv_is_data (v : bool) (s : asm_line_v) : asm_line_v :=
  mkLineV (lv_id s) (lv_text s) (lv_section s) (lv_labels s) (lv_opcodes s) (lv_closest_parent_label s) (lv_is_label s) (lv_is_internal_label s) (lv_label s) (lv_source s) (lv_address s) (lv_is_used s) (lv_is_used_through_alias s) (lv_is_used_data_through_alias s) v (lv_is_inline_asm s) (lv_has_opcode s) (lv_is_directive s) (lv_is_assignment s).
Definition set_lv_is_inline_asm (v : bool) (s : asm_line_v) : asm_line_v :=
  mkLineV (lv_id s) (lv_text s) (lv_section s) (lv_labels s) (lv_opcodes s) (lv_closest_parent_label s) (lv_is_label s) (lv_is_internal_label s) (lv_label s) (lv_source s) (lv_address s) (lv_is_used s) (lv_is_used_through_alias s) (lv_is_used_data_through_alias s) (lv_is_data s) v (lv_has_opcode s) (lv_is_directive s) (lv_is_assignment s).
Definition set_lv_has_opcode (v : bool) (s : asm_line_v) : asm_line_v :=
  mkLineV (lv_id s) (lv_text s) (lv_section s) (lv_labels s) (lv_opcodes s) (lv_closest_parent_label s) (lv_is_label s) (lv_is_internal_label s) (lv_label s) (lv_source s) (lv_address s) (lv_is_used s) (lv_is_used_through_alias s) (lv_is_used_data_through_alias s) (lv_is_data s) (lv_is_inline_asm s) v (lv_is_directive s) (lv_is_assignment s).
Definition set_lv_is_directive (v : bool) (s : asm_line_v) : asm_line_v :=
  mkLineV (lv_id s) (lv_text s) (lv_section s) (lv_labels s) (lv_opcodes s) (lv_closest_parent_label s) (lv_is_label s) (lv_is_internal_label s) (lv_label s) (lv_source s) (lv_address s) (lv_is_used s) (lv_is_used_through_alias s) (lv_is_used_data_through_alias s) (lv_is_data s) (lv_is_inline_asm s) (lv_has_opcode s) v (lv_is_assignment s).
Definition set_lv_is_assignment (v : bool) (s : asm_line_v) : asm_line_v :=
  mkLineV (lv_id s) (lv_text s) (lv_section s) (lv_labels s) (lv_opcodes s) (lv_closest_parent_label s) (lv_is_label s) (lv_is_internal_label s) (lv_label s) (lv_source s) (lv_address s) (lv_is_used s) (lv_is_used_through_alias s) (lv_is_used_data_through_alias s) (lv_is_data s) (lv_is_inline_asm s) (lv_has_opcode s) (lv_is_directive s) v.

(** std::make_unique<asm_line_v>() (value-initialised) *)
Definition line_v0 (id : N) : asm_line_v :=
  mkLineV id [] view0 [] [] [] false false view0 source_v0 None false false false false false false false false.

(** asm_line_v(const asm_line &): src/types/line.hpp:140-172.  The data-alias
    flag is copied from is_used_through_alias (line 166), as in the source. *)
Definition line_v_of_line (l : asm_line) : asm_line_v :=
  mkLineV 0%N (l_text l) (mkView OHost (l_section l))
    (map (fun lb => mkLabelV (mkView OHost (lb_name lb)) (lb_range lb)) (l_labels l))
    (l_opcodes l) (l_closest_parent_label l) (l_is_label l) (l_is_internal_label l)
    (mkView OHost (l_label l))
    (mkSourceV (mkView OHost (s_file (l_source l))) (s_file_idx (l_source l)) (s_line (l_source l))
       (s_column (l_source l)) false (s_is_usercode (l_source l)) (s_inside_proc (l_source l)))
    (l_address l) (l_is_used l) (l_is_used_through_alias l) (l_is_used_through_alias l)
    (l_is_data l) (l_is_inline_asm l) (l_has_opcode l) (l_is_directive l) (l_is_assignment l).
