(** The assembly text parser: src/assembly/parser.cpp.  [tstate] is the parser
    object: the fields of AssemblyTextParserState (src/assembly/parser.hpp:16-43;
    currentLabelReference is never used and left out) followed by the mutable
    members (parser.hpp:51-62).  [t_next_id] is ghost: the number of asm_line_v
    objects created so far.  unordered_map / unordered_set are lists in insertion
    order, keyed by the contents of the view; as in C++, assigning to an existing
    key keeps the old key object.  currentLine is None after it was moved from. *)
From Verif Require Export Utils Json.

Record tstate := mkT {
  t_stopParsing : bool;
  t_hasProcMarkers : bool;
  t_hasStartedCommentBlock : bool;
  t_mayRemovePreviousLabel : bool;
  t_keepInlineCode : bool;
  t_lastOwnSource : asm_source_v;
  t_inNvccDef : bool;
  t_inNvccCode : bool;
  t_inCustomAssembly : Z;
  t_currentSourceRef : asm_source_v;
  t_previousLabel : view;
  t_previousParentLabel : view;
  t_previousLabelOnSameAddress : view;
  t_text : str;
  t_currentFilename : view;
  t_currentSection : view;
  t_currentSourceFile : view;
  t_currentLine : option asm_line_v;
  t_filteredlines : list asm_line_v;
  t_files : list (Z * str);
  t_lines : list asm_line_v;
  t_labels_defined : list (view * Z);
  t_usercode_labels : list view;
  t_used_labels : list (view * list view);
  t_data_used_labels : list (view * list view);
  t_weakly_used_labels : list (view * list view);
  t_aliased_labels : list (view * view);
  t_total_lines : Z;
  t_next_id : N
}.
Definition set_t_stopParsing (v : bool) (s : tstate) : tstate :=
  mkT v (t_hasProcMarkers s) (t_hasStartedCommentBlock s) (t_mayRemovePreviousLabel s) (t_keepInlineCode s) (t_lastOwnSource s) (t_inNvccDef s) (t_inNvccCode s) (t_inCustomAssembly s) (t_currentSourceRef s) (t_previousLabel s) (t_previousParentLabel s) (t_previousLabelOnSameAddress s) (t_text s) (t_currentFilename s) (t_currentSection s) (t_currentSourceFile s) (t_currentLine s) (t_filteredlines s) (t_files s) (t_lines s) (t_labels_defined s) (t_usercode_labels s) (t_used_labels s) (t_data_used_labels s) (t_weakly_used_labels s) (t_aliased_labels s) (t_total_lines s) (t_next_id s).
Definition set_t_hasProcMarkers (v : bool) (s : tstate) : tstate :=
  mkT (t_stopParsing s) v (t_hasStartedCommentBlock s) (t_mayRemovePreviousLabel s) (t_keepInlineCode s) (t_lastOwnSource s) (t_inNvccDef s) (t_inNvccCode s) (t_inCustomAssembly s) (t_currentSourceRef s) (t_previousLabel s) (t_previousParentLabel s) (t_previousLabelOnSameAddress s) (t_text s) (t_currentFilename s) (t_currentSection s) (t_currentSourceFile s) (t_currentLine s) (t_filteredlines s) (t_files s) (t_lines s) (t_labels_defined s) (t_usercode_labels s) (t_used_labels s) (t_data_used_labels s) (t_weakly_used_labels s) (t_aliased_labels s) (t_total_lines s) (t_next_id s).
Definition set_t_hasStartedCommentBlock (v : bool) (s : tstate) : tstate :=
  mkT (t_stopParsing s) (t_hasProcMarkers s) v (t_mayRemovePreviousLabel s) (t_keepInlineCode s) (t_lastOwnSource s) (t_inNvccDef s) (t_inNvccCode s) (t_inCustomAssembly s) (t_currentSourceRef s) (t_previousLabel s) (t_previousParentLabel s) (t_previousLabelOnSameAddress s) (t_text s) (t_currentFilename s) (t_currentSection s) (t_currentSourceFile s) (t_currentLine s) (t_filteredlines s) (t_files s) (t_lines s) (t_labels_defined s) (t_usercode_labels s) (t_used_labels s) (t_data_used_labels s) (t_weakly_used_labels s) (t_aliased_labels s) (t_total_lines s) (t_next_id s).
Definition set_t_mayRemovePreviousLabel (v : bool) (s : tstate) : tstate :=
  mkT (t_stopParsing s) (t_hasProcMarkers s) (t_hasStartedCommentBlock s) v (t_keepInlineCode s) (t_lastOwnSource s) (t_inNvccDef s) (t_inNvccCode s) (t_inCustomAssembly s) (t_currentSourceRef s) (t_previousLabel s) (t_previousParentLabel s) (t_previousLabelOnSameAddress s) (t_text s) (t_currentFilename s) (t_currentSection s) (t_currentSourceFile s) (t_currentLine s) (t_filteredlines s) (t_files s) (t_lines s) (t_labels_defined s) (t_usercode_labels s) (t_used_labels s) (t_data_used_labels s) (t_weakly_used_labels s) (t_aliased_labels s) (t_total_lines s) (t_next_id s).
Definition set_t_keepInlineCode (v : bool) (s : tstate) : tstate :=
  mkT (t_stopParsing s) (t_hasProcMarkers s) (t_hasStartedCommentBlock s) (t_mayRemovePreviousLabel s) v (t_lastOwnSource s) (t_inNvccDef s) (t_inNvccCode s) (t_inCustomAssembly s) (t_currentSourceRef s) (t_previousLabel s) (t_previousParentLabel s) (t_previousLabelOnSameAddress s) (t_text s) (t_currentFilename s) (t_currentSection s) (t_currentSourceFile s) (t_currentLine s) (t_filteredlines s) (t_files s) (t_lines s) (t_labels_defined s) (t_usercode_labels s) (t_used_labels s) (t_data_used_labels s) (t_weakly_used_labels s) (t_aliased_labels s) (t_total_lines s) (t_next_id s).
Definition set_t_lastOwnSource (v : asm_source_v) (s : tstate) : tstate :=
  mkT (t_stopParsing s) (t_hasProcMarkers s) (t_hasStartedCommentBlock s) (t_mayRemovePreviousLabel s) (t_keepInlineCode s) v (t_inNvccDef s) (t_inNvccCode s) (t_inCustomAssembly s) (t_currentSourceRef s) (t_previousLabel s) (t_previousParentLabel s) (t_previousLabelOnSameAddress s) (t_text s) (t_currentFilename s) (t_currentSection s) (t_currentSourceFile s) (t_currentLine s) (t_filteredlines s) (t_files s) (t_lines s) (t_labels_defined s) (t_usercode_labels s) (t_used_labels s) (t_data_used_labels s) (t_weakly_used_labels s) (t_aliased_labels s) (t_total_lines s) (t_next_id s).
Definition set_t_inNvccDef (v : bool) (s : tstate) : tstate :=
  mkT (t_stopParsing s) (t_hasProcMarkers s) (t_hasStartedCommentBlock s) (t_mayRemovePreviousLabel s) (t_keepInlineCode s) (t_lastOwnSource s) v (t_inNvccCode s) (t_inCustomAssembly s) (t_currentSourceRef s) (t_previousLabel s) (t_previousParentLabel s) (t_previousLabelOnSameAddress s) (t_text s) (t_currentFilename s) (t_currentSection s) (t_currentSourceFile s) (t_currentLine s) (t_filteredlines s) (t_files s) (t_lines s) (t_labels_defined s) (t_usercode_labels s) (t_used_labels s) (t_data_used_labels s) (t_weakly_used_labels s) (t_aliased_labels s) (t_total_lines s) (t_next_id s).
Definition set_t_inNvccCode (v : bool) (s : tstate) : tstate :=
  mkT (t_stopParsing s) (t_hasProcMarkers s) (t_hasStartedCommentBlock s) (t_mayRemovePreviousLabel s) (t_keepInlineCode s) (t_lastOwnSource s) (t_inNvccDef s) v (t_inCustomAssembly s) (t_currentSourceRef s) (t_previousLabel s) (t_previousParentLabel s) (t_previousLabelOnSameAddress s) (t_text s) (t_currentFilename s) (t_currentSection s) (t_currentSourceFile s) (t_currentLine s) (t_filteredlines s) (t_files s) (t_lines s) (t_labels_defined s) (t_usercode_labels s) (t_used_labels s) (t_data_used_labels s) (t_weakly_used_labels s) (t_aliased_labels s) (t_total_lines s) (t_next_id s).
Definition set_t_inCustomAssembly (v : Z) (s : tstate) : tstate :=
  mkT (t_stopParsing s) (t_hasProcMarkers s) (t_hasStartedCommentBlock s) (t_mayRemovePreviousLabel s) (t_keepInlineCode s) (t_lastOwnSource s) (t_inNvccDef s) (t_inNvccCode s) v (t_currentSourceRef s) (t_previousLabel s) (t_previousParentLabel s) (t_previousLabelOnSameAddress s) (t_text s) (t_currentFilename s) (t_currentSection s) (t_currentSourceFile s) (t_currentLine s) (t_filteredlines s) (t_files s) (t_lines s) (t_labels_defined s) (t_usercode_labels s) (t_used_labels s) (t_data_used_labels s) (t_weakly_used_labels s) (t_aliased_labels s) (t_total_lines s) (t_next_id s).
Definition set_t_currentSourceRef (v : asm_source_v) (s : tstate) : tstate :=
  mkT (t_stopParsing s) (t_hasProcMarkers s) (t_hasStartedCommentBlock s) (t_mayRemovePreviousLabel s) (t_keepInlineCode s) (t_lastOwnSource s) (t_inNvccDef s) (t_inNvccCode s) (t_inCustomAssembly s) v (t_previousLabel s) (t_previousParentLabel s) (t_previousLabelOnSameAddress s) (t_text s) (t_currentFilename s) (t_currentSection s) (t_currentSourceFile s) (t_currentLine s) (t_filteredlines s) (t_files s) (t_lines s) (t_labels_defined s) (t_usercode_labels s) (t_used_labels s) (t_data_used_labels s) (t_weakly_used_labels s) (t_aliased_labels s) (t_total_lines s) (t_next_id s).
Definition set_t_previousLabel (v : view) (s : tstate) : tstate :=
  mkT (t_stopParsing s) (t_hasProcMarkers s) (t_hasStartedCommentBlock s) (t_mayRemovePreviousLabel s) (t_keepInlineCode s) (t_lastOwnSource s) (t_inNvccDef s) (t_inNvccCode s) (t_inCustomAssembly s) (t_currentSourceRef s) v (t_previousParentLabel s) (t_previousLabelOnSameAddress s) (t_text s) (t_currentFilename s) (t_currentSection s) (t_currentSourceFile s) (t_currentLine s) (t_filteredlines s) (t_files s) (t_lines s) (t_labels_defined s) (t_usercode_labels s) (t_used_labels s) (t_data_used_labels s) (t_weakly_used_labels s) (t_aliased_labels s) (t_total_lines s) (t_next_id s).
Definition set_t_previousParentLabel (v : view) (s : tstate) : tstate :=
  mkT (t_stopParsing s) (t_hasProcMarkers s) (t_hasStartedCommentBlock s) (t_mayRemovePreviousLabel s) (t_keepInlineCode s) (t_lastOwnSource s) (t_inNvccDef s) (t_inNvccCode s) (t_inCustomAssembly s) (t_currentSourceRef s) (t_previousLabel s) v (t_previousLabelOnSameAddress s) (t_text s) (t_currentFilename s) (t_currentSection s) (t_currentSourceFile s) (t_currentLine s) (t_filteredlines s) (t_files s) (t_lines s) (t_labels_defined s) (t_usercode_labels s) (t_used_labels s) (t_data_used_labels s) (t_weakly_used_labels s) (t_aliased_labels s) (t_total_lines s) (t_next_id s).
Definition set_t_previousLabelOnSameAddress (v : view) (s : tstate) : tstate :=
  mkT (t_stopParsing s) (t_hasProcMarkers s) (t_hasStartedCommentBlock s) (t_mayRemovePreviousLabel s) (t_keepInlineCode s) (t_lastOwnSource s) (t_inNvccDef s) (t_inNvccCode s) (t_inCustomAssembly s) (t_currentSourceRef s) (t_previousLabel s) (t_previousParentLabel s) v (t_text s) (t_currentFilename s) (t_currentSection s) (t_currentSourceFile s) (t_currentLine s) (t_filteredlines s) (t_files s) (t_lines s) (t_labels_defined s) (t_usercode_labels s) (t_used_labels s) (t_data_used_labels s) (t_weakly_used_labels s) (t_aliased_labels s) (t_total_lines s) (t_next_id s).
Definition set_t_text (v : str) (s : tstate) : tstate :=
  mkT (t_stopParsing s) (t_hasProcMarkers s) (t_hasStartedCommentBlock s) (t_mayRemovePreviousLabel s) (t_keepInlineCode s) (t_lastOwnSource s) (t_inNvccDef s) (t_inNvccCode s) (t_inCustomAssembly s) (t_currentSourceRef s) (t_previousLabel s) (t_previousParentLabel s) (t_previousLabelOnSameAddress s) v (t_currentFilename s) (t_currentSection s) (t_currentSourceFile s) (t_currentLine s) (t_filteredlines s) (t_files s) (t_lines s) (t_labels_defined s) (t_usercode_labels s) (t_used_labels s) (t_data_used_labels s) (t_weakly_used_labels s) (t_aliased_labels s) (t_total_lines s) (t_next_id s).
Definition set_t_currentFilename (v : view) (s : tstate) : tstate :=
  mkT (t_stopParsing s) (t_hasProcMarkers s) (t_hasStartedCommentBlock s) (t_mayRemovePreviousLabel s) (t_keepInlineCode s) (t_lastOwnSource s) (t_inNvccDef s) (t_inNvccCode s) (t_inCustomAssembly s) (t_currentSourceRef s) (t_previousLabel s) (t_previousParentLabel s) (t_previousLabelOnSameAddress s) (t_text s) v (t_currentSection s) (t_currentSourceFile s) (t_currentLine s) (t_filteredlines s) (t_files s) (t_lines s) (t_labels_defined s) (t_usercode_labels s) (t_used_labels s) (t_data_used_labels s) (t_weakly_used_labels s) (t_aliased_labels s) (t_total_lines s) (t_next_id s).
Definition set_t_currentSection (v : view) (s : tstate) : tstate :=
  mkT (t_stopParsing s) (t_hasProcMarkers s) (t_hasStartedCommentBlock s) (t_mayRemovePreviousLabel s) (t_keepInlineCode s) (t_lastOwnSource s) (t_inNvccDef s) (t_inNvccCode s) (t_inCustomAssembly s) (t_currentSourceRef s) (t_previousLabel s) (t_previousParentLabel s) (t_previousLabelOnSameAddress s) (t_text s) (t_currentFilename s) v (t_currentSourceFile s) (t_currentLine s) (t_filteredlines s) (t_files s) (t_lines s) (t_labels_defined s) (t_usercode_labels s) (t_used_labels s) (t_data_used_labels s) (t_weakly_used_labels s) (t_aliased_labels s) (t_total_lines s) (t_next_id s).
Definition set_t_currentSourceFile (v : view) (s : tstate) : tstate :=
  mkT (t_stopParsing s) (t_hasProcMarkers s) (t_hasStartedCommentBlock s) (t_mayRemovePreviousLabel s) (t_keepInlineCode s) (t_lastOwnSource s) (t_inNvccDef s) (t_inNvccCode s) (t_inCustomAssembly s) (t_currentSourceRef s) (t_previousLabel s) (t_previousParentLabel s) (t_previousLabelOnSameAddress s) (t_text s) (t_currentFilename s) (t_currentSection s) v (t_currentLine s) (t_filteredlines s) (t_files s) (t_lines s) (t_labels_defined s) (t_usercode_labels s) (t_used_labels s) (t_data_used_labels s) (t_weakly_used_labels s) (t_aliased_labels s) (t_total_lines s) (t_next_id s).
Definition set_t_currentLine (v : option asm_line_v) (s : tstate) : tstate :=
  mkT (t_stopParsing s) (t_hasProcMarkers s) (t_hasStartedCommentBlock s) (t_mayRemovePreviousLabel s) (t_keepInlineCode s) (t_lastOwnSource s) (t_inNvccDef s) (t_inNvccCode s) (t_inCustomAssembly s) (t_currentSourceRef s) (t_previousLabel s) (t_previousParentLabel s) (t_previousLabelOnSameAddress s) (t_text s) (t_currentFilename s) (t_currentSection s) (t_currentSourceFile s) v (t_filteredlines s) (t_files s) (t_lines s) (t_labels_defined s) (t_usercode_labels s) (t_used_labels s) (t_data_used_labels s) (t_weakly_used_labels s) (t_aliased_labels s) (t_total_lines s) (t_next_id s).
Definition set_t_filteredlines (v : list asm_line_v) (s : tstate) : tstate :=
  mkT (t_stopParsing s) (t_hasProcMarkers s) (t_hasStartedCommentBlock s) (t_mayRemovePreviousLabel s) (t_keepInlineCode s) (t_lastOwnSource s) (t_inNvccDef s) (t_inNvccCode s) (t_inCustomAssembly s) (t_currentSourceRef s) (t_previousLabel s) (t_previousParentLabel s) (t_previousLabelOnSameAddress s) (t_text s) (t_currentFilename s) (t_currentSection s) (t_currentSourceFile s) (t_currentLine s) v (t_files s) (t_lines s) (t_labels_defined s) (t_usercode_labels s) (t_used_labels s) (t_data_used_labels s) (t_weakly_used_labels s) (t_aliased_labels s) (t_total_lines s) (t_next_id s).
Definition set_t_files (v : list (Z * str)) (s : tstate) : tstate :=
  mkT (t_stopParsing s) (t_hasProcMarkers s) (t_hasStartedCommentBlock s) (t_mayRemovePreviousLabel s) (t_keepInlineCode s) (t_lastOwnSource s) (t_inNvccDef s) (t_inNvccCode s) (t_inCustomAssembly s) (t_currentSourceRef s) (t_previousLabel s) (t_previousParentLabel s) (t_previousLabelOnSameAddress s) (t_text s) (t_currentFilename s) (t_currentSection s) (t_currentSourceFile s) (t_currentLine s) (t_filteredlines s) v (t_lines s) (t_labels_defined s) (t_usercode_labels s) (t_used_labels s) (t_data_used_labels s) (t_weakly_used_labels s) (t_aliased_labels s) (t_total_lines s) (t_next_id s).
Definition set_t_lines (v : list asm_line_v) (s : tstate) : tstate :=
  mkT (t_stopParsing s) (t_hasProcMarkers s) (t_hasStartedCommentBlock s) (t_mayRemovePreviousLabel s) (t_keepInlineCode s) (t_lastOwnSource s) (t_inNvccDef s) (t_inNvccCode s) (t_inCustomAssembly s) (t_currentSourceRef s) (t_previousLabel s) (t_previousParentLabel s) (t_previousLabelOnSameAddress s) (t_text s) (t_currentFilename s) (t_currentSection s) (t_currentSourceFile s) (t_currentLine s) (t_filteredlines s) (t_files s) v (t_labels_defined s) (t_usercode_labels s) (t_used_labels s) (t_data_used_labels s) (t_weakly_used_labels s) (t_aliased_labels s) (t_total_lines s) (t_next_id s).
Definition set_t_labels_defined (v : list (view * Z)) (s : tstate) : tstate :=
  mkT (t_stopParsing s) (t_hasProcMarkers s) (t_hasStartedCommentBlock s) (t_mayRemovePreviousLabel s) (t_keepInlineCode s) (t_lastOwnSource s) (t_inNvccDef s) (t_inNvccCode s) (t_inCustomAssembly s) (t_currentSourceRef s) (t_previousLabel s) (t_previousParentLabel s) (t_previousLabelOnSameAddress s) (t_text s) (t_currentFilename s) (t_currentSection s) (t_currentSourceFile s) (t_currentLine s) (t_filteredlines s) (t_files s) (t_lines s) v (t_usercode_labels s) (t_used_labels s) (t_data_used_labels s) (t_weakly_used_labels s) (t_aliased_labels s) (t_total_lines s) (t_next_id s).
Definition set_t_usercode_labels (v : list view) (s : tstate) : tstate :=
  mkT (t_stopParsing s) (t_hasProcMarkers s) (t_hasStartedCommentBlock s) (t_mayRemovePreviousLabel s) (t_keepInlineCode s) (t_lastOwnSource s) (t_inNvccDef s) (t_inNvccCode s) (t_inCustomAssembly s) (t_currentSourceRef s) (t_previousLabel s) (t_previousParentLabel s) (t_previousLabelOnSameAddress s) (t_text s) (t_currentFilename s) (t_currentSection s) (t_currentSourceFile s) (t_currentLine s) (t_filteredlines s) (t_files s) (t_lines s) (t_labels_defined s) v (t_used_labels s) (t_data_used_labels s) (t_weakly_used_labels s) (t_aliased_labels s) (t_total_lines s) (t_next_id s).
Definition set_t_used_labels (v : list (view * list view)) (s : tstate) : tstate :=
  mkT (t_stopParsing s) (t_hasProcMarkers s) (t_hasStartedCommentBlock s) (t_mayRemovePreviousLabel s) (t_keepInlineCode s) (t_lastOwnSource s) (t_inNvccDef s) (t_inNvccCode s) (t_inCustomAssembly s) (t_currentSourceRef s) (t_previousLabel s) (t_previousParentLabel s) (t_previousLabelOnSameAddress s) (t_text s) (t_currentFilename s) (t_currentSection s) (t_currentSourceFile s) (t_currentLine s) (t_filteredlines s) (t_files s) (t_lines s) (t_labels_defined s) (t_usercode_labels s) v (t_data_used_labels s) (t_weakly_used_labels s) (t_aliased_labels s) (t_total_lines s) (t_next_id s).
Definition set_t_data_used_labels (v : list (view * list view)) (s : tstate) : tstate :=
  mkT (t_stopParsing s) (t_hasProcMarkers s) (t_hasStartedCommentBlock s) (t_mayRemovePreviousLabel s) (t_keepInlineCode s) (t_lastOwnSource s) (t_inNvccDef s) (t_inNvccCode s) (t_inCustomAssembly s) (t_currentSourceRef s) (t_previousLabel s) (t_previousParentLabel s) (t_previousLabelOnSameAddress s) (t_text s) (t_currentFilename s) (t_currentSection s) (t_currentSourceFile s) (t_currentLine s) (t_filteredlines s) (t_files s) (t_lines s) (t_labels_defined s) (t_usercode_labels s) (t_used_labels s) v (t_weakly_used_labels s) (t_aliased_labels s) (t_total_lines s) (t_next_id s).
Definition set_t_weakly_used_labels (v : list (view * list view)) (s : tstate) : tstate :=
  mkT (t_stopParsing s) (t_hasProcMarkers s) (t_hasStartedCommentBlock s) (t_mayRemovePreviousLabel s) (t_keepInlineCode s) (t_lastOwnSource s) (t_inNvccDef s) (t_inNvccCode s) (t_inCustomAssembly s) (t_currentSourceRef s) (t_previousLabel s) (t_previousParentLabel s) (t_previousLabelOnSameAddress s) (t_text s) (t_currentFilename s) (t_currentSection s) (t_currentSourceFile s) (t_currentLine s) (t_filteredlines s) (t_files s) (t_lines s) (t_labels_defined s) (t_usercode_labels s) (t_used_labels s) (t_data_used_labels s) v (t_aliased_labels s) (t_total_lines s) (t_next_id s).
Definition set_t_aliased_labels (v : list (view * view)) (s : tstate) : tstate :=
  mkT (t_stopParsing s) (t_hasProcMarkers s) (t_hasStartedCommentBlock s) (t_mayRemovePreviousLabel s) (t_keepInlineCode s) (t_lastOwnSource s) (t_inNvccDef s) (t_inNvccCode s) (t_inCustomAssembly s) (t_currentSourceRef s) (t_previousLabel s) (t_previousParentLabel s) (t_previousLabelOnSameAddress s) (t_text s) (t_currentFilename s) (t_currentSection s) (t_currentSourceFile s) (t_currentLine s) (t_filteredlines s) (t_files s) (t_lines s) (t_labels_defined s) (t_usercode_labels s) (t_used_labels s) (t_data_used_labels s) (t_weakly_used_labels s) v (t_total_lines s) (t_next_id s).
Definition set_t_total_lines (v : Z) (s : tstate) : tstate :=
  mkT (t_stopParsing s) (t_hasProcMarkers s) (t_hasStartedCommentBlock s) (t_mayRemovePreviousLabel s) (t_keepInlineCode s) (t_lastOwnSource s) (t_inNvccDef s) (t_inNvccCode s) (t_inCustomAssembly s) (t_currentSourceRef s) (t_previousLabel s) (t_previousParentLabel s) (t_previousLabelOnSameAddress s) (t_text s) (t_currentFilename s) (t_currentSection s) (t_currentSourceFile s) (t_currentLine s) (t_filteredlines s) (t_files s) (t_lines s) (t_labels_defined s) (t_usercode_labels s) (t_used_labels s) (t_data_used_labels s) (t_weakly_used_labels s) (t_aliased_labels s) v (t_next_id s).
Definition set_t_next_id (v : N) (s : tstate) : tstate :=
  mkT (t_stopParsing s) (t_hasProcMarkers s) (t_hasStartedCommentBlock s) (t_mayRemovePreviousLabel s) (t_keepInlineCode s) (t_lastOwnSource s) (t_inNvccDef s) (t_inNvccCode s) (t_inCustomAssembly s) (t_currentSourceRef s) (t_previousLabel s) (t_previousParentLabel s) (t_previousLabelOnSameAddress s) (t_text s) (t_currentFilename s) (t_currentSection s) (t_currentSourceFile s) (t_currentLine s) (t_filteredlines s) (t_files s) (t_lines s) (t_labels_defined s) (t_usercode_labels s) (t_used_labels s) (t_data_used_labels s) (t_weakly_used_labels s) (t_aliased_labels s) (t_total_lines s) v.

(** AssemblyTextParser(filter): parser.cpp:10-13, members value-initialised
    except mayRemovePreviousLabel = true (parser.hpp:23). *)
Definition tstate0 : tstate :=
  mkT false false false true false source_v0 false false 0 source_v0 view0 view0 view0 [] view0 view0 view0
      None [] [] [] [] [] [] [] [] [] 0 0%N.

(** unordered containers *)
Definition same_key (k : str) (k' : view) : bool := str_eqb (v_str k') k.
Definition map_find {A} (m : list (view * A)) (k : str) : option A :=
  option_map snd (find (fun e => same_key k (fst e)) m).
Definition map_contains {A} (m : list (view * A)) (k : str) : bool := is_some (map_find m k).
Definition set_contains (s : list view) (k : str) : bool := existsb (same_key k) s.
Definition set_insert (s : list view) (v : view) : list view :=
  if set_contains s (v_str v) then s else s ++ [v].
(** m[k] = a *)
Fixpoint map_assign {A} (m : list (view * A)) (k : view) (a : A) : list (view * A) :=
  match m with
  | [] => [(k, a)]
  | (k', a') :: t => if same_key (v_str k) k' then (k', a) :: t else (k', a') :: map_assign t k a
  end.
(** m[k].insert(v) *)
Fixpoint map_set_insert (m : list (view * list view)) (k v : view) : list (view * list view) :=
  match m with
  | [] => [(k, [v])]
  | (k', s) :: t => if same_key (v_str k) k' then (k', set_insert s v) :: t else (k', s) :: map_set_insert t k v
  end.
(** files[i] = f and files.at(i) *)
Fixpoint files_assign (m : list (Z * str)) (i : Z) (f : str) : list (Z * str) :=
  match m with
  | [] => [(i, f)]
  | (j, g) :: t => if i =? j then (j, f) :: t else (j, g) :: files_assign t i f
  end.
Definition files_at (m : list (Z * str)) (i : Z) : option str :=
  option_map snd (find (fun e => i =? fst e) m).

(** A slice of the text of line object [l]. *)
Definition slice (l : asm_line_v) (s : str) : view := mkView (OLine (lv_id l)) s.

(** parser.cpp:20-25 *)
Definition str_contains (s : str) (c : char) : bool := has_char c s.

(** parser.cpp:521-524 *)
Definition isInternalLabel (l : str) : bool :=
  starts_with (lit ".") l || starts_with (lit "$") l || starts_with (lit "L") l.

(** parser.cpp:126-138 *)
Definition isEmptyOrJustWhitespace (s : str) : bool := forallb is_whitespace s.

(** parser.cpp:526-550, on the reversed list of lines *)
Fixpoint amend_rev (src : asm_source_v) (rl : list asm_line_v) : list asm_line_v :=
  match rl with
  | [] => []
  | l :: t =>
      if lv_is_label l then
        let l' := set_lv_source
                    (mkSourceV (sv_file src) (sv_file_idx src) (sv_line src) (sv_column src) false
                       (sv_is_usercode src && negb (lv_is_internal_label l)) (sv_inside_proc src)) l in
        if negb (lv_is_internal_label l) then l' :: t else l' :: amend_rev src t
      else rl
  end.
Definition amendPreviousLinesWith (src : asm_source_v) (s : tstate) : tstate :=
  set_t_lines (rev (amend_rev src (rev (t_lines s)))) s.

(** parser.cpp:552-570 *)
Definition set_inside_proc (l : asm_line_v) : asm_line_v :=
  let r := lv_source l in
  set_lv_source (mkSourceV (sv_file r) (sv_file_idx r) (sv_line r) (sv_column r) (sv_is_end r) (sv_is_usercode r) true) l.
Definition markPreviousInternalLabelAsInsideProc (s : tstate) : tstate :=
  match rev (t_lines s) with
  | l :: t =>
      if lv_is_label l && lv_is_internal_label l then set_t_lines (rev (set_inside_proc l :: t)) s else s
  | [] => s
  end.

(** parser.cpp:27-50: None if the line is not a stabs directive *)
Definition handleStabs (line : str) (s : tstate) : option tstate :=
  match getSourceInfoFromStabs line with
  | Some sb =>
      Some (if sb_type sb =? 68 then set_t_currentSourceRef (mkSourceV view0 0 (sb_line sb) 0 false false false) s
            else if (sb_type sb =? 100) || (sb_type sb =? 132) then
              set_t_previousLabel view0 (set_t_currentSourceRef source_v0 s)
            else s)
  | None => None
  end.

(** parser.cpp:52-64 *)
Definition handleFiledef (line : str) (s : tstate) : option tstate :=
  match getFileDef line with
  | Some (i, f) => Some (set_t_files (files_assign (t_files s) i f) s)
  | None => None
  end.

(** parser.cpp:66-84 *)
Definition handleSource (line : str) (s : tstate) : option tstate :=
  let '(file_index, line_index, column) := getSourceRef line in
  if negb (file_index =? 0) then
    let r := t_currentSourceRef s in
    let r := mkSourceV (sv_file r) file_index line_index column (sv_is_end r) (sv_is_usercode r) true in
    Some (amendPreviousLinesWith r (set_t_currentSourceRef r (set_t_hasProcMarkers true s)))
  else None.

(** parser.cpp:140-171 ([l] owns the text the file view points into) *)
Definition handleD2 (l : asm_line_v) (s : tstate) : option tstate :=
  match getD2LineInfo (lv_text l) with
  | Some n =>
      let r := mkSourceV (t_currentSourceFile s) 0 n 0 false (isExampleOrStdin (v_str (t_currentSourceFile s))) false in
      Some (amendPreviousLinesWith r (set_t_currentSourceRef r s))
  | None =>
      match getD2FileInfo (lv_text l) with
      | Some f => Some (set_t_currentSourceFile (slice l f) s)
      | None => None
      end
  end.

(** parser.cpp:173-188 *)
Definition handle6502 (l : asm_line_v) (s : tstate) : option tstate :=
  match get6502DbgInfo (lv_text l) with
  | Some (f, n, is_end) =>
      Some (if negb is_end then set_t_currentSourceRef (mkSourceV (slice l f) 0 n 0 false false false) s else s)
  | None => None
  end.

(** parser.cpp:190-200 (its result is not used) *)
Definition handleSection (l : asm_line_v) (s : tstate) : tstate :=
  match getSectionNameDef (lv_text l) with
  | Some n => set_t_currentSection (slice l n) s
  | None => s
  end.

(** parser.cpp:388-396: the first handler that accepts the line *)
Definition handleSourceDirective (l : asm_line_v) (s : tstate) : option tstate :=
  match handleFiledef (lv_text l) s with
  | Some s' => Some s'
  | None =>
      match handleSource (lv_text l) s with
      | Some s' => Some s'
      | None =>
          match handleStabs (lv_text l) s with
          | Some s' => Some s'
          | None => match handle6502 l s with Some s' => Some s' | None => handleD2 l s end
          end
      end
  end.

(** parser.cpp:202-218 *)
Definition extractUsedLabelsFromDirective (l : asm_line_v) (s : tstate) : tstate :=
  match getWeakDefinedLabel (lv_text l) with
  | Some w => set_t_used_labels (map_set_insert (t_used_labels s) (slice l w) (t_previousLabel s)) s
  | None =>
      match getGlobalDefinedLabel (lv_text l) with
      | Some g =>
          set_t_used_labels (map_set_insert (t_used_labels s) (slice l g) (t_previousLabel s))
            (set_t_usercode_labels (set_insert (t_usercode_labels s) (slice l g)) s)
      | None => s
      end
  end.

(** parser.cpp:86-117: the label of a line, and what finding it changes *)
Definition getLabelFromLine (l : asm_line_v) (s : tstate) : option view * asm_line_v * tstate :=
  match getLabel (lv_text l) with
  | Some n => (Some (slice l n), l, s)
  | None =>
      match getLabelAssignment (lv_text l) with
      | Some n => (Some (slice l n), set_lv_is_assignment true l, s)
      | None =>
          match getAssignmentDef (lv_text l) with
          | Some n => (Some (slice l n), set_lv_is_assignment true l, s)
          | None =>
              match getCudaLabel (lv_text l) with
              | Some n => (Some (slice l n), l, set_t_inNvccCode true (set_t_inNvccDef true s))
              | None => (None, l, s)
              end
          end
      end
  end.

(** parser.cpp:273-295 *)
Definition handleLabelDefinition (l : asm_line_v) (s : tstate) : asm_line_v * tstate :=
  let '(found, l, s) := getLabelFromLine l s in
  match found with
  | Some n =>
      let internal := isInternalLabel (v_str n) in
      let l := set_lv_is_internal_label internal (set_lv_is_label true (set_lv_label n l)) in
      let s := set_t_previousLabel n s in
      let s := set_t_labels_defined (map_assign (t_labels_defined s) n (i32 (Z.of_nat (length (t_lines s)) + 1))) s in
      (l, if negb internal then set_t_previousParentLabel n s else s)
  | None => (set_lv_is_internal_label false (set_lv_is_label false l), s)
  end.

(** parser.cpp:246-271 *)
Definition handleLabelAliasing (l : asm_line_v) (s : tstate) : tstate :=
  let s :=
    if negb (is_nil (v_str (t_previousLabelOnSameAddress s))) then
      if negb (lv_is_assignment l) then
        if lv_is_label l then
          set_t_aliased_labels (map_assign (t_aliased_labels s) (lv_label l) (t_previousLabelOnSameAddress s)) s
        else if lv_has_opcode l || lv_is_data l then set_t_previousLabelOnSameAddress view0 s
        else s
      else set_t_previousLabelOnSameAddress view0 s
    else s in
  if lv_is_label l && negb (lv_is_assignment l) then set_t_previousLabelOnSameAddress (lv_label l) s else s.

Definition new_line (s : tstate) : asm_line_v * tstate :=
  (line_v0 (t_next_id s), set_t_next_id (t_next_id s + 1)%N s).

(** parser.cpp:119-124 *)
Definition maybeAddBlank (s : tstate) : tstate :=
  let lastBlank := match rev (t_lines s) with [] => true | l :: _ => is_nil (lv_text l) end in
  if negb lastBlank then
    let '(b, s) := new_line s in set_t_lines (t_lines s ++ [b]) s
  else s.

Section Parser.
(** [mblen]: the C library function under the current locale; [flt]: the filter;
    [ord_refs], [ord_labels]: the iteration order of an unordered_set of labels
    and of the map labels_defined, as a function of the insertion order. *)
Variables (mblen : str -> Z) (flt : Filter)
          (ord_refs : list view -> list view) (ord_labels : list (view * Z) -> list (view * Z)).

(** getUsedLabelsInLine, the names being views into the line *)
Definition used_labels_in (l : asm_line_v) : list asm_label_v :=
  map (fun lb => mkLabelV (slice l (lb_name lb)) (lb_range lb)) (getUsedLabelsInLine mblen (lv_text l)).

(** parser.cpp:220-229 *)
Definition extractUsedLabelsFromOpcodeLine (l : asm_line_v) (s : tstate) : asm_line_v * tstate :=
  let refs := used_labels_in l in
  (set_lv_labels refs l,
   fold_left (fun s r =>
     if negb (str_eqb (v_str (lbv_name r)) (v_str (t_previousParentLabel s))) then
       set_t_used_labels (map_set_insert (t_used_labels s) (lbv_name r) (t_previousParentLabel s)) s
     else s) refs s).

(** parser.cpp:231-244 *)
Definition extractUsedLabelsFromDataLine (l : asm_line_v) (s : tstate) : asm_line_v * tstate :=
  let refs := used_labels_in l in
  (set_lv_labels refs l,
   fold_left (fun s r =>
     let d := map_set_insert (t_data_used_labels s) (lbv_name r) (t_previousLabel s) in
     let d := if sv_inside_proc (t_currentSourceRef s)
              then map_set_insert d (lbv_name r) (t_previousParentLabel s) else d in
     set_t_data_used_labels d s) refs s).

(** parser.cpp:313-333: (remove this line?, state) *)
Definition commentBlock (s : tstate) : bool * tstate :=
  if f_comment_only flt then
    let s := if negb (t_hasStartedCommentBlock s)
             then set_t_hasStartedCommentBlock (startCommentBlock (t_text s)) s else s in
    if t_hasStartedCommentBlock s
    then (true, set_t_hasStartedCommentBlock (negb (endCommentBlock (t_text s))) s)
    else (false, s)
  else (false, s).

(** parser.cpp:341-348 *)
Definition customAssembly (s : tstate) : tstate :=
  let line := t_text s in
  if startAppBlock line || startAsmNesting line then set_t_inCustomAssembly (t_inCustomAssembly s + 1) s
  else if endAppBlock line || endAsmNesting line then set_t_inCustomAssembly (t_inCustomAssembly s - 1) s
  else s.

(** parser.cpp:350-365 *)
Definition filteredLine (s : tstate) : str :=
  let line := if 0 <? t_inCustomAssembly s then fixLabelIndentation (t_text s) else t_text s in
  let line := expandTabs line in
  if f_whitespace flt then squashHorizontalWhitespaceWithQuotes line true else line.

(** parser.cpp:402-436: (drop this line?, state) *)
Definition libraryFilter (s : tstate) : bool * tstate :=
  if f_library_functions flt && (sv_line (t_lastOwnSource s) =? 0) && is_nil (v_str (t_currentFilename s)) then
    let s :=
      match rev (t_lines s) with
      | last :: before =>
          if t_mayRemovePreviousLabel s then
            let s := if is_nil (lv_text last) then set_t_keepInlineCode true s
                     else if lv_is_label last then set_t_keepInlineCode false (set_t_lines (rev before) s)
                     else set_t_keepInlineCode true s in
            set_t_mayRemovePreviousLabel false s
          else s
      | [] => s
      end in
    (negb (t_keepInlineCode s), s)
  else (false, set_t_mayRemovePreviousLabel true s).

(** parser.cpp:439-440 *)
Definition justComment (s : tstate) : bool :=
  f_comment_only flt && ((isJustComments (t_text s) && negb (t_inNvccCode s))
                         || (isJustNvccComments (t_text s) && t_inNvccCode s)).

(** The end of a branch of eol that keeps currentLine where it is and clears the
    text; the branch that keeps the text; the branch that moves the line. *)
Definition drop_line (l : asm_line_v) (s : tstate) : tstate := set_t_text [] (set_t_currentLine (Some l) s).
Definition keep_text (l : asm_line_v) (s : tstate) : tstate := set_t_currentLine (Some l) s.

(** parser.cpp:487-518 *)
Definition eol_keep (l : asm_line_v) (s : tstate) : tstate :=
  let l := set_lv_is_inline_asm (0 <? t_inCustomAssembly s) l in
  let l := set_lv_has_opcode (hasOpcode (lv_text l) (t_inNvccCode s)) l in
  let l := set_lv_labels [] l in
  let '(l, s) := if negb (lv_is_label l) && lv_has_opcode l then extractUsedLabelsFromOpcodeLine l s else (l, s) in
  let '(l, s) := if negb (lv_is_label l) && lv_is_data l then extractUsedLabelsFromDataLine l s else (l, s) in
  let l := set_lv_closest_parent_label
             (if lv_is_assignment l || str_eqb (v_str (lv_label l)) (v_str (t_previousParentLabel s)) then []
              else v_str (t_previousParentLabel s)) l in
  let l := set_lv_section (t_currentSection s) (set_lv_source (t_currentSourceRef s) l) in
  let s := handleLabelAliasing l s in
  set_t_text [] (set_t_currentLine None (set_t_lines (t_lines s ++ [l]) s)).

(** parser.cpp:446-485, then eol_keep *)
Definition eol_classify (handled : bool) (l : asm_line_v) (s : tstate) : tstate :=
  let '(l, s) :=
    if handled then
      (set_lv_is_internal_label false (set_lv_is_label false (set_lv_is_directive true (set_lv_is_data false l))), s)
    else
      let '(l, s) := handleLabelDefinition l s in
      (set_lv_is_directive false (set_lv_is_data (isDataDefn (lv_text l)) l), s) in
  if t_inNvccDef s then
    eol_keep l (if isCudaEndDef (lv_text l) then set_t_inNvccDef false s else s)
  else if negb (lv_is_label l) && negb (lv_is_data l) then
    let l := if negb handled then set_lv_is_directive (isDirective (lv_text l)) l else l in
    if lv_is_directive l && negb (isInstOpcode (lv_text l)) then
      let s := extractUsedLabelsFromDirective l s in
      if f_directives flt then
        set_t_text [] (set_t_currentLine None (set_t_filteredlines (t_filteredlines s ++ [l]) s))
      else eol_keep l s
    else eol_keep l s
  else eol_keep l s.

(** parser.cpp:377-444, then eol_classify *)
Definition eol_directives (l : asm_line_v) (s : tstate) : tstate :=
  let '(handled, s) :=
    if endBlock (lv_text l) || (t_inNvccCode s && str_contains (lv_text l) "}") then
      (false, set_t_lastOwnSource source_v0 (set_t_previousLabel view0 (set_t_currentSourceRef source_v0 s)))
    else match handleSourceDirective l s with Some s' => (true, s') | None => (false, s) end in
  let s := if negb handled then handleSection l s else s in
  let '(drop, s) := libraryFilter s in
  if drop then drop_line l s
  else if justComment s then drop_line l s
  else eol_classify handled l s.

(** parser.cpp:297-519 *)
Definition eol (s : tstate) : tstate :=
  let s := set_t_total_lines (t_total_lines s + 1) s in
  let '(l, s) := new_line s in
  let s := set_t_currentLine (Some l) s in
  let '(remove, s) := commentBlock s in
  if remove then drop_line l s
  else if isEmptyOrJustWhitespace (t_text s) then keep_text l (maybeAddBlank s)
  else
    let s := customAssembly s in
    let l := set_lv_text (filteredLine s) l in
    if startProcBlock (lv_text l) && (sv_line (t_currentSourceRef s) =? 0) then
      let s := markPreviousInternalLabelAsInsideProc s in
      if f_directives flt then drop_line l s else eol_directives l s
    else eol_directives l s.

(** parser.cpp:816-826, one character: a carriage return is appended too. *)
Definition step (s : tstate) (c : char) : tstate :=
  if t_stopParsing s then s
  else if ceq c LF then eol s
  else set_t_text (t_text s ++ [c]) s.

(** parser.cpp:599-656.  [visited] is the function-local thread_local set; it is
    returned.  Fuel bounds the recursion depth; running out is [Diverges]. *)
Definition remove_str (k : str) (v : list str) : list str := filter (fun x => negb (str_eqb x k)) v.
Definition mem_str (k : str) (v : list str) : bool := existsb (str_eqb k) v.

(** A loop "for ref: if f(ref) return true" that threads [visited]. *)
Fixpoint any_ref (f : view -> list str -> outcome (bool * list str)) (refs : list view) (vis : list str)
  : outcome (bool * list str) :=
  match refs with
  | [] => Ok (false, vis)
  | r :: t =>
      uv <- f r vis ;;
      if fst uv then Ok (true, snd uv) else any_ref f t (snd uv)
  end.

Definition refs_of (m : list (view * list view)) (k : str) : list view :=
  match map_find m k with Some refs => ord_refs refs | None => [] end.

Fixpoint isUsed (s : tstate) (fuel : nat) (label : str) (depth : Z) (visited : list str) : outcome (bool * list str) :=
  match fuel with
  | O => Diverges
  | S k =>
      let visited := if depth =? 0 then [] else visited in
      if mem_str label visited then Ok (false, visited)
      else
        let visited := label :: visited in
        if set_contains (t_usercode_labels s) label then Ok (true, visited)
        else
          r <- any_ref (fun ref vis =>
                 if is_nil (v_str ref) then Ok (true, vis) else isUsed s k (v_str ref) (depth + 1) vis)
               (refs_of (t_used_labels s) label) visited ;;
          if fst r then Ok r
          else
            r <- (if 0 <? depth then
                    r <- any_ref (fun ref vis => isUsed s k (v_str ref) (depth - 1) vis)
                           (refs_of (t_weakly_used_labels s) label) (snd r) ;;
                    if fst r then Ok r
                    else any_ref (fun ref vis => isUsed s k (v_str ref) (depth - 1) vis)
                           (refs_of (t_data_used_labels s) label) (snd r)
                  else Ok r) ;;
            if fst r then Ok r else Ok (false, remove_str label (snd r))
  end.

(** parser.cpp:588-597 *)
Definition isUsedThroughAlias (s : tstate) (fuel : nat) (label : str) (vis : list str) : outcome (bool * list str) :=
  match map_find (t_aliased_labels s) label with
  | Some a => isUsed s fuel (v_str a) 1 vis
  | None => Ok (false, vis)
  end.

(** parser.cpp:658-672 *)
Definition isDataUsedThroughAlias (s : tstate) (fuel : nat) (label : str) (vis : list str) : outcome (bool * list str) :=
  any_ref (fun ref vis => isUsedThroughAlias s fuel (v_str ref) vis) (refs_of (t_data_used_labels s) label) vis.

(** parser.cpp:674-687 *)
Definition filterNonLabels (s : tstate) : tstate :=
  let keep := fun e : view * list view => map_contains (t_labels_defined s) (v_str (fst e)) in
  set_t_weakly_used_labels (filter keep (t_weakly_used_labels s)) (set_t_used_labels (filter keep (t_used_labels s)) s).

Fixpoint update_nth {A} (n : nat) (f : A -> A) (l : list A) : list A :=
  match l, n with
  | [], _ => []
  | a :: t, O => f a :: t
  | a :: t, S k => a :: update_nth k f t
  end.

(** parser.cpp:693-705, for one defined label; an index outside [lines] is
    undefined behaviour. *)
Definition mark_one (s : tstate) (fuel : nat) (idx : Z) (vis : list str) : outcome (tstate * list str) :=
  if (idx <? 1) || (Z.of_nat (length (t_lines s)) <? idx) then UB IndexRange
  else
    let n := Z.to_nat (idx - 1) in
    match nth_error (t_lines s) n with
    | None => UB IndexRange
    | Some l =>
        let upd f := set_t_lines (update_nth n f (t_lines s)) s in
        r <- isUsed s fuel (v_str (lv_label l)) 1 vis ;;
        if fst r then Ok (upd (set_lv_is_used true), snd r)
        else
          r <- isDataUsedThroughAlias s fuel (v_str (lv_label l)) (snd r) ;;
          if fst r then Ok (upd (set_lv_is_used_data_through_alias true), snd r)
          else
            r <- isUsedThroughAlias s fuel (v_str (lv_label l)) (snd r) ;;
            if fst r then Ok (upd (set_lv_is_used_through_alias true), snd r)
            else Ok (s, snd r)
    end.

(** parser.cpp:689-707 *)
Fixpoint mark_loop (fuel : nat) (labels : list (view * Z)) (s : tstate) (vis : list str) : outcome (tstate * list str) :=
  match labels with
  | [] => Ok (s, vis)
  | e :: t => r <- mark_one s fuel (snd e) vis ;; mark_loop fuel t (fst r) (snd r)
  end.
Definition markLabelUsage (fuel : nat) (s : tstate) (vis : list str) : outcome (tstate * list str) :=
  mark_loop fuel (ord_labels (t_labels_defined s)) s vis.

(** parser.cpp:572-586 *)
Definition filterOutReferedLabelsThatArentDefined (s : tstate) (l : asm_line_v) : asm_line_v :=
  set_lv_labels (filter (fun r => map_contains (t_labels_defined s) (v_str (lbv_name r))) (lv_labels l)) l.

(** parser.cpp:779-800 *)
Definition resolve_file (s : tstate) (l : asm_line_v) : asm_line_v :=
  let r := lv_source l in
  if negb (sv_file_idx r =? 0) then
    match files_at (t_files s) (sv_file_idx r) with
    | Some f =>
        set_lv_source (mkSourceV (mkView (OFile (sv_file_idx r)) f) (sv_file_idx r) (sv_line r) (sv_column r)
                         (sv_is_end r) (if isExampleOrStdin f then true else sv_is_usercode r) (sv_inside_proc r)) l
    | None => set_lv_source source_v0 l
    end
  else l.

(** The local variables of removeUnused that live across lines. *)
Record rstate := mkR { r_remove : bool; r_isUsed : bool; r_alias : bool; r_dataalias : bool }.

(** parser.cpp:722-765: (removeOnlyThis, new locals) *)
Definition remove_label (s : tstate) (r : rstate) (l : asm_line_v) : bool * rstate :=
  if lv_is_label l then
    let r := mkR (r_remove r) (lv_is_used l) (lv_is_used_through_alias l) (lv_is_used_data_through_alias l) in
    let set_remove b := mkR b (r_isUsed r) (r_alias r) (r_dataalias r) in
    if f_unused_labels flt then
      if r_remove r && r_isUsed r then (false, set_remove false)
      else if negb (r_remove r) && negb (r_isUsed r) then
        if r_alias r then (true, r)
        else if r_dataalias r then (false, r)
        else if lv_is_internal_label l then (true, r)
        else if lv_is_inline_asm l then (true, r)
        else if negb (is_nil (lv_closest_parent_label l)) then
          let rm := negb (map_contains (t_used_labels s) (lv_closest_parent_label l)) in
          (negb rm && lv_is_internal_label l, set_remove rm)
        else (false, set_remove true)
      else (false, r)
    else (false, r)
  else (false, r).

(** parser.cpp:767-769 *)
Definition removed (r : rstate) (only : bool) (l : asm_line_v) : bool :=
  r_remove r || only
  || (negb (r_isUsed r) && negb (r_alias r) && negb (r_dataalias r) && f_compatmode flt && f_directives flt
      && lv_is_data l && negb (sv_inside_proc (lv_source l))).

(** parser.cpp:717-804: (kept lines, filtered lines) *)
Fixpoint remove_loop (s : tstate) (r : rstate) (ls : list asm_line_v) : list asm_line_v * list asm_line_v :=
  match ls with
  | [] => ([], [])
  | l :: t =>
      let '(only, r') := remove_label s r l in
      let '(kept, out) := remove_loop s r' t in
      if removed r' only l then (kept, l :: out)
      else (resolve_file s (filterOutReferedLabelsThatArentDefined s l) :: kept, out)
  end.
Definition removeUnused (s : tstate) : tstate :=
  let '(kept, out) := remove_loop s (mkR false false false false) (t_lines s) in
  set_t_filteredlines (t_filteredlines s ++ out) (set_t_lines kept s).

(** parser.cpp:811-833 *)
Definition read_lines (s : tstate) (input : str) : tstate :=
  let s := fold_left step input (set_t_total_lines 0 s) in
  if negb (is_nil (t_text s)) then eol s else s.

(** parser.cpp:807-838 *)
Definition fromStream (fuel : nat) (s : tstate) (input : str) (visited : list str) : outcome (tstate * list str) :=
  let s := filterNonLabels (read_lines s input) in
  r <- markLabelUsage fuel s visited ;;
  Ok (removeUnused (fst r), snd r).

(** A fresh parser run on one input, in a thread where isUsed was last left with
    the given [visited] set. *)
Definition run (fuel : nat) (input : str) (visited : list str) : outcome (tstate * list str) :=
  fromStream fuel tstate0 input visited.

End Parser.

(** parser.cpp:840-857 (the int counter is not wrapped: fewer than 2^31 lines) *)
Fixpoint labels_from (n : Z) (ls : list asm_line_v) : list (str * Z) :=
  match ls with
  | [] => []
  | l :: t => (if lv_is_label l then [(v_str (lv_label l), n)] else []) ++ labels_from (n + 1) t
  end.
Definition redetermineLabels (s : tstate) : list (str * Z) := labels_from 1 (t_lines s).

(** parser.cpp:876-882 *)
Definition outputText (s : tstate) : str := flat_map (fun l => lv_text l ++ [LF]) (t_lines s).

(** parser.cpp:868-874.  setReproducible has no effect: the writer is not told. *)
Definition outputJson (flt : Filter) (fmt : Z -> str) (reproducible : bool) (clock : Z) (s : tstate) : str :=
  write fmt flt (t_lines s) (redetermineLabels s) (t_total_lines s) false clock.

Definition refs_table (m : list (view * list view)) : list (str * list str) :=
  map (fun e => (v_str (fst e), map v_str (snd e))) m.
(** parser.cpp:859-866; [ord_m], [ord_a]: iteration orders of the copied maps. *)
Definition outputDebugJson (flt : Filter) (fmt : Z -> str)
           (ord_m : list (view * list view) -> list (view * list view))
           (ord_a : list (view * view) -> list (view * view)) (s : tstate) : str :=
  writeDebug fmt flt (t_lines s) (redetermineLabels s)
    (refs_table (ord_m (t_used_labels s))) (refs_table (ord_m (t_weakly_used_labels s)))
    (refs_table (ord_m (t_data_used_labels s)))
    (map (fun e => (v_str (fst e), v_str (snd e))) (ord_a (t_aliased_labels s))).
