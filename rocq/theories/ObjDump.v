(** The objdump parser: src/objdump/parser.cpp.  [ostate] is the parser object:
    the fields of ObjDumpParserState (src/objdump/parser.hpp:15-43) followed by
    the mutable members lines, labels and total_lines (parser.hpp:51-56). *)
From Verif Require Export Utils Json.

Record ostate := mkO {
  o_inComment : bool;
  o_inSomethingWithALabel : bool;
  o_hasPrefixingWhitespace : bool;
  o_inAddress : bool;
  o_inLabel : bool;
  o_inOpcodes : bool;
  o_inSectionStart : bool;
  o_inSectionName : bool;
  o_inSourceRef : bool;
  o_inSourceRefLineNumber : bool;
  o_inRelocation : bool;
  o_skipRestOfTheLine : bool;
  o_stopParsing : bool;
  o_ignoreUntilNextLabel : bool;
  o_checkNextFileForLibraryCode : bool;
  o_currentLabelReference : asm_label;
  o_currentSourceRef : asm_source;
  o_previousLabel : str;
  o_text : str;
  o_currentFilename : str;
  o_currentSection : str;
  o_currentLine : asm_line;
  o_lines : list asm_line;
  o_labels : list (str * Z);
  o_total_lines : Z
}.
Definition set_o_inComment (v : bool) (s : ostate) : ostate :=
  mkO v (o_inSomethingWithALabel s) (o_hasPrefixingWhitespace s) (o_inAddress s) (o_inLabel s) (o_inOpcodes s) (o_inSectionStart s) (o_inSectionName s) (o_inSourceRef s) (o_inSourceRefLineNumber s) (o_inRelocation s) (o_skipRestOfTheLine s) (o_stopParsing s) (o_ignoreUntilNextLabel s) (o_checkNextFileForLibraryCode s) (o_currentLabelReference s) (o_currentSourceRef s) (o_previousLabel s) (o_text s) (o_currentFilename s) (o_currentSection s) (o_currentLine s) (o_lines s) (o_labels s) (o_total_lines s).
Definition set_o_inSomethingWithALabel (v : bool) (s : ostate) : ostate :=
  mkO (o_inComment s) v (o_hasPrefixingWhitespace s) (o_inAddress s) (o_inLabel s) (o_inOpcodes s) (o_inSectionStart s) (o_inSectionName s) (o_inSourceRef s) (o_inSourceRefLineNumber s) (o_inRelocation s) (o_skipRestOfTheLine s) (o_stopParsing s) (o_ignoreUntilNextLabel s) (o_checkNextFileForLibraryCode s) (o_currentLabelReference s) (o_currentSourceRef s) (o_previousLabel s) (o_text s) (o_currentFilename s) (o_currentSection s) (o_currentLine s) (o_lines s) (o_labels s) (o_total_lines s).
Definition set_o_hasPrefixingWhitespace (v : bool) (s : ostate) : ostate :=
  mkO (o_inComment s) (o_inSomethingWithALabel s) v (o_inAddress s) (o_inLabel s) (o_inOpcodes s) (o_inSectionStart s) (o_inSectionName s) (o_inSourceRef s) (o_inSourceRefLineNumber s) (o_inRelocation s) (o_skipRestOfTheLine s) (o_stopParsing s) (o_ignoreUntilNextLabel s) (o_checkNextFileForLibraryCode s) (o_currentLabelReference s) (o_currentSourceRef s) (o_previousLabel s) (o_text s) (o_currentFilename s) (o_currentSection s) (o_currentLine s) (o_lines s) (o_labels s) (o_total_lines s).
Definition set_o_inAddress (v : bool) (s : ostate) : ostate :=
  mkO (o_inComment s) (o_inSomethingWithALabel s) (o_hasPrefixingWhitespace s) v (o_inLabel s) (o_inOpcodes s) (o_inSectionStart s) (o_inSectionName s) (o_inSourceRef s) (o_inSourceRefLineNumber s) (o_inRelocation s) (o_skipRestOfTheLine s) (o_stopParsing s) (o_ignoreUntilNextLabel s) (o_checkNextFileForLibraryCode s) (o_currentLabelReference s) (o_currentSourceRef s) (o_previousLabel s) (o_text s) (o_currentFilename s) (o_currentSection s) (o_currentLine s) (o_lines s) (o_labels s) (o_total_lines s).
Definition set_o_inLabel (v : bool) (s : ostate) : ostate :=
  mkO (o_inComment s) (o_inSomethingWithALabel s) (o_hasPrefixingWhitespace s) (o_inAddress s) v (o_inOpcodes s) (o_inSectionStart s) (o_inSectionName s) (o_inSourceRef s) (o_inSourceRefLineNumber s) (o_inRelocation s) (o_skipRestOfTheLine s) (o_stopParsing s) (o_ignoreUntilNextLabel s) (o_checkNextFileForLibraryCode s) (o_currentLabelReference s) (o_currentSourceRef s) (o_previousLabel s) (o_text s) (o_currentFilename s) (o_currentSection s) (o_currentLine s) (o_lines s) (o_labels s) (o_total_lines s).
Definition set_o_inOpcodes (v : bool) (s : ostate) : ostate :=
  mkO (o_inComment s) (o_inSomethingWithALabel s) (o_hasPrefixingWhitespace s) (o_inAddress s) (o_inLabel s) v (o_inSectionStart s) (o_inSectionName s) (o_inSourceRef s) (o_inSourceRefLineNumber s) (o_inRelocation s) (o_skipRestOfTheLine s) (o_stopParsing s) (o_ignoreUntilNextLabel s) (o_checkNextFileForLibraryCode s) (o_currentLabelReference s) (o_currentSourceRef s) (o_previousLabel s) (o_text s) (o_currentFilename s) (o_currentSection s) (o_currentLine s) (o_lines s) (o_labels s) (o_total_lines s).
Definition set_o_inSectionStart (v : bool) (s : ostate) : ostate :=
  mkO (o_inComment s) (o_inSomethingWithALabel s) (o_hasPrefixingWhitespace s) (o_inAddress s) (o_inLabel s) (o_inOpcodes s) v (o_inSectionName s) (o_inSourceRef s) (o_inSourceRefLineNumber s) (o_inRelocation s) (o_skipRestOfTheLine s) (o_stopParsing s) (o_ignoreUntilNextLabel s) (o_checkNextFileForLibraryCode s) (o_currentLabelReference s) (o_currentSourceRef s) (o_previousLabel s) (o_text s) (o_currentFilename s) (o_currentSection s) (o_currentLine s) (o_lines s) (o_labels s) (o_total_lines s).
Definition set_o_inSectionName (v : bool) (s : ostate) : ostate :=
  mkO (o_inComment s) (o_inSomethingWithALabel s) (o_hasPrefixingWhitespace s) (o_inAddress s) (o_inLabel s) (o_inOpcodes s) (o_inSectionStart s) v (o_inSourceRef s) (o_inSourceRefLineNumber s) (o_inRelocation s) (o_skipRestOfTheLine s) (o_stopParsing s) (o_ignoreUntilNextLabel s) (o_checkNextFileForLibraryCode s) (o_currentLabelReference s) (o_currentSourceRef s) (o_previousLabel s) (o_text s) (o_currentFilename s) (o_currentSection s) (o_currentLine s) (o_lines s) (o_labels s) (o_total_lines s).
Definition set_o_inSourceRef (v : bool) (s : ostate) : ostate :=
  mkO (o_inComment s) (o_inSomethingWithALabel s) (o_hasPrefixingWhitespace s) (o_inAddress s) (o_inLabel s) (o_inOpcodes s) (o_inSectionStart s) (o_inSectionName s) v (o_inSourceRefLineNumber s) (o_inRelocation s) (o_skipRestOfTheLine s) (o_stopParsing s) (o_ignoreUntilNextLabel s) (o_checkNextFileForLibraryCode s) (o_currentLabelReference s) (o_currentSourceRef s) (o_previousLabel s) (o_text s) (o_currentFilename s) (o_currentSection s) (o_currentLine s) (o_lines s) (o_labels s) (o_total_lines s).
Definition set_o_inSourceRefLineNumber (v : bool) (s : ostate) : ostate :=
  mkO (o_inComment s) (o_inSomethingWithALabel s) (o_hasPrefixingWhitespace s) (o_inAddress s) (o_inLabel s) (o_inOpcodes s) (o_inSectionStart s) (o_inSectionName s) (o_inSourceRef s) v (o_inRelocation s) (o_skipRestOfTheLine s) (o_stopParsing s) (o_ignoreUntilNextLabel s) (o_checkNextFileForLibraryCode s) (o_currentLabelReference s) (o_currentSourceRef s) (o_previousLabel s) (o_text s) (o_currentFilename s) (o_currentSection s) (o_currentLine s) (o_lines s) (o_labels s) (o_total_lines s).
Definition set_o_inRelocation (v : bool) (s : ostate) : ostate :=
  mkO (o_inComment s) (o_inSomethingWithALabel s) (o_hasPrefixingWhitespace s) (o_inAddress s) (o_inLabel s) (o_inOpcodes s) (o_inSectionStart s) (o_inSectionName s) (o_inSourceRef s) (o_inSourceRefLineNumber s) v (o_skipRestOfTheLine s) (o_stopParsing s) (o_ignoreUntilNextLabel s) (o_checkNextFileForLibraryCode s) (o_currentLabelReference s) (o_currentSourceRef s) (o_previousLabel s) (o_text s) (o_currentFilename s) (o_currentSection s) (o_currentLine s) (o_lines s) (o_labels s) (o_total_lines s).
Definition set_o_skipRestOfTheLine (v : bool) (s : ostate) : ostate :=
  mkO (o_inComment s) (o_inSomethingWithALabel s) (o_hasPrefixingWhitespace s) (o_inAddress s) (o_inLabel s) (o_inOpcodes s) (o_inSectionStart s) (o_inSectionName s) (o_inSourceRef s) (o_inSourceRefLineNumber s) (o_inRelocation s) v (o_stopParsing s) (o_ignoreUntilNextLabel s) (o_checkNextFileForLibraryCode s) (o_currentLabelReference s) (o_currentSourceRef s) (o_previousLabel s) (o_text s) (o_currentFilename s) (o_currentSection s) (o_currentLine s) (o_lines s) (o_labels s) (o_total_lines s).
Definition set_o_stopParsing (v : bool) (s : ostate) : ostate :=
  mkO (o_inComment s) (o_inSomethingWithALabel s) (o_hasPrefixingWhitespace s) (o_inAddress s) (o_inLabel s) (o_inOpcodes s) (o_inSectionStart s) (o_inSectionName s) (o_inSourceRef s) (o_inSourceRefLineNumber s) (o_inRelocation s) (o_skipRestOfTheLine s) v (o_ignoreUntilNextLabel s) (o_checkNextFileForLibraryCode s) (o_currentLabelReference s) (o_currentSourceRef s) (o_previousLabel s) (o_text s) (o_currentFilename s) (o_currentSection s) (o_currentLine s) (o_lines s) (o_labels s) (o_total_lines s).
Definition set_o_ignoreUntilNextLabel (v : bool) (s : ostate) : ostate :=
  mkO (o_inComment s) (o_inSomethingWithALabel s) (o_hasPrefixingWhitespace s) (o_inAddress s) (o_inLabel s) (o_inOpcodes s) (o_inSectionStart s) (o_inSectionName s) (o_inSourceRef s) (o_inSourceRefLineNumber s) (o_inRelocation s) (o_skipRestOfTheLine s) (o_stopParsing s) v (o_checkNextFileForLibraryCode s) (o_currentLabelReference s) (o_currentSourceRef s) (o_previousLabel s) (o_text s) (o_currentFilename s) (o_currentSection s) (o_currentLine s) (o_lines s) (o_labels s) (o_total_lines s).
Definition set_o_checkNextFileForLibraryCode (v : bool) (s : ostate) : ostate :=
  mkO (o_inComment s) (o_inSomethingWithALabel s) (o_hasPrefixingWhitespace s) (o_inAddress s) (o_inLabel s) (o_inOpcodes s) (o_inSectionStart s) (o_inSectionName s) (o_inSourceRef s) (o_inSourceRefLineNumber s) (o_inRelocation s) (o_skipRestOfTheLine s) (o_stopParsing s) (o_ignoreUntilNextLabel s) v (o_currentLabelReference s) (o_currentSourceRef s) (o_previousLabel s) (o_text s) (o_currentFilename s) (o_currentSection s) (o_currentLine s) (o_lines s) (o_labels s) (o_total_lines s).
Definition set_o_currentLabelReference (v : asm_label) (s : ostate) : ostate :=
  mkO (o_inComment s) (o_inSomethingWithALabel s) (o_hasPrefixingWhitespace s) (o_inAddress s) (o_inLabel s) (o_inOpcodes s) (o_inSectionStart s) (o_inSectionName s) (o_inSourceRef s) (o_inSourceRefLineNumber s) (o_inRelocation s) (o_skipRestOfTheLine s) (o_stopParsing s) (o_ignoreUntilNextLabel s) (o_checkNextFileForLibraryCode s) v (o_currentSourceRef s) (o_previousLabel s) (o_text s) (o_currentFilename s) (o_currentSection s) (o_currentLine s) (o_lines s) (o_labels s) (o_total_lines s).
Definition set_o_currentSourceRef (v : asm_source) (s : ostate) : ostate :=
  mkO (o_inComment s) (o_inSomethingWithALabel s) (o_hasPrefixingWhitespace s) (o_inAddress s) (o_inLabel s) (o_inOpcodes s) (o_inSectionStart s) (o_inSectionName s) (o_inSourceRef s) (o_inSourceRefLineNumber s) (o_inRelocation s) (o_skipRestOfTheLine s) (o_stopParsing s) (o_ignoreUntilNextLabel s) (o_checkNextFileForLibraryCode s) (o_currentLabelReference s) v (o_previousLabel s) (o_text s) (o_currentFilename s) (o_currentSection s) (o_currentLine s) (o_lines s) (o_labels s) (o_total_lines s).
Definition set_o_previousLabel (v : str) (s : ostate) : ostate :=
  mkO (o_inComment s) (o_inSomethingWithALabel s) (o_hasPrefixingWhitespace s) (o_inAddress s) (o_inLabel s) (o_inOpcodes s) (o_inSectionStart s) (o_inSectionName s) (o_inSourceRef s) (o_inSourceRefLineNumber s) (o_inRelocation s) (o_skipRestOfTheLine s) (o_stopParsing s) (o_ignoreUntilNextLabel s) (o_checkNextFileForLibraryCode s) (o_currentLabelReference s) (o_currentSourceRef s) v (o_text s) (o_currentFilename s) (o_currentSection s) (o_currentLine s) (o_lines s) (o_labels s) (o_total_lines s).
Definition set_o_text (v : str) (s : ostate) : ostate :=
  mkO (o_inComment s) (o_inSomethingWithALabel s) (o_hasPrefixingWhitespace s) (o_inAddress s) (o_inLabel s) (o_inOpcodes s) (o_inSectionStart s) (o_inSectionName s) (o_inSourceRef s) (o_inSourceRefLineNumber s) (o_inRelocation s) (o_skipRestOfTheLine s) (o_stopParsing s) (o_ignoreUntilNextLabel s) (o_checkNextFileForLibraryCode s) (o_currentLabelReference s) (o_currentSourceRef s) (o_previousLabel s) v (o_currentFilename s) (o_currentSection s) (o_currentLine s) (o_lines s) (o_labels s) (o_total_lines s).
Definition set_o_currentFilename (v : str) (s : ostate) : ostate :=
  mkO (o_inComment s) (o_inSomethingWithALabel s) (o_hasPrefixingWhitespace s) (o_inAddress s) (o_inLabel s) (o_inOpcodes s) (o_inSectionStart s) (o_inSectionName s) (o_inSourceRef s) (o_inSourceRefLineNumber s) (o_inRelocation s) (o_skipRestOfTheLine s) (o_stopParsing s) (o_ignoreUntilNextLabel s) (o_checkNextFileForLibraryCode s) (o_currentLabelReference s) (o_currentSourceRef s) (o_previousLabel s) (o_text s) v (o_currentSection s) (o_currentLine s) (o_lines s) (o_labels s) (o_total_lines s).
Definition set_o_currentSection (v : str) (s : ostate) : ostate :=
  mkO (o_inComment s) (o_inSomethingWithALabel s) (o_hasPrefixingWhitespace s) (o_inAddress s) (o_inLabel s) (o_inOpcodes s) (o_inSectionStart s) (o_inSectionName s) (o_inSourceRef s) (o_inSourceRefLineNumber s) (o_inRelocation s) (o_skipRestOfTheLine s) (o_stopParsing s) (o_ignoreUntilNextLabel s) (o_checkNextFileForLibraryCode s) (o_currentLabelReference s) (o_currentSourceRef s) (o_previousLabel s) (o_text s) (o_currentFilename s) v (o_currentLine s) (o_lines s) (o_labels s) (o_total_lines s).
Definition set_o_currentLine (v : asm_line) (s : ostate) : ostate :=
  mkO (o_inComment s) (o_inSomethingWithALabel s) (o_hasPrefixingWhitespace s) (o_inAddress s) (o_inLabel s) (o_inOpcodes s) (o_inSectionStart s) (o_inSectionName s) (o_inSourceRef s) (o_inSourceRefLineNumber s) (o_inRelocation s) (o_skipRestOfTheLine s) (o_stopParsing s) (o_ignoreUntilNextLabel s) (o_checkNextFileForLibraryCode s) (o_currentLabelReference s) (o_currentSourceRef s) (o_previousLabel s) (o_text s) (o_currentFilename s) (o_currentSection s) v (o_lines s) (o_labels s) (o_total_lines s).
Definition set_o_lines (v : list asm_line) (s : ostate) : ostate :=
  mkO (o_inComment s) (o_inSomethingWithALabel s) (o_hasPrefixingWhitespace s) (o_inAddress s) (o_inLabel s) (o_inOpcodes s) (o_inSectionStart s) (o_inSectionName s) (o_inSourceRef s) (o_inSourceRefLineNumber s) (o_inRelocation s) (o_skipRestOfTheLine s) (o_stopParsing s) (o_ignoreUntilNextLabel s) (o_checkNextFileForLibraryCode s) (o_currentLabelReference s) (o_currentSourceRef s) (o_previousLabel s) (o_text s) (o_currentFilename s) (o_currentSection s) (o_currentLine s) v (o_labels s) (o_total_lines s).
Definition set_o_labels (v : list (str * Z)) (s : ostate) : ostate :=
  mkO (o_inComment s) (o_inSomethingWithALabel s) (o_hasPrefixingWhitespace s) (o_inAddress s) (o_inLabel s) (o_inOpcodes s) (o_inSectionStart s) (o_inSectionName s) (o_inSourceRef s) (o_inSourceRefLineNumber s) (o_inRelocation s) (o_skipRestOfTheLine s) (o_stopParsing s) (o_ignoreUntilNextLabel s) (o_checkNextFileForLibraryCode s) (o_currentLabelReference s) (o_currentSourceRef s) (o_previousLabel s) (o_text s) (o_currentFilename s) (o_currentSection s) (o_currentLine s) (o_lines s) v (o_total_lines s).
Definition set_o_total_lines (v : Z) (s : ostate) : ostate :=
  mkO (o_inComment s) (o_inSomethingWithALabel s) (o_hasPrefixingWhitespace s) (o_inAddress s) (o_inLabel s) (o_inOpcodes s) (o_inSectionStart s) (o_inSectionName s) (o_inSourceRef s) (o_inSourceRefLineNumber s) (o_inRelocation s) (o_skipRestOfTheLine s) (o_stopParsing s) (o_ignoreUntilNextLabel s) (o_checkNextFileForLibraryCode s) (o_currentLabelReference s) (o_currentSourceRef s) (o_previousLabel s) (o_text s) (o_currentFilename s) (o_currentSection s) (o_currentLine s) (o_lines s) (o_labels s) v.

(** ObjDumpParser(filter): parser.cpp:28-31, every state member value-initialised *)
Definition ostate0 : ostate :=
  mkO false false false false false false false false false false false false false false false
      label0 source0 [] [] [] [] line0 [] [] 0.

(** parser.cpp:11-26 *)
Definition commonReset (s : ostate) : ostate :=
  set_o_currentLine line0 (set_o_text [] (set_o_hasPrefixingWhitespace false (set_o_inComment false
  (set_o_inAddress true (set_o_inOpcodes false (set_o_inLabel false (set_o_inSectionStart false
  (set_o_inSectionName false (set_o_inSourceRef false (set_o_skipRestOfTheLine false
  (set_o_inRelocation false (set_o_inSourceRefLineNumber false s)))))))))))).

(** parser.cpp:33-40 *)
Definition updateSourceRefLineNumber (s : ostate) : outcome ostate :=
  match atoi (o_text s) with
  | None => UB AtoiRange
  | Some lineNum =>
      if 0 <? lineNum then
        let r := o_currentSourceRef s in
        Ok (set_o_currentSourceRef
              (mkSource (s_file r) (s_file_idx r) lineNum (s_column r) (s_is_usercode r) (s_inside_proc r)) s)
      else Ok s
  end.

(** parser.cpp:96-120.  The vector index expressions are ints; an erase starting
    beyond the end is [UB IndexRange]. *)
Definition maybe_remove_last_function (s : ostate) : outcome ostate :=
  match rev (o_labels s) with
  | [] => Ok s
  | (_, second) :: before =>
      let idx := second - 1 in
      if (idx <? 0) || (Z.of_nat (length (o_lines s)) <? idx) then UB IndexRange
      else
        let tail := skipn (Z.to_nat idx) (o_lines s) in
        if existsb (fun l => s_is_usercode (l_source l)) tail then Ok s
        else Ok (set_o_lines (firstn (Z.to_nat idx) (o_lines s)) (set_o_labels (rev before) s))
  end.

Section Parser.
(** [mblen]: the C library function under the current locale; [flt]: the filter. *)
Variables (mblen : str -> Z) (flt : Filter).

(** parser.cpp:122-151 *)
Definition label (s : ostate) : outcome ostate :=
  if is_nil (o_text s) then Ok (set_o_inLabel false s)
  else
    let s := match getLabelFromObjdumpLabel (o_text s) with Some l => set_o_text l s | None => s end in
    s <- (if f_library_functions flt then maybe_remove_last_function s else Ok s) ;;
    let ign := shouldIgnoreFunction (o_text s) flt in
    let s := set_o_ignoreUntilNextLabel ign s in
    if ign then Ok s
    else
      let s := if f_library_functions flt then set_o_checkNextFileForLibraryCode true s else s in
      let name := o_text s in
      let s := set_o_previousLabel name s in
      let s := set_o_currentLine (set_l_is_label true (set_l_label name (o_currentLine s))) s in
      let s := set_o_text (name ++ lit ":") s in
      Ok (set_o_labels (o_labels s ++ [(name, i32 (Z.of_nat (length (o_lines s)) + 1))]) s).

(** parser.cpp:70-75: both columns of every label reference move right by two. *)
Definition shift_label (l : asm_label) : asm_label :=
  mkLabel (lb_name l) (mkRange (u16 (r_start (lb_range l) + 2)) (u16 (r_end (lb_range l) + 2))).

(** parser.cpp:86-87 *)
Definition truncated_line : asm_line := set_l_text (lit "[truncated; too many lines]") line0.

(** parser.cpp:63-78: the finished line. *)
Definition finish_line (s : ostate) : asm_line :=
  let l := set_l_section (o_currentSection s) (set_l_text (o_text s) (o_currentLine s)) in
  let l := if l_is_label l then l
           else set_l_labels (map shift_label (l_labels l)) (set_l_text (SP :: l_text l) l) in
  set_l_source (o_currentSourceRef s) l.

(** parser.cpp:80-90 *)
Definition push_line (l : asm_line) (s : ostate) : ostate :=
  if Z.of_nat (length (o_lines s)) <? 5000 then set_o_lines (o_lines s ++ [l]) s
  else set_o_stopParsing true (set_o_lines (o_lines s ++ [truncated_line]) s).

(** parser.cpp:42-94.  total_lines is a size_t; it is not wrapped here (it would
    take 2^64 input lines). *)
Definition eol (s : ostate) : outcome ostate :=
  let s := set_o_total_lines (o_total_lines s + 1) s in
  s <- (if o_inLabel s then label s else Ok s) ;;
  if o_ignoreUntilNextLabel s then Ok (commonReset s)
  else if o_inSourceRefLineNumber s then
    s <- updateSourceRefLineNumber s ;; Ok (commonReset s)
  else if negb (is_nil (o_text s)) then Ok (commonReset (push_line (finish_line s) s))
  else Ok (commonReset s).

(** parser.cpp:153-175.  The catch block only resets a member that line 174
    resets anyway. *)
Definition labelref (s : ostate) : ostate :=
  let s :=
    if negb (o_ignoreUntilNextLabel s) then
      let start := r_start (lb_range (o_currentLabelReference s)) in
      let rng := mkRange start (u16 (ustrlen mblen (o_text s))) in
      match substr_from (o_text s) start with
      | Some name =>
          if negb (shouldIgnoreFunction name flt) then
            set_o_currentLine
              (set_l_labels (l_labels (o_currentLine s) ++ [mkLabel name rng]) (o_currentLine s)) s
          else s
      | None => s
      end
    else s in
  set_o_currentLabelReference label0 s.

(** parser.cpp:181-196: [acc] is the group being collected. *)
Fixpoint split_opcodes (t acc : str) : list str :=
  match t with
  | [] => []
  | c :: t' =>
      if negb (ceq c SP) then split_opcodes t' (acc ++ [c])
      else if negb (is_nil acc) then acc :: split_opcodes t' []
      else split_opcodes t' []
  end.

(** parser.cpp:177-201 *)
Definition opcodes (s : ostate) : ostate :=
  let s := if negb (o_ignoreUntilNextLabel s) then
             set_o_currentLine (set_l_opcodes (l_opcodes (o_currentLine s) ++ split_opcodes (o_text s) []) (o_currentLine s)) s
           else s in
  set_o_inOpcodes false (set_o_text [] s).

(** parser.cpp:209-229 on the reversed text: (address, not-hex-after-all).
    [hint << bitsdone] is an int shift: undefined unless 0 <= bitsdone < 32,
    modular otherwise (C++20).  int64_t overflow of the sum is not modelled: it
    needs more than 2^32 groups of 64 digits. *)
Fixpoint addr_loop (rt : str) (addr bitsdone : Z) : outcome (Z * bool) :=
  match rt with
  | [] => Ok (addr, false)
  | c :: t =>
      if negb (is_hex c) then Ok (addr, true)
      else
        let hint := hex2int c in
        if hint =? 0 then addr_loop t addr (i8 (bitsdone + 4))
        else if (bitsdone <? 0) || (32 <=? bitsdone) then UB ShiftRange
        else addr_loop t (addr + i32 (Z.shiftl hint bitsdone)) (i8 (bitsdone + 4))
  end.

(** parser.cpp:203-245 *)
Definition actually_address (s : ostate) : outcome ostate :=
  r <- (if negb (o_ignoreUntilNextLabel s) then
          ab <- addr_loop (rev (o_text s)) 0 0 ;;
          Ok (set_o_currentLine (set_l_address (Some (fst ab)) (o_currentLine s)) s, snd ab)
        else Ok (s, false)) ;;
  let '(s, notHex) := r in
  if notHex : bool then Ok (set_o_inAddress false (set_o_skipRestOfTheLine true s))
  else Ok (set_o_inOpcodes true (set_o_inAddress false s)).

(** parser.cpp:261-264 *)
Definition do_file_check (f : str) (s : ostate) : ostate :=
  let r := o_currentSourceRef s in
  set_o_currentSourceRef
    (mkSource (s_file r) (s_file_idx r) (s_line r) (s_column r) (negb (file_in_library f)) (s_inside_proc r)) s.

(** parser.cpp:266-274 *)
Definition actually_filename (s : ostate) : ostate :=
  let s := set_o_currentFilename (o_text s) s in
  let s := set_o_skipRestOfTheLine true (set_o_inOpcodes false (set_o_inAddress false s)) in
  do_file_check (o_currentFilename s) s.

(** parser.cpp:276-298 *)
Definition address (s : ostate) : outcome ostate :=
  s <- (match o_text s with
        | c :: _ => if ceq c "/" then Ok (actually_filename s) else actually_address s
        | [] => Ok (set_o_inOpcodes false (set_o_inAddress false s))
        end) ;;
  Ok (set_o_text [] s).

(** parser.cpp:481-483: the end of the loop body. *)
Definition append_char (c : char) (s : ostate) : ostate :=
  if is_whitespace c && is_nil (o_text s) then s else set_o_text (o_text s ++ [c]) s.

(** parser.cpp:324-362 *)
Definition step_address (s : ostate) (c : char) : outcome ostate :=
  if ceq c "/" then Ok (append_char c (set_o_inSourceRef true (set_o_inAddress false s)))
  else if ceq c ";" then Ok s
  else if ceq c ":" then address s
  else if is_whitespace c then
    if str_eqb (o_text s) (lit "Disassembly") then
      Ok (append_char c (set_o_currentSection [] (set_o_inSectionStart true (set_o_inAddress false s))))
    else if negb (is_nil (o_text s)) then
      s <- address s ;; Ok (set_o_inLabel true (set_o_inAddress false s))
    else Ok s
  else Ok (append_char c s).

(** parser.cpp:367-390 *)
Definition step_opcodes (s : ostate) (c : char) : ostate :=
  if is_whitespace c then
    if is_nil (o_text s) then s
    else if last_is SP (o_text s) then opcodes s
    else append_char c s
  else if ceq c "R" then
    append_char c (set_o_text (o_text s ++ lit "   ") (set_o_inOpcodes false (set_o_inRelocation true s)))
  else if negb (is_hex c) then append_char c (set_o_inOpcodes false s)
  else append_char c s.

(** parser.cpp:391-401 *)
Definition step_relocation (s : ostate) (c : char) : ostate :=
  if ceq c TAB then set_o_text (o_text s ++ [SP]) s else append_char c s.

(** parser.cpp:402-429 *)
Definition step_section (s : ostate) (c : char) : ostate :=
  if negb (o_inSectionName s) then
    let b := str_eqb (o_text s) (lit "Disassembly of section ") in
    let s := set_o_inSectionName b s in
    if b then set_o_currentSection [c] (set_o_text [] s) else append_char c s
  else if ceq c ":" then set_o_text [] (set_o_skipRestOfTheLine true s)
  else set_o_currentSection (o_currentSection s ++ [c]) s.

(** parser.cpp:430-449 *)
Definition step_sourceref (s : ostate) (c : char) : outcome ostate :=
  if ceq c ":" then
    let f := o_text s in
    let s := set_o_currentSourceRef (mkSource f 0 0 0 false false) s in
    let s := set_o_text [] (set_o_currentFilename f s) in
    let s := do_file_check f s in
    Ok (set_o_inSourceRefLineNumber true (set_o_inSourceRef true s))
  else if o_inSourceRefLineNumber s && is_whitespace c then
    s <- updateSourceRefLineNumber s ;; Ok (set_o_skipRestOfTheLine true (set_o_text [] s))
  else Ok (append_char c s).

(** parser.cpp:450-479 *)
Definition step_text (s : ostate) (c : char) : ostate :=
  append_char c
    (if ceq c "#" then set_o_inComment true s
     else if ceq c "<" then
       set_o_currentLabelReference
         (mkLabel (lb_name (o_currentLabelReference s)) (mkRange (u16 (ustrlen mblen (o_text s) + 1)) 0))
         (set_o_inSomethingWithALabel true s)
     else if o_inSomethingWithALabel s then
       if ceq c ">" then
         let s := set_o_inSomethingWithALabel false s in
         if is_nil (lb_name (o_currentLabelReference s)) then labelref s else s
       else if ceq c "+" then labelref (set_o_inSomethingWithALabel false s)
       else s
     else s).

(** parser.cpp:311-485, one character; nothing more is read once stopParsing. *)
Definition step (s : ostate) (c : char) : outcome ostate :=
  if o_stopParsing s then Ok s
  else if ceq c CR then Ok s
  else if ceq c LF then eol s
  else if o_skipRestOfTheLine s then Ok s
  else if o_inAddress s then step_address s c
  else if o_inLabel s then Ok (append_char c s)
  else if o_inOpcodes s then Ok (step_opcodes s c)
  else if o_inRelocation s then Ok (step_relocation s c)
  else if o_inSectionStart s then Ok (step_section s c)
  else if o_inSourceRef s then step_sourceref s c
  else if negb (o_inComment s) then Ok (step_text s c)
  else Ok (append_char c s).

Fixpoint feed (s : ostate) (input : str) : outcome ostate :=
  match input with
  | [] => Ok s
  | c :: t => s' <- step s c ;; feed s' t
  end.

(** parser.cpp:305-486 *)
Definition fromStream (s : ostate) (input : str) : outcome ostate :=
  feed (set_o_inAddress true (set_o_total_lines 0 s)) input.

(** A fresh parser run on one input. *)
Definition run (input : str) : outcome ostate := fromStream ostate0 input.

End Parser.

(** parser.cpp:517-523 *)
Definition outputText (s : ostate) : str := flat_map (fun l => l_text l ++ [LF]) (o_lines s).

(** parser.cpp:488-508.  [reproducible] is the member set by setReproducible. *)
Definition outputJson (flt : Filter) (fmt : Z -> str) (reproducible : bool) (clock : Z) (s : ostate) : str :=
  write fmt flt (map line_v_of_line (o_lines s)) (o_labels s) (o_total_lines s) reproducible clock.

(** parser.cpp:510-515: writes a message, then throws. *)
Definition outputDebugJson (s : ostate) : str * outcome unit := (lit "Not implemented" ++ [LF], Throws).
