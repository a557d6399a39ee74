(** What the recognisers of the text parser accept and read, for every line, in
    terms of plain text (C65-C71). *)
From Verif Require Import Recog4 Tests.
Arguments T _%string_scope.

(** C65: kinds of lines *)
Theorem line_kinds : forall l,
  (isDirective l = true <-> begins "." l) /\
  (isDataDefn l = true <-> exists w, In w data_words /\ begins (String "." w) l) /\
  (isInstOpcode l = true <-> occurs ".inst" l) /\
  (isCudaEndDef l = true <-> exists u v, l = u ++ lit ")" ++ v /\ blanks u /\ blanks v).
Proof. intros l. exact (conj (directive_iff l) (conj (data_iff l) (conj (inst_iff l) (cuda_end_iff l)))). Qed.
Theorem block_marks : forall l,
  (startCommentBlock l = true <-> begins "/*" l) /\
  (endCommentBlock l = true <-> occurs "*/" l) /\
  (startAppBlock l = true <-> begins "#APP" l) /\
  (endAppBlock l = true <-> begins "#NO_APP" l) /\
  (startAsmNesting l = true <-> begins "# Begin ASM" l) /\
  (endAsmNesting l = true <-> begins "# End ASM" l) /\
  (startProcBlock l = true <-> occurs ".cfi_startproc" l) /\
  (endProcBlock l = true <-> occurs ".cfi_endproc" l) /\
  (endBlock l = true <-> exists w, In w [".cfi_endproc"; ".data"; ".text"; ".section"]%string /\ occurs w l).
Proof.
  intros l. exact (conj (start_comment_iff l) (conj (end_comment_iff l) (conj (hs_word_iff "#APP" l) (conj (hs_word_iff "#NO_APP" l)
    (conj (hs_word_iff "# Begin ASM" l) (conj (hs_word_iff "# End ASM" l) (conj (start_proc_iff l) (conj (end_proc_iff l) (end_block_iff l))))))))).
Qed.
Theorem user_file_names : forall f, isExampleOrStdin f = true <->
  occurs "<stdin>" f \/ f = lit "-" \/ (exists a b, f = a ++ lit "example." ++ b /\ b <> [] /\ ~ In "/"%char b) \/ occurs "<source>" f.
Proof. exact example_iff. Qed.
(** A word that only begins like a data directive, and a name that contains the word. *)
Example line_kinds_case :
  map isDataDefn (map T ["~.8byte 1"; "~.bytes"; "~.16byte 1"; "byte"]%string) = [true; true; false; false] /\
  map isDirective (map T ["  .p2align 4"; "x .p2align 4"]%string) = [true; false] /\
  map isInstOpcode (map T ["~.inst 0x1"; "~call my.instance"]%string) = [true; true] /\
  map isCudaEndDef (map T [" )~"; ") ;"]%string) = [true; false] /\
  map endBlock (map T ["~.textual"; "~mov x, y # .database"; "text"]%string) = [true; true; false] /\
  map startCommentBlock (map T ["  /* a"; "x /* a"]%string) = [true; false] /\
  map isExampleOrStdin (map T ["/app/example.cpp"; "/example.d/x.h"; "-"; "--"; "<source>:1"]%string) = [true; false; true; false; true].
Proof. now vm_compute. Qed.

(** C66: comment-only lines *)
Theorem comment_lines : forall l, isJustComments l = true <-> exists u t, l = u ++ t /\ blanks u /\
  (starts "#" t \/ starts "@" t \/ starts "//" t \/ enclosed t \/
   exists r, t = ";"%char :: r /\ ~ exists q, r = ";"%char :: q /\ spaces q).
Proof. exact comments_iff. Qed.
Theorem nvcc_comment_lines : forall l, isJustNvccComments l = true <-> exists u t, l = u ++ t /\ blanks u /\
  (starts "#" t \/ starts ";" t \/ starts "//" t \/ enclosed t).
Proof. exact nvcc_comments_iff. Qed.
(** Two semicolons alone are not a comment outside nvcc code. *)
Example comment_lines_case :
  map isJustComments (map T ["  # x"; "@ x"; "// x"; "/* x */"; "/* x */ y"; ";"; "; x"; ";;"; ";; ~"; ";; x"; ""]%string)
    = [true; true; true; true; false; true; true; false; false; true; false] /\
  map isJustNvccComments (map T [";;"; "@p bra"; "/**/"; "/*/"]%string) = [true; false; true; false].
Proof. now vm_compute. Qed.

(** C67: labels *)
Theorem label_lines : forall l n, getLabel l = Some n <-> exists p r, l = p ++ n ++ ":"%char :: r /\
  (p = [] \/ exists c g, p = c :: lit "proc" ++ g /\ gap g) /\ n <> [] /\ Forall label_char n.
Proof. exact label_iff. Qed.
Theorem assigned_labels : forall l n, getLabelAssignment l = Some n <-> exists c k g r, l = n ++ g ++ "="%char :: r /\ n = c :: k /\
  (word_char c \/ among ".$" c) /\ Forall word_char k /\ gap g.
Proof. exact assigned_iff. Qed.
(** A label must begin the line; the name on the left of = has no inner dot. *)
Example label_lines_case :
  map getLabel (map T ["a.b@c$:"; " a:"; "a b:"; ":"; ".proc f:"; "xproc~f: g:"; "a::b"; "a-b:"]%string)
    = [Some (T "a.b@c$"); None; None; None; Some (T "f"); Some (T "f"); Some (T "a"); None] /\
  map getLabelAssignment (map T [".x = 1"; "x= 1"; "a.b = 1"; " x = 1"; "9 ="]%string) = [Some (T ".x"); None; None; None; Some (T "9")].
Proof. now vm_compute. Qed.

(** C68: directives that define a symbol *)
Theorem global_symbols : forall l n, getGlobalDefinedLabel l = Some n <->
  exists w, In w [".globl"; ".global"; ".GLB"; ".export"]%string /\ names_symbol w l n.
Proof. exact global_iff. Qed.
Theorem weak_symbols : forall l n, getWeakDefinedLabel l = Some n <->
  names_symbol ".weakext" l n \/ names_symbol ".weak" l n /\ forall k, ~ names_symbol ".weakext" l k.
Proof. exact weak_iff. Qed.
(** The type directive may stand anywhere; the first one counts. *)
Theorem typed_symbols : forall l n, getFunctionTypeDefinedLabel l = Some n <->
  exists a, type_at a l n /\ forall a' n', type_at a' l n' -> (length a <= length a')%nat.
Proof. exact type_iff. Qed.
(** The name may follow without a gap; [.weakext] alone names the symbol "ext". *)
Example symbols_case :
  map getGlobalDefinedLabel (map T ["~.globl~main"; ".globalx"; ".globl 1x"; ".glob a"; ".export a-b"]%string) =
    [Some (T "main"); Some (T "x"); None; None; Some (T "a")] /\
  map getWeakDefinedLabel (map T [".weak f"; ".weakext f"; ".weakext"; ".weakexternal"; ".weak 1"]%string) =
    [Some (T "f"); Some (T "f"); Some (T "ext"); Some (T "ernal"); None] /\
  map getFunctionTypeDefinedLabel (map T ["~.type~main, @function"; ".type a, %function"; ".type a.b, @object"; "x .type a,proc .type b,object"; ".type ,object"]%string) =
    [Some (T "main"); None; None; Some (T "a"); Some []].
Proof. now vm_compute. Qed.

(** C69: sections *)
Theorem section_names : forall l n, getSectionNameDef l = Some n <-> exists a w t, first_section a w t l /\
  (w = ".data"%string /\ n = lit "data" \/ w = ".text"%string /\ n = lit "text" \/ w = ".section"%string /\ section_name t n).
Proof. exact section_iff. Qed.
(** The name stops at an underscore; the words are found inside other words. *)
Example section_names_case :
  map getSectionNameDef (map T ["~.text"; "~.section~.rodata.str1.1,`aMS`"; ".section `a-b`,x"; ".section .note_gnu"; "call x.textual"; ".section"; "x .data .text"; "ret"]%string) =
  [Some (T "text"); Some (T ".rodata.str1.1"); Some (T "a-b"); Some (T ".note"); Some (T "text"); Some []; Some (T "data"); None].
Proof. now vm_compute. Qed.

(** C70: location directives other than .file and .loc *)
Theorem stab_lines : forall l x, getSourceInfoFromStabs l = Some x <->
  exists a b, stab_line l a b /\ x = mkStabn (number a) (if number a =? 68 then number b else 0).
Proof. exact stab_iff. Qed.
Theorem dbg_lines : forall l x, get6502DbgInfo l = Some x <->
  (exists f n, dbg_line l f n /\ x = (f, number n, false)) \/
  (dbg_other l /\ (forall f n, ~ dbg_line l f n) /\ x = ([], 0, true)).
Proof. exact dbg_iff. Qed.
Theorem d2_lines : forall l,
  (forall x, getD2LineInfo l = Some x <-> exists a, d2line l a /\ x = number a) /\
  (forall f, getD2FileInfo l = Some f <-> d2file l f).
Proof. intros l. split; [exact (d2line_iff l)|exact (d2file_iff l)]. Qed.
(** Text after the number ends a 6502 location. *)
Example other_locations_case :
  map getSourceInfoFromStabs (map T [".stabn 68,0,12,.L1"; ".stabn 100,0,12,.L1"; ".stabn 68,1,12,x"; ".stabn 68,0,12"]%string) =
    [Some (mkStabn 68 12); Some (mkStabn 100 0); None; None] /\
  map get6502DbgInfo (map T ["~.dbg~line, `a.c`, 7"; ".dbg line"; ".dbg line, `a.c`, 7 "; ".dbg func"]%string) =
    [Some (T "a.c", 7, false); Some ([], 0, true); Some ([], 0, true); None] /\
  map getD2LineInfo (map T [".d2line 12, 3"; ".d2line 12x"; ".d2line 99999999999"; ".d2line"]%string) = [Some 12; Some 12; Some 0; None] /\
  map getD2FileInfo (map T [".d2file `a`b`"; ".d2file `a` "; ".d2file ``"]%string) = [Some (T "a`b"); None; Some []].
Proof. now vm_compute. Qed.

(** C71: instructions *)
Theorem instruction_lines : forall l, hasOpcode l false = true <-> let t := getLineWithoutComment l in
  occurs ".inst" t \/
  (forall n, ~ assignment t n) /\ exists u c r, t = u ++ c :: r /\ blanks u /\ letter c.
Proof. exact opcode_iff. Qed.
Theorem assignment_lines : forall t n, getAssignmentDef t = Some n <-> assignment t n.
Proof. exact assignment_iff. Qed.
(** In nvcc code the line without its last word must be a single character. *)
Theorem nvcc_instruction_lines : forall l, hasOpcode l true = true <-> let t := getLineWithoutComment l in
  occurs ".inst" t \/ exists u c, t = u ++ [c] /\ blanks u /\ (letter c \/ among "@|" c).
Proof. exact nvcc_opcode_iff. Qed.
(** Comment stripping drops the last word (see C56): [xy = 5] is seen as [xy =],
    an assignment; [xy =] and [xy = 5 6] count as instructions. *)
Example instruction_lines_case :
  map (fun s => hasOpcode (T s) false) ["~ret"; "~.inst 0x1"; "main:"; "xy = 5"; "xy = 5 6"; "xy ="; "1b"; "# ret"]%string
    = [true; true; true; false; true; true; false; false] /\
  map (fun s => hasOpcode (T s) true) ["~ret;"; "~x"; "@"; "mov.u32 r1, r2"; "x y"]%string = [false; true; true; false; true].
Proof. now vm_compute. Qed.

Print Assumptions line_kinds.
Print Assumptions block_marks.
Print Assumptions user_file_names.
Print Assumptions comment_lines.
Print Assumptions nvcc_comment_lines.
Print Assumptions label_lines.
Print Assumptions assigned_labels.
Print Assumptions global_symbols.
Print Assumptions weak_symbols.
Print Assumptions typed_symbols.
Print Assumptions section_names.
Print Assumptions stab_lines.
Print Assumptions dbg_lines.
Print Assumptions d2_lines.
Print Assumptions instruction_lines.
Print Assumptions assignment_lines.
Print Assumptions nvcc_instruction_lines.
