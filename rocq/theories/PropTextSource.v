(** C116: the utilities of the text parser are what the text of their source says.

    As in PropSource.v, for the program made of the files of the text parser: every
    function of utils.cpp and regexwrappers.cpp that it calls gives, run by the
    interpreter of CppSem.v, the result of the function of the same name in Utils.v. *)
From Coq Require Import String List ZArith Ascii Bool Lia.
From Verif Require Import Bytes Types Utils AsmText CppSyntax SourceText SourceAst CppSem AStep AUtil AScan ALine ASquash AUsed.
Import ListNotations.
Local Open Scope string_scope.
Local Open Scope Z_scope.

(** The files the text parser is made of. *)
Definition text_sources : list string :=
  [assembly_parser_cpp; assembly_parser_hpp; types_line_hpp; types_filter_hpp; utils_utils_cpp; utils_utils_hpp;
   utils_regexwrappers_cpp; utils_regexwrappers_hpp].
Fixpoint read_text (l : list string) : option (list item) :=
  match l with
  | [] => Some []
  | f :: r => match read_file f, read_text r with Some a, Some b => Some (a ++ b)%list | _, _ => None end
  end.
(** Calling the function [f] of the program on the object [this]: loops of at most [N]
    rounds, calls nested at most [d] deep.  [order]: the order in which a loop over an
    unordered container meets its elements. *)
Definition call_text (files : list string) (N : nat) (mb : str -> Z) (order : val -> list val) (d : nat) (f : string) (this : val) (args : list val) : option cres :=
  match read_text files with
  | Some l => Some (prog_with (orders order) (functions l) (types l) N mb d f this args)
  | None => None
  end.

Lemma text_read : read_text text_sources = Some asm_items.
Proof.
  cbn [read_text text_sources].
  rewrite assembly_parser_read, assembly_parser_h_read, types_line_h_read, types_filter_h_read, utils_utils_read, utils_utils_h_read,
    utils_regexwrappers_read, utils_regexwrappers_h_read.
  rewrite app_nil_r. reflexivity.
Qed.
Lemma call_A N mb o d f this args : call_text text_sources N mb o d f this args = Some (A N mb o d f this args).
Proof. unfold call_text. rewrite text_read. unfold A. rewrite asm_fns_eq, asm_tys_eq. reflexivity. Qed.

(** The functions that answer yes or no, and those that find a name, in a line. *)
Theorem text_tests_are_their_source :
  forall N mb order d l,
  let call f := call_text text_sources N mb order (S d) f VUnit [VStr l] in
  let yes_no f g := call f = Some (CVal (VBool (g l)) VUnit) in
  let name f g := call f = Some (CVal (VOpt (VStr []) (option_map VStr (g l))) VUnit) in
  (yes_no "startCommentBlock" startCommentBlock /\ yes_no "endCommentBlock" endCommentBlock /\
   yes_no "startAppBlock" startAppBlock /\ yes_no "endAppBlock" endAppBlock /\
   yes_no "startAsmNesting" startAsmNesting /\ yes_no "endAsmNesting" endAsmNesting /\
   yes_no "startProcBlock" startProcBlock /\ yes_no "endBlock" endBlock /\ yes_no "endProcBlock" endProcBlock /\
   yes_no "isJustComments" isJustComments /\ yes_no "isJustNvccComments" isJustNvccComments /\
   yes_no "isCudaEndDef" isCudaEndDef /\ yes_no "isDataDefn" isDataDefn /\ yes_no "isDirective" isDirective /\
   yes_no "isInstOpcode" isInstOpcode /\ yes_no "isExampleOrStdin" isExampleOrStdin) /\
  (name "getLabel" getLabel /\ name "getLabelAssignment" getLabelAssignment /\ name "getAssignmentDef" getAssignmentDef /\
   name "getCudaLabel" getCudaLabel /\ name "getFunctionTypeDefinedLabel" getFunctionTypeDefinedLabel /\
   name "getWeakDefinedLabel" getWeakDefinedLabel /\ name "getGlobalDefinedLabel" getGlobalDefinedLabel /\
   name "getSectionNameDef" getSectionNameDef).
Proof.
  intros N mb order d l call yes_no name. unfold name, yes_no, call. repeat match goal with |- _ /\ _ => split end; rewrite call_A; f_equal.
  - apply src_startCommentBlock. - apply src_endCommentBlock. - apply src_startAppBlock. - apply src_endAppBlock.
  - apply src_startAsmNesting. - apply src_endAsmNesting. - apply src_startProcBlock. - apply src_endBlock. - apply src_endProcBlock.
  - apply src_isJustComments. - apply src_isJustNvccComments. - apply src_isCudaEndDef. - apply src_isDataDefn. - apply src_isDirective.
  - apply src_isInstOpcode. - apply src_isExampleOrStdin. - apply src_getLabel. - apply src_getLabelAssignment. - apply src_getAssignmentDef.
  - apply src_getCudaLabel. - apply src_getFunctionTypeDefinedLabel. - apply src_getWeakDefinedLabel. - apply src_getGlobalDefinedLabel.
  - apply src_getSectionNameDef.
Qed.
Print Assumptions text_tests_are_their_source.

(** The functions that read a place in a source file from a line. *)
Theorem text_places_are_their_source :
  forall N mb order d l,
  let call f := call_text text_sources N mb order (S d) f VUnit [VStr l] in
  call "getSourceRef" = Some (CVal (let '(f, n, c) := getSourceRef l in
    VRec [("file_index", VInt I32 f); ("line_index", VInt I32 n); ("column", VInt I32 c)]) VUnit) /\
  (let rec f n := VRec [("file_index", VInt I32 f); ("file_name", VStr n)] in
   call "getFileDef" = Some (CVal (VOpt (rec 0 []) (match getFileDef l with Some (f, n) => Some (rec f n) | None => None end)) VUnit)) /\
  (let rec t n := VRec [("type", VInt I32 t); ("line", VInt I32 n)] in
   call "getSourceInfoFromStabs" = Some (CVal (VOpt (rec 0 0) (match getSourceInfoFromStabs l with Some s => Some (rec (sb_type s) (sb_line s)) | None => None end)) VUnit)) /\
  (let rec f n e := VRec [("file", VStr f); ("file_idx", VInt I32 0); ("line", VInt I32 n); ("column", VInt I32 0);
                          ("is_end", VBool e); ("is_usercode", VBool false); ("inside_proc", VBool false)] in
   call "get6502DbgInfo" = Some (CVal (VOpt (rec [] 0 false) (match get6502DbgInfo l with Some (f, n, e) => Some (rec f n e) | None => None end)) VUnit)) /\
  call "getD2FileInfo" = Some (CVal (VOpt (VRec [("file", VStr [])]) (option_map (fun s => VRec [("file", VStr s)]) (getD2FileInfo l))) VUnit) /\
  call "getD2LineInfo" = Some (CVal (VOpt (VRec [("line", VInt I32 0)]) (option_map (fun s => VRec [("line", VInt I32 s)]) (getD2LineInfo l))) VUnit).
Proof.
  intros N mb order d l call. unfold call. repeat match goal with |- _ /\ _ => split end; cbv zeta; rewrite call_A; f_equal.
  - rewrite src_getSourceRef. now destruct (getSourceRef l) as [[f n] c].
  - rewrite src_getFileDef. now destruct (getFileDef l) as [[f n]|].
  - rewrite src_getSourceInfoFromStabs. now destruct (getSourceInfoFromStabs l) as [s|].
  - rewrite src_get6502DbgInfo. now destruct (get6502DbgInfo l) as [[[f n] e]|].
  - apply src_getD2FileInfo.
  - apply src_getD2LineInfo.
Qed.
Print Assumptions text_places_are_their_source.

(** The functions that go through a line character by character. *)
Theorem text_scanners_are_their_source :
  forall N mb order d l, (forall s, mb s <= Z.of_nat (length s)) ->
  (length l < N)%nat -> Z.of_nat (length l) < 2 ^ 31 -> (length l <= d)%nat ->
  let call f args := call_text text_sources N mb order (S (S (S (S d)))) f VUnit args in
  let text r := Some (CVal (VStr r) VUnit) in
  (forall c, call "is_whitespace" [VChr c] = Some (CVal (VBool (is_whitespace c)) VUnit)) /\
  call "expandTabs" [VStr l] = text (expandTabs l) /\
  call "ltrim" [VStr l] = Some (CVal VUnit (VBrace [VUnit; VStr (ltrim l)])) /\
  call "ustrlen" [VStr l] = Some (CVal (VInt U64 (ustrlen mb l)) VUnit) /\
  call "getLineWithoutComment" [VStr l] = text (getLineWithoutComment l) /\
  call "getLineWithoutCommentAndStripFirstWord" [VStr l] = text (getLineWithoutCommentAndStripFirstWord l) /\
  call "is_probably_label" [VStr l] = Some (CVal (VBool (is_probably_label l)) VUnit) /\
  call "fixLabelIndentation" [VStr l] = text (fixLabelIndentation l) /\
  (forall nvcc, call "hasOpcode" [VStr l; VBool nvcc] = Some (CVal (VBool (hasOpcode l nvcc)) VUnit)) /\
  (forall b, call "squashHorizontalWhitespace" [VStr l; VBool b] = text (squashHorizontalWhitespace l b)) /\
  (forall b, call "squashHorizontalWhitespaceWithQuotes" [VStr l; VBool b] = text (squashHorizontalWhitespaceWithQuotes l b)) /\
  (forall flt, call "shouldIgnoreFunction" [VStr l; encF flt] = Some (CVal (VBool (shouldIgnoreFunction l flt)) VUnit)) /\
  call "getUsedLabelsInLine" [VStr l] =
    (let rec n s e := VRec [("name", VStr n); ("range", VRec [("start_col", VInt U16 s); ("end_col", VInt U16 e)])] in
     Some (CVal (VVec (rec [] 0 0)
       (map (fun x => rec (lb_name x) (r_start (lb_range x)) (r_end (lb_range x))) (getUsedLabelsInLine mb l))) VUnit)).
Proof.
  intros N mb order d l Hmb HN HL Hd call text. unfold text, call.
  repeat match goal with |- _ /\ _ => split end; intros; cbv zeta; rewrite call_A; f_equal.
  - apply src_is_whitespace.
  - apply src_expandTabs. lia.
  - apply src_ltrim.
  - apply src_ustrlen; [exact Hmb|lia|exact HN].
  - now apply src_getLineWithoutComment.
  - now apply src_getLineWithoutCommentAndStripFirstWord.
  - now apply src_is_probably_label.
  - now apply src_fixLabelIndentation.
  - now apply src_hasOpcode.
  - apply src_squashHorizontalWhitespace.
  - apply src_squashHorizontalWhitespaceWithQuotes. lia.
  - apply src_shouldIgnoreFunction.
  - rewrite src_getUsedLabelsInLine by assumption. reflexivity.
Qed.
Print Assumptions text_scanners_are_their_source.

(** The text of the program run on lines. *)
Definition ascii_mb (s : str) : Z := match s with [] => 0 | _ => 1 end.
Definition chars (s : string) : str := list_ascii_of_string s.
Example text_getLabel_run : A 100 ascii_mb (fun _ => []) 3 "getLabel" VUnit [VStr (chars "main: # x")] = CVal (VOpt (VStr []) (Some (VStr (chars "main")))) VUnit.
Proof. vm_compute. reflexivity. Qed.
Example text_getSourceRef_run : A 100 ascii_mb (fun _ => []) 3 "getSourceRef" VUnit [VStr (chars " .loc 1 23 4")] =
  CVal (VRec [("file_index", VInt I32 1); ("line_index", VInt I32 23); ("column", VInt I32 4)]) VUnit.
Proof. vm_compute. reflexivity. Qed.
Example text_used_run : A 100 ascii_mb (fun _ => []) 5 "getUsedLabelsInLine" VUnit [VStr (chars "  jmp .L4")] =
  CVal (VVec pLabel [VRec [("name", VStr (chars ".L4")); ("range", VRec [("start_col", VInt U16 7); ("end_col", VInt U16 10)])]]) VUnit.
Proof. vm_compute. reflexivity. Qed.
Example text_squash_run : A 100 ascii_mb (fun _ => []) 30 "squashHorizontalWhitespaceWithQuotes" VUnit [VStr (chars "   a   ""b  c""   d"); VBool true] =
  CVal (VStr (chars "  a ""b  c""  d")) VUnit.
Proof. vm_compute. reflexivity. Qed.
