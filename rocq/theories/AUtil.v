(** The functions of src/utils the text parser calls: the interpreter of CppSem.v on
    the syntax trees of their text gives what Utils.v says. *)
From Coq Require Import String List ZArith Ascii Bool Lia.
From Verif Require Import Bytes Types Utils AsmText CppSyntax SourceText SourceAst PropPatterns CppSem AStep.
Import ListNotations.
Local Open Scope string_scope.
Local Open Scope Z_scope.

(** structures returned by the functions, line.hpp:13-17, 67-81, regexwrappers.hpp:12-17 *)
Definition encStabn (s : asm_stabn) : val := VRec [("type", VInt I32 (sb_type s)); ("line", VInt I32 (sb_line s))].
Definition encFileDef (d : Z * str) : val := VRec [("file_index", VInt I32 (fst d)); ("file_name", VStr (snd d))].
Definition encRef (d : Z * Z * Z) : val := VRec [("file_index", VInt I32 (fst (fst d))); ("line_index", VInt I32 (snd (fst d))); ("column", VInt I32 (snd d))].
Definition enc6502 (d : str * Z * bool) : val := let '(f, l, e) := d in encSrc (mkSourceV (mkView ONull f) 0 l 0 e false false).
Ltac by_text H := rewrite H; clear H;
  repeat match goal with |- context [Tests.T ?x] => let y := eval vm_compute in (Tests.T x) in change (Tests.T x) with y end.

Section Functions.
Variables (N : nat) (mb : str -> Z) (order : val -> list val).
Notation A := (A N mb order).
Definition tests (f : string) (g : str -> bool) : Prop := forall d l, A (S d) f VUnit [VStr l] = CVal (VBool (g l)) VUnit.
Definition names (f : string) (g : str -> option str) : Prop := forall d l, A (S d) f VUnit [VStr l] = CVal (VOpt (VStr []) (option_map VStr (g l))) VUnit.
Ltac test := let d := fresh "d" in let l := fresh "l" in let H := fresh "H" in
  intros d l; assert (H := patterns_of_tests l); decompose [and] H; clear H;
  match goal with E : ?g l = _ |- context [?g l] => rewrite E end; clear;
  enter; goes; try reflexivity.

(** ** the tests, regexwrappers.cpp:277-283, 350-420 and 506-553 *)
Lemma src_startCommentBlock : tests "startCommentBlock" startCommentBlock. Proof. test. Qed.
Lemma src_endCommentBlock : tests "endCommentBlock" endCommentBlock. Proof. test. Qed.
Lemma src_startAppBlock : tests "startAppBlock" startAppBlock. Proof. test. Qed.
Lemma src_endAppBlock : tests "endAppBlock" endAppBlock. Proof. test. Qed.
Lemma src_startAsmNesting : tests "startAsmNesting" startAsmNesting. Proof. test. Qed.
Lemma src_endAsmNesting : tests "endAsmNesting" endAsmNesting. Proof. test. Qed.
Lemma src_startProcBlock : tests "startProcBlock" startProcBlock. Proof. test. Qed.
Lemma src_endBlock : tests "endBlock" endBlock. Proof. test. Qed.
Lemma src_endProcBlock : tests "endProcBlock" endProcBlock. Proof. test. Qed.
Lemma src_isJustComments : tests "isJustComments" isJustComments. Proof. test. Qed.
Lemma src_isJustNvccComments : tests "isJustNvccComments" isJustNvccComments. Proof. test. Qed.
Lemma src_isCudaEndDef : tests "isCudaEndDef" isCudaEndDef. Proof. test. Qed.
Lemma src_isDataDefn : tests "isDataDefn" isDataDefn. Proof. test. Qed.
Lemma src_isDirective : tests "isDirective" isDirective. Proof. test. Qed.
Lemma src_isInstOpcode : tests "isInstOpcode" isInstOpcode. Proof. test. Qed.
Lemma src_isExampleOrStdin : tests "isExampleOrStdin" isExampleOrStdin. Proof. test. Qed.

(** ** the names, regexwrappers.cpp:422-504 *)
Ltac name := let d := fresh "d" in let l := fresh "l" in let H := fresh "H" in
  intros d l; assert (H := patterns_of_names l); decompose [and] H; clear H;
  match goal with E : ?g l = _ |- context [?g l] => rewrite E end; clear;
  repeat match goal with |- context [Tests.T ?x] => let y := eval vm_compute in (Tests.T x) in change (Tests.T x) with y end;
  enter; goes; try reflexivity.
Lemma src_getLabel : names "getLabel" getLabel. Proof. name. Qed.
Lemma src_getLabelAssignment : names "getLabelAssignment" getLabelAssignment. Proof. name. Qed.
Lemma src_getAssignmentDef : names "getAssignmentDef" getAssignmentDef. Proof. name. Qed.
Lemma src_getCudaLabel : names "getCudaLabel" getCudaLabel. Proof. name. Qed.
Lemma src_getFunctionTypeDefinedLabel : names "getFunctionTypeDefinedLabel" getFunctionTypeDefinedLabel. Proof. name. Qed.
Lemma src_getWeakDefinedLabel : names "getWeakDefinedLabel" getWeakDefinedLabel. Proof. name. Qed.
Lemma src_getGlobalDefinedLabel : names "getGlobalDefinedLabel" getGlobalDefinedLabel. Proof. name. Qed.

Lemma src_getSectionNameDef : names "getSectionNameDef" getSectionNameDef.
Proof. name. all: cbn [option_map]; match goal with H : str_eqb _ _ = _ |- _ => now rewrite H | _ => reflexivity end. Qed.
Lemma src_getD2FileInfo d l :
  A (S d) "getD2FileInfo" VUnit [VStr l] = CVal (VOpt (VRec [("file", VStr [])]) (option_map (fun s => VRec [("file", VStr s)]) (getD2FileInfo l))) VUnit.
Proof.
  destruct (patterns_of_names l) as (_ & _ & _ & _ & _ & _ & _ & H & _). by_text H. enter. goes; try reflexivity.
Qed.
Lemma src_getD2LineInfo d l :
  A (S d) "getD2LineInfo" VUnit [VStr l] = CVal (VOpt (VRec [("line", VInt I32 0)]) (option_map (fun s => VRec [("line", VInt I32 s)]) (getD2LineInfo l))) VUnit.
Proof.
  destruct (patterns_of_names l) as (_ & _ & _ & _ & _ & _ & _ & _ & H & _). by_text H. enter. goes; try reflexivity.
Qed.
(** ** the places, regexwrappers.cpp:8-45 and 285-323 *)
Lemma src_getSourceRef d l : A (S d) "getSourceRef" VUnit [VStr l] = CVal (encRef (getSourceRef l)) VUnit.
Proof.
  destruct (patterns_of_places l) as (H & _). by_text H. enter. goes; try reflexivity.
Qed.
Lemma src_getFileDef d l :
  A (S d) "getFileDef" VUnit [VStr l] = CVal (VOpt (encFileDef (0, [])) (option_map encFileDef (getFileDef l))) VUnit.
Proof.
  destruct (patterns_of_places l) as (_ & H & _). by_text H. enter. goes; try reflexivity.
  all: cbn [andb option_map]; rewrite ?app_nil_r; unfold encFileDef; cbn [fst snd]; destruct (cap 4 m); try reflexivity; discriminate.
Qed.
Lemma src_getSourceInfoFromStabs d l :
  A (S d) "getSourceInfoFromStabs" VUnit [VStr l] = CVal (VOpt (encStabn (mkStabn 0 0)) (option_map encStabn (getSourceInfoFromStabs l))) VUnit.
Proof.
  destruct (patterns_of_places l) as (_ & _ & H & _). by_text H. enter. goes; try reflexivity.
  all: cbn [option_map]; match goal with H : _ = true |- _ => rewrite H | H : _ = false |- _ => rewrite H end; reflexivity.
Qed.
Lemma src_get6502DbgInfo d l :
  A (S d) "get6502DbgInfo" VUnit [VStr l] = CVal (VOpt (enc6502 ([], 0, false)) (option_map enc6502 (get6502DbgInfo l))) VUnit.
Proof.
  destruct (patterns_of_places l) as (_ & _ & _ & H). by_text H. enter. goes; try reflexivity.
Qed.
(** regexwrappers.cpp:655-669 *)
Lemma src_shouldIgnoreFunction d f flt :
  A (S d) "shouldIgnoreFunction" VUnit [VStr f; encF flt] = CVal (VBool (shouldIgnoreFunction f flt)) VUnit.
Proof.
  destruct patterns_of_others as (_ & H & _). by_text H. enter. goes; try reflexivity.
Qed.
End Functions.
