(** C117: the methods of the text parser that deal with one line are what the text of
    their source says.

    The program is that of PropTextSource.v.  [object] is the parser object of the model
    state [s] in which the line [l] is being made ([on l s]); each method, run by the
    interpreter of CppSem.v on that object, gives the answer of the model function of
    the same name, and leaves the object of the state that function computes.  The sole
    conditions are that the loops may go round as often as there are lines or characters,
    and lengths below 2^31. *)
From Coq Require Import String List ZArith Ascii Bool Lia.
From Verif Require Import Bytes Types Utils AsmText CppSyntax SourceText SourceAst CppSem AStep AUtil AScan ALine ASquash AUsed AMap AObj ABack AHand ALabel PropTextSource.
Import ListNotations.
Local Open Scope string_scope.
Local Open Scope Z_scope.

(** The methods for directives (parser.cpp:27-84, 140-218). *)
Theorem text_directive_methods_are_their_source :
  forall N mb order d flt rep vis l s, (length (t_lines s) < N)%nat ->
  let object l s := enc flt rep (set_t_currentLine (Some l) s) vis in
  let call f := call_text text_sources N mb order (S (S d)) f (object l s) [VStr (lv_text l)] in
  (* the method answers whether it handled the line, and changes nothing if not *)
  let handler f (r : option tstate) := call f = Some (CVal (VBool (is_some r)) (object l (match r with Some s' => s' | None => s end))) in
  handler "handleFiledef" (handleFiledef (lv_text l) s) /\
  handler "handleSource" (handleSource (lv_text l) s) /\
  handler "handleStabs" (handleStabs (lv_text l) s) /\
  handler "handle6502" (handle6502 l s) /\
  handler "handleD2" (handleD2 l s) /\
  call "handleSection" = Some (CVal (VBool (is_some (getSectionNameDef (lv_text l)))) (object l (handleSection l s))) /\
  call "extractUsedLabelsFromDirective" = Some (CVal VUnit (object l (extractUsedLabelsFromDirective l s))).
Proof.
  intros N mb order d flt rep vis l s HN object call handler. unfold handler, call, object.
  repeat match goal with |- _ /\ _ => split end; rewrite call_A; f_equal.
  - apply src_handleFiledef. - apply src_handleSource, HN. - apply src_handleStabs. - apply src_handle6502. - apply src_handleD2, HN.
  - apply src_handleSection. - apply src_extractUsedLabelsFromDirective.
Qed.
Print Assumptions text_directive_methods_are_their_source.

(** The methods that go over the lines read so far (parser.cpp:119-138, 526-570). *)
Theorem text_line_methods_are_their_source :
  forall N mb order d flt rep vis l s, (length (t_lines s) < N)%nat -> Z.of_nat (length (t_lines s)) < 2 ^ 62 ->
  let object l s := enc flt rep (set_t_currentLine (Some l) s) vis in
  let call f args := call_text text_sources N mb order (S (S d)) f (object l s) args in
  let leaves r s' := Some (CVal r (object l s')) in
  (forall src, call "amendPreviousLinesWith" [encSrc src] = leaves VUnit (amendPreviousLinesWith src s)) /\
  call "markPreviousInternalLabelAsInsideProc" [] = leaves VUnit (markPreviousInternalLabelAsInsideProc s) /\
  call "maybeAddBlank" [] = leaves VUnit (maybeAddBlank s) /\
  (forall x, call "isEmptyOrJustWhitespace" [VStr x] = leaves (VBool (isEmptyOrJustWhitespace x)) s) /\
  (forall x, call "isInternalLabel" [VStr x] = leaves (VBool (isInternalLabel x)) s).
Proof.
  intros N mb order d flt rep vis l s HN HL object call leaves. unfold leaves, call, object.
  repeat match goal with |- _ /\ _ => split end; intros; rewrite call_A; f_equal.
  - now apply src_amendPreviousLinesWith.
  - apply src_markPrevious. lia.
  - now apply src_maybeAddBlank.
  - apply src_isEmptyOrJustWhitespace.
  - apply src_isInternalLabel.
Qed.
Print Assumptions text_line_methods_are_their_source.

(** The methods for labels (parser.cpp:86-117, 220-295). *)
Theorem text_label_methods_are_their_source :
  forall N mb order d flt rep vis l s, (forall s, mb s <= Z.of_nat (length s)) ->
  (length (lv_text l) < N)%nat -> Z.of_nat (length (lv_text l)) < 2 ^ 31 -> Z.of_nat (length (t_lines s)) < 2 ^ 62 ->
  let object l s := enc flt rep (set_t_currentLine (Some l) s) vis in
  let call f args := call_text text_sources N mb order (S (S (S (S d)))) f (object l s) args in
  let leaves r l' s' := Some (CVal r (object l' s')) in
  (let '(found, l', s') := getLabelFromLine l s in
   call "getLabelFromLine" [VStr (lv_text l)] = leaves (VOpt (VStr []) (option_map encV found)) l' s') /\
  (let '(l', s') := handleLabelDefinition l s in call "handleLabelDefinition" [VStr (lv_text l)] = leaves VUnit l' s') /\
  (let '(l', s') := extractUsedLabelsFromOpcodeLine mb l s in call "extractUsedLabelsFromOpcodeLine" [VStr (lv_text l)] = leaves VUnit l' s') /\
  (let '(l', s') := extractUsedLabelsFromDataLine mb l s in call "extractUsedLabelsFromDataLine" [VStr (lv_text l)] = leaves VUnit l' s') /\
  call "handleLabelAliasing" [] = leaves VUnit l (handleLabelAliasing l s).
Proof.
  intros N mb order d flt rep vis l s Hmb HN HL HS object call leaves. unfold leaves, call, object.
  repeat match goal with |- _ /\ _ => split end; rewrite ?call_A.
  - pose proof (src_getLabelFromLine N mb order flt rep vis (S (S d)) l s) as H. destruct (getLabelFromLine l s) as [[f l'] s']. f_equal. exact H.
  - pose proof (src_handleLabelDefinition N mb order flt rep vis (S d) l s HS) as H. destruct (handleLabelDefinition l s) as [l' s']. f_equal. exact H.
  - pose proof (src_extractUsedLabelsFromOpcodeLine N mb order flt rep vis Hmb d l s HN HL) as H. destruct (extractUsedLabelsFromOpcodeLine mb l s) as [l' s']. f_equal. exact H.
  - pose proof (src_extractUsedLabelsFromDataLine N mb order flt rep vis Hmb d l s HN HL) as H. destruct (extractUsedLabelsFromDataLine mb l s) as [l' s']. f_equal. exact H.
  - f_equal. apply src_handleLabelAliasing.
Qed.
Print Assumptions text_label_methods_are_their_source.

(** The text of the methods run on a parser object in use: two files, a line read. *)
Definition ex_line (t : string) : asm_line_v := set_lv_text (chars t) (line_v0 7%N).
Definition ex_label : asm_line_v := set_lv_is_internal_label true (set_lv_is_label true (set_lv_text (chars ".L2:") (line_v0 3%N))).
Definition ex_state : tstate := set_t_lines [ex_label] (set_t_files [(1, chars "a.c"); (2, chars "b.h")] tstate0).
Example text_filedef_run :
  A 100 ascii_mb (fun _ => []) 5 "handleFiledef" (enc no_filter false (on (ex_line "  .file 2 ""c.h""") ex_state) []) [VStr (chars "  .file 2 ""c.h""")] =
  CVal (VBool true) (enc no_filter false (on (ex_line "  .file 2 ""c.h""") (set_t_files [(1, chars "a.c"); (2, chars "c.h")] ex_state)) []).
Proof. vm_compute. reflexivity. Qed.
Example text_source_run :
  A 100 ascii_mb (fun _ => []) 5 "handleSource" (enc no_filter false (on (ex_line "  .loc 1 23 4") ex_state) []) [VStr (chars "  .loc 1 23 4")] =
  let r := mkSourceV view0 1 23 4 false false true in
  CVal (VBool true) (enc no_filter false (on (ex_line "  .loc 1 23 4")
    (set_t_lines [set_lv_source r ex_label] (set_t_currentSourceRef r (set_t_hasProcMarkers true ex_state)))) []).
Proof. vm_compute. reflexivity. Qed.
Example text_labels_run :
  A 100 ascii_mb (fun _ => []) 5 "extractUsedLabelsFromOpcodeLine"
    (enc no_filter false (on (ex_line "  jmp .L2") (set_t_previousParentLabel (mkView OHost (chars "f")) ex_state)) []) [VStr (chars "  jmp .L2")] =
  let v := mkView OHost (chars ".L2") in
  CVal VUnit (enc no_filter false (on (set_lv_labels [mkLabelV v (mkRange 7 10)] (ex_line "  jmp .L2"))
    (set_t_used_labels [(v, [mkView OHost (chars "f")])] (set_t_previousParentLabel (mkView OHost (chars "f")) ex_state))) []).
Proof. vm_compute. reflexivity. Qed.
