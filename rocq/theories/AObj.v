(** The functions of src/assembly/parser.cpp that deal with one line: the interpreter
    of CppSem.v on the syntax trees of their text gives what AsmText.v says. *)
From Coq Require Import String List ZArith Ascii Bool Lia.
From Verif Require Import Bytes Types Utils AsmText CppSyntax SourceText SourceAst PropPatterns CppSem AStep AUtil AScan ALine ASquash AUsed AMap.
Import ListNotations.
Local Open Scope string_scope.
Local Open Scope Z_scope.

Ltac dsl l := destruct l as [l_id l_text [l_section_o l_section] l_labels l_opcodes l_parent l_isl l_isi [l_label_o l_label]
  [[l_file_o l_file] l_idx l_line l_column l_end l_user l_proc] l_addr l_u1 l_u2 l_u3 l_data l_inline l_op l_dir l_asg].
Ltac dst s := destruct s as [f_stop f_markers f_block f_may f_keep [[w_file_o w_file] w_idx w_line w_column w_end w_user w_proc] f_def f_code custom
  [[s_file_o s_file] s_idx s_line s_column s_end s_user s_proc] [prev_o prev] [parent_o parent] [same_o same] text [fname_o fname] [section_o section] [sfile_o sfile]
  cur flines files lines ldef ucode used dused weak alias total nid].

(** the object while the line [l] is being made *)
Definition on (l : asm_line_v) (s : tstate) : tstate := set_t_currentLine (Some l) s.
Ltac use H := let E := fresh in pose proof H as E; unfold names, tests in E; rewrite E; clear E.
(** m[k].insert(v), m[k] = v *)
Ltac chk := intros; cbv beta; match goal with |- ?l = _ => let r := ev l in change l with r; reflexivity end.
Ltac insert M k v :=
  match goal with |- context [exec ?n ?m asm_tys isfn ismeth ?c (SExpr (ECall (EMem (EIdx ?X ?K) "insert") [?V])) ?e] =>
    let p := ev (place X e) in
    let x := eval pattern (encMS M) in e in
    lazymatch constr:((p, x)) with (Some (?y, ?q), ?E _) =>
      let H := fresh in
      assert (H : exec n m asm_tys isfn ismeth c (SExpr (ECall (EMem (EIdx X K) "insert") [V])) e = Val Next (E (encMS (map_set_insert M k v))));
      [apply (exec_insert_enc n m c X K V y q E k v M); chk | rewrite H; clear H; cbv beta; go]
    end
  end.
Ltac assign_with L c0 :=
  match goal with |- context [exec ?n ?m asm_tys isfn ismeth ?c (SExpr (EAsg "=" (EIdx ?X ?K) ?V)) ?e] =>
    let p := ev (place X e) in
    let x := eval pattern c0 in e in
    lazymatch constr:((p, x)) with (Some (?y, ?q), ?E _) => L n m c X K V y q E end
  end.
Ltac files_assign M i f :=
  assign_with ltac:(fun n m c X K V y q E => let H := fresh in
     assert (H : exec n m asm_tys isfn ismeth c (SExpr (EAsg "=" (EIdx X K) V)) (E (encFiles M)) = Val Next (E (encFiles (files_assign M i f))));
     [apply (exec_files_enc n m c X K V y q E i f M); chk | cbv beta in H; rewrite H; clear H; go]) constr:(encFiles M).
Ltac plain :=
  match goal with |- AStep.A _ _ _ _ _ (AStep.enc _ _ ?S _) _ = _ =>
    let S' := eval cbv [on set_t_currentLine t_stopParsing t_hasProcMarkers t_hasStartedCommentBlock t_mayRemovePreviousLabel t_keepInlineCode t_lastOwnSource t_inNvccDef t_inNvccCode t_inCustomAssembly t_currentSourceRef t_previousLabel t_previousParentLabel t_previousLabelOnSameAddress t_text t_currentFilename t_currentSection t_currentSourceFile t_currentLine t_filteredlines t_files t_lines t_labels_defined t_usercode_labels t_used_labels t_data_used_labels t_weakly_used_labels t_aliased_labels t_total_lines t_next_id] in S in change S with S' end.
Ltac as_state V :=
  match goal with |- context [AStep.A _ _ _ _ _ (VRec ?l) _] => change (VRec l) with V end.

Section Functions.
Variables (N : nat) (mb : str -> Z) (order : val -> list val) (flt : Filter) (rep : bool) (vis : list str).
Notation A := (A N mb order).
Notation enc s := (enc flt rep s vis).
(** parser.cpp:20-25 *)
Lemma src_str_contains d s c : Z.of_nat (length s) < 2 ^ 31 -> A (S d) "str_contains" VUnit [VStr s; VChr c] = CVal (VBool (str_contains s c)) VUnit.
Proof. intros H. enter. go. rewrite find_char by exact H. unfold str_contains. destruct (has_char c s); reflexivity. Qed.
(** parser.cpp:521-524 *)
Lemma src_isInternalLabel d l s x : A (S d) "isInternalLabel" (enc (on l s)) [VStr x] = CVal (VBool (isInternalLabel x)) (enc (on l s)).
Proof. unfold isInternalLabel, lit. cbn [list_ascii_of_string]. dsl l. dst s. plain. enter. goes; reflexivity. Qed.
(** parser.cpp:27-50 *)
Lemma src_handleStabs d l s x : A (S (S d)) "handleStabs" (enc (on l s)) [VStr x] =
  CVal (VBool (is_some (handleStabs x s))) (enc (on l (match handleStabs x s with Some s' => s' | None => s end))).
Proof.
  unfold handleStabs. dsl l. dst s. plain. enter. go. rewrite src_getSourceInfoFromStabs. destruct (getSourceInfoFromStabs x) as [[ty li]|]; cbn [option_map encStabn sb_type sb_line].
  - unfold encStabn. cbn [sb_type sb_line].  goes; reflexivity.
  - goes; reflexivity.
Qed.

(** parser.cpp:52-64 *)
Lemma src_handleFiledef d l s x : A (S (S d)) "handleFiledef" (enc (on l s)) [VStr x] =
  CVal (VBool (is_some (handleFiledef x s))) (enc (on l (match handleFiledef x s with Some s' => s' | None => s end))).
Proof.
  unfold handleFiledef. dsl l. dst s. plain. enter. go. rewrite src_getFileDef. destruct (getFileDef x) as [[i f]|]; cbn [option_map]; unfold encFileDef; cbn [fst snd].
  - go. files_assign files i f. reflexivity.
  - goes; reflexivity.
Qed.
(** parser.cpp:190-200 *)
Lemma src_handleSection d l s : A (S (S d)) "handleSection" (enc (on l s)) [VStr (lv_text l)] =
  CVal (VBool (is_some (getSectionNameDef (lv_text l)))) (enc (on l (handleSection l s))).
Proof.
  unfold handleSection. dsl l. dst s. plain. cbn [lv_text]. enter. go. use (src_getSectionNameDef N mb order d l_text). destruct (getSectionNameDef l_text) as [n|]; cbn [option_map].
  - go. reflexivity.
  - go. reflexivity.
Qed.
(** parser.cpp:173-188 *)
Lemma src_handle6502 d l s : A (S (S d)) "handle6502" (enc (on l s)) [VStr (lv_text l)] =
  CVal (VBool (is_some (handle6502 l s))) (enc (on l (match handle6502 l s with Some s' => s' | None => s end))).
Proof.
  unfold handle6502. dsl l. dst s. plain. cbn [lv_text]. enter. go. rewrite src_get6502DbgInfo. destruct (get6502DbgInfo l_text) as [[[f n] e]|]; cbn [option_map]; unfold enc6502.
  - go. br; go; reflexivity.
  - go. reflexivity.
Qed.
(** parser.cpp:86-117 *)
Lemma src_getLabelFromLine d l s : A (S (S d)) "getLabelFromLine" (enc (on l s)) [VStr (lv_text l)] =
  let '(f, l', s') := getLabelFromLine l s in CVal (VOpt (VStr []) (option_map encV f)) (enc (on l' s')).
Proof.
  unfold getLabelFromLine. dsl l. dst s. plain. cbn [lv_text]. enter. go. use (src_getLabel N mb order d l_text). destruct (getLabel l_text) as [n|]; cbn [option_map].
  { go. reflexivity. }
  go. use (src_getLabelAssignment N mb order d l_text). destruct (getLabelAssignment l_text) as [n|]; cbn [option_map].
  { go. reflexivity. }
  go. use (src_getAssignmentDef N mb order d l_text). destruct (getAssignmentDef l_text) as [n|]; cbn [option_map].
  { go. reflexivity. }
  go. use (src_getCudaLabel N mb order d l_text). destruct (getCudaLabel l_text) as [n|]; cbn [option_map]; go; reflexivity.
Qed.
(** parser.cpp:202-218 *)
Lemma src_extractUsedLabelsFromDirective d l s : A (S (S d)) "extractUsedLabelsFromDirective" (enc (on l s)) [VStr (lv_text l)] =
  CVal VUnit (enc (on l (extractUsedLabelsFromDirective l s))).
Proof.
  unfold extractUsedLabelsFromDirective. dsl l. dst s. plain. cbn [lv_text]. enter. go.
  use (src_getWeakDefinedLabel N mb order d l_text). destruct (getWeakDefinedLabel l_text) as [n|]; cbn [option_map].
  - go. insert used (mkView (OLine l_id) n) (mkView prev_o prev). reflexivity.
  - go. use (src_getGlobalDefinedLabel N mb order d l_text). destruct (getGlobalDefinedLabel l_text) as [n|]; cbn [option_map].
    + go. insert used (mkView (OLine l_id) n) (mkView prev_o prev).
      rewrite (set_put_enc (mkView (OLine l_id) n)). reflexivity.
    + go. reflexivity.
Qed.
End Functions.
