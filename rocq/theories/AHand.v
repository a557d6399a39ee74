(** The functions of src/assembly/parser.cpp that call those of ABack.v. *)
From Coq Require Import String List ZArith Ascii Bool Lia.
From Verif Require Import Bytes Types Utils AsmText CppSyntax SourceText SourceAst PropPatterns CppSem AStep AUtil AScan ALine ASquash AUsed AMap AObj ABack.
Import ListNotations.
Local Open Scope string_scope.
Local Open Scope Z_scope.

Lemma last_cases {T} (l : list T) : l = [] \/ exists t x, l = (rev t ++ [x])%list /\ rev l = x :: t.
Proof.
  destruct (rev l) as [|x t] eqn:E; [left|right].
  - apply (f_equal (@rev T)) in E. rewrite rev_involutive in E. exact E.
  - exists t, x. split; [|reflexivity]. apply (f_equal (@rev T)) in E. rewrite rev_involutive in E. exact E.
Qed.
Lemma vec_last t x e : Z.of_nat (length (rev t ++ [x])) < 2 ^ 62 -> vec_at (encLs (rev t ++ [x])) (wrap_u 64 (Z.of_nat (length (encLs (rev t ++ [x]))) - 1)) e = Val (encL x) e.
Proof.
  intros H. rewrite encLs_length. rewrite app_length in *. cbn [length] in *. unfold vec_at.
  replace (wrap_u 64 (Z.of_nat (length (rev t) + 1) - 1)) with (Z.of_nat (length (rev t))).
  - replace (Z.of_nat (length (rev t)) <? 0) with false by lia. rewrite Nat2Z.id, nth_mid. reflexivity.
  - unfold wrap_u. rewrite Z.mod_small; lia.
Qed.
Ltac nonzero := match goal with |- context [Z.of_nat (length (encLs (?a ++ ?b))) =? ?z] =>
  replace (Z.of_nat (length (encLs (a ++ b))) =? z) with false by (change z with 0; rewrite encLs_length, app_length; cbn [length]; lia) end.
Ltac snocl l := match goal with |- context [(encLs ?a ++ [?v])%list] => change (encLs a ++ [v])%list with (encLs a ++ encLs [l])%list; rewrite <- (encLs_app a [l]) end.
Ltac unplain :=
  repeat match goal with |- ?lhs = _ =>
    match lhs with context [AStep.enc _ _ ?S _] => 
      lazymatch S with mkT _ _ _ _ _ _ _ _ _ _ _ _ _ _ _ _ _ _ _ _ _ _ _ _ _ _ _ _ _ => fail | _ => idtac end;
      let S' := eval cbv [on amendPreviousLinesWith t_stopParsing t_hasProcMarkers t_hasStartedCommentBlock t_mayRemovePreviousLabel t_keepInlineCode t_lastOwnSource t_inNvccDef t_inNvccCode t_inCustomAssembly t_currentSourceRef t_previousLabel t_previousParentLabel t_previousLabelOnSameAddress t_text t_currentFilename t_currentSection t_currentSourceFile t_currentLine t_filteredlines t_files t_lines t_labels_defined t_usercode_labels t_used_labels t_data_used_labels t_weakly_used_labels t_aliased_labels t_total_lines t_next_id set_t_stopParsing set_t_hasProcMarkers set_t_hasStartedCommentBlock set_t_mayRemovePreviousLabel set_t_keepInlineCode set_t_lastOwnSource set_t_inNvccDef set_t_inNvccCode set_t_inCustomAssembly set_t_currentSourceRef set_t_previousLabel set_t_previousParentLabel set_t_previousLabelOnSameAddress set_t_text set_t_currentFilename set_t_currentSection set_t_currentSourceFile set_t_currentLine set_t_filteredlines set_t_files set_t_lines set_t_labels_defined set_t_usercode_labels set_t_used_labels set_t_data_used_labels set_t_weakly_used_labels set_t_aliased_labels set_t_total_lines set_t_next_id lv_id lv_text lv_section lv_labels lv_opcodes lv_closest_parent_label lv_is_label lv_is_internal_label lv_label lv_source lv_address lv_is_used lv_is_used_through_alias lv_is_used_data_through_alias lv_is_data lv_is_inline_asm lv_has_opcode lv_is_directive lv_is_assignment set_lv_id set_lv_text set_lv_section set_lv_labels set_lv_opcodes set_lv_closest_parent_label set_lv_is_label set_lv_is_internal_label set_lv_label set_lv_source set_lv_address set_lv_is_used set_lv_is_used_through_alias set_lv_is_used_data_through_alias set_lv_is_data set_lv_is_inline_asm set_lv_has_opcode set_lv_is_directive set_lv_is_assignment sv_file sv_file_idx sv_line sv_column sv_is_end sv_is_usercode sv_inside_proc] in S in change S with S' end end.

Section Functions.
Variables (N : nat) (mb : str -> Z) (order : val -> list val) (flt : Filter) (rep : bool) (vis : list str).
Notation A := (A N mb order).
Notation enc s := (enc flt rep s vis).
(** parser.cpp:126-138 *)
Lemma src_isEmptyOrJustWhitespace d l s x : A (S (S d)) "isEmptyOrJustWhitespace" (enc (on l s)) [VStr x] = CVal (VBool (isEmptyOrJustWhitespace x)) (enc (on l s)).
Proof.
  unfold isEmptyOrJustWhitespace. dsl l. dst s. plain. enter. go. br; go.
  { destruct x; [reflexivity|discriminate]. }
  clear Heqb.
  match goal with |- context [for_in "c" ?b (map VChr x) ?e] =>
    assert (Loop : forall t, for_in "c" b (map VChr t) e = if forallb is_whitespace t then Val Next e else Val (Returned (VBool false)) e)
  end.
  { induction t as [|c t IH]; [reflexivity|]. cbn [map forallb for_in].
    match goal with |- rbind ?r ?f = ?rhs => let r' := run r in change (rbind r' f = rhs) end.
    rewrite src_is_whitespace.
    match goal with |- rbind ?r ?f = ?rhs => let r' := run r in change (rbind r' f = rhs) end.
    destruct (is_whitespace c); cbn [negb andb].
    - match goal with |- rbind ?r ?f = ?rhs => let r' := run r in change (rbind r' f = rhs) end. exact IH.
    - match goal with |- rbind ?r ?f = ?rhs => let r' := run r in change (rbind r' f = rhs) end. reflexivity. }
  rewrite Loop. destruct (forallb is_whitespace x); go; reflexivity.
Qed.
(** parser.cpp:119-124 *)
Lemma src_maybeAddBlank d l s : Z.of_nat (length (t_lines s)) < 2 ^ 62 -> A (S d) "maybeAddBlank" (enc (on l s)) [] = CVal VUnit (enc (on l (maybeAddBlank s))).
Proof.
  unfold maybeAddBlank, new_line. intros HL. destruct (last_cases (t_lines s)) as [E|(t & x & E & E2)].
  - dsl l. dst s. cbn [t_lines] in *. subst lines. plain. enter. go. reflexivity.
  - rewrite E2. dsl l. dst s. cbn [t_lines] in *. subst lines. clear E2. plain. enter. go.
    nonzero. go.
    rewrite vec_last by exact HL. dsx x. cbn [lv_text]. go. br; go; [reflexivity|]. snocl (line_v0 nid). reflexivity.
Qed.
(** parser.cpp:552-570 *)
Lemma src_markPrevious d l s : (0 < N)%nat -> 
  A (S d) "markPreviousInternalLabelAsInsideProc" (enc (on l s)) [] = CVal VUnit (enc (on l (markPreviousInternalLabelAsInsideProc s))).
Proof.
  intros HN. unfold markPreviousInternalLabelAsInsideProc. destruct N as [|k]; [lia|]. destruct (last_cases (t_lines s)) as [E|(t & x & E & E2)].
  - dsl l. dst s. cbn [t_lines] in *. subst lines. plain. enter. go.
    erewrite (while_end _ _ _ _ _ (VBool false)); [|gor; reflexivity|reflexivity]. go. reflexivity.
  - rewrite E2. dsl l. dst s. cbn [t_lines] in *. subst lines. clear E2. plain. enter. go.
    assert (Hni : Z.to_nat (Z.of_nat (length (encLs (rev t ++ [x]))) - 1 - 0) = length (rev t)) by (rewrite encLs_length, app_length; cbn [length]; lia).
    destruct (lv_is_label x) eqn:E1; [destruct (lv_is_internal_label x) eqn:E3|]; dsx x; cbn [lv_is_label lv_is_internal_label] in *; subst; cbn [andb].
    all: erewrite (while_break _ _ _ _ _ (VBool true)); [| gor; lens; reflexivity|reflexivity|]; [|repeat (gor; mid)].
    2: { setm (mkLineV x_id x_text (mkView x_section_o x_section) x_labels x_opcodes x_parent true true (mkView x_label_o x_label)
           (mkSourceV (mkView x_file_o x_file) x_idx x_line x_column x_end x_user true) x_addr x_u1 x_u2 x_u3 x_data x_inline x_op x_dir x_asg).
         repeat (gor; mid). reflexivity. }
    3: reflexivity. 4: reflexivity.
    all: go; reflexivity.
Qed.
(** parser.cpp:66-84 *)
Lemma src_handleSource d l s x : (length (t_lines s) < N)%nat -> A (S (S d)) "handleSource" (enc (on l s)) [VStr x] =
  CVal (VBool (is_some (handleSource x s))) (enc (on l (match handleSource x s with Some s' => s' | None => s end))).
Proof.
  intros HN. unfold handleSource. pose proof (src_amendPreviousLinesWith N mb order flt rep vis d) as Am. dsl l. dst s. cbn [t_lines] in HN. plain. enter. go. rewrite src_getSourceRef. destruct (getSourceRef x) as [[f n] c].
  unfold encRef. cbn [fst snd]. go. br; go.
  - reflexivity.
  - cbn [is_some]. 
    match goal with |- context [AStep.A _ _ _ _ "amendPreviousLinesWith" ?o [?a]] =>
      match goal with |- _ = CVal _ (AStep.enc _ _ (on ?L (amendPreviousLinesWith ?R ?S)) _) => change o with (enc (on L S)); change a with (encSrc R) end
    end.
    rewrite Am by exact HN. unplain. go. reflexivity.
Qed.
(** parser.cpp:140-171 *)
Lemma src_handleD2 d l s : (length (t_lines s) < N)%nat -> A (S (S d)) "handleD2" (enc (on l s)) [VStr (lv_text l)] =
  CVal (VBool (is_some (handleD2 l s))) (enc (on l (match handleD2 l s with Some s' => s' | None => s end))).
Proof.
  intros HN. unfold handleD2. pose proof (src_amendPreviousLinesWith N mb order flt rep vis d) as Am. dsl l. dst s. cbn [t_lines lv_text] in *. plain. enter. go.
  rewrite src_getD2LineInfo. destruct (getD2LineInfo l_text) as [n|]; cbn [option_map is_some].
  - go. use (src_isExampleOrStdin N mb order d sfile). go. 
    match goal with |- context [AStep.A _ _ _ _ "amendPreviousLinesWith" ?o [?a]] =>
      match goal with |- _ = CVal _ (AStep.enc _ _ (on ?L (amendPreviousLinesWith ?R ?S)) _) => change o with (enc (on L S)); change a with (encSrc R) end
    end.
    rewrite Am by exact HN. unplain. go. reflexivity.
  - go. rewrite src_getD2FileInfo. destruct (getD2FileInfo l_text) as [f|]; cbn [option_map is_some]; go; reflexivity.
Qed.
End Functions.
