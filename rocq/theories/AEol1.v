(** AssemblyTextParser::eol (parser.cpp:297-365), one statement after the other. *)
From Coq Require Import String List ZArith Ascii Bool Lia.
From Verif Require Import Bytes Types Utils AsmText CppSyntax SourceText SourceAst PropPatterns CppSem AStep AUtil AScan ALine ASquash AUsed AMap AObj ABack AHand ALabel.
Import ListNotations.
Local Open Scope string_scope.
Local Open Scope Z_scope.

Fixpoint seq_nth (n : nat) (s : stmt) : stmt :=
  match s with SSeq a b => match n with O => a | S k => seq_nth k b end | _ => s end.
Ltac stmt :=
  match goal with |- context [seq_nth ?k ?b] => let x := eval cbv [seq_nth assembly_parser_eol] in (seq_nth k b) in change (seq_nth k b) with x end.
Ltac fcbn := cbn [f_binary f_unused_labels f_library_functions f_directives f_comment_only f_whitespace f_plt f_dont_mask_filenames f_compatmode f_code_only] in *.
Ltac gof := gor; fcbn.
(** the method call [H] is about *)
Ltac meth H :=
  match type of H with AStep.A _ _ _ _ ?f ?o _ = _ =>
    match goal with |- context [AStep.A _ _ _ _ f ?o' _] => change o' with o end end; rewrite H.
Ltac norms := cbn [lv_text lv_labels lv_is_label lv_has_opcode lv_is_data lv_is_assignment lv_label lv_source lv_section lv_closest_parent_label lv_is_directive lv_is_inline_asm
  t_text t_lines t_currentSourceRef t_currentSection t_inCustomAssembly t_inNvccCode t_inNvccDef t_previousParentLabel t_filteredlines t_hasStartedCommentBlock t_currentFilename t_keepInlineCode t_mayRemovePreviousLabel t_lastOwnSource sv_line v_str] in *.

Definition E0 (t : str) (o : val) : env := [("line", VStr t); ("this", o)].
Definition E1 (h : bool) (t : str) (o : val) : env := [("handledSourceDirective", VBool h); ("line", VStr t); ("this", o)].


Section Eol.
Variables (N : nat) (mb : str -> Z) (order : val -> list val) (flt : Filter) (rep : bool) (vis : list str) (d : nat).
Notation D := (S (S (S (S d)))).
Notation A := (A N mb order).
Notation enc s := (enc flt rep s vis).
Notation exec n e := (exec N mb asm_tys isfn ismeth (A D) (seq_nth n assembly_parser_eol) e).
Ltac dsf := destruct flt as [g1 g2 g3 g4 g5 g6 g7 g8 g9 g10]; fcbn.

Lemma eol_0 s : 0 <= t_total_lines s < 2 ^ 62 -> exec 0 [("this", enc s)] = Val Next [("this", enc (set_t_total_lines (t_total_lines s + 1) s))].
Proof.
  intros HT. stmt. dst s. cbn [t_total_lines] in *. destruct cur as [l|]; [dsl l|]; gor.
  all: unfold norm, wrap_u; rewrite ?Z.mod_small by (clear - HT; lia); reflexivity.
Qed.
Lemma eol_1 s : exec 1 [("this", enc s)] = Val Next [("this", enc (on (line_v0 (t_next_id s)) s))].
Proof. stmt. dst s. destruct cur as [l|]; [dsl l|]; gor; reflexivity. Qed.
Lemma eol_2 l s : exec 2 [("this", enc (on l s))] = Val Next (E0 (t_text s) (enc (on l s))).
Proof. stmt. dst s. dsl l. unplain. gor. reflexivity. Qed.
(** the comment block *)
Lemma eol_3 l s : exec 3 (E0 (t_text s) (enc (on l s))) =
  let '(remove, s') := commentBlock flt s in
  if remove then Val (Returned VUnit) (E0 (t_text s) (enc (on l (set_t_text [] s')))) else Val Next (E0 (t_text s) (enc (on l s'))).
Proof.
  unfold E0. stmt. unfold commentBlock. dst s. dsl l. norms. unplain. dsf. gof.
  destruct g5; [|gor; reflexivity].
  pose proof (src_startCommentBlock N mb order (S (S (S d))) text) as H1. pose proof (src_endCommentBlock N mb order (S (S (S d))) text) as H2.
  destruct f_block; cbn [negb t_hasStartedCommentBlock].
  - gor. rewrite H2. gor. reflexivity.
  - gor. rewrite H1. unfold set_t_hasStartedCommentBlock. norms. destruct (startCommentBlock text); gor; [|reflexivity].
    rewrite H2. gor. reflexivity.
Qed.
(** an empty line *)
Lemma eol_4 t l s : Z.of_nat (length (t_lines s)) < 2 ^ 62 -> exec 4 (E0 t (enc (on l s))) =
  if isEmptyOrJustWhitespace t then Val (Returned VUnit) (E0 t (enc (on l (maybeAddBlank s)))) else Val Next (E0 t (enc (on l s))).
Proof.
  intros HL. pose proof (src_isEmptyOrJustWhitespace N mb order flt rep vis (S (S d)) l s t) as H.
  pose proof (src_maybeAddBlank N mb order flt rep vis (S (S (S d))) l s HL) as H2. clear HL.
  set (s' := maybeAddBlank s) in *. clearbody s'. unfold E0. stmt. dst s. dsl l. unplain. gor. meth H.
  destruct (isEmptyOrJustWhitespace t); gor; [|reflexivity]. meth H2. gor. reflexivity.
Qed.
(** blocks of inline assembly *)
Lemma eol_5 l s : - 2 ^ 30 < t_inCustomAssembly s < 2 ^ 30 -> exec 5 (E0 (t_text s) (enc (on l s))) = Val Next (E0 (t_text s) (enc (on l (customAssembly s)))).
Proof.
  intros HC. unfold E0. stmt. unfold customAssembly. dst s. dsl l. norms. unplain.
  pose proof (src_startAppBlock N mb order (S (S (S d))) text) as H1. pose proof (src_startAsmNesting N mb order (S (S (S d))) text) as H2.
  pose proof (src_endAppBlock N mb order (S (S (S d))) text) as H3. pose proof (src_endAsmNesting N mb order (S (S (S d))) text) as H4.
  assert (F1 : fits I32 (custom + 1) = true) by (clear - HC; unfold fits, INT_MIN, INT_MAX; lia).
  assert (F2 : fits I32 (custom - 1) = true) by (clear - HC; unfold fits, INT_MIN, INT_MAX; lia).
  clear HC. gor. rewrite H1. gor. destruct (startAppBlock text); cbn [orb]; gor.
  { rewrite F1. gor. reflexivity. }
  rewrite H2. gor. destruct (startAsmNesting text); gor.
  { rewrite F1. gor. reflexivity. }
  rewrite H3. gor. destruct (endAppBlock text); cbn [orb]; gor.
  { rewrite F2. gor. reflexivity. }
  rewrite H4. gor. destruct (endAsmNesting text); gor; [|reflexivity].
  rewrite F2. gor. reflexivity.
Qed.
(** the text of the line *)
Lemma eol_6 l s : let line := if 0 <? t_inCustomAssembly s then fixLabelIndentation (t_text s) else t_text s in
  (length (t_text s) < N)%nat -> Z.of_nat (length line) < 2 ^ 32 -> (length (expandTabs line) <= S d)%nat ->
  exec 6 (E0 (t_text s) (enc (on l s))) = Val Next (E0 (t_text s) (enc (on (set_lv_text (filteredLine flt s) l) s))).
Proof.
  intros line HN HL Hd. 
  pose proof (src_fixLabelIndentation N mb order d (t_text s) HN) as H1.
  pose proof (src_expandTabs N mb order (S (S (S d))) line HL) as H2.
  pose proof (src_squashHorizontalWhitespaceWithQuotes N mb order (S d) (expandTabs line) true Hd) as H3.
  unfold E0. stmt. unfold filteredLine. change (if 0 <? t_inCustomAssembly s then fixLabelIndentation (t_text s) else t_text s) with line.
  assert (Hl : line = if 0 <? t_inCustomAssembly s then fixLabelIndentation (t_text s) else t_text s) by reflexivity. clearbody line. clear HN HL Hd.
  dst s. dsl l. norms. unplain. dsf. gof.
  change (norm I32 0) with 0. destruct (0 <? custom); subst line; gor.
  - rewrite H1. gor. rewrite H2. gor. destruct g6; gor; [|reflexivity]. rewrite H3. gor. reflexivity.
  - rewrite H2. gor. destruct g6; gor; [|reflexivity]. rewrite H3. gor. reflexivity.
Qed.
End Eol.
