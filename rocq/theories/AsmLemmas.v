(** The text parser: reading lines.  Reasoning tools. *)
From Verif Require Export AsmText Lemmas.

Ltac tsimp := cbn [t_stopParsing t_hasProcMarkers t_hasStartedCommentBlock t_mayRemovePreviousLabel t_keepInlineCode t_lastOwnSource t_inNvccDef t_inNvccCode t_inCustomAssembly t_currentSourceRef t_previousLabel t_previousParentLabel t_previousLabelOnSameAddress t_text t_currentFilename t_currentSection t_currentSourceFile t_currentLine t_filteredlines t_files t_lines t_labels_defined t_usercode_labels t_used_labels t_data_used_labels t_weakly_used_labels t_aliased_labels t_total_lines t_next_id set_t_stopParsing set_t_hasProcMarkers set_t_hasStartedCommentBlock set_t_mayRemovePreviousLabel set_t_keepInlineCode set_t_lastOwnSource set_t_inNvccDef set_t_inNvccCode set_t_inCustomAssembly set_t_currentSourceRef set_t_previousLabel set_t_previousParentLabel set_t_previousLabelOnSameAddress set_t_text set_t_currentFilename set_t_currentSection set_t_currentSourceFile set_t_currentLine set_t_filteredlines set_t_files set_t_lines set_t_labels_defined set_t_usercode_labels set_t_used_labels set_t_data_used_labels set_t_weakly_used_labels set_t_aliased_labels set_t_total_lines set_t_next_id] in *.
Ltac tsimp_goal := cbn [t_stopParsing t_hasProcMarkers t_hasStartedCommentBlock t_mayRemovePreviousLabel t_keepInlineCode t_lastOwnSource t_inNvccDef t_inNvccCode t_inCustomAssembly t_currentSourceRef t_previousLabel t_previousParentLabel t_previousLabelOnSameAddress t_text t_currentFilename t_currentSection t_currentSourceFile t_currentLine t_filteredlines t_files t_lines t_labels_defined t_usercode_labels t_used_labels t_data_used_labels t_weakly_used_labels t_aliased_labels t_total_lines t_next_id set_t_stopParsing set_t_hasProcMarkers set_t_hasStartedCommentBlock set_t_mayRemovePreviousLabel set_t_keepInlineCode set_t_lastOwnSource set_t_inNvccDef set_t_inNvccCode set_t_inCustomAssembly set_t_currentSourceRef set_t_previousLabel set_t_previousParentLabel set_t_previousLabelOnSameAddress set_t_text set_t_currentFilename set_t_currentSection set_t_currentSourceFile set_t_currentLine set_t_filteredlines set_t_files set_t_lines set_t_labels_defined set_t_usercode_labels set_t_used_labels set_t_data_used_labels set_t_weakly_used_labels set_t_aliased_labels set_t_total_lines set_t_next_id].
Ltac vsimp := cbn [lv_id lv_text lv_section lv_labels lv_opcodes lv_closest_parent_label lv_is_label lv_is_internal_label lv_label lv_source lv_address lv_is_used lv_is_used_through_alias lv_is_used_data_through_alias lv_is_data lv_is_inline_asm lv_has_opcode lv_is_directive lv_is_assignment set_lv_id set_lv_text set_lv_section set_lv_labels set_lv_opcodes set_lv_closest_parent_label set_lv_is_label set_lv_is_internal_label set_lv_label set_lv_source set_lv_address set_lv_is_used set_lv_is_used_through_alias set_lv_is_used_data_through_alias set_lv_is_data set_lv_is_inline_asm set_lv_has_opcode set_lv_is_directive set_lv_is_assignment] in *.
Ltac vsimp_goal := cbn [lv_id lv_text lv_section lv_labels lv_opcodes lv_closest_parent_label lv_is_label lv_is_internal_label lv_label lv_source lv_address lv_is_used lv_is_used_through_alias lv_is_used_data_through_alias lv_is_data lv_is_inline_asm lv_has_opcode lv_is_directive lv_is_assignment set_lv_id set_lv_text set_lv_section set_lv_labels set_lv_opcodes set_lv_closest_parent_label set_lv_is_label set_lv_is_internal_label set_lv_label set_lv_source set_lv_address set_lv_is_used set_lv_is_used_through_alias set_lv_is_used_data_through_alias set_lv_is_data set_lv_is_inline_asm set_lv_has_opcode set_lv_is_directive set_lv_is_assignment].

(** Splitting on everything a term branches on. *)
Ltac split_match :=
  match goal with
  | |- context [match ?x with _ => _ end] =>
      match x with
      | context [match _ with _ => _ end] => fail 1
      | _ => destruct x eqn:?
      end
  end.
Ltac split_match_in H :=
  match type of H with
  | context [match ?x with _ => _ end] =>
      match x with
      | context [match _ with _ => _ end] => fail 1
      | _ => destruct x eqn:?
      end
  end.

(** Two lines that differ at most in the source attribution. *)
Definition same_line (l l' : asm_line_v) : Prop := l' = set_lv_source (lv_source l') l.
Lemma same_line_refl l : same_line l l.
Proof. unfold same_line. destruct l. reflexivity. Qed.
Lemma same_line_set l src : same_line l (set_lv_source src l).
Proof. unfold same_line. destruct l. reflexivity. Qed.
Lemma same_line_trans a b c : same_line a b -> same_line b c -> same_line a c.
Proof. unfold same_line. intros -> ->. destruct a. reflexivity. Qed.
Lemma same_line_set_r a b src : same_line a b -> same_line a (set_lv_source src b).
Proof. intros H. eapply same_line_trans; [exact H|apply same_line_set]. Qed.
Definition same_lines : list asm_line_v -> list asm_line_v -> Prop := Forall2 same_line.
Lemma same_lines_refl l : same_lines l l.
Proof. induction l; constructor; auto using same_line_refl. Qed.
Lemma same_lines_trans a : forall b c, same_lines a b -> same_lines b c -> same_lines a c.
Proof.
  induction a as [|x a IH]; intros b c H1 H2; inversion H1; subst; inversion H2; subst; constructor; eauto using same_line_trans.
  eapply IH; eassumption.
Qed.
Lemma same_lines_app a b c d : same_lines a b -> same_lines c d -> same_lines (a ++ c) (b ++ d).
Proof. apply Forall2_app. Qed.
Lemma same_lines_rev a b : same_lines a b -> same_lines (rev a) (rev b).
Proof. induction 1; cbn; [constructor|]. apply same_lines_app; [assumption|]. repeat constructor. assumption. Qed.
Lemma same_lines_map {A} (f : asm_line_v -> A) a b : (forall src l, f (set_lv_source src l) = f l) -> same_lines a b -> map f a = map f b.
Proof. intros Hf. induction 1 as [|x y a b H _ IH]; [reflexivity|]. cbn. rewrite IH, H, Hf. reflexivity. Qed.
Lemma same_lines_length a b : same_lines a b -> length a = length b.
Proof. induction 1; cbn; congruence. Qed.

Lemma amend_same src rl : same_lines rl (amend_rev src rl).
Proof.
  induction rl as [|l t IH]; [constructor|]. cbn [amend_rev]. destruct (lv_is_label l); [|apply same_lines_refl].
  destruct (lv_is_internal_label l); cbn [negb]; (constructor; [apply same_line_set|]); [exact IH|apply same_lines_refl].
Qed.
Lemma amend_lines src s : same_lines (t_lines s) (t_lines (amendPreviousLinesWith src s)).
Proof.
  unfold amendPreviousLinesWith. tsimp. rewrite <- (rev_involutive (t_lines s)) at 1. apply same_lines_rev, amend_same.
Qed.
Lemma mark_proc_lines s : same_lines (t_lines s) (t_lines (markPreviousInternalLabelAsInsideProc s)).
Proof.
  unfold markPreviousInternalLabelAsInsideProc. destruct (rev (t_lines s)) as [|l t] eqn:E; [apply same_lines_refl|].
  destruct (_ && _); [|apply same_lines_refl]. tsimp. rewrite <- (rev_involutive (t_lines s)), E. cbn [rev].
  apply same_lines_app; [apply same_lines_refl|]. constructor; [apply same_line_set|constructor].
Qed.

(** What the steps before a line is classified leave alone. *)
Record quiet (s s1 : tstate) : Prop := {
  q_lines : same_lines (t_lines s) (t_lines s1);
  q_filtered : t_filteredlines s1 = t_filteredlines s;
  q_defined : t_labels_defined s1 = t_labels_defined s;
  q_usercode : t_usercode_labels s1 = t_usercode_labels s;
  q_used : t_used_labels s1 = t_used_labels s;
  q_data : t_data_used_labels s1 = t_data_used_labels s;
  q_weak : t_weakly_used_labels s1 = t_weakly_used_labels s;
  q_alias : t_aliased_labels s1 = t_aliased_labels s;
  q_parent : t_previousParentLabel s1 = t_previousParentLabel s;
  q_same : t_previousLabelOnSameAddress s1 = t_previousLabelOnSameAddress s;
  q_text : t_text s1 = t_text s;
  q_stop : t_stopParsing s1 = t_stopParsing s;
  q_own : t_lastOwnSource s1 = t_lastOwnSource s \/ t_lastOwnSource s1 = source_v0;
  q_name : t_currentFilename s1 = t_currentFilename s;
  q_nvdef : t_inNvccDef s1 = t_inNvccDef s;
  q_nvcode : t_inNvccCode s1 = t_inNvccCode s;
  q_inline : t_keepInlineCode s1 = t_keepInlineCode s;
  q_total : t_total_lines s1 = t_total_lines s;
  q_id : t_next_id s1 = t_next_id s;
  q_prev : t_previousLabel s1 = t_previousLabel s \/ t_previousLabel s1 = view0 }.
Lemma quiet_refl s : quiet s s.
Proof. constructor; auto using same_lines_refl. Qed.
Lemma quiet_trans a b c : quiet a b -> quiet b c -> quiet a c.
Proof.
  intros [] []. constructor; try congruence; [eapply same_lines_trans; eassumption| |].
  - destruct q_own1 as [-> | ->]; auto.
  - destruct q_prev1 as [-> | ->]; auto.
Qed.
Ltac quiet_tac := constructor; tsimp; auto using same_lines_refl.

Lemma quiet_amend src s : quiet s (amendPreviousLinesWith src s).
Proof. pose proof (amend_lines src s). quiet_tac. Qed.
Lemma quiet_proc s : quiet s (markPreviousInternalLabelAsInsideProc s).
Proof.
  pose proof (mark_proc_lines s) as H. unfold markPreviousInternalLabelAsInsideProc in *.
  destruct (rev (t_lines s)); [apply quiet_refl|]. destruct (_ && _); [quiet_tac|apply quiet_refl].
Qed.
Lemma quiet_source_directive l s s' : handleSourceDirective l s = Some s' -> quiet s s'.
Proof.
  unfold handleSourceDirective, handleFiledef, handleSource, handleStabs, handle6502, handleD2.
  destruct (getFileDef _) as [[i f]|]; [intros [= <-]; quiet_tac|].
  destruct (getSourceRef _) as [[i n] c]. destruct (negb (i =? 0)).
  { intros [= <-]. eapply quiet_trans; [|apply quiet_amend]. quiet_tac. }
  destruct (getSourceInfoFromStabs _) as [sb|].
  { intros [= <-]. destruct (_ =? 68); [quiet_tac|]. destruct (_ || _); quiet_tac. }
  destruct (get6502DbgInfo _) as [[[f n'] e]|].
  { intros [= <-]. destruct (negb e); quiet_tac. }
  destruct (getD2LineInfo _) as [k|].
  { intros [= <-]. eapply quiet_trans; [|apply quiet_amend]. quiet_tac. }
  destruct (getD2FileInfo _); [|discriminate]. intros [= <-]. quiet_tac.
Qed.
Lemma quiet_section l s : quiet s (handleSection l s).
Proof. unfold handleSection. destruct (getSectionNameDef _); [quiet_tac|apply quiet_refl]. Qed.
Lemma quiet_custom s : quiet s (customAssembly s).
Proof. unfold customAssembly. destruct (_ || _); [quiet_tac|]. destruct (_ || _); [quiet_tac|apply quiet_refl]. Qed.
Lemma quiet_block flt s : quiet s (snd (commentBlock flt s)).
Proof.
  unfold commentBlock. destruct (f_comment_only flt); [|apply quiet_refl]. destruct (t_hasStartedCommentBlock s) eqn:E; cbn [negb].
  - rewrite E. cbn [snd]. quiet_tac.
  - tsimp. destruct (startCommentBlock _); cbn [snd]; quiet_tac.
Qed.

(** The comment block and inline assembly states. *)
Definition still (s s1 : tstate) : Prop :=
  t_inCustomAssembly s1 = t_inCustomAssembly s /\ t_hasStartedCommentBlock s1 = t_hasStartedCommentBlock s.
Lemma still_refl s : still s s. Proof. split; reflexivity. Qed.
Lemma still_trans a b c : still a b -> still b c -> still a c.
Proof. intros [] []. split; congruence. Qed.
Lemma still_proc s : still s (markPreviousInternalLabelAsInsideProc s).
Proof. unfold markPreviousInternalLabelAsInsideProc. destruct (rev _); [apply still_refl|]. destruct (_ && _); split; reflexivity. Qed.
Lemma still_source_directive l s s' : handleSourceDirective l s = Some s' -> still s s'.
Proof.
  unfold handleSourceDirective, handleFiledef, handleSource, handleStabs, handle6502, handleD2.
  destruct (getFileDef _) as [[i f]|]; [intros [= <-]; split; reflexivity|].
  destruct (getSourceRef _) as [[i n] c]. destruct (negb (i =? 0)); [intros [= <-]; split; reflexivity|].
  destruct (getSourceInfoFromStabs _) as [sb|].
  { intros [= <-]. destruct (_ =? 68); [split; reflexivity|]. destruct (_ || _); split; reflexivity. }
  destruct (get6502DbgInfo _) as [[[f n'] e]|]; [intros [= <-]; destruct (negb e); split; reflexivity|].
  destruct (getD2LineInfo _) as [k|]; [intros [= <-]; split; reflexivity|].
  destruct (getD2FileInfo _); [|discriminate]. intros [= <-]. split; reflexivity.
Qed.
Lemma still_section l s : still s (handleSection l s).
Proof. unfold handleSection. destruct (getSectionNameDef _); split; reflexivity. Qed.

Definition nest_of (t : str) (n : Z) : Z :=
  if startAppBlock t || startAsmNesting t then n + 1
  else if endAppBlock t || endAsmNesting t then n - 1 else n.
Lemma custom_eq s : customAssembly s = set_t_inCustomAssembly (nest_of (t_text s) (t_inCustomAssembly s)) s.
Proof. unfold customAssembly, nest_of. destruct (_ || _); [reflexivity|]. destruct (_ || _); [reflexivity|now destruct s]. Qed.
(** (line belongs to a block comment?, is the block still open?) *)
Definition block_of (flt : Filter) (t : str) (b : bool) : bool * bool :=
  if f_comment_only flt then
    if b || startCommentBlock t then (true, negb (endCommentBlock t)) else (false, false)
  else (false, b).
Lemma block_eq flt s : commentBlock flt s =
  (fst (block_of flt (t_text s) (t_hasStartedCommentBlock s)),
   set_t_hasStartedCommentBlock (snd (block_of flt (t_text s) (t_hasStartedCommentBlock s))) s).
Proof.
  unfold commentBlock, block_of. destruct (f_comment_only flt); [|now destruct s].
  destruct (t_hasStartedCommentBlock s) eqn:E; cbn [negb orb]; [now rewrite E|]. tsimp.
  destruct (startCommentBlock _); reflexivity.
Qed.

(** The line object that is being filled in, and the state once it was made. *)
Definition begun (s : tstate) : tstate :=
  set_t_currentLine (Some (line_v0 (t_next_id s)))
    (set_t_next_id (t_next_id s + 1)%N (set_t_total_lines (t_total_lines s + 1) s)).
Definition next_block (flt : Filter) (s : tstate) : bool := snd (block_of flt (t_text s) (t_hasStartedCommentBlock s)).
Definition next_nest (s : tstate) : Z := nest_of (t_text s) (t_inCustomAssembly s).
Definition base1 (flt : Filter) (s : tstate) : tstate := set_t_hasStartedCommentBlock (next_block flt s) (begun s).
Definition base2 (flt : Filter) (s : tstate) : tstate := set_t_inCustomAssembly (next_nest s) (base1 flt s).
Lemma base1_quiet flt s : quiet (begun s) (base1 flt s). Proof. unfold base1. quiet_tac. Qed.
Lemma base2_quiet flt s : quiet (begun s) (base2 flt s). Proof. unfold base2, base1. quiet_tac. Qed.

Lemma end_block_step l s :
  quiet s (snd (if endBlock (lv_text l) || (t_inNvccCode s && str_contains (lv_text l) "}") then
      (false, set_t_lastOwnSource source_v0 (set_t_previousLabel view0 (set_t_currentSourceRef source_v0 s)))
    else match handleSourceDirective l s with Some s' => (true, s') | None => (false, s) end)).
Proof.
  destruct (_ || _); [cbn [snd]; quiet_tac|]. destruct (handleSourceDirective l s) eqn:E; cbn [snd]; [|apply quiet_refl].
  eapply quiet_source_directive; eassumption.
Qed.

(** The directives step, up to the library filter. *)
Definition directives_step (l : asm_line_v) (s : tstate) : bool * tstate :=
  let '(handled, s) :=
    if endBlock (lv_text l) || (t_inNvccCode s && str_contains (lv_text l) "}") then
      (false, set_t_lastOwnSource source_v0 (set_t_previousLabel view0 (set_t_currentSourceRef source_v0 s)))
    else match handleSourceDirective l s with Some s' => (true, s') | None => (false, s) end in
  (handled, if negb handled then handleSection l s else s).
Lemma directives_step_quiet l s : quiet s (snd (directives_step l s)).
Proof.
  unfold directives_step. pose proof (end_block_step l s) as H. destruct (if endBlock _ || _ then _ else _) as [h s'].
  cbn [snd] in *. destruct h; cbn [negb]; [exact H|]. eapply quiet_trans; [exact H|apply quiet_section].
Qed.
(** The lines the source attribution handlers take. *)
Definition source_directive (t : str) : bool :=
  is_some (getFileDef t) || negb (fst (fst (getSourceRef t)) =? 0) || is_some (getSourceInfoFromStabs t)
  || is_some (get6502DbgInfo t) || is_some (getD2LineInfo t) || is_some (getD2FileInfo t).
Lemma directives_step_handled l s : fst (directives_step l s) = true -> source_directive (lv_text l) = true.
Proof.
  unfold directives_step, source_directive. destruct (_ || _); [discriminate|]. 
  unfold handleSourceDirective, handleFiledef, handleSource, handleStabs, handle6502, handleD2.
  destruct (getFileDef _) as [[i f]|]; [reflexivity|].
  destruct (getSourceRef _) as [[i n] c]. cbn [fst]. destruct (negb (i =? 0)); [reflexivity|].
  destruct (getSourceInfoFromStabs _) as [sb|]; [reflexivity|].
  destruct (get6502DbgInfo _) as [[[f n'] e]|]; [reflexivity|].
  destruct (getD2LineInfo _) as [k|]; [reflexivity|].
  destruct (getD2FileInfo _); [reflexivity|discriminate].
Qed.
Lemma directives_step_still l s : still s (snd (directives_step l s)).
Proof.
  unfold directives_step. destruct (_ || _); cbn [snd negb].
  - eapply still_trans; [|apply still_section]. split; reflexivity.
  - destruct (handleSourceDirective l s) eqn:E; cbn [snd negb]; [eapply still_source_directive; eassumption|apply still_section].
Qed.
Lemma eol_directives_eq mblen flt l s :
  eol_directives mblen flt l s =
  (let '(handled, s1) := directives_step l s in
   let '(drop, s2) := libraryFilter flt s1 in
   if drop then drop_line l s2 else if justComment flt s2 then drop_line l s2 else eol_classify mblen flt handled l s2).
Proof. unfold eol_directives, directives_step. destruct (if endBlock _ || _ then _ else _) as [h s']. reflexivity. Qed.

(** With the library filter the parser never gets anywhere. *)
Record lib_inv (s : tstate) : Prop := {
  li_lines : t_lines s = [];
  li_own : t_lastOwnSource s = source_v0;
  li_name : t_currentFilename s = view0;
  li_inline : t_keepInlineCode s = false }.
Definition good (flt : Filter) (s : tstate) : Prop := f_library_functions flt = true -> lib_inv s.
Lemma good_quiet flt s s1 : quiet s s1 -> good flt s -> good flt s1.
Proof.
  intros [] H Hf. destruct (H Hf) as [A B C D]. constructor; try congruence.
  - rewrite A in q_lines0. now inversion q_lines0.
  - destruct q_own0; congruence.
Qed.

(** A line belongs to a block comment, is blank, is dropped or is classified. *)
Inductive eol_case (mblen : str -> Z) (flt : Filter) (s : tstate) : tstate -> Prop :=
| EC_block : fst (block_of flt (t_text s) (t_hasStartedCommentBlock s)) = true ->
    eol_case mblen flt s (drop_line (line_v0 (t_next_id s)) (base1 flt s))
| EC_blank : fst (block_of flt (t_text s) (t_hasStartedCommentBlock s)) = false ->
    isEmptyOrJustWhitespace (t_text s) = true ->
    eol_case mblen flt s (keep_text (line_v0 (t_next_id s)) (maybeAddBlank (base1 flt s)))
| EC_drop s1 l : fst (block_of flt (t_text s) (t_hasStartedCommentBlock s)) = false ->
    isEmptyOrJustWhitespace (t_text s) = false ->
    quiet (begun s) s1 -> still (base2 flt s) s1 ->
    l = set_lv_text (filteredLine flt (base2 flt s)) (line_v0 (t_next_id s)) ->
    (f_directives flt = true /\ startProcBlock (lv_text l) = true) \/ f_library_functions flt = true \/ justComment flt s1 = true ->
    eol_case mblen flt s (drop_line l s1)
| EC_class handled s1 l : fst (block_of flt (t_text s) (t_hasStartedCommentBlock s)) = false ->
    isEmptyOrJustWhitespace (t_text s) = false ->
    quiet (begun s) s1 -> still (base2 flt s) s1 ->
    f_library_functions flt = false ->
    l = set_lv_text (filteredLine flt (base2 flt s)) (line_v0 (t_next_id s)) ->
    justComment flt s1 = false ->
    (handled = true -> source_directive (lv_text l) = true) ->
    eol_case mblen flt s (eol_classify mblen flt handled l s1).

Lemma eol_cases mblen flt s : good flt s -> eol_case mblen flt s (eol mblen flt s).
Proof.
  intros Hgood. unfold eol, new_line. tsimp.
  change (set_t_currentLine _ (set_t_next_id _ _)) with (begun s).
  assert (Hgood0 : good flt (begun s)).
  { intros Hf. destruct (Hgood Hf). constructor; assumption. }
  rewrite block_eq. change (t_text (begun s)) with (t_text s).
  change (t_hasStartedCommentBlock (begun s)) with (t_hasStartedCommentBlock s).
  change (set_t_hasStartedCommentBlock _ (begun s)) with (base1 flt s).
  destruct (fst (block_of flt (t_text s) (t_hasStartedCommentBlock s))) eqn:Hb; [now apply EC_block|].
  change (t_text (base1 flt s)) with (t_text s).
  destruct (isEmptyOrJustWhitespace (t_text s)) eqn:Hws; [now apply EC_blank|].
  rewrite custom_eq. change (set_t_inCustomAssembly _ (base1 flt s)) with (base2 flt s).
  pose proof (base2_quiet flt s) as Hq2.
  set (l := set_lv_text (filteredLine flt (base2 flt s)) (line_v0 (t_next_id s))) in *.
  assert (Hdir : forall s3, quiet (base2 flt s) s3 -> still (base2 flt s) s3 -> eol_case mblen flt s (eol_directives mblen flt l s3)).
  { intros s3 Hq3 Hn3. rewrite eol_directives_eq. pose proof (directives_step_quiet l s3) as H4.
    pose proof (directives_step_still l s3) as Hn4. pose proof (directives_step_handled l s3) as Hh.
    destruct (directives_step l s3) as [h s4]. cbn [fst snd] in H4, Hn4, Hh. unfold libraryFilter.
    assert (Hq4 : quiet (begun s) s4) by (eapply quiet_trans; [exact Hq2|eapply quiet_trans; [exact Hq3|exact H4]]).
    pose proof (still_trans _ _ _ Hn3 Hn4) as Hn5.
    pose proof (good_quiet _ _ _ Hq4 Hgood0) as Hg4.
    destruct (f_library_functions flt) eqn:Hlib; cbn [andb].
    - destruct (Hg4 Hlib) as [A B C D]. rewrite A, B, C. cbn -[negb]. rewrite D. cbn [negb]. apply EC_drop; auto.
    - assert (H5 : quiet (begun s) (set_t_mayRemovePreviousLabel true s4)).
      { eapply quiet_trans; [exact Hq4|]. quiet_tac. }
      destruct (justComment flt _) eqn:Hj.
      + apply EC_drop; auto.
      + apply (EC_class mblen flt s h _ _ Hb Hws H5 Hn5 Hlib eq_refl Hj Hh). }
  destruct (startProcBlock _ && _) eqn:Hp; [|apply Hdir; [apply quiet_refl|apply still_refl]].
  destruct (f_directives flt) eqn:Hd; [|apply Hdir; [apply quiet_proc|apply still_proc]].
  apply EC_drop; auto; [|apply still_proc|].
  - eapply quiet_trans; [exact Hq2|apply quiet_proc].
  - left. split; [assumption|]. now apply andb_true_iff in Hp.
Qed.

(** What blank lines do. *)
Lemma blank_cases s :
  (t_lines (maybeAddBlank s) = t_lines s /\ maybeAddBlank s = s) \/
  (t_lines s <> [] /\ maybeAddBlank s = set_t_lines (t_lines s ++ [line_v0 (t_next_id s)]) (set_t_next_id (t_next_id s + 1)%N s)).
Proof.
  unfold maybeAddBlank, new_line. destruct (rev (t_lines s)) as [|l t] eqn:E; cbn [negb]; [now left|].
  destruct (is_nil (lv_text l)); cbn [negb]; [now left|]. right. split; [|reflexivity]. intros H. rewrite H in E. discriminate.
Qed.

(** What classifying a line does. *)
Definition label_step (handled : bool) (l : asm_line_v) (s : tstate) : asm_line_v * tstate :=
  if handled then
    (set_lv_is_internal_label false (set_lv_is_label false (set_lv_is_directive true (set_lv_is_data false l))), s)
  else
    let '(l, s) := handleLabelDefinition l s in
    (set_lv_is_directive false (set_lv_is_data (isDataDefn (lv_text l)) l), s).

(** [move_filtered l s]: the line is dropped but its object is kept. *)
Definition move_filtered (l : asm_line_v) (s : tstate) : tstate :=
  set_t_text [] (set_t_currentLine None (set_t_filteredlines (t_filteredlines s ++ [l]) s)).

Inductive class_case (mblen : str -> Z) (flt : Filter) (handled : bool) (l2 : asm_line_v) (s2 : tstate) : tstate -> Prop :=
| CC_nvcc : t_inNvccDef s2 = true ->
    class_case mblen flt handled l2 s2 (eol_keep mblen l2 (if isCudaEndDef (lv_text l2) then set_t_inNvccDef false s2 else s2))
| CC_filtered l3 : t_inNvccDef s2 = false -> lv_is_label l2 = false -> lv_is_data l2 = false ->
    f_directives flt = true -> lv_is_directive l3 = true -> isInstOpcode (lv_text l2) = false ->
    l3 = (if handled then l2 else set_lv_is_directive (isDirective (lv_text l2)) l2) ->
    class_case mblen flt handled l2 s2 (move_filtered l3 (extractUsedLabelsFromDirective l3 s2))
| CC_directive l3 : t_inNvccDef s2 = false -> lv_is_label l2 = false -> lv_is_data l2 = false ->
    f_directives flt = false -> lv_is_directive l3 = true -> isInstOpcode (lv_text l2) = false ->
    l3 = (if handled then l2 else set_lv_is_directive (isDirective (lv_text l2)) l2) ->
    class_case mblen flt handled l2 s2 (eol_keep mblen l3 (extractUsedLabelsFromDirective l3 s2))
| CC_plain l3 : t_inNvccDef s2 = false -> lv_is_label l2 = false -> lv_is_data l2 = false ->
    lv_is_directive l3 = false \/ isInstOpcode (lv_text l2) = true ->
    l3 = (if handled then l2 else set_lv_is_directive (isDirective (lv_text l2)) l2) ->
    class_case mblen flt handled l2 s2 (eol_keep mblen l3 s2)
| CC_label : t_inNvccDef s2 = false -> lv_is_label l2 = true \/ lv_is_data l2 = true ->
    class_case mblen flt handled l2 s2 (eol_keep mblen l2 s2).

Lemma classify_cases mblen flt handled l s :
  class_case mblen flt handled (fst (label_step handled l s)) (snd (label_step handled l s)) (eol_classify mblen flt handled l s).
Proof.
  unfold eol_classify. change (if handled then _ else _) with (label_step handled l s).
  destruct (label_step handled l s) as [l2 s2] eqn:E. cbn [fst snd].
  destruct (t_inNvccDef s2) eqn:Hn; [now apply CC_nvcc|].
  destruct (lv_is_label l2) eqn:Hl; cbn [negb andb]; [apply CC_label; auto|].
  destruct (lv_is_data l2) eqn:Hd; cbn [negb andb]; [apply CC_label; auto|].
  set (l3 := if negb handled then _ else l2) in *.
  assert (H3 : l3 = if handled then l2 else set_lv_is_directive (isDirective (lv_text l2)) l2) by (unfold l3; now destruct handled).
  assert (Ht : lv_text l3 = lv_text l2) by (rewrite H3; destruct handled; reflexivity).
  clearbody l3. destruct (lv_is_directive l3) eqn:Hdir; cbn [andb]; [|eapply CC_plain; auto].
  rewrite Ht. destruct (isInstOpcode (lv_text l2)) eqn:Hi; cbn [negb]; [eapply CC_plain; auto|].
  destruct (f_directives flt) eqn:Hf; [eapply CC_filtered; eauto|eapply CC_directive; eauto].
Qed.

(** The line as it is stored, and the reference tables. *)
Definition final_line (mblen : str -> Z) (l : asm_line_v) (s : tstate) : asm_line_v :=
  let code := hasOpcode (lv_text l) (t_inNvccCode s) in
  let l := set_lv_labels (if negb (lv_is_label l) && (code || lv_is_data l) then used_labels_in mblen l else [])
             (set_lv_has_opcode code (set_lv_is_inline_asm (0 <? t_inCustomAssembly s) l)) in
  set_lv_section (t_currentSection s) (set_lv_source (t_currentSourceRef s)
    (set_lv_closest_parent_label
       (if lv_is_assignment l || str_eqb (v_str (lv_label l)) (v_str (t_previousParentLabel s)) then []
        else v_str (t_previousParentLabel s)) l)).
Definition code_refs (refs : list asm_label_v) (parent : view) (m : list (view * list view)) : list (view * list view) :=
  fold_left (fun m r => if negb (str_eqb (v_str (lbv_name r)) (v_str parent)) then map_set_insert m (lbv_name r) parent else m) refs m.
Definition data_refs (refs : list asm_label_v) (prev parent : view) (inside : bool) (m : list (view * list view)) : list (view * list view) :=
  fold_left (fun m r => let d := map_set_insert m (lbv_name r) prev in
                        if inside then map_set_insert d (lbv_name r) parent else d) refs m.
Lemma opcode_fold refs : forall s,
  fold_left (fun s r =>
     if negb (str_eqb (v_str (lbv_name r)) (v_str (t_previousParentLabel s))) then
       set_t_used_labels (map_set_insert (t_used_labels s) (lbv_name r) (t_previousParentLabel s)) s
     else s) refs s = set_t_used_labels (code_refs refs (t_previousParentLabel s) (t_used_labels s)) s.
Proof.
  induction refs as [|r t IH]; intros s; cbn [fold_left code_refs]; [now destruct s|].
  rewrite IH. destruct (negb _); reflexivity.
Qed.
Lemma data_fold refs : forall s,
  fold_left (fun s r =>
     let d := map_set_insert (t_data_used_labels s) (lbv_name r) (t_previousLabel s) in
     let d := if sv_inside_proc (t_currentSourceRef s)
              then map_set_insert d (lbv_name r) (t_previousParentLabel s) else d in
     set_t_data_used_labels d s) refs s
  = set_t_data_used_labels (data_refs refs (t_previousLabel s) (t_previousParentLabel s) (sv_inside_proc (t_currentSourceRef s)) (t_data_used_labels s)) s.
Proof.
  induction refs as [|r t IH]; intros s; cbn [fold_left data_refs]; [now destruct s|].
  rewrite IH. destruct (sv_inside_proc _); reflexivity.
Qed.
Definition keep_used (mblen : str -> Z) (l : asm_line_v) (s : tstate) : list (view * list view) :=
  if negb (lv_is_label l) && hasOpcode (lv_text l) (t_inNvccCode s)
  then code_refs (used_labels_in mblen l) (t_previousParentLabel s) (t_used_labels s) else t_used_labels s.
Definition keep_data (mblen : str -> Z) (l : asm_line_v) (s : tstate) : list (view * list view) :=
  if negb (lv_is_label l) && lv_is_data l
  then data_refs (used_labels_in mblen l) (t_previousLabel s) (t_previousParentLabel s)
         (sv_inside_proc (t_currentSourceRef s)) (t_data_used_labels s) else t_data_used_labels s.
Lemma line_v_eta l : set_lv_labels (lv_labels l) l = l.
Proof. now destruct l. Qed.
Lemma eol_keep_eq mblen l s :
  eol_keep mblen l s =
  set_t_text [] (set_t_currentLine None
    (let s' := handleLabelAliasing (final_line mblen l s)
                 (set_t_data_used_labels (keep_data mblen l s) (set_t_used_labels (keep_used mblen l s) s)) in
     set_t_lines (t_lines s' ++ [final_line mblen l s]) s')).
Proof.
  unfold eol_keep, extractUsedLabelsFromOpcodeLine, extractUsedLabelsFromDataLine, final_line, keep_used, keep_data, used_labels_in.
  vsimp. destruct s, l. unfold slice. vsimp. tsimp.
  destruct lv_is_label; cbn [negb andb]; [reflexivity|].
  destruct (hasOpcode lv_text t_inNvccCode); cbn [negb andb orb]; rewrite ?opcode_fold; tsimp; vsimp;
    destruct lv_is_data; cbn [negb andb orb]; rewrite ?data_fold; tsimp; vsimp; reflexivity.
Qed.

(** The label a line defines: name, is it an assignment, is it a CUDA one. *)
Definition label_of (t : str) : option (str * (bool * bool)) :=
  match getLabel t with
  | Some n => Some (n, (false, false))
  | None =>
      match getLabelAssignment t with
      | Some n => Some (n, (true, false))
      | None =>
          match getAssignmentDef t with
          | Some n => Some (n, (true, false))
          | None => match getCudaLabel t with Some n => Some (n, (false, true)) | None => None end
          end
      end
  end.
Definition labelled (l : asm_line_v) (n : str) (assign : bool) : asm_line_v :=
  set_lv_is_directive false (set_lv_is_data (isDataDefn (lv_text l))
    (set_lv_is_internal_label (isInternalLabel n) (set_lv_is_label true (set_lv_label (slice l n)
      (if assign then set_lv_is_assignment true l else l))))).
Definition define_label (n : view) (cuda : bool) (s : tstate) : tstate :=
  let s := if cuda then set_t_inNvccCode true (set_t_inNvccDef true s) else s in
  let s := set_t_labels_defined (map_assign (t_labels_defined s) n (i32 (Z.of_nat (length (t_lines s)) + 1)))
             (set_t_previousLabel n s) in
  if isInternalLabel (v_str n) then s else set_t_previousParentLabel n s.
Inductive label_case (l : asm_line_v) (s : tstate) : bool -> asm_line_v -> tstate -> Prop :=
| LC_handled : label_case l s true
    (set_lv_is_internal_label false (set_lv_is_label false (set_lv_is_directive true (set_lv_is_data false l)))) s
| LC_none : label_of (lv_text l) = None -> label_case l s false
    (set_lv_is_directive false (set_lv_is_data (isDataDefn (lv_text l))
      (set_lv_is_internal_label false (set_lv_is_label false l)))) s
| LC_found n a c : label_of (lv_text l) = Some (n, (a, c)) ->
    label_case l s false (labelled l n a) (define_label (slice l n) c s).
Lemma label_cases handled l s : label_case l s handled (fst (label_step handled l s)) (snd (label_step handled l s)).
Proof.
  unfold label_step. destruct handled; [constructor|].
  assert (H : forall n a c, label_of (lv_text l) = Some (n, (a, c)) ->
    label_case l s false (labelled l n a) (define_label (slice l n) c s)) by (intros; now constructor).
  assert (H0 : label_of (lv_text l) = None -> label_case l s false
    (set_lv_is_directive false (set_lv_is_data (isDataDefn (lv_text l))
      (set_lv_is_internal_label false (set_lv_is_label false l)))) s) by (intros; now constructor).
  unfold handleLabelDefinition, getLabelFromLine, label_of in *.
  destruct (getLabel (lv_text l)) as [n|].
  { specialize (H n false false eq_refl). unfold labelled, define_label in H. cbn [v_str slice] in *.
    destruct (isInternalLabel n); exact H. }
  destruct (getLabelAssignment (lv_text l)) as [n|].
  { specialize (H n true false eq_refl). unfold labelled, define_label in H. cbn [v_str slice] in *.
    destruct (isInternalLabel n); exact H. }
  destruct (getAssignmentDef (lv_text l)) as [n|].
  { specialize (H n true false eq_refl). unfold labelled, define_label in H. cbn [v_str slice] in *.
    destruct (isInternalLabel n); exact H. }
  destruct (getCudaLabel (lv_text l)) as [n|]; [|exact (H0 eq_refl)].
  specialize (H n false true eq_refl). unfold labelled, define_label in H. cbn [v_str slice] in *.
  destruct (isInternalLabel n); exact H.
Qed.

(** What the remaining steps leave alone. *)
Ltac split_if := repeat match goal with |- context [if ?b then _ else _] => destruct b end.
Definition alias_only (s s1 : tstate) : Prop :=
  exists a p, s1 = set_t_aliased_labels a (set_t_previousLabelOnSameAddress p s).
Lemma aliasing_frame l s : alias_only s (handleLabelAliasing l s).
Proof.
  unfold handleLabelAliasing, alias_only. destruct s. cbv zeta. split_if; do 2 eexists;
    unfold set_t_previousLabelOnSameAddress, set_t_aliased_labels; tsimp; reflexivity.
Qed.
Definition directive_only (s s1 : tstate) : Prop :=
  exists u c, s1 = set_t_used_labels u (set_t_usercode_labels c s).
Lemma directive_frame l s : directive_only s (extractUsedLabelsFromDirective l s).
Proof.
  unfold extractUsedLabelsFromDirective, directive_only. destruct s. tsimp.
  destruct (getWeakDefinedLabel _); [do 2 eexists; reflexivity|]. destruct (getGlobalDefinedLabel _); do 2 eexists; reflexivity.
Qed.

(** The loop over the characters. *)
Lemma good_set_text flt t s : good flt s -> good flt (set_t_text t s).
Proof. intros H Hf. destruct (H Hf). now constructor. Qed.
Lemma eol_good mblen flt s : good flt s -> good flt (eol mblen flt s).
Proof.
  intros H. assert (Hb : good flt (begun s)) by (intros Hf; destruct (H Hf); now constructor).
  destruct (eol_cases mblen flt s H) as [_|_ _|s1 l _ _ Hq _ _ _|handled s1 l _ _ Hq _ Hf _ _ _].
  - intros Hf. destruct (Hb Hf). now constructor.
  - pose proof (good_quiet _ _ _ (base1_quiet flt s) Hb) as H1. intros Hf. destruct (H1 Hf) as [A B C D].
    destruct (blank_cases (base1 flt s)) as [[_ ->]|[Hn _]]; [|contradiction]. now constructor.
  - pose proof (good_quiet _ _ _ Hq Hb) as H1. intros Hf. destruct (H1 Hf). now constructor.
  - intros Hf'. congruence.
Qed.
Lemma keep_stop mblen l s : t_stopParsing (eol_keep mblen l s) = t_stopParsing s.
Proof. rewrite eol_keep_eq. cbv zeta. edestruct aliasing_frame as (a & p & ->). reflexivity. Qed.
Lemma define_stop n c s : t_stopParsing (define_label n c s) = t_stopParsing s.
Proof. unfold define_label. split_if; reflexivity. Qed.
Lemma eol_stop mblen flt s : good flt s -> t_stopParsing (eol mblen flt s) = t_stopParsing s.
Proof.
  intros H. destruct (eol_cases mblen flt s H) as [_|_ _|s1 l _ _ Hq _ _ _|handled s1 l _ _ Hq _ Hf _ _ _].
  - reflexivity.
  - destruct (blank_cases (base1 flt s)) as [[_ ->]|[Hn ->]]; reflexivity.
  - exact (q_stop _ _ Hq).
  - assert (Hs : t_stopParsing s1 = t_stopParsing s) by (rewrite (q_stop _ _ Hq); reflexivity).
    pose proof (label_cases handled l s1) as Hl. pose proof (classify_cases mblen flt handled l s1) as Hc.
    destruct (label_step handled l s1) as [l2 s2]. cbn [fst snd] in *.
    assert (Hs2 : t_stopParsing s2 = t_stopParsing s) by (destruct Hl; rewrite ?define_stop; assumption).
    destruct Hc; rewrite ?keep_stop; [destruct (isCudaEndDef _); exact Hs2| | |exact Hs2|exact Hs2];
      destruct (directive_frame l3 s2) as (u & c & ->); exact Hs2.
Qed.

Section Loop.
Variables (mblen : str -> Z) (flt : Filter) (P : tstate -> Prop).
Hypothesis Hchar : forall s c, P s -> c <> LF -> P (set_t_text (t_text s ++ [c]) s).
Hypothesis Heol : forall s, P s -> good flt s -> P (eol mblen flt s).
Lemma fold_invariant input : forall s, P s -> good flt s -> t_stopParsing s = false ->
  P (fold_left (step mblen flt) input s) /\ good flt (fold_left (step mblen flt) input s)
  /\ t_stopParsing (fold_left (step mblen flt) input s) = false.
Proof.
  induction input as [|c t IH]; intros s HP Hg Hs; [auto|]. cbn [fold_left]. unfold step at 2 4 6. rewrite Hs.
  destruct (ceq c LF) eqn:E.
  - apply IH; [auto|now apply eol_good|]. now rewrite eol_stop.
  - apply IH; [apply Hchar; [assumption|]|now apply good_set_text|assumption].
    intros ->. discriminate.
Qed.
Lemma read_invariant s input : P (set_t_total_lines 0 s) -> good flt s -> t_stopParsing s = false ->
  P (read_lines mblen flt s input).
Proof.
  intros HP Hg Hs. unfold read_lines.
  destruct (fold_invariant input (set_t_total_lines 0 s)) as (A & B & C); [assumption|intros Hf; destruct (Hg Hf); now constructor|assumption|].
  destruct (negb _); auto.
Qed.
End Loop.
Lemma good0 flt : good flt tstate0.
Proof. intros _. now constructor. Qed.
