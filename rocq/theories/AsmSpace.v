(** The text parser: the white-space filter is the same as squeezing the input. *)
From Verif Require Import AsmLemmas AsmRead AsmMark AsmTrace AsmThms AsmLines AsmPlace AsmTwice AsmStored AsmDirect AsmLocale UtilAgain.

Local Notation X := set_t_text.

(** *** Which functions look at the text of the line *)
Lemma X_source_directive x l s : handleSourceDirective l (X x s) = option_map (X x) (handleSourceDirective l s).
Proof.
  unfold handleSourceDirective, handleFiledef. destruct (getFileDef (lv_text l)) as [[i f]|]; [reflexivity|].
  unfold handleSource. destruct (getSourceRef (lv_text l)) as [[a b] c]. destruct (negb (a =? 0)); [reflexivity|].
  unfold handleStabs. destruct (getSourceInfoFromStabs (lv_text l)) as [sb|].
  { destruct (sb_type sb =? 68); [reflexivity|]. now destruct ((sb_type sb =? 100) || (sb_type sb =? 132)). }
  unfold handle6502. destruct (get6502DbgInfo (lv_text l)) as [[[f n] e]|]; [now destruct e|].
  unfold handleD2. destruct (getD2LineInfo (lv_text l)); [reflexivity|]. now destruct (getD2FileInfo (lv_text l)).
Qed.
Lemma X_section x l s : handleSection l (X x s) = X x (handleSection l s).
Proof. unfold handleSection. now destruct (getSectionNameDef (lv_text l)). Qed.
Lemma X_library flt x s : libraryFilter flt (X x s) = (fst (libraryFilter flt s), X x (snd (libraryFilter flt s))).
Proof.
  unfold libraryFilter. change (t_lastOwnSource (X x s)) with (t_lastOwnSource s). change (t_currentFilename (X x s)) with (t_currentFilename s).
  destruct (f_library_functions flt && _ && _); [|reflexivity]. change (t_lines (X x s)) with (t_lines s).
  destruct (rev (t_lines s)) as [|a t]; [reflexivity|]. change (t_mayRemovePreviousLabel (X x s)) with (t_mayRemovePreviousLabel s).
  destruct (t_mayRemovePreviousLabel s); [|reflexivity]. destruct (is_nil (lv_text a)); [reflexivity|]. now destruct (lv_is_label a).
Qed.
Lemma X_extract x l s : extractUsedLabelsFromDirective l (X x s) = X x (extractUsedLabelsFromDirective l s).
Proof. unfold extractUsedLabelsFromDirective. destruct (getWeakDefinedLabel _); [reflexivity|]. now destruct (getGlobalDefinedLabel _). Qed.
Lemma X_label x l s : handleLabelDefinition l (X x s) = (fst (handleLabelDefinition l s), X x (snd (handleLabelDefinition l s))).
Proof.
  unfold handleLabelDefinition, getLabelFromLine. destruct (getLabel (lv_text l)) as [n|]; [cbn [v_str slice]; now destruct (negb (isInternalLabel n))|].
  destruct (getLabelAssignment (lv_text l)) as [n|]; [cbn [v_str slice]; now destruct (negb (isInternalLabel n))|].
  destruct (getAssignmentDef (lv_text l)) as [n|]; [cbn [v_str slice]; now destruct (negb (isInternalLabel n))|].
  destruct (getCudaLabel (lv_text l)) as [n|]; [cbn [v_str slice]; now destruct (negb (isInternalLabel n))|reflexivity].
Qed.
Lemma X_aliasing x l s : handleLabelAliasing l (X x s) = X x (handleLabelAliasing l s).
Proof.
  unfold handleLabelAliasing. change (t_previousLabelOnSameAddress (X x s)) with (t_previousLabelOnSameAddress s).
  destruct (lv_is_label l && negb (lv_is_assignment l));
  (destruct (negb (is_nil (v_str (t_previousLabelOnSameAddress s)))); [|reflexivity]);
  (destruct (negb (lv_is_assignment l)); [|reflexivity]); (destruct (lv_is_label l); [reflexivity|]); now destruct (lv_has_opcode l || lv_is_data l).
Qed.
Lemma X_fold {A} (f : tstate -> A -> tstate) x : (forall s a, f (X x s) a = X x (f s a)) -> forall rs s, fold_left f rs (X x s) = X x (fold_left f rs s).
Proof. intros H rs. induction rs as [|r t IH]; intros s; [reflexivity|]. cbn [fold_left]. now rewrite H, IH. Qed.
Lemma X_opcode mb x l s : extractUsedLabelsFromOpcodeLine mb l (X x s) = (fst (extractUsedLabelsFromOpcodeLine mb l s), X x (snd (extractUsedLabelsFromOpcodeLine mb l s))).
Proof.
  unfold extractUsedLabelsFromOpcodeLine. cbn [fst snd]. f_equal. apply X_fold. intros u r. change (t_previousParentLabel (X x u)) with (t_previousParentLabel u).
  now destruct (negb (str_eqb (v_str (lbv_name r)) (v_str (t_previousParentLabel u)))).
Qed.
Lemma X_data mb x l s : extractUsedLabelsFromDataLine mb l (X x s) = (fst (extractUsedLabelsFromDataLine mb l s), X x (snd (extractUsedLabelsFromDataLine mb l s))).
Proof. unfold extractUsedLabelsFromDataLine. cbn [fst snd]. f_equal. apply X_fold. reflexivity. Qed.
Definition stored_last (l : asm_line_v) (s : tstate) : tstate := set_t_text [] (set_t_currentLine None (set_t_lines (t_lines s ++ [l]) s)).
Definition finished (l : asm_line_v) (p : view) (sec : view) (src : asm_source_v) : asm_line_v :=
  set_lv_section sec (set_lv_source src (set_lv_closest_parent_label (if lv_is_assignment l || str_eqb (v_str (lv_label l)) (v_str p) then [] else v_str p) l)).
Definition linked (l : asm_line_v) (s : tstate) : tstate := stored_last l (handleLabelAliasing l s).
Lemma tail_eq l s : keep_tail l s = linked (finished l (t_previousParentLabel s) (t_currentSection s) (t_currentSourceRef s)) s.
Proof. reflexivity. Qed.
Lemma X_last x l s : stored_last l (X x s) = stored_last l s. Proof. reflexivity. Qed.
Lemma X_linked x l s : linked l (X x s) = linked l s.
Proof. unfold linked. now rewrite X_aliasing, X_last. Qed.
Lemma X_tail x l s : keep_tail l (X x s) = keep_tail l s.
Proof. rewrite !tail_eq, X_linked. reflexivity. Qed.
Lemma keep_tail_eq mb l s : eol_keep mb l s =
  let l := set_lv_is_inline_asm (0 <? t_inCustomAssembly s) l in
  let l := set_lv_has_opcode (hasOpcode (lv_text l) (t_inNvccCode s)) l in
  let l := set_lv_labels [] l in
  let '(l, s) := if negb (lv_is_label l) && lv_has_opcode l then extractUsedLabelsFromOpcodeLine mb l s else (l, s) in
  let '(l, s) := if negb (lv_is_label l) && lv_is_data l then extractUsedLabelsFromDataLine mb l s else (l, s) in
  keep_tail l s.
Proof. reflexivity. Qed.
Lemma X_keep mb x l s : eol_keep mb l (X x s) = eol_keep mb l s.
Proof.
  rewrite !keep_tail_eq. change (t_inCustomAssembly (X x s)) with (t_inCustomAssembly s). change (t_inNvccCode (X x s)) with (t_inNvccCode s). cbv zeta.
  set (a := set_lv_labels [] _). clearbody a. rewrite X_opcode.
  destruct (negb (lv_is_label a) && lv_has_opcode a).
  - destruct (extractUsedLabelsFromOpcodeLine mb a s) as [b u]. cbn [fst snd]. rewrite X_data. destruct (negb (lv_is_label b) && lv_is_data b); [|apply X_tail].
    destruct (extractUsedLabelsFromDataLine mb b u) as [c w]. apply X_tail.
  - rewrite X_data. destruct (negb (lv_is_label a) && lv_is_data a); [|apply X_tail]. destruct (extractUsedLabelsFromDataLine mb a s) as [c w]. apply X_tail.
Qed.
Lemma X_classify mb flt x h l s : eol_classify mb flt h l (X x s) = eol_classify mb flt h l s.
Proof.
  unfold eol_classify. rewrite X_label.
  assert (K : forall b u, (let '(l, s) := (b, X x u) in
    if t_inNvccDef s then eol_keep mb l (if isCudaEndDef (lv_text l) then set_t_inNvccDef false s else s)
    else if negb (lv_is_label l) && negb (lv_is_data l) then
      let l := if negb h then set_lv_is_directive (isDirective (lv_text l)) l else l in
      if lv_is_directive l && negb (isInstOpcode (lv_text l)) then
        let s := extractUsedLabelsFromDirective l s in
        if f_directives flt then set_t_text [] (set_t_currentLine None (set_t_filteredlines (t_filteredlines s ++ [l]) s)) else eol_keep mb l s
      else eol_keep mb l s
    else eol_keep mb l s) = (let '(l, s) := (b, u) in
    if t_inNvccDef s then eol_keep mb l (if isCudaEndDef (lv_text l) then set_t_inNvccDef false s else s)
    else if negb (lv_is_label l) && negb (lv_is_data l) then
      let l := if negb h then set_lv_is_directive (isDirective (lv_text l)) l else l in
      if lv_is_directive l && negb (isInstOpcode (lv_text l)) then
        let s := extractUsedLabelsFromDirective l s in
        if f_directives flt then set_t_text [] (set_t_currentLine None (set_t_filteredlines (t_filteredlines s ++ [l]) s)) else eol_keep mb l s
      else eol_keep mb l s
    else eol_keep mb l s)).
  { intros b u. change (t_inNvccDef (X x u)) with (t_inNvccDef u). destruct (t_inNvccDef u).
    { destruct (isCudaEndDef (lv_text b)); [|apply X_keep]. change (set_t_inNvccDef false (X x u)) with (X x (set_t_inNvccDef false u)). apply X_keep. }
    destruct (negb (lv_is_label b) && negb (lv_is_data b)); [|apply X_keep]. cbv zeta. set (c := if negb h then _ else b). clearbody c.
    destruct (lv_is_directive c && negb (isInstOpcode (lv_text c))); [|apply X_keep]. rewrite X_extract. destruct (f_directives flt); [reflexivity|apply X_keep]. }
  destruct h; [apply K|]. destruct (handleLabelDefinition l s) as [b u]. cbn [fst snd]. apply (K (set_lv_is_directive false (set_lv_is_data (isDataDefn (lv_text b)) b)) u).
Qed.

(** *** The filter without its white-space part *)
Definition ws_off (flt : Filter) : Filter :=
  mkFilter (f_binary flt) (f_unused_labels flt) (f_library_functions flt) (f_directives flt) (f_comment_only flt) false
           (f_plt flt) (f_dont_mask_filenames flt) (f_compatmode flt) (f_code_only flt).
(** The two texts of a line are told apart by no test that is made on the line as
    it was read. *)
Definition same_note (flt : Filter) (raw t : str) : Prop :=
  f_comment_only flt = true -> isJustComments t = isJustComments raw /\ isJustNvccComments t = isJustNvccComments raw.
Lemma X_directives mb flt l s raw t : same_note flt raw t -> eol_directives mb flt l (X raw s) = eol_directives mb (ws_off flt) l (X t s).
Proof.
  intros H. unfold eol_directives. change (t_inNvccCode (X raw s)) with (t_inNvccCode s). change (t_inNvccCode (X t s)) with (t_inNvccCode s).
  rewrite !X_source_directive.
  set (p := if endBlock (lv_text l) || (t_inNvccCode s && str_contains (lv_text l) "}") then (false, set_t_lastOwnSource source_v0 (set_t_previousLabel view0 (set_t_currentSourceRef source_v0 s)))
            else match handleSourceDirective l s with Some s' => (true, s') | None => (false, s) end).
  match goal with |- (let (h1, s1) := ?a in _) = (let (h2, s2) := ?b in _) => assert (Ha : a = (fst p, X raw (snd p))); [|assert (Hb : b = (fst p, X t (snd p))); [|rewrite Ha, Hb]] end.
  { unfold p. destruct (endBlock (lv_text l) || (t_inNvccCode s && str_contains (lv_text l) "}")); [reflexivity|]. now destruct (handleSourceDirective l s). }
  { unfold p. destruct (endBlock (lv_text l) || (t_inNvccCode s && str_contains (lv_text l) "}")); [reflexivity|]. now destruct (handleSourceDirective l s). }
  clearbody p. clear s Ha Hb. destruct p as [h s]. cbn [fst snd]. rewrite !X_section.
  set (u := if negb h then handleSection l s else s).
  replace (if negb h then X raw (handleSection l s) else X raw s) with (X raw u) by (unfold u; now destruct (negb h)).
  replace (if negb h then X t (handleSection l s) else X t s) with (X t u) by (unfold u; now destruct (negb h)).
  clearbody u. clear s. rewrite !X_library. change (libraryFilter (ws_off flt) u) with (libraryFilter flt u).
  destruct (libraryFilter flt u) as [d s]. cbn [fst snd]. clear u. destruct d; [reflexivity|].
  assert (J : justComment (ws_off flt) (X t s) = justComment flt (X raw s)).
  { unfold justComment. change (t_text (X t s)) with t. change (t_text (X raw s)) with raw. change (t_inNvccCode (X t s)) with (t_inNvccCode s).
    change (t_inNvccCode (X raw s)) with (t_inNvccCode s). change (f_comment_only (ws_off flt)) with (f_comment_only flt).
    unfold same_note in H. destruct (f_comment_only flt); [|reflexivity]. destruct (H eq_refl) as [-> ->]. reflexivity. }
  rewrite J. destruct (justComment flt (X raw s)); [reflexivity|]. rewrite !X_classify. reflexivity.
Qed.

(** *** One line *)
Definition text_line (mb : str -> Z) (flt : Filter) (l : asm_line_v) (s : tstate) : tstate :=
  if startProcBlock (lv_text l) && (sv_line (t_currentSourceRef s) =? 0) then
    let s := markPreviousInternalLabelAsInsideProc s in
    if f_directives flt then drop_line l s else eol_directives mb flt l s
  else eol_directives mb flt l s.
Lemma eol_eq mb flt s : eol mb flt s =
  if fst (block_of flt (t_text s) (t_hasStartedCommentBlock s)) then drop_line (line_v0 (t_next_id s)) (base1 flt s)
  else if all_blank (t_text s) then keep_text (line_v0 (t_next_id s)) (maybeAddBlank (base1 flt s))
  else text_line mb flt (set_lv_text (clean flt (next_nest s) (t_text s)) (line_v0 (t_next_id s))) (base2 flt s).
Proof.
  unfold eol. cbv zeta. replace (new_line (set_t_total_lines (t_total_lines s + 1) s)) with (line_v0 (t_next_id s), set_t_next_id (t_next_id s + 1)%N (set_t_total_lines (t_total_lines s + 1) s)) by reflexivity.
  cbv iota beta. fold (begun s). rewrite block_eq.
  replace (t_text (begun s)) with (t_text s) by reflexivity. replace (t_hasStartedCommentBlock (begun s)) with (t_hasStartedCommentBlock s) by reflexivity.
  fold (next_block flt s). fold (base1 flt s).
  destruct (fst (block_of flt (t_text s) (t_hasStartedCommentBlock s))); [reflexivity|].
  replace (t_text (base1 flt s)) with (t_text s) by reflexivity. rewrite all_blank_eq.
  destruct (all_blank (t_text s)); [reflexivity|]. rewrite custom_eq.
  replace (nest_of (t_text (base1 flt s)) (t_inCustomAssembly (base1 flt s))) with (next_nest s) by reflexivity. fold (base2 flt s). rewrite filtered_clean. reflexivity.
Qed.
Lemma X_mark x s : markPreviousInternalLabelAsInsideProc (X x s) = X x (markPreviousInternalLabelAsInsideProc s).
Proof.
  unfold markPreviousInternalLabelAsInsideProc. change (t_lines (X x s)) with (t_lines s). destruct (rev (t_lines s)) as [|a t]; [reflexivity|].
  now destruct (lv_is_label a && lv_is_internal_label a).
Qed.
Lemma X_text_line mb flt l s raw t : same_note flt raw t -> text_line mb flt l (X raw s) = text_line mb (ws_off flt) l (X t s).
Proof.
  intros H. unfold text_line. change (t_currentSourceRef (X raw s)) with (t_currentSourceRef s). change (t_currentSourceRef (X t s)) with (t_currentSourceRef s).
  rewrite !X_mark. destruct (startProcBlock (lv_text l) && (sv_line (t_currentSourceRef s) =? 0)); [|now apply X_directives].
  change (f_directives (ws_off flt)) with (f_directives flt). cbv zeta. destruct (f_directives flt); [reflexivity|]. now apply X_directives.
Qed.
Lemma X_blank x s : maybeAddBlank (X x s) = X x (maybeAddBlank s).
Proof.
  unfold maybeAddBlank. change (t_lines (X x s)) with (t_lines s). now destruct (negb match rev (t_lines s) with [] => true | l :: _ => is_nil (lv_text l) end).
Qed.

(** How a line changes the depth of inline assembly. *)
Definition nest_step (t : str) : Z := nest_of t 0.
Lemma nest_step_eq t n : nest_of t n = n + nest_step t.
Proof. unfold nest_step, nest_of. destruct (_ || _); [lia|]. destruct (_ || _); lia. Qed.
(** The squeezed text of a line passes the tests made on the line as it was read
    in the same way as the line itself. *)
Definition fair (flt : Filter) (c : cand) : Prop :=
  match c with
  | CText raw nest =>
      nest_step (clean flt nest raw) = nest_step raw /\
      (0 < nest -> fixLabelIndentation (clean flt nest raw) = clean flt nest raw) /\
      (f_comment_only flt = true -> startCommentBlock (clean flt nest raw) = false /\
         isJustComments (clean flt nest raw) = isJustComments raw /\ isJustNvccComments (clean flt nest raw) = isJustNvccComments raw)
  | _ => True
  end.
(** The input written again, line by line: lines of block comments as they are,
    blank lines empty, lines of text as the parser stores them. *)
Definition squeezed_line (flt : Filter) (c : cand) : str :=
  match c with CBlock raw => raw | CBlank _ => [] | CText raw nest => clean flt nest raw end.
Definition squeezed (flt : Filter) (cs : list cand) : str := flat_map (fun c => squeezed_line flt c ++ [LF]) cs.
Definition no_lf (c : cand) : Prop := match c with CBlock raw => ~ In LF raw | CBlank raw => ~ In LF raw | CText raw _ => ~ In LF raw end.

Lemma clean_tabless flt nest raw : ~ In TAB (clean flt nest raw).
Proof.
  unfold clean. cbv zeta. set (t := if 0 <? nest then _ else _). intros I. assert (J : ~ In TAB (expandTabs t)) by (eapply expanded_no_tab, C52_expanded).
  destruct (f_whitespace flt); [|contradiction]. apply squash_quotes_in in I as [I|I]; [discriminate|contradiction].
Qed.
Lemma clean_lf flt nest raw : ~ In LF raw -> ~ In LF (clean flt nest raw).
Proof.
  intros H. unfold clean. cbv zeta. set (t := if 0 <? nest then _ else _).
  assert (Ht : ~ In LF t).
  { unfold t. destruct (0 <? nest); [|exact H]. unfold fixLabelIndentation. destruct (is_probably_label raw); [|exact H]. unfold ltrim. intros I. apply H.
    clear -I. induction raw as [|c r IH]; [exact I|]. cbn [drop_while] in I. destruct (is_space c); [right; auto|exact I]. }
  assert (J : ~ In LF (expandTabs t)) by (intros I; eapply expanded_in in I; [|apply C52_expanded]; destruct I as [I|I]; [discriminate|contradiction]).
  destruct (f_whitespace flt); [|exact J]. intros I. apply squash_quotes_in in I as [I|I]; [discriminate|contradiction].
Qed.
Lemma clean_off flt nest raw : (0 < nest -> fixLabelIndentation (clean flt nest raw) = clean flt nest raw) ->
  clean (ws_off flt) nest (clean flt nest raw) = clean flt nest raw.
Proof.
  intros H. unfold clean at 1. cbn [ws_off f_whitespace]. destruct (0 <? nest) eqn:E; [rewrite H by (now apply Z.ltb_lt)|]; apply no_tabs_expanded, clean_tabless.
Qed.
Lemma clean_black flt nest raw : all_blank raw = false -> all_blank (clean flt nest raw) = false.
Proof.
  intros H. destruct (0 <? nest) eqn:E.
  - replace (clean flt nest raw) with (clean flt 0 (fixLabelIndentation raw)) by (unfold clean; rewrite E; reflexivity). apply clean_not_blank; [lia|now apply label_fix].
  - apply clean_not_blank; [apply Z.ltb_ge in E; exact E|exact H].
Qed.
Lemma X_base1 flt x s : next_block flt (X x s) = snd (block_of flt x (t_hasStartedCommentBlock s)). Proof. reflexivity. Qed.
Lemma base1_X flt x s : base1 flt (X x s) = X x (set_t_hasStartedCommentBlock (snd (block_of flt x (t_hasStartedCommentBlock s))) (begun s)).
Proof. reflexivity. Qed.
Lemma base2_X flt x s : base2 flt (X x s) = X x (set_t_inCustomAssembly (nest_of x (t_inCustomAssembly s)) (set_t_hasStartedCommentBlock (snd (block_of flt x (t_hasStartedCommentBlock s))) (begun s))).
Proof. reflexivity. Qed.
Lemma E_twice x y s : X x (X y s) = X x s. Proof. reflexivity. Qed.
Lemma X_keep_text x l s : keep_text l (X x s) = X x (keep_text l s). Proof. reflexivity. Qed.
Lemma block_ws flt x b : block_of (ws_off flt) x b = block_of flt x b. Proof. reflexivity. Qed.

Lemma eol_squeezed mb flt s u : good (ws_off flt) u -> s = X (t_text s) u -> let c := fst (scan_line flt (scan_of s) []) in fair flt c ->
  X [] (eol mb flt s) = X [] (eol mb (ws_off flt) (X (squeezed_line flt c) u)) /\
  t_text (eol mb (ws_off flt) (X (squeezed_line flt c) u)) = [].
Proof.
  intros Hg Hs c Hf. set (raw := t_text s) in *. set (n0 := t_next_id u). set (b0 := t_hasStartedCommentBlock u).
  assert (Hb : t_hasStartedCommentBlock s = b0) by (rewrite Hs; reflexivity).
  assert (Hn : t_next_id s = n0) by (rewrite Hs; reflexivity).
  assert (Hc : t_inCustomAssembly s = t_inCustomAssembly u) by (rewrite Hs; reflexivity).
  assert (B1 : base1 flt s = X raw (set_t_hasStartedCommentBlock (snd (block_of flt raw b0)) (begun u))) by (rewrite Hs; apply base1_X).
  assert (B2 : base2 flt s = X raw (set_t_inCustomAssembly (nest_of raw (t_inCustomAssembly u)) (set_t_hasStartedCommentBlock (snd (block_of flt raw b0)) (begun u)))) by (rewrite Hs; apply base2_X).
  assert (Hnest : next_nest s = nest_of raw (t_inCustomAssembly u)) by (unfold next_nest; now rewrite Hc).
  rewrite (eol_eq mb flt s). fold raw. rewrite Hb, Hn, B1, B2, Hnest.
  unfold c in *. clear c. rewrite scan_line_eq in *. fold raw in Hf |- *. rewrite Hb, Hnest in *. clear B1 B2 Hs Hb Hn Hc Hnest.
  set (t := squeezed_line flt _).
  pose proof (eol_text mb (ws_off flt) (X t u) (good_set_text _ _ _ Hg)) as T. replace (t_text (X t u)) with t in T by reflexivity.
  remember (eol mb (ws_off flt) (X t u)) as e eqn:He. rewrite eol_eq in He.
  replace (t_text (X t u)) with t in He by reflexivity. replace (t_hasStartedCommentBlock (X t u)) with b0 in He by reflexivity. replace (t_next_id (X t u)) with n0 in He by reflexivity.
  rewrite base1_X, base2_X, !block_ws in He. fold b0 in He. replace (next_nest (X t u)) with (nest_of t (t_inCustomAssembly u)) in He by reflexivity.
  destruct (fst (block_of flt raw b0)) eqn:K.
  { cbn [fst squeezed_line] in t. subst t. rewrite K in He. subst e. split; reflexivity. }
  destruct (all_blank raw) eqn:Hbl.
  { cbn [fst squeezed_line] in t. subst t. 
    assert (N : block_of flt [] b0 = block_of flt raw b0).
    { rewrite block_of_eq in K. cbn [fst] in K. rewrite !block_of_eq, (blank_no_comment _ Hbl), (blank_no_comment [] eq_refl), orb_false_r in *. now rewrite K. }
    rewrite N, K in He. replace (all_blank []) with true in He by reflexivity. subst e. rewrite !X_blank, !X_keep_text, !E_twice. split; reflexivity. }
  cbn [fst squeezed_line fair] in t, Hf. destruct Hf as (F1 & F2 & F3).
  assert (N : nest_of t (t_inCustomAssembly u) = nest_of raw (t_inCustomAssembly u)) by (rewrite !nest_step_eq; unfold t; now rewrite <- F1).
  assert (B : block_of flt t b0 = block_of flt raw b0).
  { rewrite block_of_eq in K. cbn [fst] in K. rewrite !block_of_eq. destruct (f_comment_only flt); [|reflexivity]. cbn [andb] in *. apply orb_false_elim in K as [K1 K2].
    destruct (F3 eq_refl) as [F _]. fold t in F. rewrite K1, K2, F. reflexivity. }
  assert (A0 : all_blank t = false) by now apply clean_black. split; [|now apply T].
  rewrite B, K, A0, N in He. replace (clean (ws_off flt) (nest_of raw (t_inCustomAssembly u)) t) with t in He by (symmetry; now apply clean_off).
  subst e. fold t. rewrite (X_text_line mb flt _ _ raw t); [reflexivity|]. intros Y. destruct (F3 Y) as (_ & A & A'). now split.
Qed.

(** *** The whole input *)
Definition follows (mb : str -> Z) (flt : Filter) (cs : list cand) (s : tstate) : Prop :=
  Forall no_lf cs -> Forall (fair flt) cs ->
  X [] s = before mb (ws_off flt) (squeezed flt cs) /\ t_text (before mb (ws_off flt) (squeezed flt cs)) = [].
Lemma before_line mb flt (p l : str) : ~ In LF l -> t_text (before mb flt p) = [] -> before mb flt (p ++ l ++ [LF]) = eol mb flt (X l (before mb flt p)).
Proof.
  intros H E. destruct (before_good mb flt p) as [_ S].
  assert (A : before mb flt (p ++ l ++ [LF]) = fold_left (step mb flt) [LF] (fold_left (step mb flt) l (before mb flt p))) by (unfold before; rewrite !fold_left_app; reflexivity).
  rewrite A. pose proof (fold_chars mb flt l _ S H) as F. unfold str, char in *. rewrite F, E. cbn [app fold_left]. now rewrite step_lf.
Qed.
Lemma follows_line mb flt cs s : follows mb flt cs s -> good flt s -> follows mb flt (cs ++ [fst (scan_line flt (scan_of s) [])]) (eol mb flt s).
Proof.
  intros H _ HL HF. apply Forall_app in HL as [HL1 HL2]. apply Forall_app in HF as [HF1 HF2]. destruct (H HL1 HF1) as [H1 H2]. clear H HL1 HF1.
  unfold squeezed in *. rewrite flat_map_app. cbn [flat_map]. rewrite app_nil_r. set (p := flat_map _ cs) in *. set (c := fst (scan_line flt (scan_of s) [])) in *.
  apply Forall_inv in HL2. apply Forall_inv in HF2.
  assert (L : ~ In LF (squeezed_line flt c)) by (destruct c; cbn [squeezed_line no_lf] in *; [exact HL2|intros []|now apply clean_lf]).
  rewrite (before_line mb (ws_off flt) p _ L H2). destruct (before_good mb (ws_off flt) p) as [G S]. set (u := before mb (ws_off flt) p) in *. clearbody u.
  assert (Hs : s = X (t_text s) u) by (rewrite <- H1; now destruct s).
  destruct (eol_squeezed mb flt s u G Hs HF2) as [A B]. fold c in A, B. split; [|exact B].
  rewrite A. set (e := eol mb (ws_off flt) _) in *. clearbody e. clear - B. destruct e. cbn in B. rewrite B. reflexivity.
Qed.
Lemma scan_line_lf flt sc l : ~ In LF l -> ~ In LF (sc_pend sc) -> no_lf (fst (scan_line flt sc l)) /\ ~ In LF (sc_pend (snd (scan_line flt sc l))).
Proof.
  intros H1 H2. assert (H : ~ In LF (sc_pend sc ++ l)) by (rewrite in_app_iff; tauto). unfold scan_line. cbv zeta.
  destruct (f_comment_only flt && _); [split; [exact H|intros []]|]. destruct (all_blank _); [split; exact H|split; [exact H|intros []]].
Qed.
Lemma scan_lines_lf flt ls : Forall (fun l => ~ In LF l) ls -> forall sc, ~ In LF (sc_pend sc) -> Forall no_lf (fst (scan_lines flt sc ls)) /\ ~ In LF (sc_pend (snd (scan_lines flt sc ls))).
Proof.
  induction 1 as [|l t Hl _ IH]; intros sc Hsc; cbn [scan_lines]; [split; [constructor|exact Hsc]|]. destruct (scan_line_lf flt sc l Hl Hsc) as [A B].
  destruct (scan_line flt sc l) as [c sc1]. cbn [fst snd] in *. destruct (IH sc1 B) as [C D]. destruct (scan_lines flt sc1 t). cbn [fst snd] in *. split; [now constructor|exact D].
Qed.
Lemma scan_input_lf flt input : Forall no_lf (scan_input flt input).
Proof.
  unfold scan_input. destruct (raw_lines_nolf input [] (fun x => x)) as [A B]. unfold str, char in *. destruct (raw_lines [] input) as [ls rest]. cbn [fst snd] in *.
  destruct (scan_lines_lf flt ls A scan0 (fun x => x)) as [C D]. destruct (scan_lines flt scan0 ls) as [cs sc]. cbn [fst snd] in *.
  destruct (is_nil _); [exact C|]. apply Forall_app. split; [exact C|]. constructor; [|constructor]. now apply scan_line_lf.
Qed.
Lemma read_squeezed mb flt input : Forall (fair flt) (scan_input flt input) ->
  X [] (read_lines mb flt tstate0 input) = read_lines mb (ws_off flt) tstate0 (squeezed flt (scan_input flt input)).
Proof.
  intros H. assert (R : follows mb flt (scan_input flt input) (read_lines mb flt tstate0 input)).
  { apply read_cands; [intros cs s t Y A B; exact (Y A B)|apply follows_line|]. intros _ _. split; reflexivity. }
  destruct (R (scan_input_lf flt input) H) as [A B]. rewrite A. pose proof (read_before mb (ws_off flt) (squeezed flt (scan_input flt input)) []) as E.
  rewrite app_nil_r in E. rewrite E. cbn [fold_left]. unfold finish_read. rewrite B. reflexivity.
Qed.

(** *** After reading *)
Section After.
Variables (flt : Filter) (oref : list view -> list view) (olab : list (view * Z) -> list (view * Z)) (x : str).
Lemma isUsed_X s fuel : forall k d v, isUsed oref (X x s) fuel k d v = isUsed oref s fuel k d v.
Proof.
  induction fuel as [|n IH]; intros k d v; [reflexivity|]. cbn [isUsed].
  change (t_usercode_labels (X x s)) with (t_usercode_labels s). change (t_used_labels (X x s)) with (t_used_labels s).
  change (t_weakly_used_labels (X x s)) with (t_weakly_used_labels s). change (t_data_used_labels (X x s)) with (t_data_used_labels s).
  destruct (mem_str k (if d =? 0 then [] else v)); [reflexivity|]. destruct (set_contains (t_usercode_labels s) k); [reflexivity|].
  rewrite (any_ref_ext (fun ref vis => if is_nil (v_str ref) then Ok (true, vis) else isUsed oref (X x s) n (v_str ref) (d + 1) vis)
    (fun ref vis => if is_nil (v_str ref) then Ok (true, vis) else isUsed oref s n (v_str ref) (d + 1) vis)) by (intros r w; now rewrite IH).
  destruct (any_ref _ (refs_of oref (t_used_labels s) k) _) as [[u w]|b| |]; try reflexivity.
  cbn [obind fst snd]. destruct u; [reflexivity|]. destruct (0 <? d); [|reflexivity].
  rewrite (any_ref_ext (fun ref vis => isUsed oref (X x s) n (v_str ref) (d - 1) vis)
    (fun ref vis => isUsed oref s n (v_str ref) (d - 1) vis)) by (intros r w'; now rewrite IH).
  destruct (any_ref _ (refs_of oref (t_weakly_used_labels s) k) _) as [[u2 w2]|b| |]; try reflexivity.
  cbn [obind fst snd]. destruct u2; [reflexivity|].
  now rewrite (any_ref_ext (fun ref vis => isUsed oref (X x s) n (v_str ref) (d - 1) vis)
    (fun ref vis => isUsed oref s n (v_str ref) (d - 1) vis)) by (intros r w'; now rewrite IH).
Qed.
Lemma alias_X s fuel k v : isUsedThroughAlias oref (X x s) fuel k v = isUsedThroughAlias oref s fuel k v.
Proof.
  unfold isUsedThroughAlias. change (t_aliased_labels (X x s)) with (t_aliased_labels s). destruct (map_find (t_aliased_labels s) k); [apply isUsed_X|reflexivity].
Qed.
Lemma data_alias_X s fuel k v : isDataUsedThroughAlias oref (X x s) fuel k v = isDataUsedThroughAlias oref s fuel k v.
Proof. unfold isDataUsedThroughAlias. change (t_data_used_labels (X x s)) with (t_data_used_labels s). apply any_ref_ext. intros r w. apply alias_X. Qed.
Definition xout (r : outcome (tstate * list str)) : outcome (tstate * list str) := p <- r ;; Ok (X x (fst p), snd p).
Lemma mark_one_X s fuel i v : mark_one oref (X x s) fuel i v = xout (mark_one oref s fuel i v).
Proof.
  unfold mark_one. change (t_lines (X x s)) with (t_lines s). destruct ((i <? 1) || (Z.of_nat (length (t_lines s)) <? i)); [reflexivity|].
  cbv zeta. destruct (nth_error (t_lines s) (Z.to_nat (i - 1))) as [l|]; [|reflexivity].
  rewrite isUsed_X. destruct (isUsed oref s fuel _ 1 v) as [[u w]|b| |]; try reflexivity. cbn [obind fst snd]. destruct u; [reflexivity|].
  rewrite data_alias_X. destruct (isDataUsedThroughAlias oref s fuel _ w) as [[u w1]|b| |]; try reflexivity. cbn [obind fst snd]. destruct u; [reflexivity|].
  rewrite alias_X. destruct (isUsedThroughAlias oref s fuel _ w1) as [[u w2]|b| |]; try reflexivity. cbn [obind fst snd]. now destruct u.
Qed.
Lemma mark_loop_X fuel ls : forall s v, mark_loop oref fuel ls (X x s) v = xout (mark_loop oref fuel ls s v).
Proof.
  induction ls as [|e t IH]; intros s v; [reflexivity|]. cbn [mark_loop]. rewrite mark_one_X.
  destruct (mark_one oref s fuel (snd e) v) as [[s1 w]|b| |]; try reflexivity. cbn [xout obind fst snd]. apply IH.
Qed.
Lemma remove_loop_X s ls : forall r, remove_loop (ws_off flt) (X x s) r ls = remove_loop flt s r ls.
Proof.
  induction ls as [|l t IH]; intros r; [reflexivity|]. cbn [remove_loop]. change (remove_label (ws_off flt) (X x s) r l) with (remove_label flt s r l).
  destruct (remove_label flt s r l) as [only r']. rewrite IH. reflexivity.
Qed.
Lemma removeUnused_X s : removeUnused (ws_off flt) (X x s) = X x (removeUnused flt s).
Proof. unfold removeUnused. change (t_lines (X x s)) with (t_lines s). rewrite remove_loop_X. now destruct (remove_loop flt s _ (t_lines s)). Qed.
End After.

Lemma run_squeezed mb flt oref olab fuel input vis : Forall (fair flt) (scan_input flt input) ->
  AsmText.run mb (ws_off flt) oref olab fuel (squeezed flt (scan_input flt input)) vis = xout [] (AsmText.run mb flt oref olab fuel input vis).
Proof.
  intros H. unfold AsmText.run, fromStream, markLabelUsage. cbv zeta. rewrite <- (read_squeezed mb flt input H). set (y := read_lines mb flt tstate0 input). clearbody y.
  change (filterNonLabels (X [] y)) with (X [] (filterNonLabels y)). set (z := filterNonLabels y). clearbody z. change (t_labels_defined (X [] z)) with (t_labels_defined z).
  rewrite mark_loop_X. destruct (mark_loop oref fuel _ z vis) as [[a b]|b| |]; try reflexivity. cbn [xout obind fst snd]. now rewrite removeUnused_X.
Qed.
