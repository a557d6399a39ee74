(** What the locale changes in the text parser.  The locale enters through mblen
    alone, in ustrlen (utils.hpp), which getUsedLabelsInLine
    (regexwrappers.cpp:209-249) calls for the end column of a reference.  Here:
    two runs in two locales agree on everything but those end columns. *)
From Verif Require Import UtilLabels ObjRefs AsmText.
Local Open Scope Z_scope.

(** A reference, a line and a parser state with the end columns set to 0. *)
Definition endless (r : asm_label_v) : asm_label_v :=
  mkLabelV (lbv_name r) (mkRange (r_start (lbv_range r)) 0).
Definition endless_line (l : asm_line_v) : asm_line_v := set_lv_labels (map endless (lv_labels l)) l.
Definition endless_state (s : tstate) : tstate :=
  set_t_currentLine (option_map endless_line (t_currentLine s))
    (set_t_filteredlines (map endless_line (t_filteredlines s))
       (set_t_lines (map endless_line (t_lines s)) s)).
Notation E := endless_state.
Notation EL := endless_line.

Lemma map_update_nth : forall {A B} (g : A -> B) f f' n l,
  (forall a, g (f a) = f' (g a)) -> map g (update_nth n f l) = update_nth n f' (map g l).
Proof.
  intros A B g f f' n l H. revert n. induction l as [|a t IH]; intros [|n]; cbn; try reflexivity.
  - now rewrite H.
  - now rewrite IH.
Qed.

Lemma EL_idem : forall l, EL (EL l) = EL l.
Proof.
  intro l. change (set_lv_labels (map endless (map endless (lv_labels l))) l = set_lv_labels (map endless (lv_labels l)) l).
  f_equal. rewrite map_map. apply map_ext. now intros [n r].
Qed.
Lemma E_idem : forall s, E (E s) = E s.
Proof.
  intro s.
  change (E (E s)) with
    (set_t_currentLine (option_map EL (option_map EL (t_currentLine s)))
      (set_t_filteredlines (map EL (map EL (t_filteredlines s)))
        (set_t_lines (map EL (map EL (t_lines s))) s))).
  rewrite !map_map, !(map_ext _ _ EL_idem). unfold endless_state. f_equal.
  destruct (t_currentLine s) as [l|]; cbn; [now rewrite EL_idem|reflexivity].
Qed.
Lemma E_lines : forall ls s, E (set_t_lines ls s) = set_t_lines (map EL ls) (E s).
Proof. reflexivity. Qed.

(** -- steps that do not look at references -- *)

Lemma E_amend : forall src s, E (amendPreviousLinesWith src s) = amendPreviousLinesWith src (E s).
Proof.
  assert (H : forall src l, map EL (amend_rev src l) = amend_rev src (map EL l)).
  { intros src l. induction l as [|a t IH]; [reflexivity|]. cbn [amend_rev map].
    change (lv_is_label (EL a)) with (lv_is_label a).
    change (lv_is_internal_label (EL a)) with (lv_is_internal_label a).
    destruct (lv_is_label a); [|reflexivity]. cbn.
    destruct (lv_is_internal_label a); cbn; [now rewrite IH|reflexivity]. }
  intros src s. unfold amendPreviousLinesWith. rewrite E_lines. f_equal.
  change (t_lines (E s)) with (map EL (t_lines s)). now rewrite map_rev, H, map_rev.
Qed.

Lemma E_mark_previous : forall s,
  E (markPreviousInternalLabelAsInsideProc s) = markPreviousInternalLabelAsInsideProc (E s).
Proof.
  intro s. unfold markPreviousInternalLabelAsInsideProc.
  change (t_lines (E s)) with (map EL (t_lines s)). rewrite <- map_rev.
  destruct (rev (t_lines s)) as [|l t]; [reflexivity|]. cbn [map].
  change (lv_is_label (EL l) && lv_is_internal_label (EL l)) with (lv_is_label l && lv_is_internal_label l).
  destruct (lv_is_label l && lv_is_internal_label l); [|reflexivity].
  rewrite E_lines. f_equal. now rewrite map_rev.
Qed.

Lemma E_stabs : forall line s, option_map E (handleStabs line s) = handleStabs line (E s).
Proof.
  intros line s. unfold handleStabs. destruct (getSourceInfoFromStabs line) as [sb|]; [|reflexivity].
  cbn [option_map]. destruct (sb_type sb =? 68); [reflexivity|].
  destruct ((sb_type sb =? 100) || (sb_type sb =? 132)); reflexivity.
Qed.
Lemma E_filedef : forall line s, option_map E (handleFiledef line s) = handleFiledef line (E s).
Proof.
  intros line s. unfold handleFiledef. destruct (getFileDef line) as [[i f]|]; reflexivity.
Qed.
Lemma E_source : forall line s, option_map E (handleSource line s) = handleSource line (E s).
Proof.
  intros line s. unfold handleSource. destruct (getSourceRef line) as [[a b] c].
  destruct (negb (a =? 0)); [|reflexivity]. cbn [option_map]. now rewrite E_amend.
Qed.
Lemma E_D2 : forall l s, option_map E (handleD2 l s) = handleD2 (EL l) (E s).
Proof.
  intros l s. unfold handleD2. change (lv_text (EL l)) with (lv_text l).
  destruct (getD2LineInfo (lv_text l)) as [n|].
  - cbn [option_map]. now rewrite E_amend.
  - destruct (getD2FileInfo (lv_text l)); reflexivity.
Qed.
Lemma E_6502 : forall l s, option_map E (handle6502 l s) = handle6502 (EL l) (E s).
Proof.
  intros l s. unfold handle6502. change (lv_text (EL l)) with (lv_text l).
  destruct (get6502DbgInfo (lv_text l)) as [[[f n] e]|]; [|reflexivity]. now destruct e.
Qed.
Lemma E_section : forall l s, E (handleSection l s) = handleSection (EL l) (E s).
Proof.
  intros l s. unfold handleSection. change (lv_text (EL l)) with (lv_text l).
  now destruct (getSectionNameDef (lv_text l)).
Qed.
Lemma E_directive : forall l s, option_map E (handleSourceDirective l s) = handleSourceDirective (EL l) (E s).
Proof.
  intros l s. unfold handleSourceDirective. change (lv_text (EL l)) with (lv_text l).
  rewrite <- E_filedef, <- E_source, <- E_stabs, <- E_6502, <- E_D2.
  destruct (handleFiledef (lv_text l) s); [reflexivity|].
  destruct (handleSource (lv_text l) s); [reflexivity|].
  destruct (handleStabs (lv_text l) s); [reflexivity|].
  now destruct (handle6502 l s).
Qed.
Lemma E_extract : forall l s, E (extractUsedLabelsFromDirective l s) = extractUsedLabelsFromDirective (EL l) (E s).
Proof.
  intros l s. unfold extractUsedLabelsFromDirective. change (lv_text (EL l)) with (lv_text l).
  destruct (getWeakDefinedLabel (lv_text l)); [reflexivity|].
  now destruct (getGlobalDefinedLabel (lv_text l)).
Qed.
Lemma E_getlabel : forall l s,
  getLabelFromLine (EL l) (E s)
  = (fst (fst (getLabelFromLine l s)), EL (snd (fst (getLabelFromLine l s))), E (snd (getLabelFromLine l s))).
Proof.
  intros l s. unfold getLabelFromLine. change (lv_text (EL l)) with (lv_text l).
  destruct (getLabel (lv_text l)) as [n|]; [reflexivity|].
  destruct (getLabelAssignment (lv_text l)) as [n|]; [reflexivity|].
  destruct (getAssignmentDef (lv_text l)) as [n|]; [reflexivity|].
  now destruct (getCudaLabel (lv_text l)) as [n|].
Qed.
Lemma E_label : forall l s,
  handleLabelDefinition (EL l) (E s)
  = (EL (fst (handleLabelDefinition l s)), E (snd (handleLabelDefinition l s))).
Proof.
  intros l s. unfold handleLabelDefinition. rewrite E_getlabel.
  destruct (getLabelFromLine l s) as [[[n|] l1] s1]; cbn [fst snd]; [|reflexivity].
  change (t_lines (set_t_previousLabel n (E s1))) with (map EL (t_lines s1)).
  rewrite map_length. now destruct (negb (isInternalLabel (v_str n))).
Qed.
Lemma E_aliasing : forall l s, E (handleLabelAliasing l s) = handleLabelAliasing (EL l) (E s).
Proof.
  intros l s. unfold handleLabelAliasing.
  change (lv_is_label (EL l)) with (lv_is_label l).
  change (lv_is_assignment (EL l)) with (lv_is_assignment l).
  change (lv_has_opcode (EL l)) with (lv_has_opcode l).
  change (lv_is_data (EL l)) with (lv_is_data l).
  change (t_previousLabelOnSameAddress (E s)) with (t_previousLabelOnSameAddress s).
  destruct (lv_is_label l && negb (lv_is_assignment l));
  (destruct (negb (is_nil (v_str (t_previousLabelOnSameAddress s)))); [|reflexivity]);
  (destruct (negb (lv_is_assignment l)); [|reflexivity]);
  (destruct (lv_is_label l); [reflexivity|]);
  now destruct (lv_has_opcode l || lv_is_data l).
Qed.
Lemma E_blank : forall s, E (maybeAddBlank s) = maybeAddBlank (E s).
Proof.
  intro s. unfold maybeAddBlank. change (t_lines (E s)) with (map EL (t_lines s)). rewrite <- map_rev.
  destruct (rev (t_lines s)) as [|l t]; [reflexivity|]. cbn [map].
  change (lv_text (EL l)) with (lv_text l). destruct (negb (is_nil (lv_text l))); [|reflexivity].
  cbn [new_line]. rewrite E_lines. f_equal. now rewrite map_app.
Qed.

Section Locales.
Variables (mb mb' : str -> Z).

Definition endless_label (b : asm_label) : asm_label :=
  mkLabel (lb_name b) (mkRange (r_start (lb_range b)) 0).

Lemma used_loop_names : forall filtered d fuel pos rest i,
  map endless_label (used_labels_loop mb filtered d fuel pos rest i)
  = map endless_label (used_labels_loop mb' filtered d fuel pos rest i).
Proof.
  intros filtered d. induction fuel as [|k IH]; intros pos rest i; [reflexivity|]. cbn [used_labels_loop].
  destruct (search_from usedLabelRe pos rest) as [[x st]|]; [|reflexivity]. cbv zeta.
  rewrite !map_app, IH. f_equal. now destruct (negb (is_nil (cap 1 st))).
Qed.
Lemma used_names : forall line,
  map endless_label (getUsedLabelsInLine mb line) = map endless_label (getUsedLabelsInLine mb' line).
Proof.
  intro line. unfold getUsedLabelsInLine. cbv zeta. destruct (has_char DQ _); [reflexivity|].
  apply used_loop_names.
Qed.
Lemma used_in_endless : forall l,
  map endless (used_labels_in mb l) = map endless (used_labels_in mb' (EL l)).
Proof.
  intro l. unfold used_labels_in. change (lv_text (EL l)) with (lv_text l).
  rewrite !map_map.
  change (map (fun x => endless (mkLabelV (slice l (lb_name x)) (lb_range x))) (getUsedLabelsInLine mb (lv_text l)))
    with (map (fun x => (fun y => mkLabelV (slice l (lb_name y)) (lb_range y)) (endless_label x))
            (getUsedLabelsInLine mb (lv_text l))).
  rewrite <- (map_map endless_label), used_names, map_map. reflexivity.
Qed.

Lemma names_only : forall (f : tstate -> asm_label_v -> tstate) rs rs' s,
  (forall s r, f s r = f s (endless r)) -> (forall s r, E (f s r) = f (E s) r) ->
  map endless rs = map endless rs' -> E (fold_left f rs s) = fold_left f rs' (E s).
Proof.
  intros f rs. induction rs as [|r t IH]; intros [|r' t'] s Hn He H; try discriminate; [reflexivity|].
  cbn [map] in H. injection H as H0 H1 H2. cbn [fold_left].
  rewrite (IH t' (f s r) Hn He H2), He, Hn.
  replace (endless r) with (endless r') by (unfold endless; congruence).
  now rewrite <- Hn.
Qed.

Lemma E_opcode : forall l s,
  EL (fst (extractUsedLabelsFromOpcodeLine mb l s)) = EL (fst (extractUsedLabelsFromOpcodeLine mb' (EL l) (E s))) /\
  E (snd (extractUsedLabelsFromOpcodeLine mb l s)) = snd (extractUsedLabelsFromOpcodeLine mb' (EL l) (E s)).
Proof.
  intros l s. unfold extractUsedLabelsFromOpcodeLine. cbn [fst snd]. split.
  - unfold endless_line at 1. cbn. rewrite (used_in_endless l). reflexivity.
  - apply names_only; [reflexivity| |apply used_in_endless].
    intros x r. change (t_previousParentLabel (E x)) with (t_previousParentLabel x).
    now destruct (negb (str_eqb (v_str (lbv_name r)) (v_str (t_previousParentLabel x)))).
Qed.
Lemma E_data : forall l s,
  EL (fst (extractUsedLabelsFromDataLine mb l s)) = EL (fst (extractUsedLabelsFromDataLine mb' (EL l) (E s))) /\
  E (snd (extractUsedLabelsFromDataLine mb l s)) = snd (extractUsedLabelsFromDataLine mb' (EL l) (E s)).
Proof.
  intros l s. unfold extractUsedLabelsFromDataLine. cbn [fst snd]. split.
  - unfold endless_line at 1. cbn. rewrite (used_in_endless l). reflexivity.
  - apply names_only; [reflexivity|reflexivity|apply used_in_endless].
Qed.
End Locales.

(** -- the end of a line -- *)

Lemma E_opcode_rel : forall mb mb' l l' s s', EL l = EL l' -> E s = E s' ->
  EL (fst (extractUsedLabelsFromOpcodeLine mb l s)) = EL (fst (extractUsedLabelsFromOpcodeLine mb' l' s')) /\
  E (snd (extractUsedLabelsFromOpcodeLine mb l s)) = E (snd (extractUsedLabelsFromOpcodeLine mb' l' s')).
Proof.
  intros mb mb' l l' s s' Hl Hs.
  destruct (E_opcode mb mb' l s) as [A B]. destruct (E_opcode mb' mb' l' s') as [A' B'].
  rewrite A, A', B, B', Hl, Hs. now split.
Qed.
Lemma E_data_rel : forall mb mb' l l' s s', EL l = EL l' -> E s = E s' ->
  EL (fst (extractUsedLabelsFromDataLine mb l s)) = EL (fst (extractUsedLabelsFromDataLine mb' l' s')) /\
  E (snd (extractUsedLabelsFromDataLine mb l s)) = E (snd (extractUsedLabelsFromDataLine mb' l' s')).
Proof.
  intros mb mb' l l' s s' Hl Hs.
  destruct (E_data mb mb' l s) as [A B]. destruct (E_data mb' mb' l' s') as [A' B'].
  rewrite A, A', B, B', Hl, Hs. now split.
Qed.

(** The tail of eol_keep, after the references are taken. *)
Definition keep_tail (l : asm_line_v) (s : tstate) : tstate :=
  let l := set_lv_closest_parent_label
             (if lv_is_assignment l || str_eqb (v_str (lv_label l)) (v_str (t_previousParentLabel s)) then []
              else v_str (t_previousParentLabel s)) l in
  let l := set_lv_section (t_currentSection s) (set_lv_source (t_currentSourceRef s) l) in
  let s := handleLabelAliasing l s in
  set_t_text [] (set_t_currentLine None (set_t_lines (t_lines s ++ [l]) s)).

Lemma E_tail : forall l s, E (keep_tail l s) = keep_tail (EL l) (E s).
Proof.
  intros l s. unfold keep_tail.
  change (lv_is_assignment (EL l)) with (lv_is_assignment l).
  change (lv_label (EL l)) with (lv_label l).
  change (t_previousParentLabel (E s)) with (t_previousParentLabel s).
  change (t_currentSection (E s)) with (t_currentSection s).
  change (t_currentSourceRef (E s)) with (t_currentSourceRef s).
  set (p := if lv_is_assignment l || _ then _ else v_str (t_previousParentLabel s)). cbv zeta.
  set (l1 := set_lv_section (t_currentSection s) (set_lv_source (t_currentSourceRef s)
               (set_lv_closest_parent_label p l))).
  change (set_lv_section (t_currentSection s) (set_lv_source (t_currentSourceRef s)
            (set_lv_closest_parent_label p (EL l)))) with (EL l1).
  rewrite <- E_aliasing. generalize (handleLabelAliasing l1 s). intro x.
  change (t_lines (E x)) with (map EL (t_lines x)).
  change [EL l1] with (map EL [l1]). rewrite <- map_app. reflexivity.
Qed.
Lemma tail_rel : forall l l' s s', EL l = EL l' -> E s = E s' -> E (keep_tail l s) = E (keep_tail l' s').
Proof. intros l l' s s' Hl Hs. now rewrite !E_tail, Hl, Hs. Qed.

Lemma E_keep : forall mb mb' l s, E (eol_keep mb l s) = E (eol_keep mb' (EL l) (E s)).
Proof.
  intros mb mb' l s. unfold eol_keep.
  change (set_lv_labels [] (set_lv_has_opcode
            (hasOpcode (lv_text (set_lv_is_inline_asm (0 <? t_inCustomAssembly (E s)) (EL l))) (t_inNvccCode (E s)))
            (set_lv_is_inline_asm (0 <? t_inCustomAssembly (E s)) (EL l))))
    with (EL (set_lv_labels [] (set_lv_has_opcode
            (hasOpcode (lv_text (set_lv_is_inline_asm (0 <? t_inCustomAssembly s) l)) (t_inNvccCode s))
            (set_lv_is_inline_asm (0 <? t_inCustomAssembly s) l)))).
  set (l0 := set_lv_labels [] _). generalize l0. clear l0 l. intro l.
  change (lv_is_label (EL l)) with (lv_is_label l).
  change (lv_has_opcode (EL l)) with (lv_has_opcode l).
  set (p := if negb (lv_is_label l) && lv_has_opcode l then _ else (l, s)).
  set (p' := if negb (lv_is_label l) && lv_has_opcode l then _ else (EL l, E s)).
  assert (Hp : EL (fst p) = EL (fst p') /\ E (snd p) = E (snd p')).
  { unfold p, p'. destruct (negb (lv_is_label l) && lv_has_opcode l).
    - apply E_opcode_rel; [symmetry; apply EL_idem|symmetry; apply E_idem].
    - cbn [fst snd]. split; [symmetry; apply EL_idem|symmetry; apply E_idem]. }
  clearbody p p'. clear l s. destruct p as [l s], p' as [l' s']. cbn [fst snd] in Hp. destruct Hp as [Hl Hs].
  change (E (let '(l, s) := if negb (lv_is_label l) && lv_is_data l
                            then extractUsedLabelsFromDataLine mb l s else (l, s) in keep_tail l s)
    = E (let '(l', s') := if negb (lv_is_label l') && lv_is_data l'
                          then extractUsedLabelsFromDataLine mb' l' s' else (l', s') in keep_tail l' s')).
  replace (lv_is_label l') with (lv_is_label l) by exact (f_equal lv_is_label Hl).
  replace (lv_is_data l') with (lv_is_data l) by exact (f_equal lv_is_data Hl).
  destruct (negb (lv_is_label l) && lv_is_data l).
  - destruct (E_data_rel mb mb' l l' s s' Hl Hs) as [A B].
    destruct (extractUsedLabelsFromDataLine mb l s), (extractUsedLabelsFromDataLine mb' l' s').
    now apply tail_rel.
  - now apply tail_rel.
Qed.

Section Eol.
Variables (mb mb' : str -> Z) (flt : Filter).

Lemma E_classify : forall h l s, E (eol_classify mb flt h l s) = E (eol_classify mb' flt h (EL l) (E s)).
Proof.
  intros h l s. unfold eol_classify.
  set (p := if h then (_, s) else _). set (p' := if h then (_, E s) else _).
  assert (Hp : p' = (EL (fst p), E (snd p))).
  { unfold p, p'. destruct h; [reflexivity|]. rewrite E_label.
    now destruct (handleLabelDefinition l s). }
  clearbody p p'. subst p'. destruct p as [l1 s1]. cbn [fst snd]. clear l s.
  change (t_inNvccDef (E s1)) with (t_inNvccDef s1).
  change (lv_text (EL l1)) with (lv_text l1).
  destruct (t_inNvccDef s1).
  { destruct (isCudaEndDef (lv_text l1)); [|apply E_keep].
    change (set_t_inNvccDef false (E s1)) with (E (set_t_inNvccDef false s1)). apply E_keep. }
  change (lv_is_label (EL l1)) with (lv_is_label l1).
  change (lv_is_data (EL l1)) with (lv_is_data l1).
  destruct (negb (lv_is_label l1) && negb (lv_is_data l1)); [|apply E_keep].
  set (l2 := if negb h then set_lv_is_directive (isDirective (lv_text l1)) l1 else l1).
  set (l2' := if negb h then _ else EL l1).
  replace l2' with (EL l2) by (unfold l2, l2'; now destruct h).
  clearbody l2. clear l2'.
  change (lv_is_directive (EL l2)) with (lv_is_directive l2).
  change (lv_text (EL l2)) with (lv_text l2).
  destruct (lv_is_directive l2 && negb (isInstOpcode (lv_text l2))); [|apply E_keep].
  rewrite <- E_extract. generalize (extractUsedLabelsFromDirective l2 s1). intro x.
  destruct (f_directives flt); [|apply E_keep].
  rewrite <- (E_idem (set_t_text [] _)). f_equal.
  change (t_filteredlines (E x)) with (map EL (t_filteredlines x)).
  change [EL l2] with (map EL [l2]). rewrite <- map_app. reflexivity.
Qed.

Lemma E_library : forall s,
  libraryFilter flt (E s) = (fst (libraryFilter flt s), E (snd (libraryFilter flt s))).
Proof.
  intro s. unfold libraryFilter.
  change (t_lastOwnSource (E s)) with (t_lastOwnSource s).
  change (t_currentFilename (E s)) with (t_currentFilename s).
  destruct (f_library_functions flt && (sv_line (t_lastOwnSource s) =? 0) && is_nil (v_str (t_currentFilename s)));
    [|reflexivity].
  change (t_lines (E s)) with (map EL (t_lines s)). rewrite <- map_rev.
  destruct (rev (t_lines s)) as [|a t]; [reflexivity|]. cbn [map].
  change (t_mayRemovePreviousLabel (E s)) with (t_mayRemovePreviousLabel s).
  destruct (t_mayRemovePreviousLabel s); [|reflexivity].
  change (lv_text (EL a)) with (lv_text a). destruct (is_nil (lv_text a)); [reflexivity|].
  change (lv_is_label (EL a)) with (lv_is_label a). destruct (lv_is_label a); [|reflexivity].
  rewrite <- map_rev. reflexivity.
Qed.

Lemma E_eol_directives : forall l s, E (eol_directives mb flt l s) = E (eol_directives mb' flt (EL l) (E s)).
Proof.
  intros l s. unfold eol_directives.
  set (p := if endBlock (lv_text l) || _ then (false, _) else _).
  set (p' := if endBlock (lv_text (EL l)) || _ then (false, _) else _).
  assert (Hp : p' = (fst p, E (snd p))).
  { unfold p, p'. change (lv_text (EL l)) with (lv_text l). change (t_inNvccCode (E s)) with (t_inNvccCode s).
    destruct (endBlock (lv_text l) || (t_inNvccCode s && str_contains (lv_text l) "}")); [reflexivity|].
    rewrite <- E_directive. now destruct (handleSourceDirective l s). }
  clearbody p p'. subst p'. destruct p as [h s1]. cbn [fst snd]. clear s.
  set (s2 := if negb h then handleSection l s1 else s1).
  replace (if negb h then handleSection (EL l) (E s1) else E s1) with (E s2)
    by (unfold s2; destruct h; [reflexivity|apply E_section]).
  clearbody s2. rewrite E_library.
  destruct (libraryFilter flt s2) as [d s3]. cbn [fst snd]. destruct d.
  { rewrite <- (E_idem (drop_line l s3)). reflexivity. }
  change (justComment flt (E s3)) with (justComment flt s3).
  destruct (justComment flt s3); [|apply E_classify].
  rewrite <- (E_idem (drop_line l s3)). reflexivity.
Qed.

Lemma E_comment : forall s, commentBlock flt (E s) = (fst (commentBlock flt s), E (snd (commentBlock flt s))).
Proof.
  intro s. unfold commentBlock. destruct (f_comment_only flt); [|reflexivity].
  change (t_text (E s)) with (t_text s).
  change (t_hasStartedCommentBlock (E s)) with (t_hasStartedCommentBlock s).
  destruct (t_hasStartedCommentBlock s) eqn:H; cbn [negb]; cbv iota zeta.
  - change (t_hasStartedCommentBlock (E s)) with (t_hasStartedCommentBlock s). rewrite !H. reflexivity.
  - change (t_hasStartedCommentBlock (set_t_hasStartedCommentBlock (startCommentBlock (t_text s)) (E s)))
      with (startCommentBlock (t_text s)).
    change (t_hasStartedCommentBlock (set_t_hasStartedCommentBlock (startCommentBlock (t_text s)) s))
      with (startCommentBlock (t_text s)).
    now destruct (startCommentBlock (t_text s)).
Qed.
Lemma E_custom : forall s, E (customAssembly s) = customAssembly (E s).
Proof.
  intro s. unfold customAssembly. change (t_text (E s)) with (t_text s).
  destruct (startAppBlock (t_text s) || startAsmNesting (t_text s)); [reflexivity|].
  now destruct (endAppBlock (t_text s) || endAsmNesting (t_text s)).
Qed.

Lemma E_eol : forall s, E (eol mb flt s) = E (eol mb' flt (E s)).
Proof.
  intro s. unfold eol. cbv zeta. unfold new_line. cbv iota beta.
  set (l := line_v0 (t_next_id (set_t_total_lines (t_total_lines s + 1) s))).
  change (line_v0 (t_next_id (set_t_total_lines (t_total_lines (E s) + 1) (E s)))) with (EL l).
  change (set_t_currentLine (Some (EL l)) (set_t_next_id
            (t_next_id (set_t_total_lines (t_total_lines (E s) + 1) (E s)) + 1)
            (set_t_total_lines (t_total_lines (E s) + 1) (E s))))
    with (E (set_t_currentLine (Some l) (set_t_next_id
            (t_next_id (set_t_total_lines (t_total_lines s + 1) s) + 1)
            (set_t_total_lines (t_total_lines s + 1) s)))).
  generalize (set_t_currentLine (Some l) (set_t_next_id
            (t_next_id (set_t_total_lines (t_total_lines s + 1) s) + 1)
            (set_t_total_lines (t_total_lines s + 1) s))). clearbody l. clear s. intro s.
  rewrite E_comment. destruct (commentBlock flt s) as [r s1]. cbn [fst snd]. clear s. destruct r.
  { rewrite <- (E_idem (drop_line l s1)). reflexivity. }
  change (t_text (E s1)) with (t_text s1). destruct (isEmptyOrJustWhitespace (t_text s1)).
  { rewrite <- E_blank. generalize (maybeAddBlank s1). intro x. rewrite <- (E_idem (keep_text l x)). reflexivity. }
  rewrite <- E_custom. generalize (customAssembly s1). clear s1. intro s.
  change (filteredLine flt (E s)) with (filteredLine flt s).
  change (set_lv_text (filteredLine flt s) (EL l)) with (EL (set_lv_text (filteredLine flt s) l)).
  generalize (set_lv_text (filteredLine flt s) l). clear l. intro l.
  change (lv_text (EL l)) with (lv_text l). change (t_currentSourceRef (E s)) with (t_currentSourceRef s).
  destruct (startProcBlock (lv_text l) && (sv_line (t_currentSourceRef s) =? 0)); [|apply E_eol_directives].
  rewrite <- E_mark_previous. generalize (markPreviousInternalLabelAsInsideProc s). clear s. intro s.
  destruct (f_directives flt); [|apply E_eol_directives].
  rewrite <- (E_idem (drop_line l s)). reflexivity.
Qed.
Lemma E_step : forall s c, E (step mb flt s c) = E (step mb' flt (E s) c).
Proof.
  intros s c. unfold step. change (t_stopParsing (E s)) with (t_stopParsing s).
  destruct (t_stopParsing s); [symmetry; apply E_idem|]. destruct (ceq c LF); [apply E_eol|].
  rewrite <- (E_idem (set_t_text (t_text s ++ [c]) s)). reflexivity.
Qed.
End Eol.

(** -- the whole input -- *)

Lemma feed_rel : forall mb mb' flt input s s', E s = E s' ->
  E (fold_left (step mb flt) input s) = E (fold_left (step mb' flt) input s').
Proof.
  intros mb mb' flt input. induction input as [|c t IH]; intros s s' H; [exact H|]. cbn [fold_left].
  apply IH. rewrite (E_step mb mb'), H, <- (E_step mb' mb'). reflexivity.
Qed.
Lemma read_rel : forall mb mb' flt input s s', E s = E s' ->
  E (read_lines mb flt s input) = E (read_lines mb' flt s' input).
Proof.
  intros mb mb' flt input s s' H. unfold read_lines.
  assert (HF : E (fold_left (step mb flt) input (set_t_total_lines 0 s))
             = E (fold_left (step mb' flt) input (set_t_total_lines 0 s'))).
  { apply feed_rel. change (set_t_total_lines 0 (E s) = set_t_total_lines 0 (E s')). now rewrite H. }
  cbv zeta. set (x := fold_left (step mb flt) input _) in *.
  set (x' := fold_left (step mb' flt) input _) in *.
  replace (t_text x') with (t_text x) by exact (f_equal t_text HF).
  destruct (negb (is_nil (t_text x))); [|exact HF].
  rewrite (E_eol mb mb'), HF, <- (E_eol mb' mb'). reflexivity.
Qed.

Section After.
Variables (flt : Filter)
          (ord_refs : list view -> list view) (ord_labels : list (view * Z) -> list (view * Z)).

Lemma any_ref_ext : forall f g refs v, (forall r v, f r v = g r v) -> any_ref f refs v = any_ref g refs v.
Proof.
  intros f g refs. induction refs as [|r t IH]; intros v H; [reflexivity|]. cbn [any_ref].
  rewrite H. destruct (g r v) as [[u w]|b| |]; try reflexivity. cbn [obind fst snd].
  destruct u; [reflexivity|]. now apply IH.
Qed.

Lemma isUsed_E : forall s fuel k d v, isUsed ord_refs (E s) fuel k d v = isUsed ord_refs s fuel k d v.
Proof.
  intros s fuel. induction fuel as [|n IH]; intros k d v; [reflexivity|]. cbn [isUsed].
  change (t_usercode_labels (E s)) with (t_usercode_labels s).
  change (t_used_labels (E s)) with (t_used_labels s).
  change (t_weakly_used_labels (E s)) with (t_weakly_used_labels s).
  change (t_data_used_labels (E s)) with (t_data_used_labels s).
  destruct (mem_str k (if d =? 0 then [] else v)); [reflexivity|].
  destruct (set_contains (t_usercode_labels s) k); [reflexivity|].
  rewrite (any_ref_ext
    (fun ref vis => if is_nil (v_str ref) then Ok (true, vis) else isUsed ord_refs (E s) n (v_str ref) (d + 1) vis)
    (fun ref vis => if is_nil (v_str ref) then Ok (true, vis) else isUsed ord_refs s n (v_str ref) (d + 1) vis))
    by (intros r w; now rewrite IH).
  destruct (any_ref _ (refs_of ord_refs (t_used_labels s) k) _) as [[u w]|b| |]; try reflexivity.
  cbn [obind fst snd]. destruct u; [reflexivity|]. destruct (0 <? d); [|reflexivity].
  rewrite (any_ref_ext (fun ref vis => isUsed ord_refs (E s) n (v_str ref) (d - 1) vis)
    (fun ref vis => isUsed ord_refs s n (v_str ref) (d - 1) vis)) by (intros r w'; now rewrite IH).
  destruct (any_ref _ (refs_of ord_refs (t_weakly_used_labels s) k) _) as [[u2 w2]|b| |]; try reflexivity.
  cbn [obind fst snd]. destruct u2; [reflexivity|].
  rewrite (any_ref_ext (fun ref vis => isUsed ord_refs (E s) n (v_str ref) (d - 1) vis)
    (fun ref vis => isUsed ord_refs s n (v_str ref) (d - 1) vis)) by (intros r w'; now rewrite IH).
  reflexivity.
Qed.

Lemma alias_E : forall s fuel k v,
  isUsedThroughAlias ord_refs (E s) fuel k v = isUsedThroughAlias ord_refs s fuel k v.
Proof.
  intros s fuel k v. unfold isUsedThroughAlias. change (t_aliased_labels (E s)) with (t_aliased_labels s).
  destruct (map_find (t_aliased_labels s) k); [apply isUsed_E|reflexivity].
Qed.
Lemma data_alias_E : forall s fuel k v,
  isDataUsedThroughAlias ord_refs (E s) fuel k v = isDataUsedThroughAlias ord_refs s fuel k v.
Proof.
  intros s fuel k v. unfold isDataUsedThroughAlias.
  change (t_data_used_labels (E s)) with (t_data_used_labels s).
  apply any_ref_ext. intros r w. apply alias_E.
Qed.

Definition eout (r : outcome (tstate * list str)) : outcome (tstate * list str) :=
  p <- r ;; Ok (E (fst p), snd p).

Lemma mark_one_E : forall s fuel i v, mark_one ord_refs (E s) fuel i v = eout (mark_one ord_refs s fuel i v).
Proof.
  intros s fuel i v. unfold mark_one. change (t_lines (E s)) with (map EL (t_lines s)).
  rewrite map_length. destruct ((i <? 1) || (Z.of_nat (length (t_lines s)) <? i)); [reflexivity|].
  cbv zeta. rewrite nth_error_map. destruct (nth_error (t_lines s) (Z.to_nat (i - 1))) as [l|]; [|reflexivity].
  cbn [option_map]. change (lv_label (EL l)) with (lv_label l).
  assert (U : forall g, (forall a, EL (g a) = g (EL a)) -> forall n,
    set_t_lines (update_nth n g (map EL (t_lines s))) (E s) = E (set_t_lines (update_nth n g (t_lines s)) s)).
  { intros g Hg n. rewrite E_lines. f_equal. symmetry. now apply map_update_nth. }
  rewrite isUsed_E. destruct (isUsed ord_refs s fuel _ 1 v) as [[u w]|b| |]; try reflexivity.
  cbn [obind fst snd]. destruct u; [cbn [eout obind fst snd]; now rewrite U|].
  rewrite data_alias_E. destruct (isDataUsedThroughAlias ord_refs s fuel _ w) as [[u w1]|b| |]; try reflexivity.
  cbn [obind fst snd]. destruct u; [cbn [eout obind fst snd]; now rewrite U|].
  rewrite alias_E. destruct (isUsedThroughAlias ord_refs s fuel _ w1) as [[u w2]|b| |]; try reflexivity.
  cbn [obind fst snd]. destruct u; [cbn [eout obind fst snd]; now rewrite U|reflexivity].
Qed.
Lemma mark_loop_E : forall fuel ls s v, mark_loop ord_refs fuel ls (E s) v = eout (mark_loop ord_refs fuel ls s v).
Proof.
  intros fuel ls. induction ls as [|e t IH]; intros s v; [reflexivity|]. cbn [mark_loop].
  rewrite mark_one_E. destruct (mark_one ord_refs s fuel (snd e) v) as [[s1 w]|b| |]; try reflexivity.
  cbn [eout obind fst snd]. apply IH.
Qed.

Lemma filter_endless : forall (f : view -> bool) ls,
  map endless (filter (fun r => f (lbv_name r)) ls) = filter (fun r => f (lbv_name r)) (map endless ls).
Proof.
  intros f ls. induction ls as [|r t IH]; [reflexivity|]. cbn. rewrite <- IH. now destruct (f (lbv_name r)).
Qed.

Lemma remove_loop_E : forall s ls r,
  remove_loop flt (E s) r (map EL ls)
  = (map EL (fst (remove_loop flt s r ls)), map EL (snd (remove_loop flt s r ls))).
Proof.
  intros s ls. induction ls as [|l t IH]; intros r; [reflexivity|]. cbn [remove_loop map].
  change (remove_label flt (E s) r (EL l)) with (remove_label flt s r l).
  destruct (remove_label flt s r l) as [only r']. rewrite IH.
  destruct (remove_loop flt s r' t) as [kept out]. cbn [fst snd].
  change (removed flt r' only (EL l)) with (removed flt r' only l).
  destruct (removed flt r' only l); [reflexivity|]. cbn [fst snd map]. f_equal. f_equal.
  assert (HF : filterOutReferedLabelsThatArentDefined (E s) (EL l)
             = EL (filterOutReferedLabelsThatArentDefined s l)).
  { unfold filterOutReferedLabelsThatArentDefined.
    change (lv_labels (EL l)) with (map endless (lv_labels l)).
    change (t_labels_defined (E s)) with (t_labels_defined s).
    rewrite <- (filter_endless (fun v => map_contains (t_labels_defined s) (v_str v))). reflexivity. }
  rewrite HF. generalize (filterOutReferedLabelsThatArentDefined s l). intro x.
  unfold resolve_file. change (lv_source (EL x)) with (lv_source x). change (t_files (E s)) with (t_files s).
  destruct (negb (sv_file_idx (lv_source x) =? 0)); [|reflexivity].
  now destruct (files_at (t_files s) (sv_file_idx (lv_source x))).
Qed.
Lemma removeUnused_E : forall s, removeUnused flt (E s) = E (removeUnused flt s).
Proof.
  intro s. unfold removeUnused. change (t_lines (E s)) with (map EL (t_lines s)).
  rewrite remove_loop_E. destruct (remove_loop flt s _ (t_lines s)) as [kept out]. cbn [fst snd].
  change (t_filteredlines (E s)) with (map EL (t_filteredlines s)). rewrite <- map_app. reflexivity.
Qed.

(** Two calls of fromStream, in two locales, on parsers that agree up to the end
    columns: same outcome, up to the end columns. *)
Lemma fromStream_rel : forall mb mb' fuel s s' input v, E s = E s' ->
  eout (fromStream mb flt ord_refs ord_labels fuel s input v)
  = eout (fromStream mb' flt ord_refs ord_labels fuel s' input v).
Proof.
  intros mb mb' fuel s s' input v H. unfold fromStream, markLabelUsage. cbv zeta.
  pose proof (read_rel mb mb' flt input s s' H) as HR.
  set (x := read_lines mb flt s input) in *. set (x' := read_lines mb' flt s' input) in *.
  assert (HF : E (filterNonLabels x) = E (filterNonLabels x')).
  { change (filterNonLabels (E x) = filterNonLabels (E x')). now rewrite HR. }
  set (y := filterNonLabels x) in *. set (y' := filterNonLabels x') in *. clearbody y y'.
  assert (G : forall z, eout (r <- mark_loop ord_refs fuel (ord_labels (t_labels_defined z)) z v ;;
                              Ok (removeUnused flt (fst r), snd r))
                        = (r <- mark_loop ord_refs fuel (ord_labels (t_labels_defined (E z))) (E z) v ;;
                           Ok (removeUnused flt (fst r), snd r))).
  { intro z. change (t_labels_defined (E z)) with (t_labels_defined z). rewrite mark_loop_E.
    destruct (mark_loop ord_refs fuel (ord_labels (t_labels_defined z)) z v) as [[a b]|b| |]; try reflexivity.
    cbn [eout obind fst snd]. now rewrite removeUnused_E. }
  now rewrite !G, HF.
Qed.
End After.

(** -- locales in which an ASCII byte is one character -- *)

Lemma used_loop_same : forall mb mb' filtered d fuel, ascii_compatible mb -> ascii_compatible mb' ->
  forall pos rest i, used_labels_loop mb filtered d fuel pos rest i = used_labels_loop mb' filtered d fuel pos rest i.
Proof.
  intros mb mb' filtered d fuel Hm Hm'. induction fuel as [|k IH]; intros pos rest i; [reflexivity|].
  cbn [used_labels_loop]. pose proof (search_used rest pos) as HS.
  destruct (search_from usedLabelRe pos rest) as [[x st]|]; [|reflexivity].
  destruct HS as (gap & c & t & Es & Hg & Hc & H2 & H1 & Hr & Hp).
  assert (Ha : ascii_text (cap 2 st)).
  { rewrite H2. constructor.
    - unfold tok_start in Hc. destruct c as [[] [] [] [] [] [] [] []]; vm_compute in Hc; try discriminate; now split.
    - apply Forall_forall. intros a Hin.
      pose proof (span_prefix tok_char t) as Hpre. rewrite Forall_forall in Hpre. specialize (Hpre a Hin).
      destruct a as [[] [] [] [] [] [] [] []]; vm_compute in Hpre; try discriminate; now split. }
  cbv zeta. rewrite (ustrlen_ascii mb _ Hm Ha), (ustrlen_ascii mb' _ Hm' Ha), IH. reflexivity.
Qed.

Section Same.
Variables (mb mb' : str -> Z) (flt : Filter)
          (ord_refs : list view -> list view) (ord_labels : list (view * Z) -> list (view * Z)).
Hypotheses (Hm : ascii_compatible mb) (Hm' : ascii_compatible mb').

Lemma used_same : forall l, used_labels_in mb l = used_labels_in mb' l.
Proof.
  intro l. unfold used_labels_in, getUsedLabelsInLine. cbv zeta.
  destruct (has_char DQ _); [reflexivity|]. now rewrite (used_loop_same mb mb').
Qed.
Lemma opcode_same : forall l s, extractUsedLabelsFromOpcodeLine mb l s = extractUsedLabelsFromOpcodeLine mb' l s.
Proof. intros l s. unfold extractUsedLabelsFromOpcodeLine. now rewrite used_same. Qed.
Lemma data_same : forall l s, extractUsedLabelsFromDataLine mb l s = extractUsedLabelsFromDataLine mb' l s.
Proof. intros l s. unfold extractUsedLabelsFromDataLine. now rewrite used_same. Qed.
Lemma keep_same : forall l s, eol_keep mb l s = eol_keep mb' l s.
Proof.
  intros l s. unfold eol_keep. rewrite opcode_same.
  match goal with |- context [if ?c then extractUsedLabelsFromOpcodeLine mb' ?a ?b else (?x, ?y)] =>
    destruct (if c then extractUsedLabelsFromOpcodeLine mb' a b else (x, y)) as [l1 s1] end.
  now rewrite data_same.
Qed.
Lemma classify_same : forall h l s, eol_classify mb flt h l s = eol_classify mb' flt h l s.
Proof.
  intros h l s. unfold eol_classify.
  destruct (if h then _ else _) as [l1 s1].
  destruct (t_inNvccDef s1); [apply keep_same|].
  destruct (negb (lv_is_label l1) && negb (lv_is_data l1)); [|apply keep_same].
  cbv zeta. destruct (lv_is_directive _ && _); [|apply keep_same].
  destruct (f_directives flt); [reflexivity|apply keep_same].
Qed.
Lemma directives_same : forall l s, eol_directives mb flt l s = eol_directives mb' flt l s.
Proof.
  intros l s. unfold eol_directives.
  destruct (if endBlock (lv_text l) || _ then (false, _) else _) as [h s1].
  destruct (libraryFilter flt _) as [d s2]. destruct d; [reflexivity|].
  destruct (justComment flt s2); [reflexivity|apply classify_same].
Qed.
Lemma eol_same : forall s, eol mb flt s = eol mb' flt s.
Proof.
  intro s. unfold eol. cbv zeta. unfold new_line. cbv iota beta.
  destruct (commentBlock flt _) as [r s1]. destruct r; [reflexivity|].
  destruct (isEmptyOrJustWhitespace (t_text s1)); [reflexivity|].
  destruct (startProcBlock _ && _); [|apply directives_same].
  destruct (f_directives flt); [reflexivity|apply directives_same].
Qed.
Lemma read_same : forall s input, read_lines mb flt s input = read_lines mb' flt s input.
Proof.
  intros s input. unfold read_lines.
  assert (H : forall i x, fold_left (step mb flt) i x = fold_left (step mb' flt) i x).
  { intro i. induction i as [|c t IH]; intro x; [reflexivity|]. cbn [fold_left]. rewrite IH. f_equal.
    unfold step. now rewrite eol_same. }
  rewrite H. cbv zeta. now rewrite eol_same.
Qed.
Lemma fromStream_same : forall fuel s input v,
  fromStream mb flt ord_refs ord_labels fuel s input v = fromStream mb' flt ord_refs ord_labels fuel s input v.
Proof. intros fuel s input v. unfold fromStream. now rewrite read_same. Qed.
End Same.
