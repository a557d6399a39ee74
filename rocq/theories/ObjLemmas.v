(** Facts about the objdump parser used by several properties. *)
From Verif Require Export Lemmas ObjDump.

Ltac osimp := cbn [o_inComment o_inSomethingWithALabel o_hasPrefixingWhitespace o_inAddress o_inLabel o_inOpcodes o_inSectionStart o_inSectionName o_inSourceRef o_inSourceRefLineNumber o_inRelocation o_skipRestOfTheLine o_stopParsing o_ignoreUntilNextLabel o_checkNextFileForLibraryCode o_currentLabelReference o_currentSourceRef o_previousLabel o_text o_currentFilename o_currentSection o_currentLine o_lines o_labels o_total_lines set_o_inComment set_o_inSomethingWithALabel set_o_hasPrefixingWhitespace set_o_inAddress set_o_inLabel set_o_inOpcodes set_o_inSectionStart set_o_inSectionName set_o_inSourceRef set_o_inSourceRefLineNumber set_o_inRelocation set_o_skipRestOfTheLine set_o_stopParsing set_o_ignoreUntilNextLabel set_o_checkNextFileForLibraryCode set_o_currentLabelReference set_o_currentSourceRef set_o_previousLabel set_o_text set_o_currentFilename set_o_currentSection set_o_currentLine set_o_lines set_o_labels set_o_total_lines] in *.
Ltac osimp_goal := cbn [o_inComment o_inSomethingWithALabel o_hasPrefixingWhitespace o_inAddress o_inLabel o_inOpcodes o_inSectionStart o_inSectionName o_inSourceRef o_inSourceRefLineNumber o_inRelocation o_skipRestOfTheLine o_stopParsing o_ignoreUntilNextLabel o_checkNextFileForLibraryCode o_currentLabelReference o_currentSourceRef o_previousLabel o_text o_currentFilename o_currentSection o_currentLine o_lines o_labels o_total_lines set_o_inComment set_o_inSomethingWithALabel set_o_hasPrefixingWhitespace set_o_inAddress set_o_inLabel set_o_inOpcodes set_o_inSectionStart set_o_inSectionName set_o_inSourceRef set_o_inSourceRefLineNumber set_o_inRelocation set_o_skipRestOfTheLine set_o_stopParsing set_o_ignoreUntilNextLabel set_o_checkNextFileForLibraryCode set_o_currentLabelReference set_o_currentSourceRef set_o_previousLabel set_o_text set_o_currentFilename set_o_currentSection set_o_currentLine set_o_lines set_o_labels set_o_total_lines].
Ltac lsimp := cbn [l_text l_section l_labels l_opcodes l_closest_parent_label l_is_label l_is_internal_label l_label l_source l_address l_is_used l_is_used_through_alias l_is_used_data_through_alias l_is_data l_is_inline_asm l_has_opcode l_is_directive l_is_assignment set_l_text set_l_section set_l_labels set_l_opcodes set_l_closest_parent_label set_l_is_label set_l_is_internal_label set_l_label set_l_source set_l_address set_l_is_used set_l_is_used_through_alias set_l_is_used_data_through_alias set_l_is_data set_l_is_inline_asm set_l_has_opcode set_l_is_directive set_l_is_assignment] in *.
Ltac lsimp_goal := cbn [l_text l_section l_labels l_opcodes l_closest_parent_label l_is_label l_is_internal_label l_label l_source l_address l_is_used l_is_used_through_alias l_is_used_data_through_alias l_is_data l_is_inline_asm l_has_opcode l_is_directive l_is_assignment set_l_text set_l_section set_l_labels set_l_opcodes set_l_closest_parent_label set_l_is_label set_l_is_internal_label set_l_label set_l_source set_l_address set_l_is_used set_l_is_used_through_alias set_l_is_used_data_through_alias set_l_is_data set_l_is_inline_asm set_l_has_opcode set_l_is_directive set_l_is_assignment].

(** A predicate kept by every character is kept by every input. *)
Lemma feed_inv mb flt (P : ostate -> Prop) :
  (forall s c s', P s -> step mb flt s c = Ok s' -> P s') ->
  forall input s s', P s -> feed mb flt s input = Ok s' -> P s'.
Proof.
  intros Hstep input; induction input as [|c t IH]; cbn [feed]; intros s s' HP H.
  - injection H as <-. exact HP.
  - apply obind_Ok in H as (s1 & H1 & H2). eauto.
Qed.

Lemma feed_app mb flt s a b :
  feed mb flt s (a ++ b) = (s' <- feed mb flt s a ;; feed mb flt s' b).
Proof.
  revert s; induction a as [|c a IH]; intros s; cbn [feed app]; [reflexivity|].
  destruct (step mb flt s c); cbn [obind]; auto.
Qed.

Lemma feed_stopped mb flt s input : o_stopParsing s = true -> feed mb flt s input = Ok s.
Proof.
  intros H; induction input as [|c t IH]; cbn [feed]; [reflexivity|].
  unfold step. rewrite H. cbn [obind]. exact IH.
Qed.

(** Everything except end of line leaves the output alone. *)
Ltac split_if :=
  match goal with
  | |- context [if ?b then _ else _] => let E := fresh "E" in destruct b eqn:E
  | |- context [match ?x with _ => _ end] => let E := fresh "E" in destruct x eqn:E
  end.

Definition same_out (s s' : ostate) : Prop :=
  o_lines s' = o_lines s /\ o_labels s' = o_labels s /\ o_total_lines s' = o_total_lines s
  /\ o_stopParsing s' = o_stopParsing s /\ o_ignoreUntilNextLabel s' = o_ignoreUntilNextLabel s
  /\ o_checkNextFileForLibraryCode s' = o_checkNextFileForLibraryCode s /\ o_previousLabel s' = o_previousLabel s.
Lemma same_out_refl s : same_out s s.
Proof. repeat split. Qed.
Ltac so := solve [unfold same_out; repeat split; reflexivity].
Lemma same_out_trans a b c : same_out a b -> same_out b c -> same_out a c.
Proof. unfold same_out. intuition congruence. Qed.

Lemma append_char_out c s : same_out s (append_char c s).
Proof. unfold append_char. destruct (_ && _); so. Qed.
Lemma labelref_out mb flt s : same_out s (labelref mb flt s).
Proof.
  unfold labelref. destruct (negb _); [|so].
  destruct (substr_from _ _); [|so]. destruct (negb _); so.
Qed.
Lemma opcodes_out s : same_out s (opcodes s).
Proof. unfold opcodes. destruct (negb _); so. Qed.
Lemma updateSourceRefLineNumber_out s s' : updateSourceRefLineNumber s = Ok s' -> same_out s s'.
Proof.
  unfold updateSourceRefLineNumber. destruct (atoi _); [|discriminate].
  destruct (0 <? z); intros [= <-]; so.
Qed.
Lemma actually_address_out s s' : actually_address s = Ok s' -> same_out s s'.
Proof.
  unfold actually_address. destruct (negb _).
  - destruct (addr_loop _ _ _) as [[a b]| | |]; cbn [obind]; try discriminate.
    destruct b; cbn [snd]; intros [= <-]; so.
  - cbn [obind]. intros [= <-]. so.
Qed.
Lemma address_out s s' : address s = Ok s' -> same_out s s'.
Proof.
  unfold address. intros H. apply obind_Ok in H as (s1 & H1 & [= <-]).
  enough (same_out s s1) by (eapply same_out_trans; [eassumption|so]).
  destruct (o_text s) as [|c t]; [injection H1 as <-; so|].
  destruct (ceq c "/"); [injection H1 as <-; so|].
  now apply actually_address_out.
Qed.

Lemma step_out mb flt s c s' : c <> LF -> step mb flt s c = Ok s' -> same_out s s'.
Proof.
  intros Hc. unfold step.
  destruct (o_stopParsing s); [intros [= <-]; so|].
  destruct (ceq c CR); [intros [= <-]; so|].
  destruct (ceq c LF) eqn:E; [apply ceq_true in E; contradiction|]. clear E.
  destruct (o_skipRestOfTheLine s); [intros [= <-]; so|].
  destruct (o_inAddress s).
  { unfold step_address.
    destruct (ceq c "/"); [intros [= <-]; eapply same_out_trans; [|apply append_char_out]; so|].
    destruct (ceq c ";"); [intros [= <-]; so|].
    destruct (ceq c ":"); [apply address_out|].
    destruct (is_whitespace c).
    - destruct (str_eqb _ _); [intros [= <-]; eapply same_out_trans; [|apply append_char_out]; so|].
      destruct (negb _); [|intros [= <-]; so].
      intros H. apply obind_Ok in H as (s1 & H1 & [= <-]). apply address_out in H1.
      eapply same_out_trans; [eassumption|so].
    - intros [= <-]. apply append_char_out. }
  destruct (o_inLabel s); [intros [= <-]; apply append_char_out|].
  destruct (o_inOpcodes s).
  { intros [= <-]. unfold step_opcodes.
    destruct (is_whitespace c).
    - destruct (is_nil _); [so|]. destruct (last_is _ _); [apply opcodes_out|apply append_char_out].
    - destruct (ceq c "R"); [eapply same_out_trans; [|apply append_char_out]; so|].
      destruct (negb _); [eapply same_out_trans; [|apply append_char_out]; so|apply append_char_out]. }
  destruct (o_inRelocation s).
  { intros [= <-]. unfold step_relocation. destruct (ceq c TAB); [so|apply append_char_out]. }
  destruct (o_inSectionStart s).
  { intros [= <-]. unfold step_section. destruct (negb _).
    - destruct (str_eqb _ _); [so|].
      eapply same_out_trans; [|apply append_char_out]; so.
    - destruct (ceq c ":"); so. }
  destruct (o_inSourceRef s).
  { unfold step_sourceref. destruct (ceq c ":"); [intros [= <-]; so|].
    destruct (_ && _); [|intros [= <-]; apply append_char_out].
    intros H. apply obind_Ok in H as (s1 & H1 & [= <-]). apply updateSourceRefLineNumber_out in H1.
    eapply same_out_trans; [eassumption|so]. }
  destruct (negb _); intros [= <-]; [|apply append_char_out].
  unfold step_text. eapply same_out_trans; [|apply append_char_out].
  destruct (ceq c "#"); [so|]. destruct (ceq c "<"); [so|].
  destruct (o_inSomethingWithALabel s); [|so].
  destruct (ceq c ">").
  - destruct (is_nil _); [|so]. eapply same_out_trans; [|apply labelref_out]. so.
  - destruct (ceq c "+"); [|so]. eapply same_out_trans; [|apply labelref_out]. so.
Qed.
