(** Proof of C21: the line count does not influence anything else. *)
From Verif Require Export ObjRefs.

Ltac tot := intros; match goal with s : ostate |- _ => destruct s end; osimp_goal.

Lemma append_char_total k c s : append_char c (set_o_total_lines k s) = set_o_total_lines k (append_char c s).
Proof. rewrite !append_char_eq. now destruct s. Qed.
Lemma labelref_total mb flt k s : labelref mb flt (set_o_total_lines k s) = set_o_total_lines k (labelref mb flt s).
Proof. rewrite !labelref_eq. now destruct s. Qed.
Lemma opcodes_total k s : opcodes (set_o_total_lines k s) = set_o_total_lines k (opcodes s).
Proof. rewrite !opcodes_eq. now destruct s. Qed.
Lemma actually_address_total k s :
  actually_address (set_o_total_lines k s) = omap (set_o_total_lines k) (actually_address s).
Proof.
  unfold actually_address. destruct s; osimp_goal. destruct o_ignoreUntilNextLabel; [reflexivity|]. cbn [negb].
  destruct (addr_loop _ _ _) as [[a b]| | |]; cbn [obind omap fst snd]; try reflexivity. now destruct b.
Qed.
Lemma address_total k s : address (set_o_total_lines k s) = omap (set_o_total_lines k) (address s).
Proof.
  unfold address. change (o_text (set_o_total_lines k s)) with (o_text s).
  destruct (o_text s) as [|c t]; [reflexivity|]. destruct (ceq c "/"); [reflexivity|].
  rewrite actually_address_total. now destruct (actually_address s).
Qed.
Lemma step_address_total k s c :
  step_address (set_o_total_lines k s) c = omap (set_o_total_lines k) (step_address s c).
Proof.
  unfold step_address. change (o_text (set_o_total_lines k s)) with (o_text s).
  destruct (ceq c "/"). { cbn [omap obind]. now rewrite <- append_char_total. }
  destruct (ceq c ";"); [reflexivity|]. destruct (ceq c ":"); [apply address_total|].
  destruct (is_whitespace c); [|cbn [omap obind]; now rewrite <- append_char_total].
  destruct (str_eqb _ _). { cbn [omap obind]. now rewrite <- append_char_total. }
  destruct (is_nil _); cbn [negb]; [reflexivity|]. rewrite address_total. now destruct (address s).
Qed.
Lemma step_opcodes_total k s c : step_opcodes (set_o_total_lines k s) c = set_o_total_lines k (step_opcodes s c).
Proof.
  unfold step_opcodes. change (o_text (set_o_total_lines k s)) with (o_text s).
  destruct (is_whitespace c); [destruct (is_nil _); [reflexivity|]; destruct (last_is _ _); [apply opcodes_total|apply append_char_total]|].
  destruct (ceq c "R"); [now rewrite <- append_char_total|]. destruct (is_hex c); cbn [negb]; now rewrite <- append_char_total.
Qed.
Lemma step_relocation_total k s c : step_relocation (set_o_total_lines k s) c = set_o_total_lines k (step_relocation s c).
Proof. unfold step_relocation. destruct (ceq c TAB); [reflexivity|apply append_char_total]. Qed.
Lemma step_section_total k s c : step_section (set_o_total_lines k s) c = set_o_total_lines k (step_section s c).
Proof.
  unfold step_section. change (o_text (set_o_total_lines k s)) with (o_text s).
  change (o_inSectionName (set_o_total_lines k s)) with (o_inSectionName s).
  destruct (o_inSectionName s); cbn [negb]; [now destruct (ceq c ":")|]. destruct (str_eqb _ _); [reflexivity|].
  now rewrite <- append_char_total.
Qed.
Lemma updateSource_total k s :
  updateSourceRefLineNumber (set_o_total_lines k s) = omap (set_o_total_lines k) (updateSourceRefLineNumber s).
Proof.
  unfold updateSourceRefLineNumber. change (o_text (set_o_total_lines k s)) with (o_text s).
  destruct (atoi _); [|reflexivity]. now destruct (0 <? z).
Qed.
Lemma step_sourceref_total k s c :
  step_sourceref (set_o_total_lines k s) c = omap (set_o_total_lines k) (step_sourceref s c).
Proof.
  unfold step_sourceref. destruct (ceq c ":"); [reflexivity|].
  change (o_inSourceRefLineNumber (set_o_total_lines k s)) with (o_inSourceRefLineNumber s).
  destruct (_ && _); [|cbn [omap obind]; now rewrite <- append_char_total].
  rewrite updateSource_total. now destruct (updateSourceRefLineNumber s).
Qed.
Lemma step_text_total mb flt k s c : step_text mb flt (set_o_total_lines k s) c = set_o_total_lines k (step_text mb flt s c).
Proof.
  unfold step_text. rewrite <- append_char_total. f_equal.
  destruct (ceq c "#"); [reflexivity|]. destruct (ceq c "<"); [reflexivity|].
  change (o_inSomethingWithALabel (set_o_total_lines k s)) with (o_inSomethingWithALabel s).
  destruct (o_inSomethingWithALabel s); [|reflexivity]. destruct (ceq c ">").
  - cbn zeta. change (o_currentLabelReference (set_o_inSomethingWithALabel false (set_o_total_lines k s)))
      with (o_currentLabelReference (set_o_inSomethingWithALabel false s)).
    destruct (is_nil _); [|reflexivity]. now rewrite <- labelref_total.
  - destruct (ceq c "+"); [|reflexivity]. now rewrite <- labelref_total.
Qed.
Lemma label_total flt k s : label flt (set_o_total_lines k s) = omap (set_o_total_lines k) (label flt s).
Proof.
  destruct (o_text s) as [|c t] eqn:Et.
  - unfold label. change (o_text (set_o_total_lines k s)) with (o_text s). rewrite Et. reflexivity.
  - rewrite !label_eq by (osimp; rewrite ?Et; discriminate).
    change (rm flt (set_o_total_lines k s)) with (rm flt s). destruct (rm flt s) as [[ls lb]| | |]; cbn [obind omap]; try reflexivity.
    change (o_text (set_o_total_lines k s)) with (o_text s). cbn zeta. destruct (shouldIgnoreFunction _ _); reflexivity.
Qed.
Lemma push_line_total' k l s : push_line l (set_o_total_lines k s) = set_o_total_lines k (push_line l s).
Proof. unfold push_line. destruct s; osimp. now destruct (_ <? _). Qed.
Lemma eol_total' flt k s : eol flt (set_o_total_lines k s) = omap (set_o_total_lines (k + 1)) (eol flt s).
Proof.
  unfold eol. change (o_inLabel (set_o_total_lines (o_total_lines s + 1) s)) with (o_inLabel s).
  change (o_inLabel (set_o_total_lines (o_total_lines (set_o_total_lines k s) + 1) (set_o_total_lines k s))) with (o_inLabel s).
  change (set_o_total_lines (o_total_lines (set_o_total_lines k s) + 1) (set_o_total_lines k s)) with (set_o_total_lines (k + 1) s).
  assert (E : (if o_inLabel s then label flt (set_o_total_lines (k + 1) s) else Ok (set_o_total_lines (k + 1) s)) =
     omap (set_o_total_lines (k + 1)) (if o_inLabel s then label flt (set_o_total_lines (o_total_lines s + 1) s)
         else Ok (set_o_total_lines (o_total_lines s + 1) s))).
  { destruct (o_inLabel s); [|reflexivity]. rewrite !label_total. now destruct (label flt s). }
  rewrite E. clear E. destruct (if o_inLabel s then label flt (set_o_total_lines (o_total_lines s + 1) s) else _) as [x| | |]; cbn [obind omap]; try reflexivity.
  change (o_ignoreUntilNextLabel (set_o_total_lines (k + 1) x)) with (o_ignoreUntilNextLabel x).
  change (o_inSourceRefLineNumber (set_o_total_lines (k + 1) x)) with (o_inSourceRefLineNumber x).
  change (o_text (set_o_total_lines (k + 1) x)) with (o_text x).
  destruct (o_ignoreUntilNextLabel x); [reflexivity|]. destruct (o_inSourceRefLineNumber x).
  - rewrite updateSource_total. now destruct (updateSourceRefLineNumber x).
  - destruct (negb _); [|reflexivity]. cbn [omap obind].
    change (finish_line (set_o_total_lines (k + 1) x)) with (finish_line x). now rewrite push_line_total'.
Qed.
Lemma step_total mb flt k s c : exists d,
  step mb flt (set_o_total_lines k s) c = omap (set_o_total_lines (k + d)) (step mb flt s c).
Proof.
  destruct (o_stopParsing s) eqn:E.
  { exists 0. unfold step. change (o_stopParsing (set_o_total_lines k s)) with (o_stopParsing s). rewrite E, Z.add_0_r. reflexivity. }
  destruct (ceq c LF) eqn:Ef.
  { exists 1. unfold step. change (o_stopParsing (set_o_total_lines k s)) with (o_stopParsing s). rewrite E.
    cnv. subst c. change (ceq LF CR) with false. change (ceq LF LF) with true. cbn iota. apply eol_total'. }
  exists 0. rewrite Z.add_0_r. unfold step. change (o_stopParsing (set_o_total_lines k s)) with (o_stopParsing s). rewrite E, Ef.
  destruct (ceq c CR); [reflexivity|].
  change (o_skipRestOfTheLine (set_o_total_lines k s)) with (o_skipRestOfTheLine s).
  change (o_inAddress (set_o_total_lines k s)) with (o_inAddress s).
  change (o_inLabel (set_o_total_lines k s)) with (o_inLabel s).
  change (o_inOpcodes (set_o_total_lines k s)) with (o_inOpcodes s).
  change (o_inRelocation (set_o_total_lines k s)) with (o_inRelocation s).
  change (o_inSectionStart (set_o_total_lines k s)) with (o_inSectionStart s).
  change (o_inSourceRef (set_o_total_lines k s)) with (o_inSourceRef s).
  change (o_inComment (set_o_total_lines k s)) with (o_inComment s).
  destruct (o_skipRestOfTheLine s); [reflexivity|].
  destruct (o_inAddress s); [apply step_address_total|].
  destruct (o_inLabel s); [cbn [omap obind]; now rewrite append_char_total|].
  destruct (o_inOpcodes s); [cbn [omap obind]; now rewrite step_opcodes_total|].
  destruct (o_inRelocation s); [cbn [omap obind]; now rewrite step_relocation_total|].
  destruct (o_inSectionStart s); [cbn [omap obind]; now rewrite step_section_total|].
  destruct (o_inSourceRef s); [apply step_sourceref_total|].
  destruct (o_inComment s); cbn [negb omap obind]; [now rewrite append_char_total|now rewrite step_text_total].
Qed.
Lemma feed_total mb flt input : forall k s, exists d,
  feed mb flt (set_o_total_lines k s) input = omap (set_o_total_lines (k + d)) (feed mb flt s input).
Proof.
  induction input as [|c t IH]; intros k s; cbn [feed].
  - exists 0. rewrite Z.add_0_r. reflexivity.
  - destruct (step_total mb flt k s c) as [d Hd]. rewrite Hd. destruct (step mb flt s c) as [s1| | |]; cbn [obind omap]; try now exists 0.
    destruct (IH (k + d) s1) as [d' ->]. exists (d + d'). now rewrite Z.add_assoc.
Qed.

(** The parser object without its line count. *)
Definition forget_total (s : ostate) : ostate := set_o_total_lines 0 s.

(** Empty, or ending in a newline. *)
Definition whole_lines (a : str) : Prop := a = [] \/ exists b, a = b ++ [LF].

Lemma feed_at_start mb flt s a s1 : o_inAddress s = true -> whole_lines a -> feed mb flt s a = Ok s1 -> o_inAddress s1 = true.
Proof.
  intros Hi [->|[b ->]] H; [injection H as <-; exact Hi|].
  rewrite feed_app in H. apply obind_Ok in H as (s0 & H0 & H). cbn [feed] in H. apply obind_Ok in H as (s2 & H & [= <-]).
  apply step_LF in H as [[Hs ->]|(_ & x & _ & ->)]; [|reflexivity].
  revert Hs. revert H0. apply (feed_inv mb flt (fun x => o_stopParsing x = true -> o_inAddress x = true)); [|auto].
  clear. intros s c s' HP H Hs. destruct (Ascii.eqb c LF) eqn:E.
  - apply Ascii.eqb_eq in E. subst. apply step_LF in H as [[? ->]|(_ & y & _ & ->)]; [auto|reflexivity].
  - apply Ascii.eqb_neq in E. pose proof (step_out _ _ _ _ _ E H) as (_ & _ & _ & H5 & _).
    assert (Hs0 : o_stopParsing s = true) by congruence.
    unfold step in H. rewrite Hs0 in H. injection H as <-. auto.
Qed.

Lemma forget_total_twice k s : forget_total (set_o_total_lines k s) = forget_total s.
Proof. reflexivity. Qed.

Lemma C21_lemma mb flt s a b : whole_lines a ->
  omap forget_total (s1 <- fromStream mb flt s a ;; fromStream mb flt s1 b) =
  omap forget_total (fromStream mb flt s (a ++ b)).
Proof.
  intros Ha. unfold fromStream. rewrite feed_app.
  destruct (feed mb flt (set_o_inAddress true (set_o_total_lines 0 s)) a) as [s1| | |] eqn:E; cbn [obind omap]; try reflexivity.
  apply feed_at_start in E; [|reflexivity|exact Ha].
  replace (set_o_inAddress true (set_o_total_lines 0 s1)) with (set_o_total_lines 0 s1) by (destruct s1; osimp; now subst).
  destruct (feed_total mb flt b 0 s1) as [d ->]. now destruct (feed mb flt s1 b).
Qed.
Lemma C21_output mb flt s a b s1 s2 s' : whole_lines a ->
  fromStream mb flt s a = Ok s1 -> fromStream mb flt s1 b = Ok s2 -> fromStream mb flt s (a ++ b) = Ok s' ->
  same_output s2 s' /\ outputText s2 = outputText s'.
Proof.
  intros Ha H1 H2 H3. pose proof (C21_lemma mb flt s a b Ha) as H. rewrite H1, H3 in H. cbn [obind omap] in H. rewrite H2 in H.
  cbn [obind omap] in H. injection H as _ E1 E2. unfold same_output, outputText. destruct s2, s'; osimp. now subst.
Qed.
