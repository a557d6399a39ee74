(** What the locale changes in the objdump parser: nothing but the references
    listed for a line.  mblen is used, through ustrlen, in labelref and for the
    start of a reference (objdump parser.cpp:153-175, 456-460). *)
From Verif Require Import ObjDump ObjRefs.
Local Open Scope Z_scope.

(** A line and a parser state without references. *)
Definition bare_line (l : asm_line) : asm_line := set_l_labels [] l.
Definition bare_state (s : ostate) : ostate :=
  set_o_currentLabelReference (mkLabel (lb_name (o_currentLabelReference s)) (mkRange 0 0))
    (set_o_currentLine (bare_line (o_currentLine s))
       (set_o_lines (map bare_line (o_lines s)) s)).
Notation B := bare_state.
Notation BL := bare_line.
Definition bout (r : outcome ostate) : outcome ostate := s <- r ;; Ok (B s).

Lemma BL_idem : forall l, BL (BL l) = BL l.
Proof. reflexivity. Qed.
Lemma B_idem : forall s, B (B s) = B s.
Proof.
  intro s.
  change (B (B s)) with
    (set_o_currentLabelReference (mkLabel (lb_name (o_currentLabelReference s)) (mkRange 0 0))
      (set_o_currentLine (bare_line (o_currentLine s))
        (set_o_lines (map BL (map BL (o_lines s))) s))).
  rewrite map_map, (map_ext _ _ BL_idem). reflexivity.
Qed.

Lemma B_line_number : forall s, bout (updateSourceRefLineNumber s) = updateSourceRefLineNumber (B s).
Proof.
  intro s. unfold updateSourceRefLineNumber. change (o_text (B s)) with (o_text s).
  destruct (atoi (o_text s)) as [n|]; [|reflexivity]. now destruct (0 <? n).
Qed.
Lemma B_remove : forall s, bout (maybe_remove_last_function s) = maybe_remove_last_function (B s).
Proof.
  intro s. unfold maybe_remove_last_function. change (o_labels (B s)) with (o_labels s).
  destruct (rev (o_labels s)) as [|[k second] before]; [reflexivity|].
  change (o_lines (B s)) with (map BL (o_lines s)). rewrite map_length. cbv zeta.
  destruct ((second - 1 <? 0) || (Z.of_nat (length (o_lines s)) <? second - 1)); [reflexivity|].
  rewrite skipn_map, firstn_map.
  replace (existsb (fun l => s_is_usercode (l_source l)) (map BL (skipn (Z.to_nat (second - 1)) (o_lines s))))
    with (existsb (fun l => s_is_usercode (l_source l)) (skipn (Z.to_nat (second - 1)) (o_lines s))).
  2:{ induction (skipn (Z.to_nat (second - 1)) (o_lines s)) as [|a t IH]; [reflexivity|]. cbn [existsb map].
      now rewrite IH. }
  now destruct (existsb _ (skipn (Z.to_nat (second - 1)) (o_lines s))).
Qed.

Lemma B_append : forall c s, B (append_char c s) = append_char c (B s).
Proof.
  intros c s. unfold append_char. change (o_text (B s)) with (o_text s).
  now destruct (is_whitespace c && is_nil (o_text s)).
Qed.
Lemma B_opcodes : forall s, B (opcodes s) = opcodes (B s).
Proof.
  intro s. unfold opcodes. change (o_ignoreUntilNextLabel (B s)) with (o_ignoreUntilNextLabel s).
  now destruct (negb (o_ignoreUntilNextLabel s)).
Qed.
Lemma B_actually : forall s, bout (actually_address s) = actually_address (B s).
Proof.
  intro s. unfold actually_address. change (o_ignoreUntilNextLabel (B s)) with (o_ignoreUntilNextLabel s).
  change (o_text (B s)) with (o_text s).
  destruct (negb (o_ignoreUntilNextLabel s)); [|reflexivity].
  destruct (addr_loop (rev (o_text s)) 0 0) as [[a b]|u| |]; try reflexivity.
  cbn [obind fst snd]. now destruct b.
Qed.
Lemma B_address : forall s, bout (address s) = address (B s).
Proof.
  intro s. unfold address. change (o_text (B s)) with (o_text s).
  destruct (o_text s) as [|c t]; [reflexivity|]. destruct (ceq c "/"); [reflexivity|].
  rewrite <- B_actually. now destruct (actually_address s).
Qed.
Lemma B_push : forall l s, B (push_line l s) = push_line (BL l) (B s).
Proof.
  intros l s. unfold push_line. change (o_lines (B s)) with (map BL (o_lines s)). rewrite map_length.
  destruct (Z.of_nat (length (o_lines s)) <? 5000).
  - change [BL l] with (map BL [l]). rewrite <- map_app. reflexivity.
  - change [truncated_line] with (map BL [truncated_line]) at 2. rewrite <- map_app. reflexivity.
Qed.
Lemma B_finish : forall s, BL (finish_line s) = finish_line (B s).
Proof.
  intro s. unfold finish_line.
  change (l_is_label (set_l_section (o_currentSection (B s)) (set_l_text (o_text (B s)) (o_currentLine (B s)))))
    with (l_is_label (o_currentLine s)).
  change (l_is_label (set_l_section (o_currentSection s) (set_l_text (o_text s) (o_currentLine s))))
    with (l_is_label (o_currentLine s)).
  now destruct (l_is_label (o_currentLine s)).
Qed.

Section Locales.
Variables (mb mb' : str -> Z) (flt : Filter).

Lemma B_label : forall s, bout (label flt s) = label flt (B s).
Proof.
  intro s. unfold label. change (o_text (B s)) with (o_text s).
  destruct (is_nil (o_text s)); [reflexivity|].
  set (s1 := match getLabelFromObjdumpLabel (o_text s) with Some l => set_o_text l s | None => s end).
  replace (match getLabelFromObjdumpLabel (o_text s) with Some l => set_o_text l (B s) | None => B s end)
    with (B s1) by (unfold s1; now destruct (getLabelFromObjdumpLabel (o_text s))).
  clearbody s1. clear s.
  assert (H : forall x,
    (let ign := shouldIgnoreFunction (o_text (B x)) flt in
     let s := set_o_ignoreUntilNextLabel ign (B x) in
     if ign then Ok s
     else
      let s := if f_library_functions flt then set_o_checkNextFileForLibraryCode true s else s in
      let name := o_text s in
      let s := set_o_previousLabel name s in
      let s := set_o_currentLine (set_l_is_label true (set_l_label name (o_currentLine s))) s in
      let s := set_o_text (name ++ lit ":") s in
      Ok (set_o_labels (o_labels s ++ [(name, i32 (Z.of_nat (length (o_lines s)) + 1))]) s))
    = bout (let ign := shouldIgnoreFunction (o_text x) flt in
     let s := set_o_ignoreUntilNextLabel ign x in
     if ign then Ok s
     else
      let s := if f_library_functions flt then set_o_checkNextFileForLibraryCode true s else s in
      let name := o_text s in
      let s := set_o_previousLabel name s in
      let s := set_o_currentLine (set_l_is_label true (set_l_label name (o_currentLine s))) s in
      let s := set_o_text (name ++ lit ":") s in
      Ok (set_o_labels (o_labels s ++ [(name, i32 (Z.of_nat (length (o_lines s)) + 1))]) s))).
  { intro x. cbv zeta. change (o_text (B x)) with (o_text x).
    destruct (shouldIgnoreFunction (o_text x) flt); [reflexivity|].
    unfold bout. cbn [obind]. f_equal.
    set (named := fun (n : nat) (s : ostate) =>
      let s := set_o_ignoreUntilNextLabel false s in
      let s := if f_library_functions flt then set_o_checkNextFileForLibraryCode true s else s in
      let name := o_text s in
      let s := set_o_previousLabel name s in
      let s := set_o_currentLine (set_l_is_label true (set_l_label name (o_currentLine s))) s in
      let s := set_o_text (name ++ lit ":") s in
      set_o_labels (o_labels s ++ [(name, i32 (Z.of_nat n + 1))]) s).
    transitivity (named (length (map BL (o_lines x))) (B x)).
    - unfold named. now destruct (f_library_functions flt).
    - rewrite map_length. unfold named. now destruct (f_library_functions flt). }
  destruct (f_library_functions flt).
  - rewrite <- B_remove. destruct (maybe_remove_last_function s1) as [x|u| |]; try reflexivity.
    exact (eq_sym (H x)).
  - exact (eq_sym (H s1)).
Qed.

Lemma B_reset : forall s, B (commonReset s) = commonReset (B s).
Proof. reflexivity. Qed.

Lemma B_eol : forall s, bout (eol flt s) = eol flt (B s).
Proof.
  intro s. unfold eol. cbv zeta.
  change (set_o_total_lines (o_total_lines (B s) + 1) (B s)) with (B (set_o_total_lines (o_total_lines s + 1) s)).
  generalize (set_o_total_lines (o_total_lines s + 1) s). clear s. intro s.
  change (o_inLabel (B s)) with (o_inLabel s).
  assert (H : forall x,
    (if o_ignoreUntilNextLabel (B x) then Ok (commonReset (B x))
     else if o_inSourceRefLineNumber (B x) then s <- updateSourceRefLineNumber (B x) ;; Ok (commonReset s)
     else if negb (is_nil (o_text (B x))) then Ok (commonReset (push_line (finish_line (B x)) (B x)))
     else Ok (commonReset (B x)))
    = bout (if o_ignoreUntilNextLabel x then Ok (commonReset x)
     else if o_inSourceRefLineNumber x then s <- updateSourceRefLineNumber x ;; Ok (commonReset s)
     else if negb (is_nil (o_text x)) then Ok (commonReset (push_line (finish_line x) x))
     else Ok (commonReset x))).
  { intro x. change (o_ignoreUntilNextLabel (B x)) with (o_ignoreUntilNextLabel x).
    change (o_inSourceRefLineNumber (B x)) with (o_inSourceRefLineNumber x).
    change (o_text (B x)) with (o_text x).
    destruct (o_ignoreUntilNextLabel x); [reflexivity|].
    destruct (o_inSourceRefLineNumber x).
    { rewrite <- B_line_number. now destruct (updateSourceRefLineNumber x). }
    destruct (negb (is_nil (o_text x))); [|reflexivity].
    unfold bout. cbn [obind]. now rewrite B_reset, B_push, B_finish. }
  destruct (o_inLabel s).
  - rewrite <- B_label. destruct (label flt s) as [x|u| |]; try reflexivity. exact (eq_sym (H x)).
  - exact (eq_sym (H s)).
Qed.

Lemma B_labelref : forall m s, B (labelref m flt s) = B (set_o_currentLabelReference label0 s).
Proof.
  intros m s. unfold labelref. destruct (negb (o_ignoreUntilNextLabel s)); [|reflexivity].
  cbv zeta. destruct (substr_from (o_text s) _) as [name|]; [|reflexivity].
  now destruct (negb (shouldIgnoreFunction name flt)).
Qed.

Lemma B_text : forall s c, B (step_text mb flt s c) = B (step_text mb' flt (B s) c).
Proof.
  intros s c. unfold step_text. rewrite !B_append. f_equal.
  destruct (ceq c "#"); [rewrite <- B_idem; reflexivity|].
  destruct (ceq c "<"); [rewrite <- B_idem; reflexivity|].
  change (o_inSomethingWithALabel (B s)) with (o_inSomethingWithALabel s).
  destruct (o_inSomethingWithALabel s); [|symmetry; apply B_idem].
  destruct (ceq c ">").
  { cbv zeta. change (o_currentLabelReference (set_o_inSomethingWithALabel false (B s)))
      with (mkLabel (lb_name (o_currentLabelReference s)) (mkRange 0 0)).
    change (o_currentLabelReference (set_o_inSomethingWithALabel false s)) with (o_currentLabelReference s).
    cbn [lb_name]. destruct (is_nil (lb_name (o_currentLabelReference s))).
    - rewrite !B_labelref. rewrite <- B_idem. reflexivity.
    - rewrite <- B_idem. reflexivity. }
  destruct (ceq c "+"); [|symmetry; apply B_idem].
  rewrite !B_labelref. rewrite <- B_idem. reflexivity.
Qed.

Lemma B_step_address : forall s c, bout (step_address s c) = step_address (B s) c.
Proof.
  intros s c. unfold step_address. change (o_text (B s)) with (o_text s).
  destruct (ceq c "/"); [unfold bout; cbn [obind]; now rewrite B_append|].
  destruct (ceq c ";"); [reflexivity|].
  destruct (ceq c ":"); [apply B_address|].
  destruct (is_whitespace c).
  - destruct (str_eqb (o_text s) (lit "Disassembly")); [unfold bout; cbn [obind]; now rewrite B_append|].
    destruct (negb (is_nil (o_text s))); [|reflexivity].
    rewrite <- B_address. now destruct (address s).
  - unfold bout; cbn [obind]; now rewrite B_append.
Qed.
Lemma B_step_opcodes : forall s c, B (step_opcodes s c) = step_opcodes (B s) c.
Proof.
  intros s c. unfold step_opcodes. change (o_text (B s)) with (o_text s).
  destruct (is_whitespace c).
  - destruct (is_nil (o_text s)); [reflexivity|].
    destruct (last_is SP (o_text s)); [apply B_opcodes|apply B_append].
  - destruct (ceq c "R"); [now rewrite B_append|].
    destruct (negb (is_hex c)); now rewrite B_append.
Qed.
Lemma B_step_relocation : forall s c, B (step_relocation s c) = step_relocation (B s) c.
Proof.
  intros s c. unfold step_relocation. change (o_text (B s)) with (o_text s).
  destruct (ceq c TAB); [reflexivity|apply B_append].
Qed.
Lemma B_step_section : forall s c, B (step_section s c) = step_section (B s) c.
Proof.
  intros s c. unfold step_section. change (o_text (B s)) with (o_text s).
  change (o_inSectionName (B s)) with (o_inSectionName s).
  destruct (negb (o_inSectionName s)).
  - cbv zeta. destruct (str_eqb (o_text s) (lit "Disassembly of section ")); [reflexivity|apply B_append].
  - now destruct (ceq c ":").
Qed.
Lemma B_step_sourceref : forall s c, bout (step_sourceref s c) = step_sourceref (B s) c.
Proof.
  intros s c. unfold step_sourceref. change (o_text (B s)) with (o_text s).
  destruct (ceq c ":"); [reflexivity|].
  change (o_inSourceRefLineNumber (B s)) with (o_inSourceRefLineNumber s).
  destruct (o_inSourceRefLineNumber s && is_whitespace c).
  - rewrite <- B_line_number. now destruct (updateSourceRefLineNumber s).
  - unfold bout; cbn [obind]; now rewrite B_append.
Qed.

Lemma B_step : forall s c, bout (step mb flt s c) = bout (step mb' flt (B s) c).
Proof.
  assert (I : forall r r', bout r = r' -> bout r = bout r').
  { intros r r' <-. destruct r; try reflexivity. unfold bout. cbn [obind]. now rewrite B_idem. }
  assert (J : forall r r', B r = r' -> bout (Ok r) = bout (Ok r')).
  { intros r r' H. apply I. unfold bout. cbn [obind]. now rewrite H. }
  intros s c. unfold step.
  replace (o_stopParsing (B s)) with (o_stopParsing s) by reflexivity.
  replace (o_skipRestOfTheLine (B s)) with (o_skipRestOfTheLine s) by reflexivity.
  replace (o_inAddress (B s)) with (o_inAddress s) by reflexivity.
  replace (o_inLabel (B s)) with (o_inLabel s) by reflexivity.
  replace (o_inOpcodes (B s)) with (o_inOpcodes s) by reflexivity.
  replace (o_inRelocation (B s)) with (o_inRelocation s) by reflexivity.
  replace (o_inSectionStart (B s)) with (o_inSectionStart s) by reflexivity.
  replace (o_inSourceRef (B s)) with (o_inSourceRef s) by reflexivity.
  replace (o_inComment (B s)) with (o_inComment s) by reflexivity.
  destruct (o_stopParsing s); [now apply J|].
  destruct (ceq c CR); [now apply J|].
  destruct (ceq c LF); [apply I, B_eol|].
  destruct (o_skipRestOfTheLine s); [now apply J|].
  destruct (o_inAddress s); [apply I, B_step_address|].
  destruct (o_inLabel s); [apply J, B_append|].
  destruct (o_inOpcodes s); [apply J, B_step_opcodes|].
  destruct (o_inRelocation s); [apply J, B_step_relocation|].
  destruct (o_inSectionStart s); [apply J, B_step_section|].
  destruct (o_inSourceRef s); [apply I, B_step_sourceref|].
  destruct (negb (o_inComment s)); [|apply J, B_append].
  unfold bout. cbn [obind]. f_equal. apply B_text.
Qed.
End Locales.

Lemma feed_locale : forall mb mb' flt input s s', B s = B s' ->
  bout (feed mb flt s input) = bout (feed mb' flt s' input).
Proof.
  intros mb mb' flt input. induction input as [|c t IH]; intros s s' H.
  - unfold feed, bout. cbn [obind]. now rewrite H.
  - cbn [feed]. pose proof (B_step mb mb' flt s c) as A. pose proof (B_step mb' mb' flt s' c) as A'.
    rewrite H in A. rewrite <- A' in A.
    destruct (step mb flt s c) as [x|u| |], (step mb' flt s' c) as [x'|u'| |]; cbn in A; try discriminate; try exact A.
    cbn [obind]. apply IH. congruence.
Qed.
Lemma obj_fromStream_rel : forall mb mb' flt s s' input, B s = B s' ->
  bout (fromStream mb flt s input) = bout (fromStream mb' flt s' input).
Proof.
  intros mb mb' flt s s' input H. unfold fromStream. apply feed_locale.
  change (set_o_inAddress true (set_o_total_lines 0 (B s)) = set_o_inAddress true (set_o_total_lines 0 (B s'))).
  now rewrite H.
Qed.

(** -- locales in which an ASCII byte is one character -- *)

Lemma eol_text : forall flt s s', eol flt s = Ok s' -> o_text s' = [].
Proof.
  intros flt s s'. unfold eol. cbv zeta.
  set (x := set_o_total_lines _ s). clearbody x.
  destruct (if o_inLabel x then label flt x else Ok x) as [y|u| |]; try discriminate. cbn [obind].
  destruct (o_ignoreUntilNextLabel y); [now intros [= <-]|].
  destruct (o_inSourceRefLineNumber y).
  { destruct (updateSourceRefLineNumber y); try discriminate. now intros [= <-]. }
  destruct (negb (is_nil (o_text y))); now intros [= <-].
Qed.
Lemma address_text : forall s s', address s = Ok s' -> o_text s' = [].
Proof.
  intros s s'. unfold address.
  destruct (match o_text s with [] => _ | _ => _ end) as [x|u| |]; try discriminate. now intros [= <-].
Qed.

Section Same.
Variables (mb mb' : str -> Z) (flt : Filter).
Hypotheses (Hm : ascii_compatible mb) (Hm' : ascii_compatible mb').

Lemma append_ascii : forall c s, 0 < code c < 128 -> ascii_text (o_text s) -> ascii_text (o_text (append_char c s)).
Proof.
  intros c s Hc H. unfold append_char. destruct (is_whitespace c && is_nil (o_text s)); [exact H|].
  cbn. unfold ascii_text. apply Forall_app. split; [exact H|]. now constructor.
Qed.
Lemma labelref_text : forall m s, o_text (labelref m flt s) = o_text s.
Proof.
  intros m s. unfold labelref. destruct (negb (o_ignoreUntilNextLabel s)); [|reflexivity]. cbv zeta.
  destruct (substr_from _ _) as [n|]; [|reflexivity]. now destruct (negb (shouldIgnoreFunction n flt)).
Qed.

Lemma step_ascii : forall s c s', 0 < code c < 128 -> ascii_text (o_text s) ->
  step mb flt s c = Ok s' -> ascii_text (o_text s').
Proof.
  assert (N : forall s, o_text s = [] -> ascii_text (o_text s)) by (intros s ->; constructor).
  intros s c s' Hc H. unfold step.
  destruct (o_stopParsing s); [now intros [= <-]|].
  destruct (ceq c CR); [now intros [= <-]|].
  destruct (ceq c LF); [intro E; apply N, (eol_text flt s), E|].
  destruct (o_skipRestOfTheLine s); [now intros [= <-]|].
  destruct (o_inAddress s).
  { unfold step_address. destruct (ceq c "/"); [intros [= <-]; now apply append_ascii|].
    destruct (ceq c ";"); [now intros [= <-]|].
    destruct (ceq c ":"); [intro E; apply N, (address_text s), E|].
    destruct (is_whitespace c); [|intros [= <-]; now apply append_ascii].
    destruct (str_eqb (o_text s) (lit "Disassembly")); [intros [= <-]; now apply append_ascii|].
    destruct (negb (is_nil (o_text s))); [|now intros [= <-]].
    destruct (address s) as [x|u| |] eqn:E; try discriminate. intros [= <-]. apply N. exact (address_text s x E). }
  destruct (o_inLabel s); [intros [= <-]; now apply append_ascii|].
  destruct (o_inOpcodes s).
  { intros [= <-]. unfold step_opcodes. destruct (is_whitespace c).
    - destruct (is_nil (o_text s)); [exact H|]. destruct (last_is SP (o_text s)); [now apply N|now apply append_ascii].
    - destruct (ceq c "R").
      + apply append_ascii; [exact Hc|]. cbn. apply Forall_app. split; [exact H|].
        repeat constructor.
      + destruct (negb (is_hex c)); now apply append_ascii. }
  destruct (o_inRelocation s).
  { intros [= <-]. unfold step_relocation. destruct (ceq c TAB); [|now apply append_ascii].
    cbn. apply Forall_app. split; [exact H|]. repeat constructor. }
  destruct (o_inSectionStart s).
  { intros [= <-]. unfold step_section. destruct (negb (o_inSectionName s)).
    - cbv zeta. destruct (str_eqb (o_text s) (lit "Disassembly of section ")); [now apply N|now apply append_ascii].
    - destruct (ceq c ":"); [now apply N|exact H]. }
  destruct (o_inSourceRef s).
  { unfold step_sourceref. destruct (ceq c ":"); [intros [= <-]; now apply N|].
    destruct (o_inSourceRefLineNumber s && is_whitespace c); [|intros [= <-]; now apply append_ascii].
    destruct (updateSourceRefLineNumber s); try discriminate. intros [= <-]. now apply N. }
  destruct (negb (o_inComment s)); intros [= <-]; [|now apply append_ascii].
  unfold step_text. apply append_ascii; [exact Hc|].
  destruct (ceq c "#"); [exact H|]. destruct (ceq c "<"); [exact H|].
  destruct (o_inSomethingWithALabel s); [|exact H]. destruct (ceq c ">").
  - cbv zeta. destruct (is_nil (lb_name _)); [rewrite labelref_text|]; exact H.
  - destruct (ceq c "+"); [rewrite labelref_text|]; exact H.
Qed.

Lemma labelref_same : forall s, ascii_text (o_text s) -> labelref mb flt s = labelref mb' flt s.
Proof.
  intros s H. unfold labelref.
  now rewrite (ustrlen_ascii mb _ Hm H), (ustrlen_ascii mb' _ Hm' H).
Qed.
Lemma step_same : forall s c, ascii_text (o_text s) -> step mb flt s c = step mb' flt s c.
Proof.
  intros s c H. unfold step.
  enough (E : step_text mb flt s c = step_text mb' flt s c) by now rewrite E.
  unfold step_text. f_equal. destruct (ceq c "#"); [reflexivity|].
  rewrite (ustrlen_ascii mb _ Hm H), (ustrlen_ascii mb' _ Hm' H).
  destruct (ceq c "<"); [reflexivity|]. destruct (o_inSomethingWithALabel s); [|reflexivity].
  rewrite !(labelref_same (set_o_inSomethingWithALabel false s)) by exact H. reflexivity.
Qed.
Lemma feed_same : forall input s, ascii_text input -> ascii_text (o_text s) ->
  feed mb flt s input = feed mb' flt s input.
Proof.
  induction input as [|c t IH]; intros s Hi H; [reflexivity|]. inversion Hi as [|? ? Hc Ht]; subst.
  cbn [feed]. pose proof (step_ascii s c) as A. rewrite <- (step_same s c H).
  destruct (step mb flt s c) as [x|u| |]; cbn [obind]; [apply IH; [exact Ht|exact (A x Hc H eq_refl)]| | |]; reflexivity.
Qed.
End Same.
