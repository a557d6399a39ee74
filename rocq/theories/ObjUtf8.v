(** UTF-8 through the objdump parser. *)
From Verif Require Import ObjLemmas Utf8Keep AsmUtf8.
From Verif Require Import ObjDump.
Local Open Scope Z_scope.

Record line_ok (l : asm_line) : Prop := mkLineOk {
  lo_text : W (l_text l); lo_section : W (l_section l); lo_label : W (l_label l); lo_file : W (s_file (l_source l)); lo_opcodes : Forall W (l_opcodes l) }.
(** Everything taken over from the input, references excepted. *)
Record texts (s : ostate) : Prop := mkTexts {
  tx_text : W (o_text s); tx_section : W (o_currentSection s); tx_file : W (s_file (o_currentSourceRef s));
  tx_label : W (l_label (o_currentLine s)); tx_opcodes : Forall W (l_opcodes (o_currentLine s));
  tx_lines : Forall line_ok (o_lines s); tx_labels : Forall (fun p => W (fst p)) (o_labels s);
  tx_addr : o_inAddress s = true -> o_inOpcodes s = false /\ o_inSectionStart s = false;
  tx_opc : o_inOpcodes s = true -> o_inSectionStart s = false }.
Ltac tx H := destruct H; constructor; osimp_goal; auto.

Lemma texts0 : texts ostate0.
Proof. constructor; cbn; try exact W0; try constructor; try discriminate; auto. Qed.
Lemma texts_append s c : ascii_char c -> texts s -> texts (append_char c s).
Proof. intros Hc H. unfold append_char. destruct (_ && _); [exact H|]. tx H. apply Wapp; [assumption|now apply W1]. Qed.
Lemma texts_reset s : texts s -> texts (commonReset s).
Proof. intros H. destruct H; constructor; unfold commonReset; osimp_goal; auto; try exact W0; try constructor; try discriminate; auto. Qed.
Lemma line0_ok : line_ok line0.
Proof. constructor; cbn; try exact W0; constructor. Qed.
Lemma texts_update s s' : texts s -> updateSourceRefLineNumber s = Ok s' -> texts s'.
Proof.
  unfold updateSourceRefLineNumber. intros H. destruct (atoi _); [|discriminate]. destruct (_ <? _); intros [= <-]; [|exact H]. tx H.
Qed.
Lemma objdump_label_W t l : getLabelFromObjdumpLabel t = Some l -> W t -> W l.
Proof.
  unfold getLabelFromObjdumpLabel. destruct (_ && _) eqn:E; [|discriminate]. intros [= <-] H. apply andb_true_iff in E as [E1 E2].
  apply starts_with_spec in E1 as (r & ->). cbn [lit list_ascii_of_string app] in *. unfold ends_with in E2. apply starts_with_spec in E2 as (q & E2).
  apply (f_equal (@rev ascii)) in E2. rewrite rev_involutive, rev_app_distr, rev_involutive in E2. cbn [lit list_ascii_of_string] in E2.
  cbn [skipn]. destruct (rev q) as [|x k]; [discriminate E2|]. cbn [app] in E2. injection E2 as <- E2. rewrite E2 in *.
  assert (A : W k) by (apply (Wpart [] "<" k ">" [":"%char]); [asc|asc|exact H]).
  cbn [length]. rewrite app_length. cbn [length]. replace (S (length k + 2) - 3)%nat with (length k) by lia. rewrite firstn_app, Nat.sub_diag, firstn_all, app_nil_r. exact A.
Qed.
Lemma texts_remove s s' : texts s -> maybe_remove_last_function s = Ok s' -> texts s'.
Proof.
  intros H. unfold maybe_remove_last_function. destruct (rev (o_labels s)) as [|[k z] b] eqn:E; [intros [= <-]; exact H|]. cbv zeta.
  destruct (_ || _); [discriminate|]. destruct (existsb _ _); intros [= <-]; [exact H|].
  assert (Hb : Forall (fun p => W (fst p)) (rev b)).
  { pose proof (Forall_rev (tx_labels _ H)) as X. rewrite E in X. inversion X; subst. now apply Forall_rev. }
  assert (Hl : forall n, Forall line_ok (firstn n (o_lines s))).
  { intros n. pose proof (tx_lines _ H) as X. rewrite <- (firstn_skipn n (o_lines s)) in X. now apply Forall_app in X as [X _]. }
  tx H.
Qed.
Section S.
Variables (mb : str -> Z) (flt : Filter).
Lemma texts_label s s' : texts s -> label flt s = Ok s' -> texts s'.
Proof.
  intros H. unfold label. destruct (is_nil _); [intros [= <-]; tx H|]. cbv zeta.
  set (s1 := match getLabelFromObjdumpLabel _ with Some _ => _ | None => _ end). assert (H1 : texts s1).
  { unfold s1. destruct (getLabelFromObjdumpLabel (o_text s)) as [l|] eqn:E; [|exact H]. apply objdump_label_W in E; [|apply H]. tx H. }
  clearbody s1. intros HH. apply obind_Ok in HH as (s2 & E2 & HH).
  assert (H2 : texts s2) by (destruct (f_library_functions flt); [eapply texts_remove; eassumption|injection E2 as <-; exact H1]). clear E2.
  destruct (shouldIgnoreFunction _ _); injection HH as <-; [tx H2|].
  assert (H3 : texts (if f_library_functions flt then set_o_checkNextFileForLibraryCode true (set_o_ignoreUntilNextLabel false s2) else set_o_ignoreUntilNextLabel false s2))
    by (destruct (f_library_functions flt); tx H2).
  generalize dependent (if f_library_functions flt then set_o_checkNextFileForLibraryCode true (set_o_ignoreUntilNextLabel false s2) else set_o_ignoreUntilNextLabel false s2).
  intros s3 H3. tx H3.
  - apply Wapp; [assumption|apply W1; asc].
  - apply Forall_app. split; [assumption|]. constructor; [assumption|constructor].
Qed.
Lemma finish_ok s : texts s -> line_ok (finish_line s).
Proof.
  intros []. unfold finish_line. cbv zeta. match goal with |- context [if ?b then _ else _] => destruct b end; constructor; lsimp_goal; auto.
  apply Wcons; [asc|assumption].
Qed.
Lemma push_ok l s : line_ok l -> texts s -> texts (push_line l s).
Proof.
  intros Hl H. unfold push_line. assert (Ht : line_ok truncated_line) by (constructor; try exact W0; [unfold truncated_line; lsimp_goal; wlit|constructor]).
  destruct (_ <? _); tx H; apply Forall_app; (split; [assumption|constructor; [assumption|constructor]]).
Qed.
Lemma texts_eol s s' : texts s -> eol flt s = Ok s' -> texts s'.
Proof.
  intros H. unfold eol. cbv zeta. assert (H0 : texts (set_o_total_lines (o_total_lines s + 1) s)) by tx H.
  generalize dependent (set_o_total_lines (o_total_lines s + 1) s). clear s H. intros s H HH. apply obind_Ok in HH as (s1 & E & HH).
  assert (H1 : texts s1) by (destruct (o_inLabel s); [eapply texts_label; eassumption|injection E as <-; exact H]). clear E H s.
  destruct (o_ignoreUntilNextLabel s1); [injection HH as <-; now apply texts_reset|].
  destruct (o_inSourceRefLineNumber s1).
  { apply obind_Ok in HH as (s2 & E2 & HH). injection HH as <-. apply texts_reset. eapply texts_update; eassumption. }
  destruct (negb _); injection HH as <-; apply texts_reset; [|assumption]. apply push_ok; [now apply finish_ok|assumption].
Qed.
Lemma split_W t : forall acc, W (acc ++ t) -> Forall W (split_opcodes t acc).
Proof.
  induction t as [|c t IH]; intros acc H; cbn [split_opcodes]; [constructor|]. destruct (ceq c SP) eqn:E; cbn [negb].
  - apply ceq_true in E. subst c. assert (A : W acc) by (eapply Wcut_l; [|exact H]; asc). assert (B : W t) by (eapply Wcut_r; [|exact H]; asc).
    destruct (negb _); [constructor; [exact A|]|]; now apply IH.
  - apply IH. now rewrite <- app_assoc.
Qed.
Lemma texts_opcodes s : texts s -> o_inAddress s = false -> texts (opcodes s).
Proof.
  intros H Ha. unfold opcodes. destruct (negb _); tx H; try exact W0; try congruence. apply Forall_app. split; [assumption|]. now apply split_W.
Qed.
Lemma texts_labelref s : texts s -> texts (labelref mb flt s).
Proof.
  intros H. unfold labelref. cbv zeta. destruct (negb (o_ignoreUntilNextLabel s)); [|tx H].
  destruct (substr_from _ _); [|tx H]. destruct (negb _); tx H.
Qed.
Lemma texts_address s s' : texts s -> o_inAddress s = true -> address s = Ok s' ->
  texts s' /\ o_inAddress s' = false.
Proof.
  intros H Ha. pose proof (tx_addr _ H Ha) as [Ho Hs]. unfold address. intros HH. apply obind_Ok in HH as (s1 & E & HH). injection HH as <-.
  assert (H1 : texts s1 /\ o_inAddress s1 = false).
  { destruct (o_text s) as [|c t] eqn:Et.
    - injection E as <-. split; [|reflexivity]. destruct H. constructor; osimp_goal; auto; discriminate.
    - destruct (ceq c "/").
      + injection E as <-. split; [|reflexivity]. unfold actually_filename, do_file_check. cbv zeta. destruct H. constructor; osimp_goal; auto; discriminate.
      + unfold actually_address in E. apply obind_Ok in E as ([s2 b] & E2 & E).
        assert (H2 : texts s2 /\ o_inSectionStart s2 = false).
        { destruct (negb _); [apply obind_Ok in E2 as (r & _ & E2)|]; injection E2 as <- <-; (split; [tx H|osimp_goal; exact Hs]). }
        destruct H2 as [H2 Hs2]. destruct b; injection E as <-; (split; [|reflexivity]); destruct H2; constructor; osimp_goal; auto; discriminate. }
  destruct H1 as [H1 Ha1]. split; [|exact Ha1]. tx H1. exact W0.
Qed.
(** An ASCII character. *)
Lemma texts_ascii s c s' : ascii_char c -> texts s -> step mb flt s c = Ok s' -> texts s'.
Proof.
  intros Hc H. unfold step. destruct (o_stopParsing s); [intros [= <-]; exact H|]. destruct (ceq c CR); [intros [= <-]; exact H|].
  destruct (ceq c LF); [intros HH; eapply texts_eol; eassumption|]. destruct (o_skipRestOfTheLine s); [intros [= <-]; exact H|].
  destruct (o_inAddress s) eqn:Ea.
  { unfold step_address. destruct (ceq c "/"); [intros [= <-]; apply texts_append; [exact Hc|]; destruct H; constructor; osimp_goal; auto; discriminate|].
    destruct (ceq c ";"); [intros [= <-]; exact H|]. destruct (ceq c ":"); [intros HH; eapply texts_address; eassumption|].
    destruct (is_whitespace c); [|intros [= <-]; now apply texts_append].
    destruct (str_eqb _ _).
    - intros [= <-]. apply texts_append; [exact Hc|]. pose proof (tx_addr _ H Ea) as [Ho _]. destruct H; constructor; osimp_goal; auto; try exact W0; try discriminate. rewrite Ho. discriminate.
    - destruct (negb _); [|intros [= <-]; exact H]. intros HH. apply obind_Ok in HH as (s1 & E1 & HH). injection HH as <-.
      destruct (texts_address _ _ H Ea E1) as [H1 Ha1]. destruct H1; constructor; osimp_goal; auto; discriminate. }
  destruct (o_inLabel s); [intros [= <-]; now apply texts_append|].
  destruct (o_inOpcodes s) eqn:Eo.
  { intros [= <-]. unfold step_opcodes. destruct (is_whitespace c).
    - destruct (is_nil _); [exact H|]. destruct (last_is _ _); [now apply texts_opcodes|now apply texts_append].
    - destruct (ceq c "R"); [apply texts_append; [exact Hc|]; tx H; try discriminate; apply Wapp; [assumption|apply Wascii; repeat (constructor; [asc|]); constructor]|].
      destruct (negb _); apply texts_append; auto. tx H; try discriminate. }
  destruct (o_inRelocation s).
  { intros [= <-]. unfold step_relocation. destruct (ceq c TAB); [|now apply texts_append]. tx H. apply Wapp; [assumption|apply W1; asc]. }
  destruct (o_inSectionStart s).
  { intros [= <-]. unfold step_section. destruct (negb _); cbv zeta.
    - destruct (str_eqb _ _); [|apply texts_append; [exact Hc|tx H]]. tx H; try exact W0. now apply W1.
    - destruct (ceq c ":"); tx H; try exact W0. apply Wapp; [assumption|now apply W1]. }
  destruct (o_inSourceRef s).
  { unfold step_sourceref. destruct (ceq c ":").
    - cbv zeta. intros [= <-]. unfold do_file_check. tx H; try exact W0.
    - destruct (_ && _); [|intros [= <-]; now apply texts_append].
      intros HH. apply obind_Ok in HH as (s1 & E1 & HH). injection HH as <-. apply (texts_update _ _ H) in E1. tx E1. exact W0. }
  destruct (negb _); intros [= <-]; [|now apply texts_append]. unfold step_text. apply texts_append; [exact Hc|].
  destruct (ceq c "#"); [tx H|]. destruct (ceq c "<"); [tx H|]. destruct (o_inSomethingWithALabel s); [|exact H].
  destruct (ceq c ">").
  - cbv zeta. match goal with |- context [if ?b then _ else _] => destruct b end; [apply texts_labelref|]; tx H.
  - destruct (ceq c "+"); [apply texts_labelref|]; tx H.
Qed.
End S.

(** Bytes that are no ASCII characters. *)
Notation high := (fun c => ~ ascii_char c).
Lemma high_ceq c x : high c -> ascii_char x -> ceq c x = false.
Proof. intros H Hx. destruct (ceq c x) eqn:E; [|reflexivity]. apply ceq_true in E. now subst. Qed.
Lemma high_ws c : high c -> is_whitespace c = false.
Proof. intros H. destruct (is_whitespace c) eqn:E; [|reflexivity]. apply ws_ascii in E. contradiction. Qed.
Lemma high_hex c : high c -> is_hex c = false.
Proof.
  intros H. unfold is_hex, in_range, ascii_char in *. change (code "a") with 97. change (code "f") with 102. change (code "0") with 48. change (code "9") with 57. lia.
Qed.
Lemma append_high c s : high c -> append_char c s = set_o_text (o_text s ++ [c]) s.
Proof. intros H. unfold append_char. now rewrite high_ws. Qed.
Lemma high_not_lit t u c w : high c -> Forall ascii_char w -> str_eqb (t ++ c :: u) w = false.
Proof.
  intros Hc Hw. destruct (str_eqb _ _) eqn:E; [|reflexivity]. apply str_eqb_eq in E. subst w. apply Forall_app in Hw as [_ Hw]. now inversion Hw.
Qed.
Section High.
Variables (mb : str -> Z) (flt : Filter).
Lemma feed_skip u : forall s, Forall high u -> o_stopParsing s = true \/ o_skipRestOfTheLine s = true -> feed mb flt s u = Ok s.
Proof.
  induction u as [|c u IH]; intros s Hu H; [reflexivity|]. inversion Hu as [|? ? Hc Hu']; subst. cbn [feed].
  assert (E : step mb flt s c = Ok s); [|rewrite E; cbn [obind]; now apply IH]. unfold step.
  rewrite (high_ceq c CR), (high_ceq c LF) by (exact Hc || asc). destruct H as [-> | ->]; [reflexivity|]. now destruct (o_stopParsing s).
Qed.
(** The name of a section is being read. *)
Record in_name (s : ostate) : Prop := mkInName {
  in_stop : o_stopParsing s = false; in_skip : o_skipRestOfTheLine s = false; in_addr : o_inAddress s = false; in_lab : o_inLabel s = false;
  in_opc : o_inOpcodes s = false; in_rel : o_inRelocation s = false; in_sec : o_inSectionStart s = true; in_nam : o_inSectionName s = true }.
Lemma feed_name u : forall s, Forall high u -> in_name s -> feed mb flt s u = Ok (set_o_currentSection (o_currentSection s ++ u) s).
Proof.
  induction u as [|c u IH]; intros s Hu H; [cbn [feed]; rewrite app_nil_r; now destruct s|]. inversion Hu as [|? ? Hc Hu']; subst. cbn [feed].
  assert (E : step mb flt s c = Ok (set_o_currentSection (o_currentSection s ++ [c]) s)).
  { unfold step, step_section. rewrite (high_ceq c CR), (high_ceq c LF), (high_ceq c ":") by (exact Hc || asc). destruct H. now rewrite in_stop0, in_skip0, in_addr0, in_lab0, in_opc0, in_rel0, in_sec0, in_nam0. }
  rewrite E. cbn [obind]. rewrite IH; [|assumption|destruct H; constructor; osimp_goal; assumption]. osimp_goal. rewrite <- app_assoc. reflexivity.
Qed.
(** Characters go to the text. *)
Definition to_text (s : ostate) : Prop := o_stopParsing s = false /\ o_skipRestOfTheLine s = false /\
  (o_inAddress s = true \/ o_inLabel s = true \/ o_inRelocation s = true /\ o_inOpcodes s = false \/ o_inSectionStart s = false \/
   o_inOpcodes s = false /\ o_inSectionName s = false /\ str_eqb (o_text s) (lit "Disassembly of section ") = false).
Lemma to_text_step s c : high c -> to_text s -> exists a b, step mb flt s c = Ok (set_o_text (o_text s ++ [c]) (set_o_inOpcodes a (set_o_inSectionName b s))) /\
  (a = true -> o_inOpcodes s = true) /\ to_text (set_o_text (o_text s ++ [c]) (set_o_inOpcodes a (set_o_inSectionName b s))).
Proof.
  intros Hc (H1 & H2 & H3). unfold step. rewrite H1, (high_ceq c CR), (high_ceq c LF), H2 by (exact Hc || asc).
  assert (R : s = set_o_inOpcodes (o_inOpcodes s) (set_o_inSectionName (o_inSectionName s) s)) by now destruct s.
  assert (T : forall a b, (o_inAddress s = true \/ o_inLabel s = true \/ o_inRelocation s = true /\ a = false \/ o_inSectionStart s = false \/ a = false /\ b = false) ->
     to_text (set_o_text (o_text s ++ [c]) (set_o_inOpcodes a (set_o_inSectionName b s)))).
  { intros a b H. split; [osimp_goal; exact H1|]. split; [osimp_goal; exact H2|]. osimp_goal.
    rewrite (high_not_lit _ [] c) by (exact Hc || (repeat (constructor; [asc|]); constructor)). tauto. }
  destruct (o_inAddress s) eqn:Ea.
  { exists (o_inOpcodes s), (o_inSectionName s). split; [|split; [auto|apply T; auto]]. rewrite <- R. unfold step_address.
    rewrite (high_ceq c "/"), (high_ceq c ";"), (high_ceq c ":"), high_ws, append_high by (exact Hc || asc). reflexivity. }
  destruct (o_inLabel s) eqn:El.
  { exists (o_inOpcodes s), (o_inSectionName s). split; [|split; [auto|apply T; auto]]. rewrite <- R, append_high by exact Hc. reflexivity. }
  destruct (o_inOpcodes s) eqn:Eo.
  { exists false, (o_inSectionName s). split; [|split; [auto|]].
    - unfold step_opcodes. rewrite high_ws, (high_ceq c "R"), high_hex by (exact Hc || asc). cbn [negb]. rewrite append_high by exact Hc.
      destruct s. reflexivity.
    - apply T. intuition congruence. }
  destruct (o_inRelocation s) eqn:Er.
  { exists false, (o_inSectionName s). split; [|split; [auto|apply T; auto]]. rewrite <- R. unfold step_relocation.
    rewrite (high_ceq c TAB), append_high by (exact Hc || asc). reflexivity. }
  destruct (o_inSectionStart s) eqn:Es.
  { destruct H3 as [X|[X|[[X _]|[X|(_ & Hn & Ht)]]]]; try discriminate. exists false, false. split; [|split; [auto|apply T; tauto]].
    unfold step_section. rewrite Hn. cbn [negb]. cbv zeta. rewrite Ht, append_high by exact Hc. rewrite Hn in R. destruct s. cbn in Eo. subst. reflexivity. }
  exists false, (o_inSectionName s). split; [|split; [auto|apply T; auto]]. rewrite <- R.
  destruct (o_inSourceRef s).
  { unfold step_sourceref. rewrite (high_ceq c ":"), high_ws, andb_false_r, append_high by (exact Hc || asc). reflexivity. }
  destruct (negb _); [|now rewrite append_high by exact Hc]. unfold step_text.
  rewrite (high_ceq c "#"), (high_ceq c "<"), (high_ceq c ">"), (high_ceq c "+") by (exact Hc || asc).
  destruct (o_inSomethingWithALabel s); now rewrite append_high by exact Hc.
Qed.
Lemma feed_text u : forall s, Forall high u -> to_text s -> exists a b,
  feed mb flt s u = Ok (set_o_text (o_text s ++ u) (set_o_inOpcodes a (set_o_inSectionName b s))) /\ (a = true -> o_inOpcodes s = true).
Proof.
  induction u as [|c u IH]; intros s Hu H.
  - exists (o_inOpcodes s), (o_inSectionName s). split; [|auto]. cbn [feed]. rewrite app_nil_r. now destruct s.
  - inversion Hu as [|? ? Hc Hu']; subst. destruct (to_text_step s c Hc H) as (a & b & E & Ha & H'). cbn [feed]. rewrite E. cbn [obind].
    destruct (IH _ Hu' H') as (a' & b' & E' & Ha'). exists a', b'. split; [|osimp; auto]. rewrite E'. f_equal. osimp_goal. rewrite <- app_assoc. reflexivity.
Qed.
Lemma texts_high u s s' : u <> [] -> Forall high u -> W u -> texts s -> feed mb flt s u = Ok s' -> texts s'.
Proof.
  intros Hu Hh HW H. destruct (o_stopParsing s) eqn:E1; [rewrite feed_skip by auto; now intros [= <-]|].
  destruct (o_skipRestOfTheLine s) eqn:E2; [rewrite feed_skip by auto; now intros [= <-]|].
  assert (TT : to_text s -> feed mb flt s u = Ok s' -> texts s').
  { intros HT. destruct (feed_text u s Hh HT) as (a & b & -> & Ha). intros [= <-]. destruct H; constructor; osimp_goal; auto; [now apply Wapp|].
    intros X. destruct (tx_addr0 X) as [Y Z]. split; [|exact Z]. destruct a; [|reflexivity]. rewrite <- Y. symmetry. auto. }
  destruct (o_inAddress s) eqn:Ea; [apply TT; split; auto|]. destruct (o_inLabel s) eqn:El; [apply TT; split; auto|].
  destruct (o_inSectionStart s) eqn:Es; [|apply TT; split; [auto|split; auto]].
  destruct (o_inOpcodes s) eqn:Eo; [pose proof (tx_opc _ H Eo); congruence|].
  destruct (o_inRelocation s) eqn:Er; [apply TT; split; [auto|split; auto]|].
  destruct (o_inSectionName s) eqn:En.
  { rewrite feed_name by (assumption || now constructor). intros [= <-]. tx H. now apply Wapp. }
  destruct (str_eqb (o_text s) (lit "Disassembly of section ")) eqn:Et; [|apply TT; split; [auto|split; [auto|]]; do 4 right; auto].
  destruct u as [|c u]; [congruence|]. inversion Hh as [|? ? Hc Hu']; subst. cbn [feed].
  assert (E : step mb flt s c = Ok (set_o_currentSection [c] (set_o_text [] (set_o_inSectionName true s)))).
  { unfold step, step_section. rewrite (high_ceq c CR), (high_ceq c LF) by (exact Hc || asc). rewrite E1, E2, Ea, El, Eo, Er, Es, En. cbn [negb]. cbv zeta. now rewrite Et. }
  rewrite E. cbn [obind]. rewrite feed_name; [|assumption|constructor; osimp_goal; auto]. intros [= <-]. tx H. exact W0.
Qed.
Lemma feed_app a b : forall s, feed mb flt s (a ++ b) = obind (feed mb flt s a) (fun s' => feed mb flt s' b).
Proof. induction a as [|c a IH]; intros s; [reflexivity|]. cbn [app feed]. destruct (step mb flt s c); cbn [obind]; [apply IH|reflexivity..]. Qed.
Lemma feed_texts input : W input -> forall s s', texts s -> feed mb flt s input = Ok s' -> texts s'.
Proof.
  revert input. apply (W_ind (fun input => forall s s', texts s -> feed mb flt s input = Ok s' -> texts s')).
  - intros s s' H [= <-]. exact H.
  - intros c t Hc Ht IH s s' H HH. cbn [feed] in HH. apply obind_Ok in HH as (s1 & E & HH). eapply IH; [|exact HH]. eapply texts_ascii; eassumption.
  - intros u t Hu Hh HW Ht IH s s' H HH. rewrite feed_app in HH. apply obind_Ok in HH as (s1 & E & HH). eapply IH; [|exact HH]. eapply texts_high; eassumption.
Qed.
(** The stream as given, and what the parser printed of it. *)
Lemma run_texts input s : W input -> run mb flt input = Ok s -> texts s.
Proof.
  unfold run, fromStream. intros Hi H. eapply feed_texts; [exact Hi| |exact H]. pose proof texts0 as X. destruct X; constructor; osimp_goal; auto.
Qed.
Lemma obj_text_utf8 input s : W input -> run mb flt input = Ok s -> W (outputText s).
Proof.
  intros Hi H. apply run_texts in H; [|exact Hi]. unfold outputText. apply Wflat. eapply Forall_impl; [|exact (tx_lines _ H)].
  intros l []. apply Wapp; [assumption|apply W1; asc].
Qed.
Lemma obj_json_utf8 input s fmt rep clock : (forall z, W (fmt z)) -> W input -> run mb flt input = Ok s ->
  (forall l r, In l (o_lines s) -> In r (l_labels l) -> W (lb_name r)) -> W (outputJson flt fmt rep clock s).
Proof.
  intros Hf Hi H Hr. apply run_texts in H; [|exact Hi]. unfold outputJson. apply Wwrite; [exact Hf| |exact (tx_labels _ H)].
  apply Forall_map, Forall_forall. intros l Hl. pose proof (tx_lines _ H) as X. rewrite Forall_forall in X. specialize (X l Hl). destruct X.
  constructor; try assumption. cbn. apply Forall_map, Forall_forall. intros r Hin. exact (Hr l r Hl Hin).
Qed.
End High.

(** The names of references in the JSON text. *)
Lemma unescape_edit s : edit (escape s) s.
Proof.
  induction s as [|c t IH]; [constructor|]. cbn [escape flat_map]. fold (escape t). unfold escape_char.
  destruct (ceq c TAB) eqn:E1; [apply ceq_true in E1; subst; apply (ed_ascii BSL []); [asc|constructor|]; apply (ed_ascii "t" [TAB]); [asc|repeat constructor; asc|exact IH]|].
  destruct (ceq c BSL) eqn:E2; [apply ceq_true in E2; subst; apply (ed_ascii BSL []); [asc|constructor|]; apply ed_keep; exact IH|].
  destruct (ceq c DQ) eqn:E3; [apply ceq_true in E3; subst; apply (ed_ascii BSL []); [asc|constructor|]; apply ed_keep; exact IH|]. cbn [app]. now constructor.
Qed.
Lemma sep_tail_in {A} sep (f : A -> str) l x : In x l -> exists p q, sep_tail sep f l = p ++ f x ++ q.
Proof.
  induction l as [|y t IH]; intros H; [contradiction|]. cbn [sep_tail]. destruct H as [-> |H]; [exists sep, (sep_tail sep f t); reflexivity|].
  destruct (IH H) as (p & q & ->). exists (sep ++ f y ++ p), q. now rewrite <- !app_assoc.
Qed.
Lemma sep_list_in {A} sep (f : A -> str) l x : In x l -> exists p q, sep_list sep f l = p ++ f x ++ q.
Proof.
  destruct l as [|y t]; intros H; [contradiction|]. cbn [sep_list]. destruct H as [-> |H]; [exists [], (sep_tail sep f t); reflexivity|].
  destruct (sep_tail_in sep f t x H) as (p & q & ->). exists (f y ++ p), q. now rewrite <- !app_assoc.
Qed.
Lemma write_names fmt flt lines labels total rep clock l r : In l lines -> In r (lv_labels l) ->
  exists p q, write fmt flt lines labels total rep clock = p ++ DQ :: escape (v_str (lbv_name r)) ++ DQ :: q.
Proof.
  intros Hl Hr.
  assert (R : exists p q, writeLabelRef fmt r = p ++ DQ :: escape (v_str (lbv_name r)) ++ DQ :: q).
  { unfold writeLabelRef. exists (lit "{" ++ writeKeyName (lit "name")). eexists. unfold writeKvStr, writeValue, quoted. rewrite <- !app_assoc. reflexivity. }
  destruct R as (p1 & q1 & E1).
  destruct (sep_list_in (lit ",") (writeLabelRef fmt) _ _ Hr) as (p2 & q2 & E2).
  assert (E3 : exists p q, writeLine fmt flt l = p ++ writeLabelRef fmt r ++ q).
  { unfold writeLine, writeLabelArray. rewrite E2. exists (lit "{" ++ writeKeyName (lit "labels") ++ lit "[" ++ p2). eexists. rewrite <- !app_assoc. reflexivity. }
  destruct E3 as (p3 & q3 & E3). destruct (sep_list_in (lit ",") (writeLine fmt flt) _ _ Hl) as (p4 & q4 & E4).
  exists (lit "{" ++ writeKeyName (lit "asm") ++ lit "[" ++ p4 ++ p3 ++ p1). eexists. unfold write. rewrite E4, E3, E1, <- !app_assoc. cbn [app]. rewrite <- !app_assoc. reflexivity.
Qed.
Lemma obj_json_iff mb flt input s fmt rep clock : (forall z, W (fmt z)) -> W input -> run mb flt input = Ok s ->
  (W (outputJson flt fmt rep clock s) <-> forall l r, In l (o_lines s) -> In r (l_labels l) -> W (lb_name r)).
Proof.
  intros Hf Hi H. split; [|now apply obj_json_utf8 with (mb := mb) (input := input)]. intros HW l r Hl Hr. unfold outputJson in HW.
  destruct (write_names fmt flt (map line_v_of_line (o_lines s)) (o_labels s) (o_total_lines s) rep clock (line_v_of_line l)
     (mkLabelV (mkView OHost (lb_name r)) (lb_range r))) as (p & q & E).
  - now apply in_map.
  - cbn. apply in_map_iff. exists r. split; [|exact Hr]. reflexivity.
  - rewrite E in HW. apply Wpart in HW; [|asc|asc]. cbn [lbv_name v_str] in HW. eapply Wedit; [exact HW|apply unescape_edit].
Qed.
