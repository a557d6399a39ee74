(** Proofs for the objdump properties C07, C08, C12, C21-C23. *)
From Verif Require Export ObjMode.

(** ** Every character of the output comes from the input (or is one the parser adds). *)
Lemma feed_inv_chars mb flt (Q : char -> Prop) (P : ostate -> Prop) :
  (forall s c s', P s -> Q c -> step mb flt s c = Ok s' -> P s') ->
  forall input s s', P s -> Forall Q input -> feed mb flt s input = Ok s' -> P s'.
Proof.
  intros Hstep input; induction input as [|c t IH]; cbn [feed]; intros s s' HP HQ H.
  - injection H as <-. exact HP.
  - apply obind_Ok in H as (s1 & H1 & H2). inversion HQ; subst. eauto.
Qed.

Section Chars.
Variable Q : char -> Prop.
Definition allQ (s : str) : Prop := Forall Q s.
Record lineQ (l : asm_line) : Prop := {
  lq_text : allQ (l_text l);
  lq_section : allQ (l_section l);
  lq_labels : Forall (fun r => allQ (lb_name r)) (l_labels l);
  lq_opcodes : Forall allQ (l_opcodes l);
  lq_label : allQ (l_label l);
  lq_file : allQ (s_file (l_source l)) }.
Record stateQ (s : ostate) : Prop := {
  sq_text : allQ (o_text s);
  sq_section : allQ (o_currentSection s);
  sq_file : allQ (s_file (o_currentSourceRef s));
  sq_line : lineQ (o_currentLine s);
  sq_lines : Forall lineQ (o_lines s);
  sq_labels : Forall (fun e => allQ (fst e)) (o_labels s) }.

Hypothesis Q_SP : Q SP.
Hypothesis Q_colon : Q ":"%char.
Hypothesis Q_marker : allQ (lit "[truncated; too many lines]").

Lemma allQ_app a b : allQ (a ++ b) <-> allQ a /\ allQ b.
Proof. apply Forall_app. Qed.
Lemma allQ_app_text c t : Q c -> allQ t -> allQ (app_text c t).
Proof. intros. unfold app_text. destruct (_ && _); [assumption|]. apply allQ_app. split; [assumption|]. now constructor. Qed.
Lemma allQ_skipn n t : allQ t -> allQ (skipn n t).
Proof. intros H. rewrite <- (firstn_skipn n t) in H. now apply allQ_app in H. Qed.
Lemma allQ_firstn n t : allQ t -> allQ (firstn n t).
Proof. intros H. rewrite <- (firstn_skipn n t) in H. now apply allQ_app in H. Qed.
Lemma allQ_substr t n u : substr_from t n = Some u -> allQ t -> allQ u.
Proof. unfold substr_from. destruct (_ <? _); [discriminate|]. intros [= <-]. apply allQ_skipn. Qed.
Lemma allQ_label_name t : allQ t -> allQ (label_name t).
Proof.
  unfold label_name, getLabelFromObjdumpLabel. destruct (_ && _); [|auto]. intros H. now apply allQ_firstn, allQ_skipn.
Qed.
Lemma allQ_split t : forall acc, allQ t -> allQ acc -> Forall allQ (split_opcodes t acc).
Proof.
  induction t as [|c t IH]; intros acc Ht Ha; cbn [split_opcodes]; [constructor|]. inversion Ht; subst.
  destruct (ceq c SP); cbn [negb].
  - destruct (is_nil acc); cbn [negb]; [|constructor; auto]; apply IH; auto; constructor.
  - apply IH; [assumption|]. apply allQ_app. split; [assumption|now constructor].
Qed.
Lemma lineQ_refs mb flt s : allQ (o_text s) -> lineQ (o_currentLine s) -> lineQ (add_refs (new_ref mb flt s) (o_currentLine s)).
Proof.
  intros Ht []. unfold add_refs, new_ref. constructor; lsimp; auto. apply Forall_app. split; [assumption|].
  destruct (o_ignoreUntilNextLabel s); [constructor|]. destruct (substr_from _ _) eqn:E; [|constructor].
  destruct (shouldIgnoreFunction _ _); constructor; [|constructor]. cbn. eapply allQ_substr; eassumption.
Qed.
Lemma lineQ_ops s : allQ (o_text s) -> lineQ (o_currentLine s) -> lineQ (add_ops (new_ops s) (o_currentLine s)).
Proof.
  intros Ht []. unfold add_ops, new_ops. constructor; lsimp; auto. apply Forall_app. split; [assumption|].
  destruct (o_ignoreUntilNextLabel s); [constructor|]. apply allQ_split; [assumption|constructor].
Qed.
Lemma lineQ_addr a l : lineQ l -> lineQ (set_l_address a l).
Proof. intros []. constructor; assumption. Qed.
Lemma lineQ0 : lineQ line0.
Proof. repeat constructor. Qed.

Lemma stateQ_trans mb flt s c s' : Q c -> stateQ s -> trans mb flt s c s' -> stateQ s'.
Proof.
  intros Hc HS H. pose proof HS as [HT HSec HF HL HLs HLb]. destruct H; try addr_cases; try exact HS.
  all: constructor; osimp_goal; unfold actually_filename, do_file_check; osimp_goal; cbn [s_file]; auto using allQ_app_text, lineQ_addr.
  all: try solve [apply Forall_nil].
  all: try solve [apply allQ_app; split; [assumption|now constructor]].
  - now apply lineQ_ops.
  - apply allQ_app. split; [assumption|]. repeat (constructor; [assumption|]). constructor.
  - destruct (ceq c TAB); [|now apply allQ_app_text]. apply allQ_app. split; [assumption|]. now constructor.
  - constructor; [assumption|constructor].
  - now apply lineQ_refs.
Qed.

Lemma stateQ_rm flt s ls lb : stateQ s -> rm flt s = Ok (ls, lb) -> Forall lineQ ls /\ Forall (fun e => allQ (fst e)) lb.
Proof.
  intros [HT HSec HF HL HLs HLb] H. apply rm_Ok in H as [[-> ->]|(_ & nm & n & b & H1 & _ & _ & -> & ->)]; [auto|].
  split; [now apply Forall_firstn|]. rewrite H1 in HLb. now apply Forall_app in HLb.
Qed.
Lemma lineQ_trunc : lineQ truncated_line.
Proof. destruct lineQ0. constructor; assumption. Qed.

Lemma stateQ_next x : allQ (o_currentSection x) -> allQ (s_file (o_currentSourceRef x)) -> Forall lineQ (o_lines x)
  -> Forall (fun e => allQ (fst e)) (o_labels x) -> stateQ (next_line x).
Proof. intros. constructor; unfold next_line, commonReset; osimp_goal; auto using lineQ0. constructor. Qed.
Lemma push_line_eqs l s : o_currentSection (push_line l s) = o_currentSection s
  /\ o_currentSourceRef (push_line l s) = o_currentSourceRef s /\ o_labels (push_line l s) = o_labels s.
Proof. unfold push_line. destruct (_ <? _); auto. Qed.

Lemma lineQ_finish s : stateQ s -> lineQ (finish_line s).
Proof.
  intros [HT HSec HF [] HLs HLb]. unfold finish_line. cbn [l_is_label set_l_section set_l_text].
  destruct (l_is_label _); constructor; lsimp; auto; try (now constructor).
  rewrite Forall_map. unfold shift_label. cbn [lb_name]. assumption.
Qed.

Lemma stateQ_eol flt s x : stateQ s -> eol_trans flt s x -> stateQ (next_line x).
Proof.
  intros HS H. pose proof HS as [HT HSec HF HL HLs HLb].
  destruct H as [ls lb _ _ _ Hrm|ls lb _ _ _ Hrm Hn nm|ls lb n _ _ _ Hrm Hn nm| | | |];
    try (apply (stateQ_rm _ _ _ _ HS) in Hrm as [Hls Hlb]).
  - apply stateQ_next; osimp_goal; auto.
  - pose proof (push_line_eqs (set_l_source (o_currentSourceRef s) (set_l_section (o_currentSection s) (set_l_text (nm ++ lit ":")
                    (set_l_is_label true (set_l_label nm (o_currentLine s)))))) (set_o_lines ls (set_o_labels (lb ++ [(nm, i32 (Z.of_nat (length ls) + 1))])
           (set_o_previousLabel nm (set_o_checkNextFileForLibraryCode (f_library_functions flt || o_checkNextFileForLibraryCode s)
             (set_o_ignoreUntilNextLabel false s)))))) as (E1 & E2 & E3).
    assert (Hnm : allQ nm) by now apply allQ_label_name.
    apply stateQ_next; rewrite ?E1, ?E2, ?E3; osimp_goal; auto.
    + apply push_line_Forall; auto using lineQ_trunc. destruct HL. constructor; lsimp; auto.
      apply allQ_app. split; [assumption|]. now constructor.
    + apply Forall_app. split; [assumption|]. constructor; [exact Hnm|constructor].
  - apply stateQ_next; osimp_goal; auto. apply Forall_app. split; [assumption|].
    constructor; [now apply allQ_label_name|constructor].
  - now apply stateQ_next.
  - apply stateQ_next; osimp_goal; auto.
  - pose proof (push_line_eqs (finish_line s) s) as (E1 & E2 & E3).
    apply stateQ_next; rewrite ?E1, ?E2, ?E3; auto. apply push_line_Forall; auto using lineQ_trunc, lineQ_finish.
  - now apply stateQ_next.
Qed.

Lemma stateQ_feed mb flt input s s' : stateQ s -> Forall (fun c => c = LF \/ c = CR \/ Q c) input ->
  feed mb flt s input = Ok s' -> stateQ s'.
Proof.
  apply feed_inv_chars. clear s s' input. intros s c s' HS HQ H.
  destruct (Ascii.eqb c LF) eqn:E.
  - apply Ascii.eqb_eq in E. subst. apply step_LF in H as [[_ ->]|(_ & x & Hx & ->)]; [exact HS|]. eapply stateQ_eol; eauto.
  - apply Ascii.eqb_neq in E. destruct HQ as [HQ|[HQ|HQ]]; [contradiction| |eapply stateQ_trans; eauto using step_trans].
    subst. unfold step in H. destruct (o_stopParsing s); injection H as <-; assumption.
Qed.
Lemma stateQ_start s : stateQ s -> stateQ (set_o_inAddress true (set_o_total_lines 0 s)).
Proof. intros []. constructor; assumption. Qed.
Lemma stateQ0 : stateQ ostate0.
Proof. constructor; try constructor; try apply lineQ0; try constructor. Qed.
End Chars.

(** ** C22 *)
Definition not_break (c : char) : Prop := c <> LF /\ c <> CR.
Lemma no_break_reachable mb flt s : reachable mb flt s -> stateQ not_break s.
Proof.
  intros H. induction H as [|s input s' _ IH H]; [apply stateQ0|].
  unfold fromStream in H. eapply stateQ_feed; [| | |apply stateQ_start; eassumption| |eassumption].
  - split; discriminate.
  - split; discriminate.
  - repeat (constructor; [split; discriminate|]). constructor.
  - clear. induction input as [|c t IH]; constructor; auto. unfold not_break.
    destruct (ascii_dec c LF); [now left|]. destruct (ascii_dec c CR); [right; now left|]. right; right. now split.
Qed.

Lemma text_lines_from_line cur l t : Forall not_break l -> text_lines_from cur (l ++ LF :: t) = (cur ++ l) :: text_lines_from [] t.
Proof.
  revert cur; induction l as [|c l IH]; intros cur H.
  - cbn. now rewrite app_nil_r.
  - inversion H as [|? ? Hc Hl]; subst. cbn [app text_lines_from]. destruct Hc as [Hc _].
    apply Ascii.eqb_neq in Hc. rewrite Hc. rewrite IH by assumption. now rewrite <- app_assoc.
Qed.
Lemma text_lines_output s : Forall (lineQ not_break) (o_lines s) -> text_lines (outputText s) = map l_text (o_lines s).
Proof.
  unfold text_lines, outputText. induction 1 as [|l ls Hl Hls IH]; [reflexivity|].
  cbn [flat_map map]. rewrite <- app_assoc. cbn [app]. rewrite text_lines_from_line by apply Hl. cbn [app]. now rewrite IH.
Qed.

(** ** C07 *)
Record NoIgn (flt : Filter) (s : ostate) : Prop := {
  ni_lines : Forall (fun l => (l_is_label l = true -> shouldIgnoreFunction (l_label l) flt = false)
               /\ Forall (fun r => shouldIgnoreFunction (lb_name r) flt = false) (l_labels l)) (o_lines s);
  ni_cur : Forall (fun r => shouldIgnoreFunction (lb_name r) flt = false) (l_labels (o_currentLine s));
  ni_labels : Forall (fun e => shouldIgnoreFunction (fst e) flt = false) (o_labels s);
  ni_notlab : l_is_label (o_currentLine s) = false }.

Lemma NoIgn_trans mb flt s c s' : c <> LF -> NoIgn flt s -> trans mb flt s c s' -> NoIgn flt s'.
Proof.
  intros Hc HS H. pose proof HS as [H1 H2 H3 H4]. destruct H; try addr_cases; try exact HS.
  all: constructor; osimp_goal; auto.
  cbn. apply Forall_app. split; [assumption|]. unfold new_ref.
  destruct (o_ignoreUntilNextLabel s); [constructor|]. destruct (substr_from _ _); [|constructor].
  destruct (shouldIgnoreFunction _ _) eqn:E; [constructor|]. constructor; [exact E|constructor].
Qed.
Lemma NoIgn_eol flt s x : NoIgn flt s -> eol_trans flt s x -> NoIgn flt (next_line x).
Proof.
  intros HS H. pose proof HS as [H1 H2 H3 H4].
  assert (Hnext : forall y, Forall (fun l => (l_is_label l = true -> shouldIgnoreFunction (l_label l) flt = false)
               /\ Forall (fun r => shouldIgnoreFunction (lb_name r) flt = false) (l_labels l)) (o_lines y) ->
          Forall (fun e => shouldIgnoreFunction (fst e) flt = false) (o_labels y) -> NoIgn flt (next_line y)).
  { intros y Hy Hz. constructor; unfold next_line, commonReset; osimp_goal; auto. constructor. }
  assert (Hrm : forall ls lb, rm flt s = Ok (ls, lb) -> Forall (fun l => (l_is_label l = true -> shouldIgnoreFunction (l_label l) flt = false)
               /\ Forall (fun r => shouldIgnoreFunction (lb_name r) flt = false) (l_labels l)) ls
               /\ Forall (fun e => shouldIgnoreFunction (fst e) flt = false) lb).
  { intros ls lb HH. apply rm_Ok in HH as [[-> ->]|(_ & nm & n & b & E1 & _ & _ & -> & ->)]; [auto|].
    split; [now apply Forall_firstn|]. rewrite E1 in H3. now apply Forall_app in H3. }
  assert (Htr : (l_is_label truncated_line = true -> shouldIgnoreFunction (l_label truncated_line) flt = false)
               /\ Forall (fun r => shouldIgnoreFunction (lb_name r) flt = false) (l_labels truncated_line))
    by (split; [discriminate|constructor]).
  apply Hnext; destruct H as [ls lb _ _ Hg Hr|ls lb _ _ Hg Hr Hn nm|ls lb n _ _ Hg Hr Hn nm| | | |]; auto;
    try (apply Hrm in Hr as [Hr1 Hr2]); osimp_goal; auto.
  - apply push_line_Forall; auto.
  - apply push_line_Forall; auto. split.
    + unfold finish_line. cbn [l_is_label set_l_section set_l_text]. rewrite H4. lsimp_goal. congruence.
    + unfold finish_line. cbn [l_is_label set_l_section set_l_text]. rewrite H4. lsimp_goal. now rewrite Forall_map.
  - rewrite push_line_labels. osimp_goal. apply Forall_app. split; [assumption|]. constructor; [exact Hg|constructor].
  - apply Forall_app. split; [assumption|]. constructor; [exact Hg|constructor].
  - now rewrite push_line_labels.
Qed.
Lemma NoIgn_reachable mb flt s : reachable mb flt s -> NoIgn flt s.
Proof.
  apply reachable_inv.
  - repeat constructor.
  - intros x []. constructor; assumption.
  - apply NoIgn_trans.
  - intros x y Hx _. now apply NoIgn_eol.
Qed.
