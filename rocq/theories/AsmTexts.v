(** A property of texts that the text parser keeps: if every line of the input has
    it, so has every text, name and file name of the result. *)
From Verif Require Import CliThm.
From Verif Require Import RegexCaps UtilLabels AsmLemmas AsmRead AsmTrace AsmMark AsmThms AsmLines AsmSearch AsmViews JsonMore.
Local Open Scope Z_scope.

(** The pieces between line feeds: [b] is the text before [s] on its line. *)
Fixpoint line_ends (b s : str) : list str :=
  match s with
  | [] => [b]
  | c :: t => if ceq c LF then b :: line_ends [] t else line_ends (b ++ [c]) t
  end.

Section Texts.
Variable W : str -> Prop.
Hypothesis W0 : W [].
Hypothesis Wapp : forall a b, W a -> W b -> W (a ++ b).
Hypothesis Wtaken : forall t n, W t -> taken t n -> W n.
Hypothesis Wfile : forall t i f, getFileDef t = Some (i, f) -> W t -> W f.
Hypothesis Wclean : forall flt s, W (t_text s) -> W (filteredLine flt s).

(** Texts and opcodes of the stored lines; texts of the views and of the file table. *)
Definition vQ (v : view) : Prop := W (v_str v).
Definition lQ (l : asm_line_v) : Prop := W (lv_text l) /\ lv_opcodes l = [].
Definition fQ (m : list (Z * str)) : Prop := Forall (fun e => W (snd e)) m.
Record core (s : tstate) : Prop := mkCore { co_lines : Forall lQ (t_lines s); co_files : fQ (t_files s); co_held : held vQ s }.
Definition textQ (s : tstate) : Prop := core s /\ W (t_text s).
Lemma vQ0 : vQ view0. Proof. exact W0. Qed.

Lemma amend_lQ src rl : Forall lQ rl -> Forall lQ (amend_rev src rl).
Proof.
  induction 1 as [|x t Hx Ht IH]; cbn [amend_rev]; [constructor|]. destruct (lv_is_label x); [|now constructor]. cbv zeta.
  destruct (negb _); constructor; auto; exact Hx.
Qed.
Lemma amend_core src s : vQ (sv_file src) -> core s -> core (amendPreviousLinesWith src s).
Proof.
  intros Hs [A B C]. constructor; [|exact B|now apply amend_lines_held]. unfold amendPreviousLinesWith. tsimp_goal.
  apply Forall_rev, amend_lQ. now apply Forall_rev.
Qed.
Lemma inside_core s : core s -> core (markPreviousInternalLabelAsInsideProc s).
Proof.
  intros [A B C]. pose proof (inside_held vQ s C) as H. unfold markPreviousInternalLabelAsInsideProc in *.
  destruct (rev (t_lines s)) as [|x t] eqn:E; [now constructor|].
  destruct (_ && _); [|now constructor]. pose proof (Forall_rev A) as Hl. rewrite E in Hl. inversion Hl; subst.
  constructor; [|exact B|exact H]. tsimp_goal. apply Forall_rev. constructor; assumption.
Qed.
Lemma assign_fQ m i f : fQ m -> W f -> fQ (files_assign m i f).
Proof.
  intros H Hf. unfold fQ. induction H as [|[j g] t Hx Ht IH]; cbn [files_assign]; [now repeat constructor|].
  destruct (_ =? _); constructor; auto.
Qed.
Section Line.
Variable l : asm_line_v.
Hypothesis Hl : W (lv_text l).
Lemma slice_Q n : taken (lv_text l) n -> vQ (slice l n).
Proof. intros H. unfold vQ, slice. cbn [v_str]. eapply Wtaken; eassumption. Qed.
Lemma source_core s s' : core s -> handleSourceDirective l s = Some s' -> core s'.
Proof.
  intros [A B C] E. pose proof (source_directive_held vQ l vQ0 slice_Q s s' C E) as H. revert E.
  unfold handleSourceDirective, handleFiledef, handleSource, handleStabs, handle6502, handleD2.
  destruct (getFileDef _) as [[i f]|] eqn:EF.
  { intros [= <-]. constructor; [exact A|apply assign_fQ; [exact B|eapply Wfile; eassumption]|exact H]. }
  destruct (getSourceRef _) as [[fi li] col]. destruct (negb (fi =? 0)).
  { intros [= <-]. constructor; [|exact B|exact H]. unfold amendPreviousLinesWith. tsimp_goal. apply Forall_rev, amend_lQ. now apply Forall_rev. }
  destruct (getSourceInfoFromStabs _) as [sb|].
  { intros [= <-]. destruct (sb_type sb =? 68); [now constructor|]. destruct (_ || _); now constructor. }
  destruct (get6502DbgInfo _) as [[[f n] e]|]; [intros [= <-]; destruct (negb e); now constructor|].
  destruct (getD2LineInfo _) as [n|].
  { intros [= <-]. constructor; [|exact B|exact H]. unfold amendPreviousLinesWith. tsimp_goal. apply Forall_rev, amend_lQ. now apply Forall_rev. }
  destruct (getD2FileInfo _) as [f|]; [|discriminate]. intros [= <-]. now constructor.
Qed.
Lemma section_core s : core s -> core (handleSection l s).
Proof.
  intros [A B C]. pose proof (section_held vQ l slice_Q s C) as H. unfold handleSection in *.
  destruct (getSectionNameDef _); now constructor.
Qed.
Lemma classify_core mblen flt handled s : lQ l -> line_held vQ l -> core s -> core (eol_classify mblen flt handled l s).
Proof.
  intros Hk Hh [A B C]. pose proof (classify_held vQ l vQ0 slice_Q mblen flt handled s Hh C) as H.
  assert (L : lQ (fst (label_step handled l s)) /\ t_lines (snd (label_step handled l s)) = t_lines s /\ t_files (snd (label_step handled l s)) = t_files s).
  { destruct (label_cases handled l s) as [|E|n a c E]; try (split; [exact Hk|split; reflexivity]).
    split; [unfold labelled; destruct a; exact Hk|]. unfold define_label. cbv zeta. destruct c, (isInternalLabel _); split; reflexivity. }
  destruct L as (L1 & L2 & L3). constructor; [| |exact H].
  - pose proof (classify_cases mblen flt handled l s) as Hc. destruct (label_step handled l s) as [l2 s2]. cbn [fst snd] in *.
    assert (D : forall x s0, t_lines (extractUsedLabelsFromDirective x s0) = t_lines s0).
    { intros x s0. unfold extractUsedLabelsFromDirective. destruct (getWeakDefinedLabel _); [reflexivity|]. now destruct (getGlobalDefinedLabel _). }
    assert (K : forall x s0, lQ x -> t_lines s0 = t_lines s -> Forall lQ (t_lines (eol_keep mblen x s0))).
    { intros x s0 Hx E. rewrite keep_lines, E. apply Forall_app. split; [assumption|]. constructor; [exact Hx|constructor]. }
    destruct Hc.
    + apply K; [assumption|]. now destruct (isCudaEndDef _).
    + unfold move_filtered. tsimp_goal. rewrite D, L2. exact A.
    + apply K; [subst l3; destruct handled; exact L1|]. now rewrite D.
    + apply K; [subst l3; destruct handled; exact L1|assumption].
    + now apply K.
  - pose proof (classify_cases mblen flt handled l s) as Hc. destruct (label_step handled l s) as [l2 s2]. cbn [fst snd] in *.
    assert (D : forall x s0, t_files (extractUsedLabelsFromDirective x s0) = t_files s0).
    { intros x s0. unfold extractUsedLabelsFromDirective. destruct (getWeakDefinedLabel _); [reflexivity|]. now destruct (getGlobalDefinedLabel _). }
    assert (K : forall x s0, t_files s0 = t_files s -> fQ (t_files (eol_keep mblen x s0))).
    { intros x s0 E. destruct (keep_shape mblen x s0) as (a & p & ->). tsimp_goal. now rewrite E. }
    destruct Hc.
    + apply K. now destruct (isCudaEndDef _).
    + unfold move_filtered. tsimp_goal. rewrite D, L3. exact B.
    + apply K. now rewrite D.
    + now apply K.
    + now apply K.
Qed.
End Line.

(** A change of fields other than lines, files and views. *)
Lemma core_frame s s' : core s ->
  t_currentSourceRef s' = t_currentSourceRef s -> t_lastOwnSource s' = t_lastOwnSource s -> t_previousLabel s' = t_previousLabel s ->
  t_previousParentLabel s' = t_previousParentLabel s -> t_previousLabelOnSameAddress s' = t_previousLabelOnSameAddress s ->
  t_currentFilename s' = t_currentFilename s -> t_currentSection s' = t_currentSection s -> t_currentSourceFile s' = t_currentSourceFile s ->
  t_labels_defined s' = t_labels_defined s -> t_usercode_labels s' = t_usercode_labels s -> t_used_labels s' = t_used_labels s ->
  t_data_used_labels s' = t_data_used_labels s -> t_weakly_used_labels s' = t_weakly_used_labels s ->
  t_aliased_labels s' = t_aliased_labels s -> t_lines s' = t_lines s -> t_filteredlines s' = t_filteredlines s -> t_files s' = t_files s -> core s'.
Proof. intros [A B C]. intros. constructor; [congruence|congruence|]. eapply held_frame; eassumption. Qed.
Ltac cframe H := eapply core_frame; [exact H|try reflexivity..].

Lemma library_core flt s : core s -> core (snd (libraryFilter flt s)).
Proof.
  intros H. unfold libraryFilter. destruct (_ && _); cbn [snd]; [|cframe H].
  destruct (rev (t_lines s)) as [|x t] eqn:E; [exact H|]. destruct (t_mayRemovePreviousLabel s); [|exact H]. cbv zeta.
  destruct (is_nil _); [cframe H|]. destruct (lv_is_label x); [|cframe H].
  assert (Ht : forall P : asm_line_v -> Prop, Forall P (t_lines s) -> Forall P (rev t)).
  { intros P HP. apply Forall_rev in HP. rewrite E in HP. inversion HP; subst. now apply Forall_rev. }
  destruct H as [A B C]. constructor; [exact (Ht _ A)|exact B|]. destruct C; constructor; tsimp_goal; auto.
Qed.
Lemma directives_core mblen flt i t s : W t -> core s -> core (eol_directives mblen flt (set_lv_text t (line_v0 i)) s).
Proof.
  intros Ht H. set (l := set_lv_text t (line_v0 i)). assert (Hl : W (lv_text l)) by exact Ht.
  assert (Hk : lQ l) by (split; [exact Ht|reflexivity]). assert (Hh : line_held vQ l) by (apply blank_line_held, vQ0). clearbody l.
  unfold eol_directives.
  assert (Hs : exists handled s1, (if endBlock (lv_text l) || (t_inNvccCode s && str_contains (lv_text l) "}")
     then (false, set_t_lastOwnSource source_v0 (set_t_previousLabel view0 (set_t_currentSourceRef source_v0 s)))
     else match handleSourceDirective l s with Some s' => (true, s') | None => (false, s) end) = (handled, s1) /\ core s1).
  { destruct (_ || _).
    - do 2 eexists. split; [reflexivity|]. destruct H as [A B C]. constructor; [exact A|exact B|]. destruct C; constructor; tsimp_goal; try assumption; exact vQ0.
    - destruct (handleSourceDirective l s) as [s1|] eqn:E; do 2 eexists; (split; [reflexivity|]); [|assumption]. eapply source_core; eassumption. }
  destruct Hs as (handled & s1 & -> & H1).
  assert (H2 : core (if negb handled then handleSection l s1 else s1)) by (destruct (negb handled); [now apply section_core|assumption]).
  set (s2 := if negb handled then _ else _) in *. clearbody s2. pose proof (library_core flt s2 H2) as H3.
  destruct (libraryFilter flt s2) as [drop s3]. cbn [snd] in H3. destruct drop; [cframe H3|]. destruct (justComment flt s3); [cframe H3|].
  now apply classify_core.
Qed.
Lemma directives_text mblen flt l s : t_text (eol_directives mblen flt l s) = [].
Proof.
  unfold eol_directives. destruct (if _ || _ then _ else _) as [handled s1]. set (s2 := if negb handled then _ else s1). clearbody s2.
  destruct (libraryFilter flt s2) as [drop s3]. destruct drop; [reflexivity|]. destruct (justComment flt s3); [reflexivity|].
  pose proof (classify_cases mblen flt handled l s3) as Hc. destruct Hc; try reflexivity; match goal with |- context [eol_keep ?m ?x ?s] => destruct (keep_shape m x s) as (a & p & ->) end; reflexivity.
Qed.
Lemma block_same flt s : exists rm h, commentBlock flt s = (rm, set_t_hasStartedCommentBlock h s).
Proof.
  unfold commentBlock. assert (R : s = set_t_hasStartedCommentBlock (t_hasStartedCommentBlock s) s) by now destruct s.
  destruct (f_comment_only flt); [|do 2 eexists; rewrite <- R; reflexivity]. cbv zeta. destruct (t_hasStartedCommentBlock s) eqn:E; cbn [negb].
  - rewrite E. do 2 eexists. reflexivity.
  - tsimp_goal. destruct (startCommentBlock _); do 2 eexists; reflexivity.
Qed.
Lemma blank_textQ l s : textQ s -> textQ (keep_text l (maybeAddBlank s)).
Proof.
  intros [[A B C] T]. unfold keep_text, maybeAddBlank, new_line. cbv zeta. destruct (negb _).
  - split; [|exact T]. constructor; tsimp_goal; [|exact B|].
    + apply Forall_app. split; [assumption|]. constructor; [split; [exact W0|reflexivity]|constructor].
    + destruct C; constructor; tsimp_goal; try assumption. apply Forall_app. split; [assumption|]. constructor; [|constructor].
      change (line_v0 (t_next_id s)) with (set_lv_text [] (line_v0 (t_next_id s))). apply blank_line_held, vQ0.
  - split; [|exact T]. constructor; [exact A|exact B|]. destruct C; constructor; assumption.
Qed.
Lemma drop_textQ l s : core s -> textQ (drop_line l s).
Proof. intros H. split; [cframe H|exact W0]. Qed.
Lemma custom_textQ s : textQ s -> textQ (customAssembly s).
Proof. intros [H T]. destruct (custom_same s) as [z Ez]. rewrite Ez. split; [cframe H|exact T]. Qed.
Lemma body_textQ mblen flt i s : textQ s ->
  textQ (let l := set_lv_text (filteredLine flt s) (line_v0 i) in
    if startProcBlock (lv_text l) && (sv_line (t_currentSourceRef s) =? 0) then
      let s := markPreviousInternalLabelAsInsideProc s in
      if f_directives flt then drop_line l s else eol_directives mblen flt l s
    else eol_directives mblen flt l s).
Proof.
  intros [H T]. cbv zeta. pose proof (Wclean flt s T) as F. destruct (_ && _).
  - apply inside_core in H. destruct (f_directives flt); [now apply drop_textQ|].
    split; [now apply directives_core|]. rewrite directives_text. exact W0.
  - split; [now apply directives_core|]. rewrite directives_text. exact W0.
Qed.
Lemma eol_textQ mblen flt s : textQ s -> textQ (eol mblen flt s).
Proof.
  intros [H Ht]. unfold eol. cbv zeta. destruct (new_line _) as [l s1] eqn:E. unfold new_line in E. injection E as <- <-.
  match goal with |- context [commentBlock flt ?x] => assert (H1 : textQ x); [split; [cframe H|exact Ht]|generalize dependent x] end.
  clear H Ht. intros s1 H1. destruct (block_same flt s1) as (rm & h & X). rewrite X.
  assert (H2 : textQ (set_t_hasStartedCommentBlock h s1)) by (destruct H1 as [H T]; split; [cframe H|exact T]).
  generalize dependent (set_t_hasStartedCommentBlock h s1). intros s2 _ H2. clear s1 H1.
  destruct rm; [apply drop_textQ, H2|]. destruct (isEmptyOrJustWhitespace _); [now apply blank_textQ|].
  apply body_textQ. now apply custom_textQ.
Qed.
Lemma line_ends_cons i : forall b, exists h t, line_ends b i = (b ++ h) :: t /\ forall b', line_ends b' i = (b' ++ h) :: t.
Proof.
  induction i as [|c i IH]; intros b; cbn [line_ends].
  - exists [], []. split; [|intros b']; now rewrite app_nil_r.
  - destruct (ceq c LF); [exists [], (line_ends [] i); split; [|intros b']; now rewrite app_nil_r|].
    destruct (IH (b ++ [c])) as (h & t & E & H). exists (c :: h), t. split; [|intros b']; rewrite H, <- app_assoc; reflexivity.
Qed.
Lemma line_ends_join b i : W b -> Forall W (line_ends [] i) -> Forall W (line_ends b i).
Proof.
  intros Hb. destruct (line_ends_cons i []) as (h & t & E & H). rewrite E, (H b). intros X. inversion X; subst. constructor; auto.
Qed.
Definition reading (s : tstate) (i : str) : Prop :=
  core s /\ (t_stopParsing s = true /\ W (t_text s) \/ t_stopParsing s = false /\ Forall W (line_ends (t_text s) i)).
Lemma textQ_reading s i : textQ s -> Forall W (line_ends [] i) -> reading s i.
Proof. intros [A B] H. split; [exact A|]. destruct (t_stopParsing s); [now left|]. right. split; [reflexivity|]. now apply line_ends_join. Qed.
Lemma step_reading mblen flt s c i : reading s (c :: i) -> reading (step mblen flt s c) i.
Proof.
  intros [A H]. unfold step. destruct H as [[E H]|[E H]]; rewrite E; [split; [exact A|now left]|]. cbn [line_ends] in H.
  destruct (ceq c LF).
  - inversion H; subst. apply textQ_reading; [|assumption]. apply eol_textQ. now split.
  - split; [cframe A|]. right. split; [exact E|exact H].
Qed.
Lemma textQ0 : textQ tstate0.
Proof. split; [|exact W0]. constructor; [constructor|constructor|]. constructor; cbn; try exact vQ0; constructor. Qed.
Lemma read_textQ mblen flt s input : textQ s -> Forall W (line_ends [] input) -> textQ (read_lines mblen flt s input).
Proof.
  intros [A B] Hi. unfold read_lines. assert (H : textQ (set_t_total_lines 0 s)) by (split; [cframe A|exact B]).
  pose proof (textQ_reading _ _ H Hi) as H0. clear H.
  assert (G : forall i s, reading s i -> reading (fold_left (step mblen flt) i s) []).
  { induction i as [|c t IH]; intros s0 H1; [assumption|]. cbn [fold_left]. apply IH. now apply step_reading. }
  pose proof (G input _ H0) as [H' H'']. assert (T : textQ (fold_left (step mblen flt) input (set_t_total_lines 0 s))).
  { split; [exact H'|]. destruct H'' as [[_ X]|[_ X]]; [exact X|]. cbn [line_ends] in X. now inversion X. }
  cbv zeta. destruct (negb _); [now apply eol_textQ|assumption].
Qed.
Lemma filter_textQ s : core s -> core (filterNonLabels s).
Proof.
  intros [A B C]. constructor; [exact A|exact B|]. unfold filterNonLabels. cbv zeta.
  destruct C; constructor; tsimp_goal; try assumption; apply Forall_forall; intros x Hx; apply filter_In in Hx as [Hx _];
    [revert x Hx; apply Forall_forall; exact h_used|revert x Hx; apply Forall_forall; exact h_weak].
Qed.
(** What the lines shown say. *)
Definition shownQ (l : asm_line_v) : Prop := lQ l /\ line_held vQ l.
Lemma run_textQ mblen flt oref olab fuel input vis s' vis' : Forall W (line_ends [] input) ->
  AsmText.run mblen flt oref olab fuel input vis = Ok (s', vis') -> Forall shownQ (t_lines s').
Proof.
  intros Hi H. destruct (run_ok _ _ _ _ _ _ _ _ _ H) as (L & kept & out & [M K O OI ST LP]). set (r := read mblen flt input) in *.
  assert (PR : core r) by (apply filter_textQ; apply (read_textQ mblen flt tstate0 input textQ0 Hi)).
  destruct PR as [A B C]. clearbody r.
  assert (HL : Forall shownQ L).
  { pose proof (h_lines _ _ C) as HA. clear - M HA A. induction M as [|x y a b Hxy HM IH]; [constructor|]. inversion HA; subst. inversion A; subst.
    constructor; [|auto]. split; [destruct Hxy as [E _ _ _]; rewrite E; assumption|].
    unfold line_held. now rewrite (proj1 (marked_views _ _ _ _ _ Hxy)). }
  assert (HK : Forall shownQ kept).
  { apply Forall_forall. intros l Hl. apply (subseq_in _ _ K) in Hl. revert l Hl. now apply Forall_forall. }
  rewrite ST. tsimp_goal. apply Forall_map. revert HK. apply Forall_impl. intros l [H1 H2]. unfold shown, filterOutReferedLabelsThatArentDefined.
  set (l1 := set_lv_labels _ l).
  assert (L1 : lQ l1) by exact H1. assert (L2 : line_held vQ l1).
  { unfold l1, line_held, views_of_line in *. vsimp. inversion H2 as [|? ? P1 P2]; subst. inversion P2 as [|? ? P3 P4]; subst. inversion P4 as [|? ? P5 P6]; subst.
    repeat (constructor; [assumption|]). apply Forall_map, Forall_forall. intros x Hx. apply filter_In in Hx as [Hx _].
    rewrite Forall_map, Forall_forall in P6. auto. }
  clearbody l1. unfold resolve_file. destruct (negb _); [|now split].
  destruct (files_at (t_files r) _) as [f|] eqn:E; (split; [exact L1|]); apply line_source_held; try assumption.
  cbn [sv_file]. unfold vQ. cbn [v_str]. unfold files_at in E. destruct (find _ _) as [[j g]|] eqn:EF; [|discriminate]. injection E as <-.
  apply find_some in EF as [EF _]. unfold fQ in B. rewrite Forall_forall in B. exact (B _ EF).
Qed.
End Texts.
