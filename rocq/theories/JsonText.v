(** The JSON written by the text parser (C26 for the text parser, C73). *)
From Verif Require Import CliThm.
From Verif Require Import RegexCaps UtilLabels AsmLemmas AsmRead AsmTrace AsmMark AsmThms AsmLines AsmSearch AsmViews AsmTexts JsonMore.
Local Open Scope Z_scope.

Section Q.
Variable Q : char -> Prop.
Hypothesis Qsp : Q SP.
Hypothesis Qslash : Q "/"%char.
Notation AllQ := (Forall Q).

Lemma part_Q a b : part a b -> AllQ b -> AllQ a.
Proof. intros (x & y & ->) H. apply Forall_app in H as [_ H]. now apply Forall_app in H as [H _]. Qed.
Lemma skip_Q n s : AllQ s -> AllQ (skipn n s).
Proof. intros H. rewrite <- (firstn_skipn n s) in H. now apply Forall_app in H as [_ H]. Qed.
Lemma expand_Q s : forall out e, AllQ s -> AllQ out -> AllQ (expandTabs_loop s out e).
Proof.
  induction s as [|c t IH]; intros out e H Ho; cbn [expandTabs_loop]; [assumption|]. inversion H; subst. cbv zeta.
  destruct (ceq c TAB); apply IH; auto; apply Forall_app; split; auto. apply skip_Q. repeat (constructor; [exact Qsp|]). constructor.
Qed.
Lemma ltrim_Q s : AllQ s -> AllQ (ltrim s).
Proof. induction 1 as [|c t Hc Ht IH]; cbn; [constructor|]. destruct (is_space c); [assumption|]. now constructor. Qed.
Lemma squash_loop_Q s : forall st js out, AllQ s -> AllQ out -> AllQ (fst (squash_loop s st js out)).
Proof.
  induction s as [|c t IH]; intros st js out H Ho; cbn [squash_loop fst]; [assumption|]. inversion H; subst.
  destruct st; destruct (is_whitespace c); apply IH; auto; apply Forall_app; split; auto.
Qed.
Lemma squash_plain_Q s b : AllQ s -> AllQ (squashHorizontalWhitespace s b).
Proof.
  intros H. unfold squashHorizontalWhitespace. pose proof (squash_loop_Q s (if b then HStart else HJustOne) true [] H (Forall_nil _)) as E.
  destruct (squash_loop _ _ _ _) as [o j]. cbn [fst] in E. destruct (b && j); [constructor|assumption].
Qed.
Lemma squash_Q fuel : forall s b, AllQ s -> AllQ (squash_quotes fuel s b).
Proof.
  induction fuel as [|k IH]; intros s b H; cbn [squash_quotes]; [now apply squash_plain_Q|].
  destruct (re_search findQuotes s) as [mt|] eqn:E; [|now apply squash_plain_Q].
  assert (G : forall n, AllQ (cap n mt)) by (intros n; eapply part_Q; [eapply search_part, E|assumption]).
  apply Forall_app. split; [apply IH, G|]. apply Forall_app. split; [apply G|apply IH, G].
Qed.
Lemma filtered_Q flt s : AllQ (t_text s) -> AllQ (filteredLine flt s).
Proof.
  intros H. unfold filteredLine. assert (E : AllQ (expandTabs (if 0 <? t_inCustomAssembly s then fixLabelIndentation (t_text s) else t_text s))).
  { apply expand_Q; [|constructor]. destruct (0 <? _); [|assumption]. unfold fixLabelIndentation. destruct (is_probably_label _); [now apply ltrim_Q|assumption]. }
  destruct (f_whitespace flt); [|exact E]. now apply squash_Q.
Qed.
Lemma file_Q t i f : getFileDef t = Some (i, f) -> AllQ t -> AllQ f.
Proof.
  unfold getFileDef. destruct (re_match fileFind t) as [mt|] eqn:E; [|discriminate]. intros H Ht.
  assert (G : forall n, AllQ (cap n mt)) by (intros n; eapply part_Q; [eapply match_part, E|assumption]).
  destruct (negb _); injection H as <- <-; [|apply G]. apply Forall_app. split; [apply G|]. constructor; [exact Qslash|apply G].
Qed.

Lemma ends_Q input : forall b, AllQ b -> Forall (fun c => Q c \/ c = LF) input -> Forall AllQ (line_ends b input).
Proof.
  induction input as [|c t IH]; intros b Hb H; cbn [line_ends]; [now repeat constructor|]. inversion H as [|? ? Hc Ht]; subst.
  destruct (ceq c LF) eqn:E; [constructor; auto|]. destruct Hc as [Hc| ->]; [|discriminate E]. apply IH; [|assumption].
  apply Forall_app. split; [assumption|now constructor].
Qed.
Lemma run_charsQ mblen flt oref olab fuel input vis s' vis' : Forall (fun c => Q c \/ c = LF) input ->
  AsmText.run mblen flt oref olab fuel input vis = Ok (s', vis') -> Forall (shownQ AllQ) (t_lines s').
Proof.
  intros Hi H. eapply run_textQ; [| | | | | |exact H].
  - constructor.
  - intros a b Ha Hb. apply Forall_app. now split.
  - intros t n Ht Hn. eapply part_Q; [apply taken_part, Hn|exact Ht].
  - intros t i f E Ht. eapply file_Q; eassumption.
  - intros f s. apply filtered_Q.
  - now apply ends_Q.
Qed.
End Q.

Lemma text_json_valid mb flt flt' oref olab fuel input vis s vis' rep clock :
  Forall (fun c => 32 <= code c \/ c = TAB \/ c = LF) input ->
  AsmText.run mb flt oref olab fuel input vis = Ok (s, vis') ->
  exists v, json_text (AsmText.outputJson flt' dec_Z rep clock s) v.
Proof.
  intros Hi H.
  assert (R : Forall (shownQ (Forall text_char)) (t_lines s)).
  { eapply run_charsQ; [| | |exact H]; [left; vm_compute; discriminate|left; vm_compute; discriminate|].
    eapply Forall_impl; [|exact Hi]. unfold text_char. cbn. tauto. }
  unfold AsmText.outputJson. apply doc_valid_iff; [exact dec_Z_value| |].
  { eapply Forall_impl; [|exact R]. intros l [[_ E] _]. rewrite E. constructor. }
  assert (V : forall l, line_held (vQ (Forall text_char)) l -> printable (v_str (lv_section l)) /\ printable (v_str (lv_label l)) /\
     printable (v_str (sv_file (lv_source l))) /\ Forall (fun r => printable (v_str (lbv_name r))) (lv_labels l)).
  { intros l Hl. unfold line_held, views_of_line in Hl. inversion Hl as [|? ? A B]; subst. inversion B as [|? ? C D]; subst.
    inversion D as [|? ? E F]; subst. rewrite Forall_map in F. auto. }
  split.
  - eapply Forall_impl; [|exact R]. intros l [[A B] C]. destruct (V l C) as (V1 & V2 & V3 & V4). unfold line_printable. rewrite B.
    repeat split; auto. unfold source_printable, file_value.
    destruct (is_nil _); [exact I|]. destruct (_ && _); [exact I|]. intros _. destruct (starts_with _ _); [|exact V3].
    eapply part_Q; [|exact V3]. exists (firstn 5 (v_str (sv_file (lv_source l)))), []. rewrite app_nil_r. symmetry. apply firstn_skipn.
  - unfold redetermineLabels. generalize 1. revert R. generalize (t_lines s). induction l as [|x t IH]; intros R n; [constructor|].
    inversion R as [|? ? [_ C] R']; subst. cbn [labels_from]. apply Forall_app. split; [|now apply IH].
    destruct (lv_is_label x); [|constructor]. constructor; [apply (V x C)|constructor].
Qed.
Lemma opcodes_none mb flt oref olab fuel input vis s vis' : AsmText.run mb flt oref olab fuel input vis = Ok (s, vis') ->
  Forall (fun l => lv_opcodes l = []) (t_lines s).
Proof.
  intros H. assert (R : Forall (shownQ (Forall (fun _ => True))) (t_lines s)).
  { eapply run_charsQ; [exact I|exact I| |exact H]. apply Forall_forall. now left. }
  eapply Forall_impl; [|exact R]. now intros l [[_ E] _].
Qed.
Lemma labels_from_iff ls : forall n, Forall (fun p => printable (fst p)) (labels_from n ls) <->
  (forall l, In l ls -> lv_is_label l = true -> printable (v_str (lv_label l))).
Proof.
  induction ls as [|x t IH]; intros n; cbn [labels_from]; [split; [contradiction|constructor]|]. rewrite Forall_app, IH. split.
  - intros [A B] l [<-|Hl] E; [|auto]. rewrite E in A. now inversion A.
  - intros H. split; [|intros l Hl; apply H; now right]. destruct (lv_is_label x) eqn:E; [|constructor]. constructor; [|constructor]. apply H; [now left|assumption].
Qed.
Lemma text_json_iff mb flt flt' oref olab fuel input vis s vis' rep clock : AsmText.run mb flt oref olab fuel input vis = Ok (s, vis') ->
  (exists v, json_text (AsmText.outputJson flt' dec_Z rep clock s) v) <->
  Forall (line_printable flt') (t_lines s) /\ (forall l, In l (t_lines s) -> lv_is_label l = true -> printable (v_str (lv_label l))).
Proof.
  intros H. unfold AsmText.outputJson. rewrite doc_valid_iff; [|exact dec_Z_value|].
  - unfold redetermineLabels. now rewrite labels_from_iff.
  - eapply Forall_impl; [|exact (opcodes_none _ _ _ _ _ _ _ _ _ H)]. intros l E. cbv beta in E. rewrite E. constructor.
Qed.
Lemma expand_in c s : c <> TAB -> forall out e, In c s \/ In c out -> In c (expandTabs_loop s out e).
Proof.
  intros Hc. induction s as [|x t IH]; intros out e H; cbn [expandTabs_loop]; [now destruct H|]. cbv zeta.
  destruct (ceq x TAB) eqn:E; apply IH; rewrite in_app_iff.
  - apply ceq_true in E. subst x. destruct H as [[H|H]|H]; auto. congruence.
  - cbn [In]. destruct H as [[H|H]|H]; auto.
Qed.
Lemma text_json_crlf mb flt flt' oref olab fuel ls vis s vis' rep clock :
  f_directives flt = false -> f_comment_only flt = false -> f_library_functions flt = false -> f_unused_labels flt = false ->
  f_whitespace flt = false -> Forall crlf_line ls -> ls <> [] ->
  AsmText.run mb flt oref olab fuel (crlf ls) vis = Ok (s, vis') ->
  forall v, ~ json_text (AsmText.outputJson flt' dec_Z rep clock s) v.
Proof.
  intros H1 H2 H3 H4 H5 Hl Hn H v Hv.
  pose proof (proj1 (text_json_iff _ _ flt' _ _ _ _ _ _ _ rep clock H) (ex_intro _ v Hv)) as [L _].
  pose proof (C36_crlf _ _ _ _ _ _ _ _ _ H1 H2 H3 H4 H5 Hl H) as E. destruct ls as [|a ls]; [contradiction|].
  destruct (t_lines s) as [|x t]; [discriminate E|]. cbn [map] in E. injection E as E _.
  inversion L as [|? ? Hx _]; subst. destruct Hx as (_ & _ & _ & _ & Ht). rewrite E in Ht. unfold printable in Ht. rewrite Forall_forall in Ht.
  destruct (Ht CR) as [X|X].
  - apply expand_in; [discriminate|]. left. apply in_or_app. right. now left.
  - vm_compute in X. now apply X.
  - discriminate X.
Qed.

Lemma main_json mb file stdin clock oref olab om oa fuel args r :
  ~ In (lit "-binary") args -> ~ In (lit "-outputtext") args ->
  (In (lit "-stdin") args -> Forall (fun c => 32 <= code c \/ c = TAB \/ c = LF) stdin) ->
  (~ In (lit "-stdin") args -> forall n, named args n -> Forall (fun c => 32 <= code c \/ c = TAB \/ c = LF) (file n)) ->
  main true mb file stdin clock oref olab om oa fuel args = Ok r -> res_exit r = 0 ->
  exists v, json_text (res_stdout r) v.
Proof.
  intros Hb Ho H1 H2 H Hr. rewrite <- has_arg_no in Hb, Ho, H2. rewrite <- has_arg_iff in H1. rewrite main_eq in H. cbn [negb] in H.
  destruct (has_arg "-stdin" args || existsb _ args) eqn:E; cbn [negb] in H; [|injection H as <-; discriminate Hr].
  cbv zeta in H. rewrite Hb, Ho in H.
  assert (Hi : Forall (fun c => 32 <= code c \/ c = TAB \/ c = LF) (if has_arg "-stdin" args then stdin else file (last_name args))).
  { destruct (has_arg "-stdin" args); [auto|]. cbn [orb] in E. apply name_dec, some_named in E as (n & Hn). rewrite (named_last _ _ Hn). auto. }
  destruct (AsmText.run _ _ _ _ _ _) as [[s v]| | |] eqn:ER; try discriminate H. cbn [obind] in H. injection H as <-. cbn [res_stdout].
  eapply text_json_valid; eassumption.
Qed.
