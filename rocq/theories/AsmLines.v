(** The text parser: label table, unterminated last lines, white space lines. *)
From Coq Require Import Permutation Sorted.
From Verif Require Import AsmLemmas AsmRead AsmMark AsmTrace AsmThms RegexLemmas.

(** C32 *)
Lemma labels_from_iff ls : forall n nm i, In (nm, i) (labels_from n ls) <->
  n <= i /\ exists l, nth_error ls (Z.to_nat (i - n)) = Some l /\ lv_is_label l = true /\ v_str (lv_label l) = nm.
Proof.
  induction ls as [|l t IH]; intros n nm i; cbn [labels_from].
  - split; [intros []|]. intros (_ & l & H & _). destruct (Z.to_nat (i - n)); discriminate.
  - rewrite in_app_iff, IH. split.
    + intros [H|(H & x & X1 & X2 & X3)].
      * destruct (lv_is_label l) eqn:E; [|destruct H]. destruct H as [[= <- <-]|[]]. split; [lia|]. exists l.
        rewrite Z.sub_diag. auto.
      * split; [lia|]. exists x. split; [|auto]. replace (Z.to_nat (i - n)) with (S (Z.to_nat (i - (n + 1)))) by lia. exact X1.
    + intros (H & x & X1 & X2 & X3). destruct (Z.eq_dec i n) as [->|Hn].
      * rewrite Z.sub_diag in X1. cbn in X1. injection X1 as <-. left. rewrite X2, X3. now left.
      * right. split; [lia|]. exists x. split; [|auto]. replace (Z.to_nat (i - n)) with (S (Z.to_nat (i - (n + 1)))) in X1 by lia. exact X1.
Qed.
Lemma labels_from_sorted ls : forall n, StronglySorted Z.lt (map snd (labels_from n ls)).
Proof.
  induction ls as [|l t IH]; intros n; cbn [labels_from]; [constructor|]. destruct (lv_is_label l); [|apply IH].
  cbn [app map snd]. constructor; [apply IH|]. apply Forall_forall. intros i Hi. apply in_map_iff in Hi as ((nm, j) & <- & Hi).
  apply labels_from_iff in Hi. cbn [snd]. lia.
Qed.
Lemma C32_labels mblen flt ord_refs ord_labels fuel input vis s' vis' :
  AsmText.run mblen flt ord_refs ord_labels fuel input vis = Ok (s', vis') ->
  (forall n i, In (n, i) (redetermineLabels s') <->
     1 <= i /\ exists l, nth_error (t_lines s') (Z.to_nat (i - 1)) = Some l /\ lv_is_label l = true /\ v_str (lv_label l) = n) /\
  StronglySorted Z.lt (map snd (redetermineLabels s')) /\
  (forall l, In l (t_lines s') -> lv_is_label l = true -> exists a c, label_of (lv_text l) = Some (v_str (lv_label l), (a, c))).
Proof.
  intros H. split; [intros n i; apply labels_from_iff|]. split; [apply labels_from_sorted|].
  intros l Hl Hlab. destruct (run_line _ _ _ _ _ _ _ _ _ _ H Hl) as (x & _ & Hc & Hf & _).
  rewrite Hc in Hlab |- *. change (lv_is_label x = true) in Hlab. change (lv_text (set_lv_source _ _)) with (lv_text x).
  change (lv_label (set_lv_source _ _)) with (lv_label x).
  destruct (label_text _ _ _ _ _ Hf Hlab) as (raw & nest & _ & _ & n & a & c & I3 & I4). exists a, c. now rewrite I3, I4.
Qed.

(** Consuming characters other than line feeds. *)
Lemma fold_chars mblen flt u : forall s, t_stopParsing s = false -> ~ In LF u ->
  fold_left (step mblen flt) u s = set_t_text (t_text s ++ u) s.
Proof.
  induction u as [|c u IH]; intros s Hs Hu; cbn [fold_left].
  - rewrite app_nil_r. now destruct s.
  - unfold step at 2. rewrite Hs. destruct (ceq c LF) eqn:E; [apply ceq_true in E; exfalso; apply Hu; now left|].
    rewrite IH; [|exact Hs|intros X; apply Hu; now right]. tsimp. rewrite <- app_assoc. reflexivity.
Qed.
(** The state in front of a suffix of the input. *)
Definition before (mblen : str -> Z) (flt : Filter) (p : str) : tstate := fold_left (step mblen flt) p (set_t_total_lines 0 tstate0).
Lemma before_good mblen flt p : good flt (before mblen flt p) /\ t_stopParsing (before mblen flt p) = false.
Proof.
  assert (Hg : good flt (set_t_total_lines 0 tstate0)) by (intros _; now constructor).
  destruct (fold_invariant mblen flt (fun _ => True) (fun _ _ _ _ => I) (fun _ _ _ => I) p (set_t_total_lines 0 tstate0) I Hg eq_refl) as (_ & A & B).
  auto.
Qed.
Definition finish_read (mblen : str -> Z) (flt : Filter) (s : tstate) : tstate := if negb (is_nil (t_text s)) then eol mblen flt s else s.
Lemma read_before mblen flt p q : read_lines mblen flt tstate0 (p ++ q) = finish_read mblen flt (fold_left (step mblen flt) q (before mblen flt p)).
Proof. unfold read_lines. now rewrite fold_left_app. Qed.
Lemma step_lf mblen flt s : t_stopParsing s = false -> step mblen flt s LF = eol mblen flt s.
Proof. unfold step. now intros ->. Qed.
Lemma eol_text mblen flt s : good flt s -> all_blank (t_text s) = false -> t_text (eol mblen flt s) = [].
Proof.
  intros Hg Hb. destruct (eol_step mblen flt s Hg) as [A _ _ _ _].
  change (mkScan (t_text s) (t_hasStartedCommentBlock s) (t_inCustomAssembly s)) with (scan_of s) in A.
  assert (E : t_text (eol mblen flt s) = sc_pend (snd (scan_line flt (scan_of s) []))) by (rewrite <- A; reflexivity).
  rewrite E, scan_line_eq, Hb. now destruct (fst _).
Qed.
Lemma all_blank_app a b : all_blank (a ++ b) = all_blank a && all_blank b.
Proof. apply forallb_app. Qed.

(** C37 *)
Lemma C37_read mblen flt p last : ~ In LF last -> all_blank last = false ->
  read_lines mblen flt tstate0 (p ++ last) = read_lines mblen flt tstate0 (p ++ last ++ [LF]).
Proof.
  intros Hl Hb. rewrite !read_before, fold_left_app. destruct (before_good mblen flt p) as [Hg Hs].
  set (s := before mblen flt p) in *. clearbody s. rewrite fold_chars by assumption. cbn [fold_left].
  set (s1 := set_t_text (t_text s ++ last) s). assert (Hg1 : good flt s1) by now apply good_set_text.
  assert (Hb1 : all_blank (t_text s1) = false) by (change (t_text s1) with (t_text s ++ last); rewrite all_blank_app, Hb; apply andb_false_r).
  rewrite step_lf by assumption. unfold finish_read. rewrite (eol_text _ _ _ Hg1 Hb1). cbn [is_nil negb].
  destruct (t_text s1); [discriminate|reflexivity].
Qed.
Lemma C37_run mblen flt ord_refs ord_labels fuel p last vis : ~ In LF last -> all_blank last = false ->
  AsmText.run mblen flt ord_refs ord_labels fuel (p ++ last) vis = AsmText.run mblen flt ord_refs ord_labels fuel (p ++ last ++ [LF]) vis.
Proof. intros H1 H2. unfold AsmText.run, fromStream. now rewrite (C37_read _ _ _ _ H1 H2). Qed.

(** C35 *)
Lemma blank_no_comment t : all_blank t = true -> startCommentBlock t = false.
Proof.
  intros H. destruct (startCommentBlock t) eqn:E; [|reflexivity]. exfalso. unfold startCommentBlock in E.
  apply re_search_den in E as (a & u & b & -> & Hd). unfold blockCommentStart in Hd. cbn [Seqs] in Hd.
  apply den_bol_seq in Hd as [-> Hd]. apply den_seq_iff in Hd as (u1 & u2 & -> & _ & Hd). apply den_L_iff in Hd. subst u2.
  rewrite app_nil_l, !all_blank_app in H. rewrite !andb_true_iff in H. destruct H as [[_ H] _]. discriminate.
Qed.
Lemma eol_blank mblen flt s r : good flt s -> all_blank (t_text s) = true -> all_blank r = true ->
  f_comment_only flt && t_hasStartedCommentBlock s = false ->
  eol mblen flt (set_t_text (t_text s ++ r) s) = set_t_text (t_text s ++ r) (eol mblen flt s).
Proof.
  intros Hg Hb Hr Hblk. assert (Hbr : all_blank (t_text s ++ r) = true) by (rewrite all_blank_app, Hb, Hr; reflexivity).
  assert (E : forall t, all_blank t = true -> eol mblen flt (set_t_text t s) =
     keep_text (line_v0 (t_next_id s)) (maybeAddBlank (set_t_hasStartedCommentBlock (t_hasStartedCommentBlock s && negb (f_comment_only flt)) (begun (set_t_text t s))))).
  { intros t Ht. unfold eol, new_line. tsimp. change (set_t_currentLine _ (set_t_next_id _ _)) with (begun (set_t_text t s)).
    rewrite block_eq. change (t_text (begun (set_t_text t s))) with t.
    change (t_hasStartedCommentBlock (begun (set_t_text t s))) with (t_hasStartedCommentBlock s).
    rewrite block_of_eq, (blank_no_comment _ Ht), orb_false_r, Hblk. cbn [fst snd].
    change (t_text (set_t_hasStartedCommentBlock _ (begun (set_t_text t s)))) with t. rewrite all_blank_eq, Ht. reflexivity. }
  rewrite (E _ Hbr). assert (Es : s = set_t_text (t_text s) s) by now destruct s.
  replace (eol mblen flt s) with (eol mblen flt (set_t_text (t_text s) s)) by now rewrite <- Es. rewrite (E _ Hb). unfold maybeAddBlank. tsimp. 
  change (t_lines (begun (set_t_text (t_text s ++ r) s))) with (t_lines s). change (t_lines (begun (set_t_text (t_text s) s))) with (t_lines s).
  destruct (match rev (t_lines s) with [] => true | l :: _ => is_nil (lv_text l) end); reflexivity.
Qed.
(** Is a block comment open after [p]? *)
Definition block_open (flt : Filter) (p : str) : bool := f_comment_only flt && sc_block (snd (scan_lines flt scan0 (fst (raw_lines [] p)))).
Lemma raw_lines_end q : forall cur, snd (raw_lines cur (q ++ [LF])) = [].
Proof.
  induction q as [|c q IH]; intros cur; [reflexivity|]. cbn [app raw_lines]. destruct (ceq c LF); [|apply IH].
  specialize (IH []). destruct (raw_lines [] (q ++ [LF])). exact IH.
Qed.
Lemma scan_line_blank flt sc l : all_blank (sc_pend (snd (scan_line flt sc l))) = true.
Proof.
  unfold scan_line. cbv zeta. destruct (f_comment_only flt && _); [reflexivity|]. destruct (all_blank (sc_pend sc ++ l)) eqn:E; [exact E|reflexivity].
Qed.
Lemma scan_lines_blank flt ls : forall sc, all_blank (sc_pend sc) = true -> all_blank (sc_pend (snd (scan_lines flt sc ls))) = true.
Proof.
  induction ls as [|l t IH]; intros sc H; cbn [scan_lines]; [exact H|]. pose proof (scan_line_blank flt sc l) as Hb.
  destruct (scan_line flt sc l) as [c sc1]. specialize (IH sc1 Hb). destruct (scan_lines flt sc1 t). exact IH.
Qed.
Lemma before_scan mblen flt p : p = [] \/ (exists q, p = q ++ [LF]) ->
  all_blank (t_text (before mblen flt p)) = true /\
  f_comment_only flt && t_hasStartedCommentBlock (before mblen flt p) = block_open flt p.
Proof.
  intros Hp.
  assert (Hg : good flt (set_t_total_lines 0 tstate0)) by (intros _; now constructor).
  assert (Hn : nv_inv (set_t_total_lines 0 tstate0)) by (intros _; reflexivity).
  pose proof (fold_trace mblen flt p (set_t_total_lines 0 tstate0) [] scan0 Hg eq_refl Hn eq_refl) as H.
  cbv zeta in H. fold (before mblen flt p) in H. unfold block_open.
  assert (Hrest : snd (raw_lines [] p) = []) by (destruct Hp as [->|(q & ->)]; [reflexivity|apply raw_lines_end]).
  destruct (raw_lines [] p) as [ls rest]. cbn [fst snd] in *. subst rest.
  pose proof (scan_lines_blank flt ls scan0 eq_refl) as Hb. destruct (scan_lines flt scan0 ls) as [cs sc]. cbn [fst snd] in *.
  destruct H as (_ & _ & _ & H & _). unfold scan_of in H. injection H as H1 H2 H3. rewrite H1, H2, app_nil_r. auto.
Qed.
Lemma C35_read mblen flt p r q : (p = [] \/ exists p', p = p' ++ [LF]) -> all_blank r = true -> block_open flt p = false ->
  read_lines mblen flt tstate0 (p ++ r ++ LF :: q) = read_lines mblen flt tstate0 (p ++ LF :: r ++ q).
Proof.
  intros Hp Hr Ho. rewrite !read_before. destruct (before_good mblen flt p) as [Hg Hs]. destruct (before_scan mblen flt p Hp) as [Hb Hblk].
  rewrite Ho in Hblk. set (s := before mblen flt p) in *. clearbody s.
  assert (Hnl : ~ In LF r). { intros X. unfold all_blank in Hr. rewrite forallb_forall in Hr. specialize (Hr _ X). discriminate. }
  rewrite fold_left_app. pose proof (fold_chars mblen flt r s Hs Hnl) as F1.
  pose proof (fold_chars mblen flt r (eol mblen flt s) (eq_trans (eol_stop mblen flt s Hg) Hs) Hnl) as F2. unfold char in *. rewrite F1. cbn [fold_left]. rewrite fold_left_app.
  rewrite (step_lf _ _ s Hs), (step_lf _ _ (set_t_text _ s)) by assumption. rewrite F2.
  rewrite (eol_blank _ _ _ _ Hg Hb Hr Hblk).
  assert (E : scan_of (eol mblen flt s) = snd (scan_line flt (scan_of s) [])) by (destruct (eol_step mblen flt s Hg) as [A _ _ _ _]; exact A).
  rewrite scan_line_eq, block_of_eq, (blank_no_comment _ Hb), orb_false_r, Hblk, Hb in E. cbn [fst snd] in E. 
  unfold scan_of in E. injection E as E _ _. rewrite E. reflexivity.
Qed.
Lemma C35_run mblen flt ord_refs ord_labels fuel p r q vis :
  (p = [] \/ exists p', p = p' ++ [LF]) -> all_blank r = true -> block_open flt p = false ->
  AsmText.run mblen flt ord_refs ord_labels fuel (p ++ r ++ LF :: q) vis = AsmText.run mblen flt ord_refs ord_labels fuel (p ++ LF :: r ++ q) vis.
Proof. intros H1 H2 H3. unfold AsmText.run, fromStream. now rewrite (C35_read _ _ _ _ _ H1 H2 H3). Qed.

(** C36: a carriage return is an ordinary character of a line. *)
Lemma raw_lines_concat input : forall cur, 
  cur ++ input = List.concat (map (fun l => l ++ [LF]) (fst (raw_lines cur input))) ++ snd (raw_lines cur input).
Proof.
  induction input as [|c t IH]; intros cur; cbn [raw_lines]; [now rewrite app_nil_r|]. destruct (ceq c LF) eqn:E.
  - apply ceq_true in E. subst c. specialize (IH []). destruct (raw_lines [] t) as [ls r]. cbn [fst snd map List.concat] in *.
    rewrite <- !app_assoc. cbn [app] in *. now rewrite IH.
  - rewrite <- (IH (cur ++ [c])), <- app_assoc. reflexivity.
Qed.
Lemma raw_lines_nolf input : forall cur, ~ In LF cur -> Forall (fun l => ~ In LF l) (fst (raw_lines cur input)) /\ ~ In LF (snd (raw_lines cur input)).
Proof.
  induction input as [|c t IH]; intros cur H; cbn [raw_lines]; [split; [constructor|exact H]|]. destruct (ceq c LF) eqn:E.
  - destruct (IH [] (fun x => x)) as [A B]. unfold str, char in *; destruct (raw_lines [] t) as [ls r]. cbn [fst snd] in *. split; [constructor; [exact H|exact A]|exact B].
  - apply IH. rewrite in_app_iff. intros [X|[X|[]]]; [auto|]. subst. cbn in E. discriminate.
Qed.

(** *** Shown lines against the input *)
Lemma in_subseq {A} (a b : list A) x : subseq a b -> In x a -> In x b.
Proof. intros H. apply subseq_in. exact H. Qed.
(** C38, C39 *)
Lemma shown_line_origin mblen flt ord_refs ord_labels fuel input vis s' vis' :
  AsmText.run mblen flt ord_refs ord_labels fuel input vis = Ok (s', vis') ->
  (forall raw nest n a, In (CText raw nest) (scan_input flt input) -> label_of (clean flt nest raw) <> Some (n, (a, true))) ->
  forall l, In l (t_lines s') -> lv_text l <> [] ->
  exists raw nest, In (CText raw nest) (scan_input flt input) /\ lv_text l = clean flt nest raw /\
    (f_comment_only flt = true -> isJustComments raw = false) /\
    (f_directives flt = true -> filtered_directive (lv_text l) = false).
Proof.
  intros H Hc l Hl Hne. pose proof (run_survives _ _ _ _ _ _ _ _ _ false H (fun _ => Hc)) as Hs.
  apply (in_subseq _ _ _ Hs) in Hl as Hin || (pose proof (in_subseq _ _ (lv_text l) Hs (in_map lv_text _ _ Hl)) as Hin).
  apply in_flat_map in Hin as (c & Hc1 & Hc2). destruct c as [raw|raw|raw nest]; cbn [survives negb andb] in Hc2.
  - destruct Hc2.
  - destruct Hc2 as [E|[]]. congruence.
  - exists raw, nest. split; [exact Hc1|]. destruct (f_library_functions flt); [destruct Hc2|].
    destruct (f_comment_only flt && isJustComments raw) eqn:E1; [destruct Hc2|].
    destruct (f_directives flt && filtered_directive (clean flt nest raw)) eqn:E2; [destruct Hc2|].
    destruct Hc2 as [E|[]]. rewrite <- E. split; [reflexivity|]. split; intros F; rewrite F in *; assumption.
Qed.

(** C36 *)
Definition crlf (ls : list str) : str := flat_map (fun l => l ++ [CR; LF]) ls.
Definition crlf_line (l : str) : Prop :=
  ~ In LF l /\ startAppBlock (l ++ [CR]) = false /\ startAsmNesting (l ++ [CR]) = false /\
  endAppBlock (l ++ [CR]) = false /\ endAsmNesting (l ++ [CR]) = false.
Lemma C36_crlf mblen flt ord_refs ord_labels fuel ls vis s' vis' :
  f_directives flt = false -> f_comment_only flt = false -> f_library_functions flt = false -> f_unused_labels flt = false ->
  f_whitespace flt = false -> Forall crlf_line ls ->
  AsmText.run mblen flt ord_refs ord_labels fuel (crlf ls) vis = Ok (s', vis') ->
  map lv_text (t_lines s') = map (fun l => expandTabs (l ++ [CR])) ls.
Proof.
  intros F1 F2 F3 F4 F5 Hls H.
  assert (E : crlf ls = join_lines (map (fun l => l ++ [CR]) ls)).
  { unfold crlf, join_lines. clear. induction ls as [|l ls IH]; [reflexivity|]. cbn [flat_map map]. rewrite IH, <- !app_assoc. reflexivity. }
  rewrite E in H. pose proof (fun P => C34_plain _ _ _ _ _ _ _ _ _ F1 F2 F3 F4 F5 P H) as X. rewrite X; clear X H E.
  - clear. assert (G : forall out, fold_left plain_show (map (fun l => l ++ [CR]) ls) out = out ++ map (fun l => expandTabs (l ++ [CR])) ls).
    { induction ls as [|l ls IH]; intros out; [symmetry; apply app_nil_r|]. cbn [map fold_left]. rewrite IH. unfold plain_show at 1.
      destruct l; cbn [is_nil app]; symmetry; apply app_assoc with (m := [_]). }
    apply G.
  - apply Forall_map. eapply Forall_impl; [|exact Hls]. intros l (A & B). split; [|split; [|exact B]].
    + rewrite in_app_iff. intros [X|[X|[]]]; [auto|discriminate].
    + right. rewrite all_blank_app. cbn. apply andb_false_r.
Qed.
(** C45 *)
Lemma C45_run mblen flt ord_refs ord_labels fuel input vis : (forall m, Permutation (ord_labels m) m) -> Z.of_nat (length input) < two31 ->
  (exists r, AsmText.run mblen flt ord_refs ord_labels fuel input vis = Ok r) \/ AsmText.run mblen flt ord_refs ord_labels fuel input vis = Diverges.
Proof.
  intros Hp Hl. pose proof (run_defined mblen flt ord_refs ord_labels fuel input vis Hp Hl) as H.
  assert (Ht : t_total_lines (read_lines mblen flt tstate0 input) <= Z.of_nat (length input)).
  { rewrite (tr_total _ _ _ _ (read_trace mblen flt input)). pose proof (scan_input_bound flt input). lia. }
  exact (H Ht).
Qed.
