(** The text parser: what the result says about the input. *)
From Coq Require Import Permutation Sorted.
From Verif Require Import AsmLemmas AsmRead AsmMark AsmTrace.

(** *** Lines of the result *)
(** A line of the result against the line read: references and source
    attribution may differ, and the three usage flags. *)
Definition same_core (l l' : asm_line_v) : Prop :=
  l' = set_lv_source (lv_source l') (set_lv_labels (lv_labels l')
         (set_flags (lv_is_used l') (lv_is_used_through_alias l') (lv_is_used_data_through_alias l') l)).
Lemma shown_core s l : shown s l = set_lv_source (lv_source (shown s l)) (set_lv_labels (lv_labels (shown s l)) l).
Proof.
  unfold shown, resolve_file, filterOutReferedLabelsThatArentDefined. destruct l. vsimp. destruct (negb _); [|reflexivity].
  destruct (files_at _ _); reflexivity.
Qed.
Lemma shown_labels s l : lv_labels (shown s l) = filter (fun r => map_contains (t_labels_defined s) (v_str (lbv_name r))) (lv_labels l).
Proof.
  unfold shown, resolve_file, filterOutReferedLabelsThatArentDefined. vsimp. destruct (negb _); [|reflexivity].
  destruct (files_at _ _); reflexivity.
Qed.
Lemma core_shown s l l1 ord r fuel : marked ord r fuel l l1 -> same_core l (shown s l1).
Proof.
  intros [H _ _ _]. unfold same_core. rewrite shown_core at 1. rewrite H at 3.
  assert (Hf : lv_is_used (shown s l1) = lv_is_used l1 /\ lv_is_used_through_alias (shown s l1) = lv_is_used_through_alias l1
    /\ lv_is_used_data_through_alias (shown s l1) = lv_is_used_data_through_alias l1).
  { rewrite shown_core. repeat split. }
  destruct Hf as (-> & -> & ->). destruct l. reflexivity.
Qed.

Lemma subseq_forall2 {A B} (R : A -> B -> Prop) ls ms : Forall2 R ls ms -> forall ks, subseq ks ms ->
  exists js, subseq js ls /\ Forall2 R js ks.
Proof.
  induction 1 as [|x y ls ms H _ IH]; intros ks Hs; inversion Hs as [|a k k' Hs' E1 E2|a k k' Hs' E1 E2]; subst.
  - exists []. split; constructor.
  - destruct (IH _ Hs') as (js & A1 & A2). exists (x :: js). split; constructor; auto.
  - destruct (IH _ Hs') as (js & A1 & A2). exists js. split; [now constructor|auto].
Qed.
Lemma forall2_map_r {A B C} (R : A -> C -> Prop) (f : B -> C) ls ms : Forall2 (fun a b => R a (f b)) ls ms -> Forall2 R ls (map f ms).
Proof. induction 1; cbn; constructor; auto. Qed.
Lemma forall2_impl {A B} (R S : A -> B -> Prop) ls ms : (forall a b, R a b -> S a b) -> Forall2 R ls ms -> Forall2 S ls ms.
Proof. intros H. induction 1; constructor; auto. Qed.
Lemma forall2_in_r {A B} (R : A -> B -> Prop) ls ms : Forall2 R ls ms -> forall b, In b ms -> exists a, In a ls /\ R a b.
Proof.
  induction 1 as [|x y ls ms H _ IH]; intros b Hb; [destruct Hb|]. destruct Hb as [<-|Hb].
  - exists x. split; [now left|assumption].
  - destruct (IH _ Hb) as (a & H1 & H2). exists a. split; [now right|assumption].
Qed.
Lemma forall2_in_l {A B} (R : A -> B -> Prop) ls ms : Forall2 R ls ms -> forall a, In a ls -> exists b, In b ms /\ R a b.
Proof.
  induction 1 as [|x y ls ms H _ IH]; intros b Hb; [destruct Hb|]. destruct Hb as [<-|Hb].
  - exists y. split; [now left|assumption].
  - destruct (IH _ Hb) as (a & H1 & H2). exists a. split; [now right|assumption].
Qed.

(** What is known about each line read, from the input line it came from. *)
Definition from_input (mblen : str -> Z) (flt : Filter) (code : bool) (cs : list cand) (l : asm_line_v) : Prop :=
  same_line (line_v0 (lv_id l)) l \/
  exists raw nest handled l0, In (CText raw nest) cs /\ kept_line mblen flt code raw nest handled l0 /\ same_line l0 l.
Lemma from_input_app mblen flt code cs cs' l : from_input mblen flt code cs l -> from_input mblen flt code (cs ++ cs') l.
Proof. intros [H|(r & n & h & l0 & A & B & C)]; [now left|]. right. exists r, n, h, l0. rewrite in_app_iff. auto. Qed.
Lemma same_id l l' : same_line l l' -> lv_id l' = lv_id l.
Proof. intros H. rewrite H. reflexivity. Qed.
Lemma from_input_same mblen flt code cs l l' : from_input mblen flt code cs l -> same_line l l' -> from_input mblen flt code cs l'.
Proof.
  intros [H|(r & n & h & l0 & A & B & C)] Hs; [left|right].
  - rewrite (same_id _ _ Hs). eapply same_line_trans; eassumption.
  - exists r, n, h, l0. eauto using same_line_trans.
Qed.
Lemma reads_from mblen flt code cs ls : reads mblen flt code cs ls -> Forall (from_input mblen flt code cs) ls.
Proof.
  assert (Hsame : forall ls ls' cs, Forall (from_input mblen flt code cs) ls -> same_lines ls ls' -> Forall (from_input mblen flt code cs) ls').
  { intros a b cs0 H Hs. rewrite Forall_forall in *. intros y Hy. apply In_nth_error in Hy as (k & Hk).
    destruct (same_lines_nth _ _ Hs _ _ Hk) as (x & Hx & Hxy). eapply from_input_same; [|exact Hxy]. apply H. eapply nth_error_In, Hx. }
  assert (Happ : forall cs c ls, Forall (from_input mblen flt code cs) ls -> Forall (from_input mblen flt code (cs ++ [c])) ls).
  { intros cs0 c l0. apply Forall_impl. intros. now apply from_input_app. }
  induction 1 as [|cs ls raw H IH|cs ls raw H IH He|cs ls raw i H IH He|cs ls ls' raw nest H IH Hs Hd|cs ls ls' raw nest h l H IH Hs Hlib Hk]; auto.
  - apply Forall_app. split; [auto|]. repeat constructor. 
  - eauto.
  - apply Forall_app. split; [eauto|]. constructor; [|constructor]. right. exists raw, nest, h, l.
    rewrite in_app_iff. cbn. auto using same_line_refl.
Qed.

Section Run.
Variables (mblen : str -> Z) (flt : Filter)
          (ord_refs : list view -> list view) (ord_labels : list (view * Z) -> list (view * Z)).

(** C33 *)
Lemma C33_lines fuel input vis s' vis' : AsmText.run mblen flt ord_refs ord_labels fuel input vis = Ok (s', vis') ->
  exists kept, subseq kept (t_lines (read_lines mblen flt tstate0 input)) /\ Forall2 same_core kept (t_lines s').
Proof.
  intros H. destruct (run_ok _ _ _ _ _ _ _ _ _ H) as (L & kept & out & [A B C D E F]).
  destruct (subseq_forall2 _ _ _ A _ B) as (js & J1 & J2). exists js. split; [exact J1|].
  subst s'. tsimp. apply forall2_map_r. eapply forall2_impl; [|exact J2]. intros a b Hab. eapply core_shown, Hab.
Qed.
End Run.

(** The texts an input line may give. *)
Definition filtered_directive (t : str) : bool :=
  isDirective t && negb (isInstOpcode t) && negb (is_some (label_of t)) && negb (isDataDefn t).
Definition survives (flt : Filter) (cuda : bool) (c : cand) : list str :=
  match c with
  | CBlock _ => []
  | CBlank _ => [[]]
  | CText raw nest =>
      if f_library_functions flt then []
      else if negb cuda && f_comment_only flt && isJustComments raw then []
      else if negb cuda && f_directives flt && filtered_directive (clean flt nest raw) then []
      else [clean flt nest raw]
  end.
Lemma same_lines_texts a b : same_lines a b -> map lv_text a = map lv_text b.
Proof. apply same_lines_map. reflexivity. Qed.
Lemma subseq_app {A} (a b c d : list A) : subseq a b -> subseq c d -> subseq (a ++ c) (b ++ d).
Proof. induction 1; cbn; auto; constructor; auto. Qed.
Lemma subseq_nil {A} (l : list A) : subseq [] l.
Proof. induction l; constructor; auto. Qed.
Lemma subseq_app_l {A} (a b c : list A) : subseq a b -> subseq a (b ++ c).
Proof. intros H. rewrite <- (app_nil_r a). apply subseq_app; [assumption|apply subseq_nil]. Qed.

Lemma kept_survives mblen flt code raw nest h l : kept_line mblen flt code raw nest h l -> f_library_functions flt = false ->
  survives flt code (CText raw nest) = [lv_text l].
Proof.
  intros [K1t K2l K3d K4r K5o K6h K7i K8u K9dir K10c] Hlib. cbn [survives]. rewrite Hlib. rewrite <- K1t. destruct code; cbn [negb andb]; [reflexivity|].
  destruct (f_comment_only flt); cbn [andb]; [rewrite (K10c eq_refl eq_refl)|];
    (destruct (f_directives flt); cbn [andb]; [|reflexivity]);
    destruct (filtered_directive (lv_text l)) eqn:E; try reflexivity; exfalso;
    unfold filtered_directive in E; apply andb_true_iff in E as [E Ed]; apply andb_true_iff in E as [E El]; apply andb_true_iff in E as [E Ei];
    destruct K2l as [K1 K2];
    assert (Hl : lv_is_label l = false) by (destruct h; [now apply K2|]; specialize (K1 eq_refl);
      destruct (label_of (lv_text l)) as [[n [a c]]|]; [discriminate|tauto]);
    assert (Hd : lv_is_data l = false) by (rewrite K3d; destruct (isDataDefn _); [discriminate|apply andb_false_r]);
    rewrite (K9dir eq_refl eq_refl Hl Hd (or_introl E)) in Ei; discriminate.
Qed.
Lemma reads_survive mblen flt code cs ls : reads mblen flt code cs ls -> subseq (map lv_text ls) (flat_map (survives flt code) cs).
Proof.
  induction 1 as [|cs ls raw H IH|cs ls raw H IH He|cs ls raw i H IH He|cs ls ls' raw nest H IH Hs Hd|cs ls ls' raw nest h l H IH Hs Hlib Hk];
    rewrite ?flat_map_app, ?map_app.
  - constructor.
  - now apply subseq_app_l.
  - now apply subseq_app_l.
  - apply subseq_app; [assumption|apply subseq_refl].
  - rewrite <- (same_lines_texts _ _ Hs). now apply subseq_app_l.
  - rewrite <- (same_lines_texts _ _ Hs). apply subseq_app; [assumption|]. cbn [flat_map map]. rewrite app_nil_r.
    rewrite (kept_survives _ _ _ _ _ _ _ Hk Hlib). apply subseq_refl.
Qed.

Lemma Forall2_length' {A B} (R : A -> B -> Prop) a b : Forall2 R a b -> length a = length b.
Proof. induction 1; cbn; congruence. Qed.
Section Run2.
Variables (mblen : str -> Z) (flt : Filter)
          (ord_refs : list view -> list view) (ord_labels : list (view * Z) -> list (view * Z)).
Lemma core_texts a b : Forall2 same_core a b -> map lv_text a = map lv_text b.
Proof. induction 1 as [|x y a b H _ IH]; [reflexivity|]. cbn. rewrite IH, H. reflexivity. Qed.
Lemma run_texts fuel input vis s' vis' : AsmText.run mblen flt ord_refs ord_labels fuel input vis = Ok (s', vis') ->
  subseq (map lv_text (t_lines s')) (flat_map (survives flt (t_inNvccCode (read_lines mblen flt tstate0 input))) (scan_input flt input)).
Proof.
  intros H. destruct (C33_lines _ _ _ _ _ _ _ _ _ H) as (kept & A & B). rewrite <- (core_texts _ _ B).
  eapply subseq_trans; [|apply subseq_map, A]. eapply reads_survive, (tr_reads _ _ _ _ (read_trace mblen flt input)).
Qed.
(** C33, C38, C39 *)
Lemma run_survives fuel input vis s' vis' cuda : AsmText.run mblen flt ord_refs ord_labels fuel input vis = Ok (s', vis') ->
  (cuda = false -> forall raw nest n a, In (CText raw nest) (scan_input flt input) -> label_of (clean flt nest raw) <> Some (n, (a, true))) ->
  subseq (map lv_text (t_lines s')) (flat_map (survives flt cuda) (scan_input flt input)).
Proof.
  intros H Hc. pose proof (run_texts _ _ _ _ _ H) as Hs. destruct (t_inNvccCode _) eqn:E.
  - destruct cuda; [assumption|]. exfalso. apply (tr_cuda _ _ _ _ (read_trace mblen flt input)) in E.
    apply Exists_exists in E as (c & Hin & Hcc). destruct c as [| |raw nest]; try contradiction.
    destruct Hcc as (n & a & Hl). now apply (Hc eq_refl _ _ _ _ Hin) in Hl.
  - destruct cuda; [|assumption]. eapply subseq_trans; [|exact Hs]. clear.
    induction (scan_input flt input) as [|c t IH]; [constructor|]. cbn [flat_map]. apply subseq_app; [|assumption].
    destruct c as [| |raw nest]; [apply subseq_refl..|]. cbn [survives negb andb]. destruct (f_library_functions flt); [apply subseq_refl|].
    destruct (_ && isJustComments raw); [apply subseq_nil|]. destruct (_ && filtered_directive _); [apply subseq_nil|apply subseq_refl].
Qed.

(** C40 *)
Lemma lib_read input : f_library_functions flt = true ->
  t_lines (read_lines mblen flt tstate0 input) = [] /\ t_labels_defined (read_lines mblen flt tstate0 input) = [].
Proof.
  intros Hf.
  assert (H : t_labels_defined (read_lines mblen flt tstate0 input) = [] /\ good flt (read_lines mblen flt tstate0 input)).
  { apply read_invariant with (P := fun s => t_labels_defined s = [] /\ good flt s).
    - intros s c [A B] _. split; [exact A|now apply good_set_text].
    - intros s [A B] Hg. split; [|now apply eol_good].
      destruct (eol_cases mblen flt s Hg) as [_|_ _|s1 l _ _ Hq _ _ _|handled s1 l _ _ Hq _ Hf' _ _ _].
      + exact A.
      + destruct (blank_cases (base1 flt s)) as [[_ ->]|[_ ->]]; exact A.
      + unfold drop_line. tsimp. rewrite (q_defined _ _ Hq). exact A.
      + congruence.
    - split; [reflexivity|]. intros _. now constructor.
    - apply good0.
    - reflexivity. }
  destruct H as [A B]. split; [|exact A]. apply (B Hf).
Qed.
Lemma C40_lib fuel input vis : f_library_functions flt = true -> (forall m, Permutation (ord_labels m) m) ->
  exists s', AsmText.run mblen flt ord_refs ord_labels fuel input vis = Ok (s', vis) /\ t_lines s' = []
    /\ t_total_lines s' = Z.of_nat (length (scan_input flt input)).
Proof.
  intros Hf Hp. destruct (lib_read input Hf) as [A B]. unfold AsmText.run, fromStream, markLabelUsage.
  set (s := filterNonLabels (read_lines mblen flt tstate0 input)).
  assert (E : ord_labels (t_labels_defined s) = []).
  { change (t_labels_defined s) with (t_labels_defined (read_lines mblen flt tstate0 input)). rewrite B.
    apply Permutation_nil. symmetry. apply Hp. }
  rewrite E. cbn [mark_loop obind fst snd]. eexists. split; [reflexivity|].
  unfold removeUnused. change (t_lines s) with (t_lines (read_lines mblen flt tstate0 input)). rewrite A. cbn [remove_loop]. tsimp.
  split; [reflexivity|]. exact (tr_total _ _ _ _ (read_trace mblen flt input)).
Qed.

(** C49 *)
Lemma reads_length code cs ls : reads mblen flt code cs ls -> (length ls <= length cs)%nat.
Proof. induction 1; rewrite ?app_length; cbn [length]; try lia; apply same_lines_length in H0; lia. Qed.
Lemma C49_count fuel input vis s' vis' : AsmText.run mblen flt ord_refs ord_labels fuel input vis = Ok (s', vis') ->
  t_total_lines s' = Z.of_nat (length (scan_input flt input)) /\ Z.of_nat (length (t_lines s')) <= t_total_lines s'.
Proof.
  intros H. destruct (run_ok _ _ _ _ _ _ _ _ _ H) as (L & kept & out & [A B C D E F]).
  assert (Ht : t_total_lines s' = Z.of_nat (length (scan_input flt input))).
  { subst s'. exact (tr_total _ _ _ _ (read_trace mblen flt input)). }
  split; [exact Ht|]. rewrite Ht. pose proof (reads_length _ _ _ (tr_reads _ _ _ _ (read_trace mblen flt input))) as Hr.
  apply Forall2_length' in A. subst s'. tsimp. rewrite map_length. pose proof (subseq_length _ _ B). rewrite read_lines_eq in A. lia.
Qed.
End Run2.

(** *** With the filters off *)
Definition blank_end (out : list str) : bool := match rev out with [] => true | t :: _ => is_nil t end.
Definition show_line (flt : Filter) (out : list str) (c : cand) : list str :=
  match c with
  | CBlock _ => out
  | CBlank _ => if blank_end out then out else out ++ [[]]
  | CText raw nest => out ++ [clean flt nest raw]
  end.
Lemma blank_end_eq ls : ends_blank ls = blank_end (map lv_text ls).
Proof. unfold ends_blank, blank_end. rewrite <- map_rev. now destruct (rev ls). Qed.
Lemma reads_show mblen flt code cs ls : f_directives flt = false -> f_comment_only flt = false -> f_library_functions flt = false ->
  reads mblen flt code cs ls -> map lv_text ls = fold_left (show_line flt) cs [].
Proof.
  intros Hd Hc Hl.
  induction 1 as [|cs ls raw H IH|cs ls raw H IH He|cs ls raw i H IH He|cs ls ls' raw nest H IH Hs Hdr|cs ls ls' raw nest h l H IH Hs Hlib Hk];
    rewrite ?fold_left_app, ?map_app; cbn [fold_left show_line]; try rewrite <- IH; rewrite ?blank_end_eq in *.
  - reflexivity.
  - reflexivity.
  - now rewrite He.
  - now rewrite He.
  - exfalso. destruct Hdr as [A|[[A _]|[A _]]]; congruence.
  - rewrite <- (same_lines_texts _ _ Hs). cbn [map]. now rewrite (kl_text _ _ _ _ _ _ _ Hk).
Qed.
Lemma remove_none flt s : f_directives flt = false -> f_unused_labels flt = false -> forall ls r, r_remove r = false ->
  remove_loop flt s r ls = (map (shown s) ls, []).
Proof.
  intros Hd Hu. induction ls as [|l t IH]; intros r Hr; [reflexivity|]. cbn [remove_loop].
  assert (E : exists r', remove_label flt s r l = (false, r') /\ r_remove r' = false).
  { unfold remove_label. destruct (lv_is_label l); [|eauto]. rewrite Hu. eexists. split; [reflexivity|exact Hr]. }
  destruct E as (r' & -> & Hr'). rewrite (IH _ Hr'). unfold removed. rewrite Hr', Hd. cbn [orb]. rewrite !andb_false_r. reflexivity.
Qed.
Lemma map_shown_texts s ls : map lv_text (map (shown s) ls) = map lv_text ls.
Proof. rewrite map_map. apply map_ext. intros l. rewrite shown_core. reflexivity. Qed.
Lemma marked_texts ord s fuel a b : Forall2 (marked ord s fuel) a b -> map lv_text b = map lv_text a.
Proof. induction 1 as [|x y a b [H _ _ _] _ IH]; [reflexivity|]. cbn. rewrite IH, H. reflexivity. Qed.
Lemma C34_show mblen flt ord_refs ord_labels fuel input vis s' vis' :
  f_directives flt = false -> f_comment_only flt = false -> f_library_functions flt = false -> f_unused_labels flt = false ->
  AsmText.run mblen flt ord_refs ord_labels fuel input vis = Ok (s', vis') ->
  map lv_text (t_lines s') = fold_left (show_line flt) (scan_input flt input) [].
Proof.
  intros Hd Hc Hl Hu H. destruct (run_ok _ _ _ _ _ _ _ _ _ H) as (L & kept & out & [A B C D E F]).
  rewrite (remove_none _ _ Hd Hu) in F by reflexivity. injection F as F1 F2.
  subst s'. tsimp. rewrite <- F1, map_shown_texts, (marked_texts _ _ _ _ _ A), read_lines_eq.
  eapply reads_show; eauto. exact (tr_reads _ _ _ _ (read_trace mblen flt input)).
Qed.

(** Plain input: lines with something on them, or empty. *)
Definition join_lines (ls : list str) : str := flat_map (fun l => l ++ [LF]) ls.
Lemma raw_lines_line l : forall cur t, ~ In LF l -> raw_lines cur (l ++ LF :: t) =
  ((cur ++ l) :: fst (raw_lines [] t), snd (raw_lines [] t)).
Proof.
  induction l as [|c l IH]; intros cur t H; cbn [app raw_lines].
  - cbn. rewrite app_nil_r. now destruct (raw_lines [] t).
  - assert (E : ceq c LF = false). { destruct (ceq c LF) eqn:E; [|reflexivity]. apply Ascii.eqb_eq in E. exfalso. apply H. now left. }
    rewrite E, IH by (intros X; apply H; now right). now rewrite <- app_assoc.
Qed.
Lemma raw_lines_join ls : Forall (fun l => ~ In LF l) ls -> raw_lines [] (join_lines ls) = (ls, []).
Proof.
  induction 1 as [|l ls Hl _ IH]; [reflexivity|]. unfold join_lines in *. cbn [flat_map]. rewrite <- app_assoc. cbn [app].
  rewrite raw_lines_line by assumption. rewrite IH. reflexivity.
Qed.
Definition plain_line (l : str) : Prop :=
  ~ In LF l /\ (l = [] \/ all_blank l = false) /\ 
  startAppBlock l = false /\ startAsmNesting l = false /\ endAppBlock l = false /\ endAsmNesting l = false.
Definition plain_cand (l : str) : cand := if is_nil l then CBlank [] else CText l 0.
Lemma scan_plain flt ls : f_comment_only flt = false -> Forall plain_line ls ->
  scan_lines flt scan0 ls = (map plain_cand ls, scan0).
Proof.
  intros Hc. induction 1 as [|l ls (Hl & Hb & A & B & C & D) _ IH]; [reflexivity|]. cbn [scan_lines map].
  assert (E : scan_line flt scan0 l = (plain_cand l, scan0)).
  { unfold scan_line, plain_cand. rewrite Hc. cbn [andb sc_pend scan0 app]. destruct Hb as [->|Hb]; [reflexivity|].
    rewrite Hb, A, B, C, D. destruct l; [discriminate|]. reflexivity. }
  rewrite E, IH. reflexivity.
Qed.
Definition plain_show (out : list str) (l : str) : list str :=
  if is_nil l then (if blank_end out then out else out ++ [[]]) else out ++ [expandTabs l].
Lemma C34_plain mblen flt ord_refs ord_labels fuel ls vis s' vis' :
  f_directives flt = false -> f_comment_only flt = false -> f_library_functions flt = false -> f_unused_labels flt = false ->
  f_whitespace flt = false -> Forall plain_line ls ->
  AsmText.run mblen flt ord_refs ord_labels fuel (join_lines ls) vis = Ok (s', vis') ->
  map lv_text (t_lines s') = fold_left plain_show ls [].
Proof.
  intros Hd Hc Hl Hu Hw Hp H. rewrite (C34_show _ _ _ _ _ _ _ _ _ Hd Hc Hl Hu H).
  unfold scan_input. rewrite raw_lines_join by (eapply Forall_impl; [|exact Hp]; intros ? [? _]; assumption).
  rewrite (scan_plain _ _ Hc Hp). cbn [sc_pend scan0 app is_nil]. clear H Hp.
  generalize (@nil str). induction ls as [|l ls IH]; intros out; [reflexivity|]. cbn [map fold_left]. rewrite IH. f_equal.
  unfold plain_cand, plain_show. destruct (is_nil l); [reflexivity|]. cbn [show_line]. unfold clean. rewrite Hw. reflexivity.
Qed.

(** *** References *)
Section Refs.
Variables (mblen : str -> Z) (flt : Filter)
          (ord_refs : list view -> list view) (ord_labels : list (view * Z) -> list (view * Z)).
Lemma map_contains_in {A} (m : list (view * A)) k : map_contains m k = true <-> exists v a, In (v, a) m /\ v_str v = k.
Proof.
  unfold map_contains, map_find, is_some, option_map. split.
  - destruct (find _ m) as [[v a]|] eqn:E; [|discriminate]. intros _. apply find_some in E as [E1 E2].
    exists v, a. split; [assumption|]. now apply same_key_iff.
  - intros (v & a & Hin & Hk). destruct (find _ m) eqn:E; [reflexivity|].
    apply find_none with (x := (v, a)) in E; [|assumption]. cbn in E. apply same_key_iff in Hk. congruence.
Qed.
(** Each label in the table stands for a label line that was read. *)
Lemma table_lines input k i : Z.of_nat (length input) < two31 -> In (k, i) (t_labels_defined (read_lines mblen flt tstate0 input)) ->
  last_def (t_lines (read_lines mblen flt tstate0 input)) (v_str k) i.
Proof.
  intros Hl. destruct (count_read mblen flt input) as [_ H]. destruct H as [H _ _].
  - pose proof (read_total mblen flt input). lia.
  - apply H.
Qed.
Lemma label_text code cs l : from_input mblen flt code cs l -> lv_is_label l = true ->
  exists raw nest, In (CText raw nest) cs /\ lv_text l = clean flt nest raw /\
    exists n a c, label_of (lv_text l) = Some (n, (a, c)) /\ lv_label l = slice l n.
Proof.
  intros [H|(raw & nest & h & l0 & A & B & C)] Hl.
  - rewrite H in Hl. discriminate.
  - rewrite C in Hl |- *. change (lv_is_label l0 = true) in Hl. exists raw, nest. split; [assumption|].
    split; [exact (kl_text _ _ _ _ _ _ _ B)|]. destruct (kl_label _ _ _ _ _ _ _ B) as [B1 B2].
    destruct h; [destruct (B2 eq_refl); congruence|]. specialize (B1 eq_refl). change (lv_text (set_lv_source (lv_source l) l0)) with (lv_text l0).
    destruct (label_of (lv_text l0)) as [[n [a c]]|]; [|destruct B1; congruence]. exists n, a, c. split; [reflexivity|]. apply B1.
Qed.
Lemma run_line fuel input vis s' vis' l' : AsmText.run mblen flt ord_refs ord_labels fuel input vis = Ok (s', vis') -> In l' (t_lines s') ->
  exists l, In l (t_lines (read_lines mblen flt tstate0 input)) /\ same_core l l' /\
    from_input mblen flt (t_inNvccCode (read_lines mblen flt tstate0 input)) (scan_input flt input) l /\
    lv_labels l' = filter (fun r => map_contains (t_labels_defined (read_lines mblen flt tstate0 input)) (v_str (lbv_name r))) (lv_labels l).
Proof.
  intros H Hin. destruct (run_ok _ _ _ _ _ _ _ _ _ H) as (L & kept & out & [A B C D E F]).
  subst s'. tsimp. apply in_map_iff in Hin as (l1 & <- & Hin). pose proof (subseq_in _ _ B _ Hin) as Hin1.
  destruct (forall2_in_r _ _ _ A _ Hin1) as (l & Hl & Hm). exists l. rewrite read_lines_eq in Hl.
  split; [assumption|]. split; [eapply core_shown, Hm|]. split.
  - pose proof (reads_from _ _ _ _ _ (tr_reads _ _ _ _ (read_trace mblen flt input))) as Hf. rewrite Forall_forall in Hf. auto.
  - rewrite shown_labels. destruct Hm as [Hm _ _ _]. rewrite Hm. reflexivity.
Qed.
(** C48 *)
Lemma C48_refs fuel input vis s' vis' l' r : AsmText.run mblen flt ord_refs ord_labels fuel input vis = Ok (s', vis') ->
  Z.of_nat (length input) < two31 -> In l' (t_lines s') -> In r (lv_labels l') ->
  In (mkLabel (v_str (lbv_name r)) (lbv_range r)) (getUsedLabelsInLine mblen (lv_text l')) /\
  exists raw nest a c, In (CText raw nest) (scan_input flt input) /\ label_of (clean flt nest raw) = Some (v_str (lbv_name r), (a, c)).
Proof.
  intros H Hlen Hin Hr. destruct (run_line _ _ _ _ _ _ H Hin) as (l & Hl & Hc & Hf & Hlab).
  rewrite Hlab in Hr. apply filter_In in Hr as [Hr Hd]. split.
  - destruct Hf as [Hf|(raw & nest & h & l0 & A & B & C)]; [rewrite Hf in Hr; destruct Hr|].
    assert (Ht : lv_text l' = lv_text l) by (rewrite Hc; reflexivity). rewrite Ht. rewrite C in Hr |- *.
    change (In r (lv_labels l0)) in Hr. rewrite (kl_refs _ _ _ _ _ _ _ B) in Hr. change (lv_text (set_lv_source (lv_source l) l0)) with (lv_text l0).
    destruct (negb _ && _); [|destruct Hr]. unfold used_labels_in in Hr. apply in_map_iff in Hr as (lb & <- & Hlb).
    destruct lb. exact Hlb.
  - apply map_contains_in in Hd as (k & i & Hk & <-). destruct (table_lines _ _ _ Hlen Hk) as [(x & X & _ & Xl & Xn) _].
    apply nth_error_In in X. pose proof (reads_from _ _ _ _ _ (tr_reads _ _ _ _ (read_trace mblen flt input))) as Hall.
    rewrite Forall_forall in Hall. destruct (label_text _ _ _ (Hall _ X) Xl) as (raw & nest & I1 & I2 & n & a & c & I3 & I4).
    exists raw, nest, a, c. split; [assumption|]. rewrite <- I2, I3, <- Xn, I4. reflexivity.
Qed.
End Refs.
