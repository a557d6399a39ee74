(** Views held by the text parser: which line objects they point into. *)
From Verif Require Import RegexCaps UtilLabels AsmLemmas AsmRead AsmTrace AsmMark AsmThms AsmSearch.
Local Open Scope Z_scope.

(** [n] is a piece of [t]. *)
Definition part (n t : str) : Prop := exists a b, t = a ++ n ++ b.
Lemma part_nil t : part [] t.
Proof. exists [], t. reflexivity. Qed.
Lemma part_trans a b c : part a b -> part b c -> part a c.
Proof. intros (x & y & ->) (u & v & ->). exists (u ++ x), (y ++ v). now rewrite <- !app_assoc. Qed.
Lemma part_right a b c : part a b -> part a (c ++ b).
Proof. intros (x & y & ->). exists (c ++ x), y. now rewrite <- !app_assoc. Qed.
Lemma caps_part r t st n : caps_of r t st -> part (cap n st) t.
Proof.
  intros [H _]. unfold cap. destruct (get_group n st) as [[p u]|] eqn:E; [|apply part_nil].
  destruct (H _ _ E) as (a & pre & post & _ & _ & Hs & _). cbn in Hs. exists pre, post. exact Hs.
Qed.
Lemma search_part r t st n : re_search r t = Some st -> part (cap n st) t.
Proof. intros H. eapply caps_part, search_caps, H. Qed.
Lemma match_part r t st n : re_match r t = Some st -> part (cap n st) t.
Proof. intros H. eapply caps_part, match_caps, H. Qed.
Lemma search_cap r t n x : option_map (cap n) (re_search r t) = Some x -> part x t.
Proof. destruct (re_search r t) eqn:E; [|discriminate]. intros [= <-]. eapply search_part, E. Qed.
Lemma match_cap r t n x : option_map (cap n) (re_match r t) = Some x -> part x t.
Proof. destruct (re_match r t) eqn:E; [|discriminate]. intros [= <-]. eapply match_part, E. Qed.
Lemma section_part t n : getSectionNameDef t = Some n -> part n t.
Proof.
  unfold getSectionNameDef. destruct (re_search sectionDef t) eqn:E; [|discriminate]. intros [= <-].
  destruct (str_eqb _ _); eapply search_part, E.
Qed.
Lemma dbg_part t f n e : get6502DbgInfo t = Some (f, n, e) -> part f t.
Proof.
  unfold get6502DbgInfo. destruct (re_match source6502Dbg t) eqn:E; [intros [= <- _ _]; eapply match_part, E|].
  destruct (is_some _); [|discriminate]. intros [= <- _ _]. apply part_nil.
Qed.
Lemma label_part t n x : label_of t = Some (n, x) -> part n t.
Proof.
  unfold label_of, getLabel, getLabelAssignment, getAssignmentDef, getCudaLabel.
  destruct (option_map _ (re_search labelDef t)) eqn:E1; [intros [= <- _]; eapply search_cap, E1|].
  destruct (option_map _ (re_search labelAssignmentDef t)) eqn:E2; [intros [= <- _]; eapply search_cap, E2|].
  destruct (option_map _ (re_match assignmentDef t)) eqn:E3; [intros [= <- _]; eapply match_cap, E3|].
  destruct (option_map _ (re_search cudaBeginDef t)) eqn:E4; [intros [= <- _]; eapply search_cap, E4|]. discriminate.
Qed.
Lemma used_loop_part mb filtered diff fuel : forall pos (s : list ascii) idx r,
  In r (used_labels_loop mb filtered diff fuel pos s idx) -> part (lb_name r) s.
Proof.
  induction fuel as [|k IH]; intros pos s idx r Hr; [contradiction|]. cbn [used_labels_loop] in Hr.
  pose proof (search_used s pos) as HS. destruct (search_from usedLabelRe pos s) as [[i st]|]; [|contradiction].
  destruct HS as (gap & c & t & Es & Hg & Hc & H2 & H1 & Hrest & Hp).
  assert (Et : t = firstn (span tok_char t) t ++ skipn (span tok_char t) t) by (symmetry; apply firstn_skipn).
  assert (Ef : s = gap ++ cap 2 st ++ m_rest st) by (rewrite Es, H2, Hrest; cbn [app]; now rewrite <- Et).
  assert (Hsg : part (cap 1 st ++ cap 2 st) s).
  { rewrite H1. unfold sigil_of. destruct (rev gap) as [|x g] eqn:Eg; [cbn [app]; exists gap, (m_rest st); exact Ef|].
    assert (E : gap = rev g ++ [x]) by (apply (f_equal (@rev _)) in Eg; now rewrite rev_involutive in Eg).
    destruct (sigil x); [|cbn [app]; exists gap, (m_rest st); exact Ef].
    exists (rev g), (m_rest st). rewrite Ef, E. unfold str, char in *. now rewrite <- !app_assoc. }
  cbv zeta in Hr. apply in_app_iff in Hr as [Hr|Hr].
  - destruct (negb _); cbn [In] in Hr.
    + destruct Hr as [<-|[<-|[]]]; cbn [lb_name]; [exists gap, (m_rest st); exact Ef|exact Hsg].
    + destruct Hr as [<-|[]]. exists gap, (m_rest st). exact Ef.
  - apply IH in Hr. rewrite Ef. apply part_right, part_right. exact Hr.
Qed.
Lemma used_part mb t r : In r (getUsedLabelsInLine mb t) -> part (lb_name r) t.
Proof.
  unfold getUsedLabelsInLine. destruct (has_char _ _); [contradiction|]. intros H. apply used_loop_part in H.
  destruct (C57_lemma t) as (pre & post & E & _). eapply part_trans; [exact H|]. exists pre, post. exact E.
Qed.

(** What the parser takes from the text of a line as names. *)
Inductive taken (t n : str) : Prop :=
| k_label : forall x, label_of t = Some (n, x) -> taken t n
| k_weak : getWeakDefinedLabel t = Some n -> taken t n
| k_global : getGlobalDefinedLabel t = Some n -> taken t n
| k_section : getSectionNameDef t = Some n -> taken t n
| k_dbg : forall a e, get6502DbgInfo t = Some (n, a, e) -> taken t n
| k_d2 : getD2FileInfo t = Some n -> taken t n
| k_used : forall mb r, In r (getUsedLabelsInLine mb t) -> n = lb_name r -> taken t n.
Lemma taken_part t n : taken t n -> part n t.
Proof.
  intros [x E|E|E|E|a e E|E|mb r E ->].
  - eapply label_part, E.
  - eapply search_cap, E.
  - eapply search_cap, E.
  - eapply section_part, E.
  - eapply dbg_part, E.
  - eapply match_cap, E.
  - eapply used_part, E.
Qed.

(** Every view stored in the parser object (src/assembly/parser.hpp:16-62) and in
    its lines (include/asm-parser/.../line.hpp: asm_line_v). *)
Definition views_of_line (l : asm_line_v) : list view :=
  lv_section l :: lv_label l :: sv_file (lv_source l) :: map lbv_name (lv_labels l).
Definition views_of_refs (m : list (view * list view)) : list view := flat_map (fun e => fst e :: snd e) m.
Definition objects (s : tstate) : list asm_line_v :=
  t_lines s ++ t_filteredlines s ++ match t_currentLine s with Some l => [l] | None => [] end.
Definition views_of (s : tstate) : list view :=
  [sv_file (t_currentSourceRef s); sv_file (t_lastOwnSource s); t_previousLabel s; t_previousParentLabel s;
   t_previousLabelOnSameAddress s; t_currentFilename s; t_currentSection s; t_currentSourceFile s]
  ++ map fst (t_labels_defined s) ++ t_usercode_labels s
  ++ views_of_refs (t_used_labels s) ++ views_of_refs (t_data_used_labels s) ++ views_of_refs (t_weakly_used_labels s)
  ++ flat_map (fun e => [fst e; snd e]) (t_aliased_labels s)
  ++ flat_map views_of_line (objects s).

(** A view is alive if it is null, or the line object or the file name it points
    into is still there and still contains the viewed text. *)
Definition alive (s : tstate) (v : view) : Prop :=
  match v_own v with
  | ONull => True
  | OLine i => exists l, In l (objects s) /\ lv_id l = i /\ part (v_str v) (lv_text l)
  | OFile i => files_at (t_files s) i = Some (v_str v)
  | OHost => False
  end.

Definition line_held (P : view -> Prop) (l : asm_line_v) : Prop := Forall P (views_of_line l).
Record held (P : view -> Prop) (s : tstate) : Prop := mkHeld {
  h_ref : P (sv_file (t_currentSourceRef s));
  h_own : P (sv_file (t_lastOwnSource s));
  h_prev : P (t_previousLabel s);
  h_parent : P (t_previousParentLabel s);
  h_same : P (t_previousLabelOnSameAddress s);
  h_fn : P (t_currentFilename s);
  h_sec : P (t_currentSection s);
  h_sf : P (t_currentSourceFile s);
  h_def : Forall (fun e => P (fst e)) (t_labels_defined s);
  h_user : Forall P (t_usercode_labels s);
  h_used : Forall (fun e => P (fst e) /\ Forall P (snd e)) (t_used_labels s);
  h_data : Forall (fun e => P (fst e) /\ Forall P (snd e)) (t_data_used_labels s);
  h_weak : Forall (fun e => P (fst e) /\ Forall P (snd e)) (t_weakly_used_labels s);
  h_alias : Forall (fun e => P (fst e) /\ P (snd e)) (t_aliased_labels s);
  h_lines : Forall (line_held P) (t_lines s);
  h_filt : Forall (line_held P) (t_filteredlines s) }.

Lemma refs_held P m : Forall (fun e : view * list view => P (fst e) /\ Forall P (snd e)) m <-> Forall P (views_of_refs m).
Proof.
  unfold views_of_refs. induction m as [|[k r] t IH]; cbn [flat_map fst snd]; [split; constructor|]. split.
  - intros H. inversion H as [|? ? [A B] C]; subst. cbn [fst snd app] in *. constructor; [assumption|]. apply Forall_app. split; [assumption|]. now apply IH.
  - intros H. inversion H as [|? ? A B]; subst. apply Forall_app in B as [B C]. constructor; [now split|now apply IH].
Qed.
Lemma pairs_held P m : Forall (fun e : view * view => P (fst e) /\ P (snd e)) m <-> Forall P (flat_map (fun e => [fst e; snd e]) m).
Proof.
  induction m as [|[k r] t IH]; cbn [flat_map fst snd app]; [split; constructor|]. split.
  - intros H. inversion H as [|? ? [A B] C]; subst. constructor; [assumption|constructor; [assumption|now apply IH]].
  - intros H. inversion H as [|? ? A B]; subst. inversion B; subst. constructor; [now split|now apply IH].
Qed.
Lemma lines_held P ls : Forall (line_held P) ls <-> Forall P (flat_map views_of_line ls).
Proof.
  induction ls as [|l t IH]; cbn [flat_map]; [split; constructor|]. rewrite Forall_app. split.
  - intros H. inversion H; subst. split; [assumption|now apply IH].
  - intros [A B]. constructor; [assumption|now apply IH].
Qed.
Lemma held_views P s : held P s -> (forall l, t_currentLine s = Some l -> line_held P l) -> Forall P (views_of s).
Proof.
  intros H Hc. destruct H. unfold views_of. rewrite !Forall_app. repeat split.
  - repeat (constructor; [assumption|]). constructor.
  - apply Forall_map. assumption.
  - assumption.
  - now apply refs_held.
  - now apply refs_held.
  - now apply refs_held.
  - now apply pairs_held.
  - apply lines_held. unfold objects. rewrite !Forall_app. repeat split; try assumption.
    destruct (t_currentLine s) as [l|]; [|constructor]. constructor; [auto|constructor].
Qed.

Section Hold.
Variables (P : view -> Prop) (l : asm_line_v).
Hypothesis P0 : P view0.
Hypothesis Pl : forall n, taken (lv_text l) n -> P (slice l n).
Definition same (x : asm_line_v) : Prop := lv_id x = lv_id l /\ lv_text x = lv_text l.
Lemma same_slice x n : same x -> taken (lv_text x) n -> P (slice x n).
Proof. intros [A B] H. unfold slice. rewrite A. apply Pl. now rewrite <- B. Qed.

Ltac keep := unfold move_filtered; constructor; tsimp_goal; try assumption.
Lemma assign_held m k (a : Z) : P k -> Forall (fun e => P (fst e)) m -> Forall (fun e => P (fst e)) (map_assign m k a).
Proof.
  intros Hk. induction m as [|[k' b] t IH]; intros H; cbn [map_assign]; [now repeat constructor|].
  inversion H; subst. destruct (same_key _ _); constructor; auto.
Qed.
Lemma assign_pair_held m k (a : view) : P k -> P a ->
  Forall (fun e => P (fst e) /\ P (snd e)) m -> Forall (fun e => P (fst e) /\ P (snd e)) (map_assign m k a).
Proof.
  intros Hk Ha. induction m as [|[k' b] t IH]; intros H; cbn [map_assign]; [now repeat constructor|].
  inversion H as [|? ? [A B] C]; subst. destruct (same_key _ _); constructor; auto.
Qed.
Lemma insert_held m v : P v -> Forall P m -> Forall P (set_insert m v).
Proof. intros Hv H. unfold set_insert. destruct (set_contains _ _); [assumption|]. apply Forall_app. now repeat constructor. Qed.
Lemma refs_insert_held m k v : P k -> P v ->
  Forall (fun e => P (fst e) /\ Forall P (snd e)) m -> Forall (fun e => P (fst e) /\ Forall P (snd e)) (map_set_insert m k v).
Proof.
  intros Hk Hv. induction m as [|[k' b] t IH]; intros H; cbn [map_set_insert]; [now repeat constructor|].
  inversion H as [|? ? [A B] C]; subst. destruct (same_key _ _); constructor; auto. split; [assumption|]. now apply insert_held.
Qed.
Lemma line_source_held x r : line_held P x -> P (sv_file r) -> line_held P (set_lv_source r x).
Proof. unfold line_held, views_of_line. vsimp. intros H Hr. inversion H as [|? ? A B]; subst. inversion B as [|? ? C D]; subst. inversion D; subst. now repeat constructor. Qed.
Lemma line_source_held_inv x : line_held P x -> P (sv_file (lv_source x)).
Proof. unfold line_held, views_of_line. intros H. inversion H as [|? ? A B]; subst. inversion B as [|? ? C D]; subst. now inversion D; subst. Qed.
Lemma amend_held src rl : P (sv_file src) -> Forall (line_held P) rl -> Forall (line_held P) (amend_rev src rl).
Proof.
  intros Hs. induction rl as [|x t IH]; intros H; [assumption|]. inversion H; subst. cbn [amend_rev].
  destruct (lv_is_label x); [|assumption]. cbv zeta. destruct (negb _) eqn:E; constructor; auto; now apply line_source_held.
Qed.
Lemma amend_lines_held src s : P (sv_file src) -> held P s -> held P (amendPreviousLinesWith src s).
Proof. intros Hs [] . unfold amendPreviousLinesWith. keep. apply Forall_rev, amend_held; [assumption|]. now apply Forall_rev. Qed.
Lemma inside_held s : held P s -> held P (markPreviousInternalLabelAsInsideProc s).
Proof.
  intros H. unfold markPreviousInternalLabelAsInsideProc. destruct (rev (t_lines s)) as [|x t] eqn:E; [assumption|].
  destruct (_ && _); [|assumption]. pose proof (Forall_rev (h_lines _ _ H)) as Hl. rewrite E in Hl. inversion Hl; subst.
  destruct H. keep. apply Forall_rev. constructor; [|assumption]. apply line_source_held; [assumption|]. cbn [sv_file]. now apply line_source_held_inv.
Qed.
Lemma ref_held s r : held P s -> P (sv_file r) -> held P (set_t_currentSourceRef r s).
Proof. intros [] Hr. keep. Qed.
Lemma source_directive_held s s' : held P s -> handleSourceDirective l s = Some s' -> held P s'.
Proof.
  intros H. unfold handleSourceDirective, handleFiledef, handleSource, handleStabs, handle6502, handleD2.
  destruct (getFileDef _) as [[i f]|]; [intros [= <-]; destruct H; keep|].
  destruct (getSourceRef _) as [[fi li] col]. destruct (negb (fi =? 0)).
  { intros [= <-]. apply amend_lines_held; [exact (h_ref _ _ H)|]. apply ref_held; [|exact (h_ref _ _ H)]. destruct H; keep. }
  destruct (getSourceInfoFromStabs _) as [sb|].
  { intros [= <-]. destruct (sb_type sb =? 68); [now apply ref_held|]. destruct (_ || _); [|assumption].
    destruct H; keep. }
  destruct (get6502DbgInfo _) as [[[f n] e]|] eqn:E6.
  { intros [= <-]. destruct (negb e); [|assumption]. apply ref_held; [assumption|apply Pl]. eapply k_dbg, E6. }
  destruct (getD2LineInfo _) as [n|].
  { intros [= <-]. apply amend_lines_held; [exact (h_sf _ _ H)|]. apply ref_held; [assumption|exact (h_sf _ _ H)]. }
  destruct (getD2FileInfo _) as [f|] eqn:ED; [|discriminate]. intros [= <-]. destruct H; keep. apply Pl. eapply k_d2, ED.
Qed.
Lemma section_held s : held P s -> held P (handleSection l s).
Proof. intros H. unfold handleSection. destruct (getSectionNameDef _) eqn:E; [|assumption]. destruct H; keep. apply Pl. apply k_section, E. Qed.
Lemma directive_held s x : same x -> held P s -> held P (extractUsedLabelsFromDirective x s).
Proof.
  intros Hx H. unfold extractUsedLabelsFromDirective. destruct (getWeakDefinedLabel _) as [w|] eqn:E.
  { apply k_weak in E. pose proof (same_slice x w Hx E). destruct H; keep. now apply refs_insert_held. }
  destruct (getGlobalDefinedLabel _) as [w|] eqn:E'; [|assumption]. apply k_global in E'. pose proof (same_slice x w Hx E').
  destruct H; keep; [now apply insert_held|now apply refs_insert_held].
Qed.
Lemma define_held n c s : P n -> held P s -> held P (define_label n c s).
Proof.
  intros Hn H. unfold define_label. cbv zeta. destruct H, c, (isInternalLabel _); keep; now apply assign_held.
Qed.
Lemma label_step_held handled s : line_held P l -> held P s ->
  held P (snd (label_step handled l s)) /\ line_held P (fst (label_step handled l s)) /\ same (fst (label_step handled l s)).
Proof.
  intros Hl H. destruct (label_cases handled l s) as [|E|n a c e].
  - split; [assumption|split; [exact Hl|split; reflexivity]].
  - split; [assumption|split; [exact Hl|split; reflexivity]].
  - pose proof (Pl n (k_label _ _ _ e)) as Pn.
    split; [now apply define_held|split; [|unfold labelled; destruct a; split; reflexivity]].
    unfold line_held, views_of_line, labelled in *. destruct a; vsimp; inversion Hl as [|? ? A B]; subst; inversion B; subst; constructor; auto.
Qed.
Lemma code_held refs parent : P parent -> Forall (fun r => P (lbv_name r)) refs -> forall m,
  Forall (fun e => P (fst e) /\ Forall P (snd e)) m -> Forall (fun e => P (fst e) /\ Forall P (snd e)) (code_refs refs parent m).
Proof.
  intros Hp. unfold code_refs. induction refs as [|r t IH]; intros Hr m Hm; [assumption|]. inversion Hr; subst. cbn [fold_left].
  apply IH; [assumption|]. destruct (negb _); [now apply refs_insert_held|assumption].
Qed.
Lemma data_held refs prev parent inside : P prev -> P parent -> Forall (fun r => P (lbv_name r)) refs -> forall m,
  Forall (fun e => P (fst e) /\ Forall P (snd e)) m -> Forall (fun e => P (fst e) /\ Forall P (snd e)) (data_refs refs prev parent inside m).
Proof.
  intros Hp Hq. unfold data_refs. induction refs as [|r t IH]; intros Hr m Hm; [assumption|]. inversion Hr; subst. cbn [fold_left].
  apply IH; [assumption|]. cbv zeta. destruct inside; repeat apply refs_insert_held; assumption.
Qed.
Lemma names_held mblen x : same x -> Forall (fun r => P (lbv_name r)) (used_labels_in mblen x).
Proof.
  intros Hx. unfold used_labels_in. apply Forall_map, Forall_forall. intros r Hr. cbn [lbv_name]. apply same_slice; [assumption|]. eapply k_used; [exact Hr|reflexivity].
Qed.
Lemma final_held mblen x s : same x -> line_held P x -> held P s ->
  line_held P (final_line mblen x s).
Proof.
  intros Hx Hl H.
  unfold line_held, views_of_line in *. unfold final_line. vsimp. inversion Hl as [|? ? A B]; subst. inversion B; subst.
  constructor; [apply H|]. constructor; [assumption|]. constructor; [apply H|]. apply Forall_map.
  destruct (_ && _); [|constructor]. pose proof (names_held mblen x Hx) as N. exact N.
Qed.
Lemma alias_held x s : line_held P x -> held P s -> held P (handleLabelAliasing x s).
Proof.
  intros Hx H. assert (Px : P (lv_label x)) by (unfold line_held, views_of_line in Hx; inversion Hx as [|? ? A B]; subst; now inversion B).
  unfold handleLabelAliasing. cbv zeta. destruct H. split_if; keep; now apply assign_pair_held.
Qed.
Lemma keep_held mblen x s : same x -> line_held P x -> held P s -> held P (eol_keep mblen x s).
Proof.
  intros Hx Hl H. rewrite eol_keep_eq. cbv zeta. set (f := final_line mblen x s).
  assert (Hf : line_held P f) by (now apply final_held).
  set (s1 := set_t_data_used_labels _ _). assert (H1 : held P s1).
  { unfold s1. pose proof (names_held mblen x Hx) as N. destruct H; keep; unfold keep_used, keep_data; destruct (_ && _); try assumption.
    - now apply code_held. - now apply data_held. }
  clearbody s1. pose proof (alias_held f s1 Hf H1) as H2. destruct H2; keep. apply Forall_app. split; [assumption|now constructor].
Qed.
Lemma classify_held mblen flt handled s : line_held P l -> held P s -> held P (eol_classify mblen flt handled l s).
Proof.
  intros Hl H. destruct (label_step_held handled s Hl H) as (A & B & C).
  pose proof (classify_cases mblen flt handled l s) as Hc. destruct (label_step handled l s) as [l2 s2]. cbn [fst snd] in *.
  assert (HD : forall x s0, same x -> held P s0 -> held P (extractUsedLabelsFromDirective x s0)) by (intros; now apply directive_held).
  destruct Hc.
  all: try (apply keep_held; try assumption; auto; fail).
  - apply keep_held; auto. destruct (isCudaEndDef _); [|assumption]. destruct A; keep.
  - assert (Hi : same l3) by (subst l3; destruct handled; assumption).
    assert (Hh : line_held P l3) by (subst l3; destruct handled; exact B).
    pose proof (HD l3 s2 Hi A) as HA. destruct HA; keep. apply Forall_app; split; [assumption|now constructor].
  - assert (Hi : same l3) by (subst l3; destruct handled; assumption).
    assert (Hh : line_held P l3) by (subst l3; destruct handled; exact B).
    apply keep_held; auto.
  - assert (Hi : same l3) by (subst l3; destruct handled; assumption).
    assert (Hh : line_held P l3) by (subst l3; destruct handled; exact B).
    apply keep_held; auto.
Qed.
End Hold.

Lemma held_mono (P Q : view -> Prop) s : (forall v, P v -> Q v) -> held P s -> held Q s.
Proof.
  intros HPQ []. assert (HL : forall ls, Forall (line_held P) ls -> Forall (line_held Q) ls).
  { intros ls. apply Forall_impl. intros x. apply Forall_impl. exact HPQ. }
  assert (HR : forall m, Forall (fun e : view * list view => P (fst e) /\ Forall P (snd e)) m -> Forall (fun e => Q (fst e) /\ Forall Q (snd e)) m).
  { intros m. apply Forall_impl. intros x [A B]. split; [auto|]. revert B. now apply Forall_impl. }
  constructor; auto; [| |]; (eapply Forall_impl; [|eassumption]); cbv beta; intros x; [auto|auto|]. intros []; split; auto.
Qed.

(** Pointing into one of the line objects [D], given as number and text. *)
Definition lkey (l : asm_line_v) : N * str := (lv_id l, lv_text l).
Definition into (D : list (N * str)) (v : view) : Prop :=
  match v_own v with ONull => True | OLine i => exists t, In (i, t) D /\ part (v_str v) t | _ => False end.
Definition ids (s : tstate) : list (N * str) := map lkey (t_lines s) ++ map lkey (t_filteredlines s).
Lemma into0 D : into D view0.
Proof. exact I. Qed.
Lemma into_mono D E v : incl D E -> into D v -> into E v.
Proof. unfold into. intros H. destruct (v_own v); auto. intros (t & A & B). exists t. auto. Qed.

Lemma amend_ids src rl : map lkey (amend_rev src rl) = map lkey rl.
Proof. induction rl as [|x t IH]; [reflexivity|]. cbn [amend_rev]. destruct (lv_is_label x); [|reflexivity]. cbv zeta. destruct (negb _); cbn [map]; vsimp; [reflexivity|now rewrite IH]. Qed.
Lemma amend_lines_ids src s : ids (amendPreviousLinesWith src s) = ids s.
Proof. unfold ids, amendPreviousLinesWith. tsimp_goal. now rewrite map_rev, amend_ids, map_rev, rev_involutive. Qed.
Lemma inside_ids s : ids (markPreviousInternalLabelAsInsideProc s) = ids s.
Proof.
  unfold markPreviousInternalLabelAsInsideProc. destruct (rev (t_lines s)) as [|x t] eqn:E; [reflexivity|].
  destruct (_ && _); [|reflexivity]. unfold ids. tsimp_goal. rewrite map_rev. cbn [map].
  change (lkey (set_inside_proc x) :: map lkey t) with (map lkey (x :: t)). rewrite <- E. now rewrite map_rev, rev_involutive.
Qed.
Lemma source_directive_ids l s s' : handleSourceDirective l s = Some s' -> ids s' = ids s.
Proof.
  unfold handleSourceDirective, handleFiledef, handleSource, handleStabs, handle6502, handleD2.
  destruct (getFileDef _) as [[i f]|]; [intros [= <-]; reflexivity|].
  destruct (getSourceRef _) as [[fi li] col]. destruct (negb (fi =? 0)).
  { intros [= <-]. now rewrite amend_lines_ids. }
  destruct (getSourceInfoFromStabs _) as [sb|].
  { intros [= <-]. destruct (sb_type sb =? 68); [reflexivity|]. now destruct (_ || _). }
  destruct (get6502DbgInfo _) as [[[f n] e]|]; [intros [= <-]; now destruct (negb e)|].
  destruct (getD2LineInfo _) as [n|]; [intros [= <-]; now rewrite amend_lines_ids|].
  destruct (getD2FileInfo _) as [f|]; [|discriminate]. now intros [= <-].
Qed.
Lemma section_ids l s : ids (handleSection l s) = ids s.
Proof. unfold handleSection. now destruct (getSectionNameDef _). Qed.
Lemma directive_ids l s : ids (extractUsedLabelsFromDirective l s) = ids s.
Proof. unfold extractUsedLabelsFromDirective. destruct (getWeakDefinedLabel _); [reflexivity|]. now destruct (getGlobalDefinedLabel _). Qed.
Lemma define_ids n c s : ids (define_label n c s) = ids s.
Proof. unfold define_label. cbv zeta. now destruct c, (isInternalLabel _). Qed.
Lemma alias_ids l s : ids (handleLabelAliasing l s) = ids s.
Proof. destruct (aliasing_frame l s) as (a & p & ->). reflexivity. Qed.
Lemma keep_ids mblen l s : incl (lkey l :: ids s) (ids (eol_keep mblen l s)).
Proof.
  assert (A : t_lines (eol_keep mblen l s) = t_lines s ++ [final_line mblen l s]) by apply keep_lines.
  assert (B : t_filteredlines (eol_keep mblen l s) = t_filteredlines s) by (destruct (keep_shape mblen l s) as (a & p & ->); reflexivity).
  unfold ids. rewrite A, B. assert (C : lkey (final_line mblen l s) = lkey l) by reflexivity.
  revert C. generalize (final_line mblen l s). intros f <-. rewrite map_app.
  intros x. cbn [In map]. rewrite !in_app_iff. cbn [In]. tauto.
Qed.
Lemma classify_ids mblen flt handled l s : incl (lkey l :: ids s) (ids (eol_classify mblen flt handled l s)).
Proof.
  assert (A : lkey (fst (label_step handled l s)) = lkey l /\ ids (snd (label_step handled l s)) = ids s).
  { destruct (label_cases handled l s); try (split; reflexivity). split; [unfold labelled; destruct a; reflexivity|apply define_ids]. }
  destruct A as [A B]. pose proof (classify_cases mblen flt handled l s) as Hc.
  destruct (label_step handled l s) as [l2 s2]. cbn [fst snd] in *.
  assert (K : forall x s0, lkey x = lkey l -> ids s0 = ids s -> incl (lkey l :: ids s) (ids (eol_keep mblen x s0))).
  { intros x s0 <- <-. apply keep_ids. }
  destruct Hc.
  - apply K; [assumption|]. now destruct (isCudaEndDef _).
  - assert (Hi : lkey l3 = lkey l) by (subst l3; destruct handled; assumption).
    pose proof (directive_ids l3 s2) as E. unfold ids at 2. unfold move_filtered. tsimp_goal. rewrite B in E. rewrite <- E. unfold ids. rewrite map_app.
    intros x. cbn [In map]. rewrite !in_app_iff. cbn [In]. rewrite Hi. tauto.
  - assert (Hi : lkey l3 = lkey l) by (subst l3; destruct handled; assumption).
    apply K; [assumption|]. now rewrite directive_ids.
  - assert (Hi : lkey l3 = lkey l) by (subst l3; destruct handled; assumption). now apply K.
  - now apply K.
Qed.

(** The views of every state reached point into stored lines. *)
Definition pointing (s : tstate) : Prop :=
  held (into (ids s)) s /\ (forall l, t_currentLine s = Some l -> line_held (into (ids s)) l).

Section Run.
Variables (mblen : str -> Z) (flt : Filter).
Hypothesis Hc : f_comment_only flt = false.
Hypothesis Hf : f_library_functions flt = false.

Lemma blank_line_held (P : view -> Prop) i t : P view0 -> line_held P (set_lv_text t (line_v0 i)).
Proof. intros H. unfold line_held, views_of_line, line_v0. vsimp. repeat constructor; exact H. Qed.
Lemma held_frame P s s' : held P s ->
  t_currentSourceRef s' = t_currentSourceRef s -> t_lastOwnSource s' = t_lastOwnSource s -> t_previousLabel s' = t_previousLabel s ->
  t_previousParentLabel s' = t_previousParentLabel s -> t_previousLabelOnSameAddress s' = t_previousLabelOnSameAddress s ->
  t_currentFilename s' = t_currentFilename s -> t_currentSection s' = t_currentSection s -> t_currentSourceFile s' = t_currentSourceFile s ->
  t_labels_defined s' = t_labels_defined s -> t_usercode_labels s' = t_usercode_labels s -> t_used_labels s' = t_used_labels s ->
  t_data_used_labels s' = t_data_used_labels s -> t_weakly_used_labels s' = t_weakly_used_labels s ->
  t_aliased_labels s' = t_aliased_labels s -> t_lines s' = t_lines s -> t_filteredlines s' = t_filteredlines s -> held P s'.
Proof. intros [] H1 H2 H3 H4 H5 H6 H7 H8 H9 H10 H11 H12 H13 H14 H15 H16. constructor; congruence. Qed.
Ltac frame H := eapply held_frame; [exact H|try reflexivity..].
Lemma directives_pointing l s : (exists i t, l = set_lv_text t (line_v0 i)) -> held (into (ids s)) s ->
  held (into (lkey l :: ids s)) (eol_directives mblen flt l s) /\ incl (lkey l :: ids s) (ids (eol_directives mblen flt l s)).
Proof.
  intros (i & t & El) H. set (D := lkey l :: ids s).
  assert (HD : held (into D) s) by (eapply held_mono; [|exact H]; intros v; apply into_mono; apply incl_tl, incl_refl).
  assert (Pl : forall n, taken (lv_text l) n -> into D (slice l n)) by (intros n Hn; apply taken_part in Hn; exists (lv_text l); split; [left; reflexivity|exact Hn]).
  assert (Hl : line_held (into D) l) by (rewrite El; apply blank_line_held, into0).
  unfold eol_directives.
  assert (Hs : exists handled s1, (if endBlock (lv_text l) || (t_inNvccCode s && str_contains (lv_text l) "}")
     then (false, set_t_lastOwnSource source_v0 (set_t_previousLabel view0 (set_t_currentSourceRef source_v0 s)))
     else match handleSourceDirective l s with Some s' => (true, s') | None => (false, s) end) = (handled, s1)
     /\ held (into D) s1 /\ ids s1 = ids s).
  { destruct (_ || _).
    - do 2 eexists. split; [reflexivity|]. split; [|reflexivity]. destruct HD; constructor; tsimp_goal; try assumption; apply into0.
    - destruct (handleSourceDirective l s) as [s1|] eqn:E; do 2 eexists; (split; [reflexivity|]).
      + split; [eapply source_directive_held; try eassumption; apply into0|]. now apply source_directive_ids in E.
      + now split. }
  destruct Hs as (handled & s1 & -> & H1 & I1).
  set (s2 := if negb handled then handleSection l s1 else s1).
  assert (H2 : held (into D) s2) by (unfold s2; destruct (negb handled); [now apply section_held|assumption]).
  assert (I2 : ids s2 = ids s) by (unfold s2; destruct (negb handled); [now rewrite section_ids|assumption]).
  clearbody s2. unfold libraryFilter, justComment. rewrite Hf, Hc. cbn [andb].
  assert (H3 : held (into D) (set_t_mayRemovePreviousLabel true s2)) by (frame H2).
  split.
  - apply classify_held; try assumption; apply into0.
  - unfold D. rewrite <- I2. change (ids s2) with (ids (set_t_mayRemovePreviousLabel true s2)). apply classify_ids.
Qed.
Lemma custom_same s : exists z, customAssembly s = set_t_inCustomAssembly z s.
Proof.
  unfold customAssembly. destruct (_ || _); [eauto|]. destruct (_ || _); [eauto|]. exists (t_inCustomAssembly s). now destruct s.
Qed.
Lemma directives_done l s : (exists i t, l = set_lv_text t (line_v0 i)) -> held (into (ids s)) s -> pointing (eol_directives mblen flt l s).
Proof.
  intros E H. destruct (directives_pointing l s E H) as [A B]. split.
  - eapply held_mono; [|exact A]. intros v. now apply into_mono.
  - intros l' Hl'. exfalso. revert Hl'. clear A B. unfold eol_directives.
    destruct (if _ || _ then _ else _) as [handled s1]. set (s2 := if negb handled then _ else s1). clearbody s2.
    unfold libraryFilter, justComment. rewrite Hf, Hc. cbn [andb]. generalize (set_t_mayRemovePreviousLabel true s2). clear. intros s.
    pose proof (classify_cases mblen flt handled l s) as Hc. destruct Hc; rewrite ?eol_keep_eq; tsimp_goal; discriminate.
Qed.
Lemma eol_pointing s : pointing s -> pointing (eol mblen flt s).
Proof.
  intros [H Hcur]. unfold eol, new_line, commentBlock. rewrite Hc. cbv zeta.
  set (l := line_v0 _). set (s1 := set_t_currentLine (Some l) _).
  assert (H1 : held (into (ids s)) s1) by (frame H).
  change (ids s) with (ids s1) in H1. assert (C1 : t_currentLine s1 = Some l) by reflexivity. clearbody s1.
  destruct (isEmptyOrJustWhitespace _).
  - unfold keep_text, maybeAddBlank, new_line. cbv zeta. split.
    + destruct (negb _).
      * eapply held_mono with (P := into (ids s1)).
        { intros v. apply into_mono. unfold ids. tsimp_goal. rewrite map_app. intros x. rewrite !in_app_iff. tauto. }
        destruct H1; constructor; tsimp_goal; try assumption. apply Forall_app. split; [assumption|]. constructor; [|constructor].
        change (line_v0 (t_next_id s1)) with (set_lv_text [] (line_v0 (t_next_id s1))). apply blank_line_held, into0.
      * frame H1.
    + intros l' E. change (Some l = Some l') in E. injection E as <-. change l with (set_lv_text [] l). apply blank_line_held, into0.
  - destruct (custom_same s1) as [z Ez]. assert (H2 : held (into (ids (customAssembly s1))) (customAssembly s1)) by (rewrite Ez; frame H1).
    set (s2 := customAssembly s1) in *. clearbody s2.
    destruct (_ && _).
    + pose proof (inside_held _ s2 H2) as H3. rewrite <- inside_ids in H3.
      set (s3 := markPreviousInternalLabelAsInsideProc s2) in *. clearbody s3.
      destruct (f_directives flt); [|apply directives_done; [do 2 eexists; reflexivity|assumption]].
      split; [frame H3|]. intros l' E. change (Some (set_lv_text (filteredLine flt s2) l) = Some l') in E. injection E as <-. apply blank_line_held, into0.
    + apply directives_done; [do 2 eexists; reflexivity|assumption].
Qed.
Lemma pointing0 : pointing tstate0.
Proof. split; [|discriminate]. constructor; cbn; try exact I; constructor. Qed.
Lemma step_pointing s c : pointing s -> pointing (step mblen flt s c).
Proof.
  intros H. unfold step. destruct (t_stopParsing s); [assumption|]. destruct (ceq c LF); [now apply eol_pointing|].
  destruct H as [A B]. split; [frame A|exact B].
Qed.
Lemma fold_pointing input : forall s, pointing s -> pointing (fold_left (step mblen flt) input s).
Proof. induction input as [|c t IH]; intros s H; [assumption|]. cbn [fold_left]. apply IH. now apply step_pointing. Qed.
Lemma read_pointing s input : pointing s -> pointing (read_lines mblen flt s input).
Proof.
  intros [A B]. unfold read_lines. assert (H : pointing (set_t_total_lines 0 s)) by (split; [frame A|exact B]).
  pose proof (fold_pointing input _ H) as H'. destruct (negb _); [now apply eol_pointing|assumption].
Qed.
End Run.

(** The states after the last line: filtering, marking, removing. *)
Lemma pointing_alive s : pointing s -> Forall (alive s) (views_of s).
Proof.
  intros [A B]. assert (H : forall v, into (ids s) v -> alive s v).
  { intros v. unfold into, alive. destruct (v_own v); auto; try contradiction. unfold ids, objects. intros (t & Ht & Hp). rewrite in_app_iff, !in_map_iff in Ht.
    destruct Ht as [(l & E & H)|(l & E & H)]; unfold lkey in E; injection E as <- <-; exists l; (split; [rewrite !in_app_iff; auto|auto]). }
  apply held_views; [now apply held_mono with (1 := H)|]. intros l Hl. eapply Forall_impl; [exact H|]. exact (B l Hl).
Qed.
Lemma filter_pointing s : pointing s -> pointing (filterNonLabels s).
Proof.
  intros [A B]. split; [|exact B]. change (ids (filterNonLabels s)) with (ids s). unfold filterNonLabels. cbv zeta.
  destruct A; constructor; tsimp_goal; try assumption; apply Forall_forall; intros x Hx; apply filter_In in Hx as [Hx _];
    [rewrite Forall_forall in h_used0|rewrite Forall_forall in h_weak0]; auto.
Qed.
Lemma remove_ids flt s ls : forall r x, In x ls ->
  In (lkey x) (map lkey (fst (remove_loop flt s r ls)) ++ map lkey (snd (remove_loop flt s r ls))).
Proof.
  induction ls as [|l t IH]; intros r x Hx; [contradiction|]. cbn [remove_loop].
  destruct (remove_label flt s r l) as [only r']. specialize (IH r' x). destruct (remove_loop flt s r' t) as [k o]. cbn [fst snd] in *.
  rewrite in_app_iff in *. fold (shown s l). assert (E : lkey (shown s l) = lkey l) by (rewrite shown_core; reflexivity).
  destruct Hx as [<-|Hx]; [|specialize (IH Hx)]; destruct (removed flt r' only l); cbn [fst snd map In]; rewrite ?E; tauto.
Qed.
Section Final.
Variables (mblen : str -> Z) (flt : Filter)
          (ord_refs : list view -> list view) (ord_labels : list (view * Z) -> list (view * Z)).
Hypothesis Hc : f_comment_only flt = false.
Hypothesis Hf : f_library_functions flt = false.
Lemma C46_reading input : Forall (alive (fold_left (step mblen flt) input tstate0)) (views_of (fold_left (step mblen flt) input tstate0)).
Proof. apply pointing_alive, fold_pointing; auto. apply pointing0. Qed.
Lemma marked_views ord s fuel l l' : marked ord s fuel l l' -> views_of_line l' = views_of_line l /\ lkey l' = lkey l.
Proof. intros [E _ _ _]. rewrite E. split; reflexivity. Qed.
Lemma C46_done fuel input vis s' vis' : AsmText.run mblen flt ord_refs ord_labels fuel input vis = Ok (s', vis') ->
  Forall (alive s') (views_of s').
Proof.
  intros H. destruct (run_ok _ _ _ _ _ _ _ _ _ H) as (L & kept & out & [M K O OI ST LP]). set (r := read mblen flt input) in *.
  assert (PR : pointing r) by (apply filter_pointing, read_pointing; auto; apply pointing0).
  destruct PR as [A B]. clearbody r.
  assert (HL : Forall (line_held (into (ids r))) L).
  { pose proof (h_lines _ _ A) as HA. clear - M HA. induction M as [|x y a b Hxy HM IH]; [constructor|]. inversion HA; subst.
    constructor; [|auto]. unfold line_held. now rewrite (proj1 (marked_views _ _ _ _ _ Hxy)). }
  assert (HI : map lkey L = map lkey (t_lines r)).
  { clear - M. induction M as [|x y a b Hxy HM IH]; [reflexivity|]. cbn [map]. rewrite IH. f_equal. exact (proj2 (marked_views _ _ _ _ _ Hxy)). }
  assert (HD : incl (ids r) (map lkey (map (shown r) kept) ++ map lkey out ++ map lkey (t_filteredlines r))).
  { unfold ids. rewrite <- HI. intros x. rewrite in_app_iff, in_map_iff. intros [(l & <- & Hl)|Hx].
    - pose proof (remove_ids flt r L (mkR false false false false) l Hl) as Q. rewrite LP in Q. cbn [fst snd] in Q. rewrite !in_app_iff in *. tauto.
    - rewrite !in_app_iff. tauto. }
  assert (HA : forall v, into (ids r) v -> alive s' v).
  { intros v. unfold into, alive. destruct (v_own v) as [|i| |]; auto; try contradiction. intros (t & Hi & Hp). apply HD in Hi. rewrite ST. unfold objects. tsimp_goal.
    rewrite !in_app_iff, !in_map_iff in Hi. destruct Hi as [(l & E & I)|[(l & E & I)|(l & E & I)]]; unfold lkey in E; injection E as <- <-;
      exists l; rewrite !in_app_iff; auto. }
  assert (LA : forall ls, Forall (line_held (into (ids r))) ls -> Forall (line_held (alive s')) ls).
  { intros ls. apply Forall_impl. intros l. apply Forall_impl. exact HA. }
  assert (SH : Forall (line_held (alive s')) (map (shown r) kept)).
  { assert (HK : Forall (line_held (alive s')) kept).
    { apply Forall_forall. intros l Hl. apply (subseq_in _ _ K) in Hl. revert l Hl. apply Forall_forall. auto. }
    apply Forall_map. revert HK. apply Forall_impl. intros l Hl. unfold shown, filterOutReferedLabelsThatArentDefined.
    assert (H1 : line_held (alive s') (set_lv_labels (filter (fun x => map_contains (t_labels_defined r) (v_str (lbv_name x))) (lv_labels l)) l)).
    { unfold line_held, views_of_line in *. vsimp. inversion Hl as [|? ? P1 P2]; subst. inversion P2 as [|? ? P3 P4]; subst. inversion P4 as [|? ? P5 P6]; subst.
      repeat (constructor; [assumption|]). apply Forall_map, Forall_forall. intros x Hx. apply filter_In in Hx as [Hx _].
      rewrite Forall_map, Forall_forall in P6. auto. }
    set (l1 := set_lv_labels _ l) in *. clearbody l1. unfold resolve_file. destruct (negb _); [|assumption].
    destruct (files_at (t_files r) _) as [f|] eqn:E; apply line_source_held; try assumption; [|exact I].
    cbn [sv_file]. unfold alive. cbn [v_own v_str]. rewrite ST. tsimp_goal. exact E. }
  apply held_views.
  - pose proof (held_mono _ _ _ HA A) as HH. rewrite ST at 2. destruct HH; constructor; tsimp_goal; try assumption.
    apply Forall_app. split; [assumption|]. apply LA. apply Forall_forall. intros l Hl. apply OI in Hl. revert l Hl. now apply Forall_forall.
  - intros l Hl. rewrite ST in Hl. eapply Forall_impl; [exact HA|]. exact (B l Hl).
Qed.
End Final.
