(** The text parser with and without the directives filter. *)
From Coq Require Import Sorted.
From Verif Require Import RegexSpec RegexLemmas AsmLemmas AsmRead AsmMark AsmTrace AsmThms AsmUse AsmSearch AsmComplete AsmRemove
  AsmPlace AsmWorld AsmStored AsmLadder AsmLines UtilAgain AsmTwice.

(** *** Lines that are only the start of a procedure *)
Definition bare_start (t : str) : Prop := exists a b, all_blank a = true /\ all_blank b = true /\ t = a ++ lit ".cfi_startproc" ++ b.
Definition strange (c : char) : bool := negb (ceq c SP || ceq c TAB || has_char c (lit ".cfi_startproc")).
Lemma blank_strange a : all_blank a = true -> existsb strange a = false.
Proof.
  unfold all_blank. induction a as [|c a IH]; [reflexivity|]. cbn [forallb existsb]. rewrite andb_true_iff. intros [A B].
  rewrite (IH B). unfold strange. rewrite A. reflexivity.
Qed.
Lemma bare_strange t : bare_start t -> existsb strange t = false.
Proof. intros (a & b & A & B & ->). apply blank_strange in A, B. unfold str, char in *. rewrite !existsb_app, A, B. reflexivity. Qed.
Section Bare.
Variable t : str.
Hypothesis Ht : existsb strange t = false.
Lemma bare_end : endBlock t = false. Proof. unfold endBlock. now rewrite (needs_search strange). Qed.
Lemma bare_cuda_end : isCudaEndDef t = false. Proof. unfold isCudaEndDef. now rewrite (needs_match strange). Qed.
Lemma bare_section : getSectionNameDef t = None. Proof. unfold getSectionNameDef. now rewrite (needs_search strange). Qed.
Lemma bare_label : label_of t = None.
Proof.
  unfold label_of, getLabel, getLabelAssignment, getAssignmentDef, getCudaLabel.
  repeat (first [rewrite (needs_search strange) by (reflexivity || assumption)|rewrite (needs_match strange) by (reflexivity || assumption)]; cbn [option_map]). reflexivity.
Qed.
Lemma bare_brace : has_char "}"%char t = false.
Proof.
  destruct (has_char _ t) eqn:E; [|reflexivity]. unfold has_char in E. apply existsb_exists in E as (c & A & B). apply ceq_true in B. subst c.
  rewrite <- Ht. symmetry. apply existsb_exists. exists "}"%char. split; [exact A|reflexivity].
Qed.
Lemma bare_place w : place_directive w t = None.
Proof.
  unfold place_directive, getFileDef, getSourceRef, getSourceInfoFromStabs, get6502DbgInfo, getD2LineInfo, getD2FileInfo.
  repeat (first [rewrite (needs_search strange) by (reflexivity || assumption)|rewrite (needs_match strange) by (reflexivity || assumption)]; cbn [fst snd negb Z.eqb option_map]). reflexivity.
Qed.
End Bare.

(** *** What is carried from line to line *)
Definition like (w w' : world) : Prop :=
  w_place w = w_place w' /\ w_sect w = w_sect w' /\ w_label w = w_label w' /\ w_parent w = w_parent w' /\ w_def w = w_def w'.
Lemma like_locates w w' t : like w w' -> locates w t = locates w' t.
Proof. intros (A & _). unfold locates, closes. now rewrite A. Qed.
Lemma like_pre w w' t : like w w' -> like (pre_world w t) (pre_world w' t).
Proof.
  intros L. pose proof (like_locates w w' t L) as E. destruct L as (A & B & C & D & F). unfold like, pre_world, pre_label. cbn.
  rewrite E. unfold closes. rewrite A, B, C, D, F. auto.
Qed.
Lemma like_class flt flt' h t w w' : like w w' -> like (class_world flt h t w) (class_world flt' h t w').
Proof. intros (A & B & C & D & F). unfold like, class_world. cbn. rewrite A, B, C, D, F. auto. Qed.
Lemma bare_pre w t : existsb strange t = false -> pre_world w t = w /\ locates w t = false /\ closes w t = false.
Proof.
  intros H. assert (X : closes w t = false) by (unfold closes; rewrite (bare_end _ H), (bare_brace _ H); apply andb_false_r).
  assert (Y : locates w t = false) by (unfold locates; rewrite X, (bare_place _ H); reflexivity).
  split; [|now split]. unfold pre_world, pre_label, next_section. rewrite X, Y, (bare_place _ H), (bare_section _ H). now destruct w as [p ? ? ? ? ?].
Qed.
Lemma bare_class flt w t : existsb strange t = false -> like (class_world flt false t w) w.
Proof.
  intros H. unfold like, class_world, opens, next_label, next_parent, found. rewrite (bare_label _ H), (bare_cuda_end _ H). cbn.
  rewrite !orb_false_r, andb_true_r. destruct w as [[? ? ? ?] ? ? ? ? ?]; cbn. auto.
Qed.

(** *** Stored lines *)
Lemma label_fix raw : all_blank raw = false -> all_blank (fixLabelIndentation raw) = false.
Proof.
  intros H. unfold fixLabelIndentation. destruct (is_probably_label raw) eqn:E; [|exact H]. unfold is_probably_label in E.
  apply ends_with_spec in E as (a & E). unfold getLineWithoutComment in E. set (n := glwc_loop _ _ _ _ _) in E.
  assert (X : In ":"%char raw) by (rewrite <- (firstn_skipn n raw), E; apply in_or_app; left; apply in_or_app; right; now left).
  apply blank_iff. exists ":"%char. split; [|reflexivity]. clear - X. unfold ltrim. induction raw as [|c t IH]; [destruct X|]. cbn [drop_while].
  destruct (is_space c) eqn:Ec; [|exact X]. apply IH. destruct X as [->|X]; [discriminate|exact X].
Qed.
Lemma clean_some flt nest raw : all_blank raw = false -> clean flt nest raw <> [].
Proof.
  intros H. assert (X : all_blank (clean flt nest raw) = false); [|intros E; rewrite E in X; discriminate].
  destruct (0 <? nest) eqn:E.
  - replace (clean flt nest raw) with (clean flt 0 (fixLabelIndentation raw)) by (unfold clean; rewrite E; reflexivity).
    apply clean_not_blank; [lia|now apply label_fix].
  - apply clean_not_blank; [apply Z.ltb_ge in E; exact E|exact H].
Qed.
Lemma last_below (ks : list nat) k j : In j ks -> (j < k)%nat -> exists i, In i ks /\ (j <= i < k)%nat /\ forall x, In x ks -> ~ (i < x < k)%nat.
Proof.
  intros Hj. induction k as [|k IH]; intros Hk; [lia|]. destruct (in_dec Nat.eq_dec k ks) as [Hin|Hin].
  - exists k. split; [exact Hin|]. split; [lia|]. intros x _. lia.
  - assert (X : (j < k)%nat) by (assert (j <> k) by (intros ->; contradiction); lia). destruct (IH X) as (i & A & B & C). exists i. split; [exact A|]. split; [lia|].
    intros x Hx Y. assert (x <> k) by (intros ->; contradiction). apply (C x Hx). lia.
Qed.
Lemma stored_less flt flt' cs ks ks' : (forall k, text_at flt' cs k = text_at flt cs k) -> (forall k, verdict_at flt' cs k = Kept -> verdict_at flt cs k = Kept) -> Forall cand_ok cs ->
  (forall k, In k ks <-> stored_at flt cs ks k) -> (forall k, In k ks' <-> stored_at flt' cs ks' k) -> incl ks' ks.
Proof.
  intros Ht Hv Hc A B.
  assert (T : forall k, In k ks' -> text_at flt cs k <> [] -> In k ks).
  { intros k Hk Hne. apply A. apply B in Hk. unfold stored_at in *. unfold text_at in Hne. destruct (nth_error cs k) as [[raw|raw|raw nest]|] eqn:E; try contradiction. now apply Hv. }
  intros k Hk. destruct (nth_error cs k) as [[raw|raw|raw nest]|] eqn:E.
  - apply B in Hk. unfold stored_at in Hk. rewrite E in Hk. destruct Hk.
  - pose proof Hk as Hk0. apply B in Hk. unfold stored_at in Hk. rewrite E in Hk. destruct Hk as (j & J1 & J2 & J3 & J4). rewrite Ht in J3.
    pose proof (T j J1 J3) as Jk. destruct (last_below ks k j Jk J2) as (i & I1 & I2 & I3). apply A. unfold stored_at. rewrite E. exists i.
    split; [exact I1|]. split; [lia|]. split; [|exact I3]. intros X. destruct (Nat.eq_dec i j) as [->|Hij]; [contradiction|].
    apply (J4 i); [|lia]. apply B. apply A in I1. unfold stored_at in *. unfold text_at in X. destruct (nth_error cs i) as [[r|r|r n]|] eqn:Ei; try contradiction.
    + exists j. split; [exact J1|]. split; [lia|]. split; [rewrite Ht; exact J3|]. intros x Hx. specialize (J4 x Hx). lia.
    + exfalso. apply nth_error_In in Ei. rewrite Forall_forall in Hc. destruct (Hc _ Ei) as [_ Hr]. now apply (clean_some flt n r).
  - apply A. apply B in Hk. unfold stored_at in *. rewrite E in *. now apply Hv.
  - apply B in Hk. unfold stored_at in Hk. rewrite E in Hk. destruct Hk.
Qed.

Section Two.
Variables (flt flt' : Filter).
Hypothesis Hoff : f_directives flt = false.
Hypothesis Hon : f_directives flt' = true.
Hypothesis Hcom : f_comment_only flt' = f_comment_only flt.
Hypothesis Hws : f_whitespace flt' = f_whitespace flt.
Hypothesis Hlib : f_library_functions flt = false.
Hypothesis Hlib' : f_library_functions flt' = false.

Lemma scan_line_both sc l : scan_line flt' sc l = scan_line flt sc l.
Proof. unfold scan_line. now rewrite Hcom. Qed.
Lemma scan_lines_both ls : forall sc, scan_lines flt' sc ls = scan_lines flt sc ls.
Proof. induction ls as [|l t IH]; intros sc; cbn [scan_lines]; [reflexivity|]. rewrite scan_line_both. destruct (scan_line flt sc l). now rewrite IH. Qed.
Lemma scan_both input : scan_input flt' input = scan_input flt input.
Proof. unfold scan_input. destruct (raw_lines [] input) as [ls r]. rewrite scan_lines_both. destruct (scan_lines flt scan0 ls). now rewrite scan_line_both. Qed.
Lemma clean_both nest raw : clean flt' nest raw = clean flt nest raw.
Proof. unfold clean. now rewrite Hws. Qed.
Lemma comment_both c raw : only_comment flt' c raw = only_comment flt c raw.
Proof. unfold only_comment. now rewrite Hcom. Qed.
Lemma hidden_off w t : hidden_start flt w t = false.
Proof. unfold hidden_start. now rewrite Hoff. Qed.
Lemma hidden_on w t : hidden_start flt' w t = true -> startProcBlock t = true.
Proof. unfold hidden_start. rewrite !andb_true_iff. tauto. Qed.

(** Every line with the start of a procedure is nothing else. *)
Definition bare_starts (cs : list cand) : Prop :=
  forall raw nest, In (CText raw nest) cs -> startProcBlock (clean flt nest raw) = true -> bare_start (clean flt nest raw).
Lemma like_text w w' raw t : like w w' -> (startProcBlock t = true -> bare_start t) -> like (world_text flt w raw t) (world_text flt' w' raw t).
Proof.
  intros L H. unfold world_text. rewrite hidden_off. destruct (hidden_start flt' w' t) eqn:E.
  - apply hidden_on in E. apply H, bare_strange in E. destruct (bare_pre w t E) as (A & B & _). rewrite A, B.
    destruct (only_comment _ _ _); [exact L|]. destruct (bare_class flt w t E) as (X1 & X2 & X3 & X4 & X5), L as (L1 & L2 & L3 & L4 & L5).
    unfold like. rewrite X1, X2, X3, X4, X5. auto.
  - rewrite comment_both. replace (pl_cuda (w_place w')) with (pl_cuda (w_place w)) by now rewrite (proj1 L).
    destruct (only_comment _ _ _); [now apply like_pre|]. rewrite (like_locates w w' t L). now apply like_class, like_pre.
Qed.
Lemma worlds_like cs : bare_starts cs -> like (worlds flt cs) (worlds flt' cs).
Proof.
  induction cs as [|c cs IH] using rev_ind; intros H; [repeat split|]. unfold worlds. rewrite !fold_left_app. cbn [fold_left].
  assert (L : like (worlds flt cs) (worlds flt' cs)) by (apply IH; intros raw nest X; apply H, in_or_app; now left).
  destruct c as [raw|raw|raw nest]; [exact L|exact L|]. cbn [world_cand]. rewrite clean_both. apply like_text; [exact L|].
  apply H, in_or_app. right. now left.
Qed.
Lemma bare_firstn cs k : bare_starts cs -> bare_starts (firstn k cs).
Proof. intros H raw nest X. apply H. rewrite <- (firstn_skipn k cs). apply in_or_app. now left. Qed.

(** *** Which lines are stored *)
Lemma text_both cs k : text_at flt' cs k = text_at flt cs k.
Proof. unfold text_at, cand_text. destruct (nth_error cs k) as [[raw|raw|raw nest]|]; auto. now rewrite clean_both. Qed.
Lemma verdict_both cs k : bare_starts cs -> verdict_at flt' cs k = Kept -> verdict_at flt cs k = Kept.
Proof.
  intros H. unfold verdict_at. destruct (nth_error cs k) as [[raw|raw|raw nest]|]; auto. rewrite clean_both.
  pose proof (worlds_like _ (bare_firstn cs k H)) as L. set (w := worlds flt _) in *. set (w' := worlds flt' _) in *. unfold verdict_of.
  rewrite hidden_off, comment_both, <- (proj1 L). destruct (hidden_start flt' w' _); [discriminate|]. cbn [orb].
  destruct (only_comment _ _ _); [discriminate|]. unfold class_verdict. now rewrite Hoff, andb_false_r.
Qed.
Lemma verdict_less cs k : bare_starts cs -> verdict_at flt cs k = Kept -> verdict_at flt' cs k = Kept \/
  exists raw nest, nth_error cs k = Some (CText raw nest) /\
    (startProcBlock (clean flt nest raw) = true \/ symbol_line (locates (worlds flt (firstn k cs)) (clean flt nest raw)) (w_def (worlds flt (firstn k cs))) (clean flt nest raw) = true).
Proof.
  intros H. unfold verdict_at. destruct (nth_error cs k) as [[raw|raw|raw nest]|]; try discriminate. rewrite clean_both.
  pose proof (worlds_like _ (bare_firstn cs k H)) as L. set (w := worlds flt _) in *. set (w' := worlds flt' _) in *. unfold verdict_of.
  rewrite hidden_off, comment_both, <- (proj1 L). cbn [orb]. destruct (only_comment _ _ _); [discriminate|]. intros _. rewrite orb_false_r.
  destruct (hidden_start flt' w' _) eqn:E; [right; exists raw, nest; split; [reflexivity|left; now apply hidden_on in E]|].
  rewrite <- (like_locates w w' _ L), <- (proj2 (proj2 (proj2 (proj2 L)))). unfold class_verdict. rewrite Hon, andb_true_r.
  destruct (symbol_line _ _ _) eqn:S; [|now left]. right. exists raw, nest. auto.
Qed.
End Two.

(** *** What the lines hold *)
(** The second list comes from the first by leaving out lines of [P]. *)
Inductive thinned {A B} (P : A -> Prop) (Q : A -> B -> Prop) : list A -> list B -> Prop :=
| thin_nil : thinned P Q [] []
| thin_drop l ls ls' : P l -> thinned P Q ls ls' -> thinned P Q (l :: ls) ls'
| thin_keep l l' ls ls' : Q l l' -> thinned P Q ls ls' -> thinned P Q (l :: ls) (l' :: ls').
Lemma thin_rows {A B} (P : A -> Prop) (Q : A -> B -> Prop) (R : nat -> A -> Prop) (R' : nat -> B -> Prop) ks ls : Forall2 R ks ls -> StronglySorted lt ks ->
  forall ks' ls', Forall2 R' ks' ls' -> StronglySorted lt ks' -> incl ks' ks ->
  (forall k l l', In k ks -> R k l -> R' k l' -> Q l l') -> (forall k l, In k ks -> R k l -> ~ In k ks' -> P l) -> thinned P Q ls ls'.
Proof.
  induction 1 as [|k l ks ls HR _ IH]; intros S ks' ls' F' S' I HQ HP.
  - destruct F' as [|k' ? ? ?]; [constructor|]. destruct (I k'). now left.
  - inversion S as [|? ? Sk Sl]; subst. rewrite Forall_forall in Sl. destruct F' as [|k' l' ks' ls' HR' F'].
    + apply thin_drop; [apply (HP k l); auto; now left|]. apply IH with (ks' := []); auto; try constructor. { intros x []. }
      { intros x y y' Hx. apply HQ. now right. } { intros x y Hx. apply HP. now right. }
    + inversion S' as [|? ? Sk' Sl']; subst. rewrite Forall_forall in Sl'. destruct (Nat.eq_dec k' k) as [->|Hk].
      * apply thin_keep; [apply (HQ k); auto; now left|]. apply IH with (ks' := ks'); auto.
        { intros x Hx. destruct (I x (or_intror Hx)) as [<-|X]; [|exact X]. specialize (Sl' _ Hx). lia. }
        { intros x y y' Hx. apply HQ. now right. }
        { intros x y Hx Hy Hn. apply (HP x y); [now right|exact Hy|]. intros [->|X]; [|contradiction]. specialize (Sl _ Hx). lia. }
      * assert (Hk' : (k < k')%nat) by (destruct (I k' (or_introl eq_refl)) as [->|X]; [now contradiction Hk|exact (Sl _ X)]).
        apply thin_drop.
        { apply (HP k l); [now left|exact HR|]. intros [->|X]; [now contradiction Hk|]. specialize (Sl' _ X). lia. }
        apply IH with (ks' := k' :: ks'); auto.
        { intros x Hx. destruct (I x Hx) as [<-|X]; [|exact X]. destruct Hx as [->|Hx]; [lia|]. specialize (Sl' _ Hx). lia. }
        { intros x y y' Hx. apply HQ. now right. } { intros x y Hx. apply HP. now right. }
Qed.

(** Two lines that say the same, location of labels excepted. *)
Record alike (l l' : asm_line_v) : Prop := {
  al_text : lv_text l' = lv_text l;
  al_section : v_str (lv_section l') = v_str (lv_section l);
  al_source : lv_is_label l = false -> spot_of (lv_source l') = spot_of (lv_source l);
  al_is_label : lv_is_label l' = lv_is_label l;
  al_label : v_str (lv_label l') = v_str (lv_label l);
  al_internal : lv_is_internal_label l' = lv_is_internal_label l;
  al_assignment : lv_is_assignment l' = lv_is_assignment l;
  al_data : lv_is_data l' = lv_is_data l;
  al_directive : lv_is_directive l' = lv_is_directive l;
  al_opcode : lv_has_opcode l' = lv_has_opcode l;
  al_inline : lv_is_inline_asm l' = lv_is_inline_asm l;
  al_parent : lv_closest_parent_label l' = lv_closest_parent_label l;
  al_refs : map (fun r => (v_str (lbv_name r), lbv_range r)) (lv_labels l') = map (fun r => (v_str (lbv_name r), lbv_range r)) (lv_labels l) }.
(** Blank lines, starts of procedures, and directives other than .inst. *)
Definition left_out (l : asm_line_v) : Prop := lv_is_label l = false /\
  (lv_text l = [] \/ startProcBlock (lv_text l) = true \/ (lv_is_directive l = true /\ lv_is_data l = false /\ isInstOpcode (lv_text l) = false)).

Lemma rows_alike mblen flt flt' cs k l l' : (forall nest raw, clean flt' nest raw = clean flt nest raw) ->
  like (worlds flt (firstn k cs)) (worlds flt' (firstn k cs)) -> like (worlds flt (firstn (S k) cs)) (worlds flt' (firstn (S k) cs)) ->
  srow mblen flt cs k l -> srow mblen flt' cs k l' -> alike l l'.
Proof.
  intros Hcl L L2. unfold srow. destruct (nth_error _ k) as [[raw|raw|raw nest]|] eqn:E; try contradiction.
  { intros (i & ->) (i' & ->). split; reflexivity. }
  cbv zeta. rewrite Hcl. set (t := clean flt nest raw).
  rewrite <- (like_locates _ _ t L). destruct L as (_ & _ & _ & _ & L5). rewrite <- L5. destruct L2 as (M1 & M2 & M3 & M4 & _).
  set (w := worlds flt (firstn k _)) in *. set (v := worlds flt (firstn (S k) _)) in *. set (v' := worlds flt' (firstn (S k) _)) in *. clearbody w v v'.
  intros [A1 A2 A3 A4 A5 A6 A7 A8 A9 A10 A11 A12 A13] [B1 B2 B3 B4 B5 B6 B7 B8 B9 B10 B11 B12 B13].
  split; try congruence.
  - intros X. assert (Y : found (locates w t) t = None) by (rewrite X in A4; now destruct (found (locates w t) t)). rewrite (A3 Y), (B3 Y). congruence.
  - rewrite A12, B12, B7, B5, <- A5, <- A7, M4. reflexivity.
  - rewrite A13, B13, M1. reflexivity.
Qed.
Section Runs.
Variable P : asm_line_v -> Prop.
Hypothesis P_label : forall l, P l -> lv_is_label l = false.
Hypothesis P_keeps : forall l l', lv_text l' = lv_text l -> lv_is_label l' = lv_is_label l -> lv_is_directive l' = lv_is_directive l -> lv_is_data l' = lv_is_data l -> P l -> P l'.
(** The names of labels, and the references shown. *)
Definition named (ls : list asm_line_v) (k : str) : bool := existsb (fun d => lv_is_label d && str_eqb (v_str (lv_label d)) k) ls.
Lemma thin_named ls ls' k : thinned P alike ls ls' -> named ls' k = named ls k.
Proof.
  unfold named. induction 1 as [|l ls ls' X _ IH|l l' ls ls' Q _ IH]; [reflexivity| |]; cbn [existsb].
  - now rewrite (P_label _ X), IH.
  - now rewrite IH, (al_is_label _ _ Q), (al_label _ _ Q).
Qed.
Lemma defined_named mb f i k : Z.of_nat (length i) < two31 ->
  map_contains (t_labels_defined (read_lines mb f tstate0 i)) k = named (t_lines (read_lines mb f tstate0 i)) k.
Proof.
  intros Hlen. apply eq_iff_eq_true. unfold named. rewrite map_contains_in, existsb_exists. split.
  - intros (v & j & A & B). destruct (table_lines _ _ _ _ _ Hlen A) as [(x & X & _ & Xl & Xn) _]. apply nth_error_In in X. exists x. split; [exact X|].
    rewrite Xl, Xn, B, str_eqb_refl. reflexivity.
  - intros (d & A & B). apply andb_prop in B as [B1 B2]. apply str_eqb_eq in B2.
    destruct (count_read mb f i) as [_ C]. destruct C as [_ C _]; [pose proof (read_total mb f i); lia|].
    destruct (C d A B1) as (v & j & K1 & K2). exists v, j. split; [exact K1|]. congruence.
Qed.
Lemma alike_shown l l' s s' : alike l l' -> t_files s' = t_files s -> (forall k, map_contains (t_labels_defined s') k = map_contains (t_labels_defined s) k) ->
  alike (shown s l) (shown s' l').
Proof.
  intros [A1 A2 A3 A4 A5 A6 A7 A8 A9 A10 A11 A12 A13] Hf Hd.
  assert (E : forall st x, exists src, shown st x = set_lv_source src (filterOutReferedLabelsThatArentDefined st x)).
  { intros st x. unfold shown, resolve_file. destruct (negb _); [destruct (files_at _ _); eauto|]. exists (lv_source x). destruct x. reflexivity. }
  assert (F : map (fun r => (v_str (lbv_name r), lbv_range r)) (filter (fun r => map_contains (t_labels_defined s') (v_str (lbv_name r))) (lv_labels l')) =
              map (fun r => (v_str (lbv_name r), lbv_range r)) (filter (fun r => map_contains (t_labels_defined s) (v_str (lbv_name r))) (lv_labels l))).
  { revert A13 Hd. clear. generalize (lv_labels l'), (lv_labels l). intros u v E Hd. revert v E.
    induction u as [|x u IH]; intros [|y v] E; try discriminate; [reflexivity|]. cbn [map] in E. injection E as E1 E2 E3. cbn [filter]. rewrite E1, Hd.
    destruct (map_contains _ _); cbn [map]; rewrite (IH _ E3); [now rewrite E1, E2|reflexivity]. }
  destruct (E s l) as (r & Er), (E s' l') as (r' & Er'). 
  assert (S : lv_is_label l = false -> spot_of (lv_source (shown s' l')) = spot_of (lv_source (shown s l))).
  { intros Hl. specialize (A3 Hl). unfold shown, resolve_file, filterOutReferedLabelsThatArentDefined. vsimp. rewrite Hf.
    unfold spot_of in A3. injection A3 as C1 C2 C3 C4 C5 C6 C7. rewrite C2. destruct (negb _).
    - destruct (files_at _ _); unfold spot_of; vsimp; [cbn; now rewrite ?C2, ?C3, ?C4, ?C5, ?C6, ?C7|reflexivity].
    - unfold spot_of. vsimp. congruence. }
  split; rewrite ?Er, ?Er' in *; unfold filterOutReferedLabelsThatArentDefined in *; vsimp; auto.
Qed.
Lemma left_shown s l : P l -> P (shown s l).
Proof. intros H. apply (P_keeps l); [..|exact H]; rewrite shown_core; reflexivity. Qed.
Lemma thin_map ls ls' s s' : t_files s' = t_files s -> (forall k, map_contains (t_labels_defined s') k = map_contains (t_labels_defined s) k) ->
  thinned P alike ls ls' -> thinned P alike (map (shown s) ls) (map (shown s') ls').
Proof.
  intros Hf Hd. induction 1; cbn [map]; [constructor|apply thin_drop; [now apply left_shown|assumption]|apply thin_keep; [now apply alike_shown|assumption]].
Qed.
(** The same with marks, which the pass over unused labels adds. *)
Lemma alike_marks l l' m m' : alike l l' -> same_but_marks l m -> same_but_marks l' m' -> alike m m'.
Proof. intros [A1 A2 A3 A4 A5 A6 A7 A8 A9 A10 A11 A12 A13] -> ->. split; assumption. Qed.
Lemma thin_marks ls ls' : thinned P alike ls ls' -> forall ms ms', Forall2 same_but_marks ls ms -> Forall2 same_but_marks ls' ms' -> thinned P alike ms ms'.
Proof.
  induction 1 as [|l ls ls' X _ IH|l l' ls ls' Q _ IH]; intros ms ms' F F'.
  - inversion F; inversion F'; subst. constructor.
  - inversion F as [|? m ? ? M]; subst. apply thin_drop; [|now apply IH]. apply (P_keeps l); [..|exact X]; rewrite M; reflexivity.
  - inversion F as [|? m ? ? M]; inversion F' as [|? m' ? ? M']; subst. apply thin_keep; [eapply alike_marks; eauto|now apply IH].
Qed.
Lemma all_kept mb f oref olab fuel i vis s vis' : f_unused_labels f = false -> f_compatmode f = false -> AsmText.run mb f oref olab fuel i vis = Ok (s, vis') ->
  exists L, Forall2 same_but_marks (t_lines (read_lines mb f tstate0 i)) L /\ t_lines s = map (shown (read_lines mb f tstate0 i)) L.
Proof.
  intros F1 F2 H. destruct (run_parted _ _ _ _ _ _ _ _ _ H) as (L & kept & out & A & B & C & D). exists L. split; [exact A|].
  assert (G : kept = L).
  { clear - B F1 F2. assert (N : forall p l, ~ gone f p l) by (intros p l; unfold gone; intuition congruence).
    revert B. generalize (@nil asm_line_v) at 1. intros p0 B. induction B as [|pre l t kept out _ _ IH|pre l t kept out P]; [reflexivity| |contradiction (N _ _ P)]. now rewrite IH. }
  rewrite C, G. apply map_ext. intros l. reflexivity.
Qed.
Lemma run_thinned mblen flt flt' input oref olab fuel vis s v oref' olab' fuel' vis' s' v' : Z.of_nat (length input) < two31 ->
  thinned P alike (t_lines (read_lines mblen flt tstate0 input)) (t_lines (read_lines mblen flt' tstate0 input)) ->
  t_files (read_lines mblen flt' tstate0 input) = t_files (read_lines mblen flt tstate0 input) ->
  f_unused_labels flt = false -> f_compatmode flt = false -> f_unused_labels flt' = false -> f_compatmode flt' = false ->
  AsmText.run mblen flt oref olab fuel input vis = Ok (s, v) -> AsmText.run mblen flt' oref' olab' fuel' input vis' = Ok (s', v') ->
  thinned P alike (t_lines s) (t_lines s').
Proof.
  intros Hlen R1 R2 F1 F2 F1' F2' H H'. destruct (all_kept _ _ _ _ _ _ _ _ _ F1 F2 H) as (L & A & ->). destruct (all_kept _ _ _ _ _ _ _ _ _ F1' F2' H') as (L' & A' & ->).
  apply thin_map; [exact R2| |eapply thin_marks; eauto].
  intros k. rewrite !defined_named by exact Hlen. now apply thin_named.
Qed.
End Runs.

Section Results.
Variables (mblen : str -> Z) (flt flt' : Filter) (input : str).
Hypothesis Hoff : f_directives flt = false.
Hypothesis Hon : f_directives flt' = true.
Hypothesis Hcom : f_comment_only flt' = f_comment_only flt.
Hypothesis Hws : f_whitespace flt' = f_whitespace flt.
Hypothesis Hlib : f_library_functions flt = false.
Hypothesis Hlib' : f_library_functions flt' = false.
Hypothesis Hbare : bare_starts flt (scan_input flt input).

Lemma rows_left k l ks ks' : (forall k, In k ks <-> stored_at flt (scan_input flt input) ks k) ->
  (forall k, In k ks' <-> stored_at flt' (scan_input flt input) ks' k) -> In k ks -> srow mblen flt (scan_input flt input) k l -> ~ In k ks' -> left_out l.
Proof.
  intros A B Hk S Hn. apply A in Hk. unfold stored_at in Hk. unfold srow in S. unfold left_out.
  destruct (nth_error (scan_input flt input) k) as [[raw|raw|raw nest]|] eqn:E; try contradiction.
  { destruct S as (i & ->). split; [reflexivity|]. now left. }
  cbv zeta in S. destruct (verdict_less flt flt' Hoff Hon Hcom Hws _ k Hbare Hk) as [X|(r & n & X & Y)].
  { exfalso. apply Hn, B. unfold stored_at. now rewrite E. }
  rewrite E in X. injection X as <- <-. destruct S as [A1 A2 A3 A4 A5 A6 A7 A8 A9 A10 A11 A12 A13]. rewrite A1, A4, A8, A9. destruct Y as [Y|Y].
  - split; [|auto]. pose proof (Hbare raw nest (nth_error_In _ _ E) Y) as Z. apply bare_strange in Z. unfold found. rewrite (bare_label _ Z). now destruct (locates _ _).
  - unfold symbol_line, plain in Y. rewrite !andb_true_iff, !negb_true_iff in Y. destruct Y as [[[[Y1 Y2] Y3] Y4] Y5]. split; [exact Y2|]. right. right.
    split; [|auto]. unfold directive_line, plain. rewrite Y2, Y3. apply orb_false_elim in Y1 as [Y0 Y1]. rewrite Y0, Y1. cbn. exact Y4.
Qed.
Lemma read_thinned : thinned left_out alike (t_lines (read_lines mblen flt tstate0 input)) (t_lines (read_lines mblen flt' tstate0 input)) /\
  t_files (read_lines mblen flt' tstate0 input) = t_files (read_lines mblen flt tstate0 input).
Proof.
  destruct (read_stored mblen flt Hlib input) as (ks & js & [A0 A1 A2 A3 A4 _ _ _ _]).
  destruct (read_stored mblen flt' Hlib' input) as (ks' & js' & [B0 B1 B2 B3 B4 _ _ _ _]). rewrite (scan_both flt flt' Hcom) in *. split.
  - eapply thin_rows; [exact A3|exact A1|exact B3|exact B1|apply (stored_less flt flt' (scan_input flt input)); [intros k; apply text_both; assumption|intros k; apply verdict_both; assumption|apply scan_input_ok|exact A4|exact B4]| |].
    + intros k l l' _. apply rows_alike; [intros; now apply clean_both| |]; apply worlds_like; auto; now apply bare_firstn.
    + intros k l Hk S Hn. eapply rows_left; eauto.
  - pose proof (worlds_like flt flt' Hoff Hcom Hws _ Hbare) as (L & _). rewrite <- A0, <- B0 in L. unfold world_of, place_of in L. cbn [w_place] in L. congruence.
Qed.

End Results.
Lemma left_label l : left_out l -> lv_is_label l = false.
Proof. now intros [H _]. Qed.
Lemma left_keeps l l' : lv_text l' = lv_text l -> lv_is_label l' = lv_is_label l -> lv_is_directive l' = lv_is_directive l -> lv_is_data l' = lv_is_data l -> left_out l -> left_out l'.
Proof. unfold left_out. intros -> -> -> ->. auto. Qed.
