(** The text parser: exactly which lines the last pass removes. *)
From Verif Require Import AsmLemmas AsmRead AsmMark AsmTrace AsmThms AsmUse AsmSearch.

(** *** A label line that is not internal has no parent recorded *)
Definition no_parent (l : asm_line_v) : Prop := lv_is_label l = true -> lv_is_internal_label l = false -> lv_closest_parent_label l = [].
Lemma no_parent_same l l' : same_line l l' -> no_parent l -> no_parent l'.
Proof. intros E H. unfold no_parent in *. rewrite E. exact H. Qed.
Lemma no_parent_list ls ls' : same_lines ls ls' -> Forall no_parent ls -> Forall no_parent ls'.
Proof.
  induction 1 as [|a b t t' H _ IH]; intros F; [constructor|]. inversion F; subst. constructor; [eapply no_parent_same; eassumption|auto].
Qed.
Lemma keep_parent mblen l s : Forall no_parent (t_lines s) ->
  (lv_is_label l = true -> lv_is_internal_label l = false -> v_str (t_previousParentLabel s) = v_str (lv_label l)) ->
  Forall no_parent (t_lines (eol_keep mblen l s)).
Proof.
  intros F H. rewrite keep_lines. apply Forall_app. split; [exact F|]. constructor; [|constructor].
  intros A B. unfold final_line. vsimp. rewrite (H A B), str_eqb_refl, orb_true_r. reflexivity.
Qed.
Lemma eol_parent mblen flt s : Forall no_parent (t_lines s) -> good flt s -> Forall no_parent (t_lines (eol mblen flt s)).
Proof.
  intros HT Hg.
  assert (Hq1 : forall s1, quiet (begun s) s1 -> Forall no_parent (t_lines s1)).
  { intros s1 Hq. eapply no_parent_list; [exact (q_lines _ _ Hq)|exact HT]. }
  destruct (eol_cases mblen flt s Hg) as [_|_ _|s1 l _ _ Hq _ _ _|handled s1 l _ _ Hq _ Hf Hl0 _ _].
  - exact (Hq1 _ (base1_quiet flt s)).
  - specialize (Hq1 _ (base1_quiet flt s)). destruct (blank_cases (base1 flt s)) as [[_ ->]|[_ ->]]; [exact Hq1|].
    unfold keep_text. tsimp. apply Forall_app. split; [exact Hq1|]. constructor; [|constructor]. intros A. discriminate A.
  - exact (Hq1 _ Hq).
  - specialize (Hq1 _ Hq). pose proof (label_cases handled l s1) as Hl. pose proof (classify_cases mblen flt handled l s1) as Hc.
    destruct (label_step handled l s1) as [l2 s2]. cbn [fst snd] in *.
    assert (H2 : t_lines s2 = t_lines s1 /\ (lv_is_label l2 = true -> lv_is_internal_label l2 = false -> v_str (t_previousParentLabel s2) = v_str (lv_label l2))).
    { destruct Hl as [|_|n a c _]; [split; [reflexivity|intros A; discriminate A]..|]. unfold define_label, labelled. vsimp.
      destruct c, (isInternalLabel (v_str (slice l n))) eqn:Ei; tsimp; (split; [reflexivity|]); intros _ B; cbn [v_str slice] in Ei; try reflexivity; congruence. }
    destruct H2 as [H2 H3].
    destruct Hc as [Hn|l3 Hn Hnl Hnd _ Hdir _ E3|l3 Hn Hnl Hnd _ Hdir _ E3|l3 Hn Hnl Hnd _ E3|Hn _].
    + apply keep_parent; [destruct (isCudaEndDef _); tsimp; rewrite H2; exact Hq1|]. intros A B. rewrite <- (H3 A B). destruct (isCudaEndDef _); reflexivity.
    + pose proof (directive_frame l3 s2) as (u & c & Hfr). unfold move_filtered. rewrite Hfr. tsimp. rewrite H2. exact Hq1.
    + pose proof (directive_frame l3 s2) as (u & c & Hfr). rewrite Hfr. apply keep_parent; tsimp; [rewrite H2; exact Hq1|].
      intros A. exfalso. rewrite E3 in A. destruct handled; cbn in A; congruence.
    + apply keep_parent; [rewrite H2; exact Hq1|]. intros A. exfalso. rewrite E3 in A. destruct handled; cbn in A; congruence.
    + apply keep_parent; [rewrite H2; exact Hq1|exact H3].
Qed.
Lemma read_parent mblen flt input : Forall no_parent (t_lines (read_lines mblen flt tstate0 input)).
Proof.
  apply read_invariant with (P := fun s => Forall no_parent (t_lines s)).
  - intros s c H _. exact H.
  - intros. now apply eol_parent.
  - constructor.
  - apply good0.
  - reflexivity.
Qed.

(** *** The rule *)
Definition unmarked (l : asm_line_v) : Prop :=
  lv_is_used l = false /\ lv_is_used_through_alias l = false /\ lv_is_used_data_through_alias l = false.
(** A label that starts a block to be removed. *)
Definition unused_function (l : asm_line_v) : Prop :=
  lv_is_label l = true /\ unmarked l /\ lv_is_internal_label l = false /\ lv_is_inline_asm l = false.
(** [ls] ends inside such a block: no label marked as used comes after its label. *)
Definition in_unused (ls : list asm_line_v) : Prop :=
  exists a l b, ls = a ++ l :: b /\ unused_function l /\ Forall (fun x => lv_is_label x = true -> lv_is_used x = false) b.
(** The last label of [ls], if there is one, is not marked. *)
Definition below_unmarked (ls : list asm_line_v) : Prop :=
  forall a l b, ls = a ++ l :: b -> lv_is_label l = true -> Forall (fun x => lv_is_label x = false) b -> unmarked l.
(** A label line that goes although the lines below stay. *)
Definition lone_label (l : asm_line_v) : Prop :=
  lv_is_label l = true /\ lv_is_used l = false /\
  (lv_is_used_through_alias l = true \/
   (lv_is_used_data_through_alias l = false /\ (lv_is_internal_label l = true \/ lv_is_inline_asm l = true))).
(** Line [l], the last of [ls], is removed. *)
Definition gone (flt : Filter) (ls : list asm_line_v) (l : asm_line_v) : Prop :=
  (f_unused_labels flt = true /\ (in_unused ls \/ lone_label l)) \/
  (f_compatmode flt = true /\ f_directives flt = true /\ lv_is_data l = true /\ sv_inside_proc (lv_source l) = false /\ below_unmarked ls).
(** [kept] and [out]: the lines of [ls], after [pre], for which [P] fails and holds. *)
Inductive parted (P : list asm_line_v -> asm_line_v -> Prop) : list asm_line_v -> list asm_line_v -> list asm_line_v -> list asm_line_v -> Prop :=
| PT_nil pre : parted P pre [] [] []
| PT_keep pre l t kept out : ~ P (pre ++ [l]) l -> parted P (pre ++ [l]) t kept out -> parted P pre (l :: t) (l :: kept) out
| PT_out pre l t kept out : P (pre ++ [l]) l -> parted P (pre ++ [l]) t kept out -> parted P pre (l :: t) kept (l :: out).

Lemma snoc_split (ls : list asm_line_v) x a l b : ls ++ [x] = a ++ l :: b -> (b = [] /\ ls = a /\ x = l) \/ exists b', b = b' ++ [x] /\ ls = a ++ l :: b'.
Proof.
  intros E. destruct (rev b) as [|y q] eqn:Eb.
  - assert (b = []) as -> by (rewrite <- (rev_involutive b), Eb; reflexivity). apply app_inj_tail in E as [-> ->]. now left.
  - assert (b = rev q ++ [y]) as -> by (rewrite <- (rev_involutive b), Eb; reflexivity). right. exists (rev q).
    rewrite app_comm_cons, app_assoc in E. apply app_inj_tail in E as [-> ->]. now split.
Qed.
Lemma in_unused_snoc ls x : in_unused (ls ++ [x]) <->
  unused_function x \/ (in_unused ls /\ (lv_is_label x = true -> lv_is_used x = false)).
Proof.
  split.
  - intros (a & l & b & E & H & F). apply snoc_split in E as [(-> & -> & ->)|(b' & -> & ->)]; [now left|right].
    apply Forall_app in F as [F1 F2]. inversion F2; subst. split; [|assumption]. exists a, l, b'. auto.
  - intros [H|[(a & l & b & -> & H & F) Hx]].
    + exists ls, x, []. split; [reflexivity|]. split; [exact H|constructor].
    + exists a, l, (b ++ [x]). split; [now rewrite <- app_assoc|]. split; [exact H|]. apply Forall_app. split; [exact F|]. constructor; [exact Hx|constructor].
Qed.
Lemma below_snoc ls x : below_unmarked (ls ++ [x]) <-> if lv_is_label x then unmarked x else below_unmarked ls.
Proof.
  destruct (lv_is_label x) eqn:E; split.
  - intros H. apply (H ls x []); auto.
  - intros H a l b Eq Hl F. apply snoc_split in Eq as [(-> & -> & ->)|(b' & -> & ->)]; [exact H|].
    apply Forall_app in F as [_ F]. inversion F; subst. congruence.
  - intros H a l b -> Hl F. apply (H a l (b ++ [x])); [now rewrite <- app_assoc|exact Hl|]. apply Forall_app. split; [exact F|now constructor].
  - intros H a l b Eq Hl F. apply snoc_split in Eq as [(-> & -> & ->)|(b' & -> & ->)]; [congruence|].
    apply Forall_app in F as [F _]. exact (H a l b' eq_refl Hl F).
Qed.

(** The loop of removeUnused: its locals say what the lines before say. *)
Record locals (flt : Filter) (pre : list asm_line_v) (r : rstate) : Prop := {
  lo_remove : r_remove r = true <-> f_unused_labels flt = true /\ in_unused pre;
  lo_flags : (r_isUsed r = false /\ r_alias r = false /\ r_dataalias r = false) <-> below_unmarked pre }.
Lemma bool_iff (b : bool) (P : Prop) : (b = true <-> P) -> b = false -> ~ P. Proof. intros H -> X. now apply H in X. Qed.
Lemma locals_step flt s pre r l : locals flt pre r -> no_parent l ->
  let '(only, r') := remove_label flt s r l in
  locals flt (pre ++ [l]) r' /\ (removed flt r' only l = true <-> gone flt (pre ++ [l]) l).
Proof.
  intros [Hr Hf] Hp. unfold remove_label. destruct (lv_is_label l) eqn:El.
  2:{ assert (HL : locals flt (pre ++ [l]) r).
      { constructor.
        - rewrite in_unused_snoc, Hr. unfold unused_function. rewrite El. intuition congruence.
        - rewrite below_snoc, El. exact Hf. }
      split; [exact HL|]. destruct HL as [H1 H2]. unfold removed, gone, lone_label. rewrite El, <- H2, !orb_true_iff, !andb_true_iff, !negb_true_iff, H1.
      intuition congruence. }
  set (r1 := mkR (r_remove r) (lv_is_used l) (lv_is_used_through_alias l) (lv_is_used_data_through_alias l)).
  assert (HF : forall b, (r_isUsed (mkR b (r_isUsed r1) (r_alias r1) (r_dataalias r1)) = false /\ r_alias (mkR b (r_isUsed r1) (r_alias r1) (r_dataalias r1)) = false /\
     r_dataalias (mkR b (r_isUsed r1) (r_alias r1) (r_dataalias r1)) = false) <-> below_unmarked (pre ++ [l])).
  { intros b. rewrite below_snoc, El. cbn. reflexivity. }
  assert (G : forall b only, (b = true <-> f_unused_labels flt = true /\ in_unused (pre ++ [l])) ->
     (b = false -> (only = true <-> f_unused_labels flt = true /\ lone_label l)) ->
     locals flt (pre ++ [l]) (mkR b (r_isUsed r1) (r_alias r1) (r_dataalias r1)) /\
     (removed flt (mkR b (r_isUsed r1) (r_alias r1) (r_dataalias r1)) only l = true <-> gone flt (pre ++ [l]) l)).
  { intros b only H1 H2. split; [constructor; [exact H1|apply HF]|].
    unfold removed, gone. rewrite <- (HF b), !orb_true_iff, !andb_true_iff, !negb_true_iff. cbn [r_remove r_isUsed r_alias r_dataalias].
    destruct b.
    - destruct (proj1 H1 eq_refl). tauto.
    - assert (~ (f_unused_labels flt = true /\ in_unused (pre ++ [l]))) by (apply (bool_iff false); auto). rewrite (H2 eq_refl). intuition congruence. }
  setoid_rewrite in_unused_snoc in G. unfold unused_function, lone_label, unmarked in G. setoid_rewrite El in G.
  destruct (f_unused_labels flt) eqn:Eu.
  2:{ apply (G (r_remove r) false); [rewrite Hr; intuition congruence|intuition congruence]. }
  cbn [r_remove r_isUsed r_alias r_dataalias r1] in *.
  destruct (r_remove r) eqn:Er; cbn [andb negb].
  - assert (Hi : in_unused pre) by (apply Hr; reflexivity).
    destruct (lv_is_used l) eqn:E1.
    + apply (G false false); intuition congruence.
    + apply (G true false); intuition congruence.
  - assert (Hi : ~ in_unused pre) by (intros X; assert (false = true) by (apply Hr; auto); congruence).
    destruct (lv_is_used l) eqn:E1; cbn [negb].
    + apply (G false false); intuition congruence.
    + destruct (lv_is_used_through_alias l) eqn:E2.
      { apply (G false true); intuition congruence. }
      destruct (lv_is_used_data_through_alias l) eqn:E3.
      { apply (G false false); intuition congruence. }
      destruct (lv_is_internal_label l) eqn:E4.
      { apply (G false true); intuition congruence. }
      destruct (lv_is_inline_asm l) eqn:E5.
      { apply (G false true); intuition congruence. }
      rewrite (Hp El E4). cbn [is_nil negb].
      apply (G true false); intuition congruence.
Qed.
Lemma loop_parted flt s ls : forall pre r, locals flt pre r -> Forall no_parent ls ->
  exists kept, fst (remove_loop flt s r ls) = map (shown s) kept /\ parted (gone flt) pre ls kept (snd (remove_loop flt s r ls)).
Proof.
  induction ls as [|l t IH]; intros pre r HL HF; [exists []; split; [reflexivity|constructor]|]. inversion HF as [|? ? Hp HF']; subst.
  cbn [remove_loop]. pose proof (locals_step flt s pre r l HL Hp) as H. destruct (remove_label flt s r l) as [only r'].
  destruct H as [HL' HR]. destruct (IH _ _ HL' HF') as (kept & E & P). destruct (remove_loop flt s r' t) as [k o]. cbn [fst snd] in *.
  destruct (removed flt r' only l) eqn:Er; cbn [fst snd].
  - exists kept. split; [exact E|]. constructor; [now apply HR|exact P].
  - exists (l :: kept). split; [cbn [map]; rewrite E; reflexivity|]. constructor; [|exact P]. intros X. apply HR in X. congruence.
Qed.
Lemma locals0 flt : locals flt [] (mkR false false false false).
Proof.
  constructor; cbn.
  - split; [discriminate|]. intros [_ (a & l & b & E & _)]. destruct a; discriminate.
  - split; [|auto]. intros _ a l b E. destruct a; discriminate.
Qed.

(** The marked lines differ from the lines read in their marks only. *)
Definition same_but_marks (l l' : asm_line_v) : Prop :=
  l' = set_lv_is_used (lv_is_used l') (set_lv_is_used_through_alias (lv_is_used_through_alias l') (set_lv_is_used_data_through_alias (lv_is_used_data_through_alias l') l)).
Lemma marked_parent ord s fuel a b : Forall2 (marked ord s fuel) a b -> Forall no_parent a -> Forall no_parent b.
Proof.
  induction 1 as [|x y a b H _ IH]; intros F; [constructor|]. inversion F; subst. constructor; [|auto].
  destruct H as [E _ _ _]. unfold no_parent in *. rewrite E. assumption.
Qed.
Lemma run_parted mblen flt oref olab fuel input vis s' vis' :
  AsmText.run mblen flt oref olab fuel input vis = Ok (s', vis') ->
  let s := read mblen flt input in
  exists L kept out, Forall2 same_but_marks (t_lines s) L /\ parted (gone flt) [] L kept out /\
    t_lines s' = map (shown s) kept /\ t_filteredlines s' = t_filteredlines s ++ out.
Proof.
  intros H. cbv zeta. destruct (run_ok _ _ _ _ _ _ _ _ _ H) as (L & kept0 & out & [A B C D E F]). exists L.
  assert (HP : Forall no_parent L) by (eapply marked_parent; [exact A|apply read_parent]).
  destruct (loop_parted flt (read mblen flt input) L [] _ (locals0 flt) HP) as (kept & Hk & Hp). rewrite F in Hk, Hp. cbn [fst snd] in *.
  exists kept, out. split; [|split; [exact Hp|subst s'; tsimp; split; [exact Hk|reflexivity]]].
  clear -A. induction A as [|x y a b [M _ _ _] _ IH]; [constructor|]. constructor; [exact M|exact IH].
Qed.
