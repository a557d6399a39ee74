(** The library filter of the objdump parser (C18-C20). *)
From Verif Require Export ObjMode.

(** Output lines before the first label line, then one group per label line. *)
Fixpoint functions (lines : list asm_line) : list asm_line * list (list asm_line) :=
  match lines with
  | [] => ([], [])
  | l :: t => let (pre, gs) := functions t in if l_is_label l then ([], (l :: pre) :: gs) else (l :: pre, gs)
  end.

(** A function with a line of a user source file. *)
Definition user (g : list asm_line) : bool := existsb (fun l => s_is_usercode (l_source l)) g.

(** What the library filter keeps of the functions [gs]: those with user code,
    and the last one unless an ignored function was met after it. *)
Fixpoint keep (ended : bool) (gs : list (list asm_line)) : list (list asm_line) :=
  match gs with
  | [] => []
  | [g] => if ended && negb (user g) then [] else [g]
  | g :: t => if user g then g :: keep ended t else keep ended t
  end.

Definition plain (l : asm_line) : Prop := l_is_label l = false.
Definition group (g : list asm_line) : Prop := exists l b, g = l :: b /\ l_is_label l = true /\ Forall plain b.
Definition shape (pre : list asm_line) (gs : list (list asm_line)) : Prop := Forall plain pre /\ Forall group gs.

Lemma functions_plain pre rest : Forall plain pre -> functions (pre ++ rest) = (pre ++ fst (functions rest), snd (functions rest)).
Proof.
  induction 1 as [|l pre H _ IH]; cbn [app functions]; [now destruct (functions rest)|].
  rewrite IH. unfold plain in H. rewrite H. reflexivity.
Qed.
Lemma functions_groups gs : Forall group gs -> functions (List.concat gs) = ([], gs).
Proof.
  induction 1 as [|g gs (l & b & -> & Hl & Hb) _ IH]; cbn [List.concat app functions]; [reflexivity|].
  rewrite functions_plain by assumption. rewrite IH. cbn [fst snd]. rewrite app_nil_r, Hl. reflexivity.
Qed.
Lemma functions_shape pre gs : shape pre gs -> functions (pre ++ List.concat gs) = (pre, gs).
Proof. intros [H1 H2]. rewrite functions_plain, functions_groups by assumption. cbn [fst snd]. now rewrite app_nil_r. Qed.
Lemma shape_functions lines : let (pre, gs) := functions lines in shape pre gs /\ lines = pre ++ List.concat gs.
Proof.
  induction lines as [|l t IH]; cbn [functions]; [split; [split|]; constructor|].
  destruct (functions t) as [pre gs]. destruct IH as [[H1 H2] ->].
  destruct (l_is_label l) eqn:E; (split; [split|]); auto.
  constructor; auto. exists l, pre. auto.
Qed.

Lemma keep_snoc e gs g : keep e (gs ++ [g]) = filter user gs ++ (if e && negb (user g) then [] else [g]).
Proof.
  induction gs as [|a gs IH]; [reflexivity|]. cbn [app keep filter].
  destruct (gs ++ [g]) as [|x y] eqn:E; [now destruct gs|]. rewrite IH. now destruct (user a).
Qed.
Lemma list_snoc {A} (l : list A) : l = [] \/ exists a x, l = a ++ [x].
Proof. destruct l using rev_ind; eauto. Qed.
Lemma keep_ended gs : keep true gs = filter user gs.
Proof.
  destruct (list_snoc gs) as [->|(a & x & ->)]; [reflexivity|]. rewrite keep_snoc, filter_app. cbn [filter].
  now destruct (user x).
Qed.
Lemma keep_cons e a b gs : keep e (a :: b :: gs) = if user a then a :: keep e (b :: gs) else keep e (b :: gs).
Proof. reflexivity. Qed.
Lemma keep_length e gs : (length (List.concat (keep e gs)) <= length (List.concat gs))%nat.
Proof.
  induction gs as [|a gs IH]; [cbn; lia|]. destruct gs as [|b gs].
  - cbn [keep]. destruct (_ && _); cbn [List.concat length]; lia.
  - rewrite keep_cons. change (List.concat (a :: b :: gs)) with (a ++ List.concat (b :: gs)). rewrite app_length.
    destruct (user a); [rewrite concat_cons, app_length|]; lia.
Qed.
Lemma keep_shape e pre gs : shape pre gs -> shape pre (keep e gs).
Proof.
  intros [H1 H2]. split; [assumption|]. clear H1. induction H2 as [|a gs Ha _ IH]; [constructor|].
  destruct gs as [|b gs]; [cbn [keep]; destruct (_ && _); repeat constructor; assumption|].
  rewrite keep_cons. destruct (user a); [constructor|]; assumption.
Qed.

(** Removing the last function when it has no user code. *)
Definition trim (ks : list (list asm_line)) : list (list asm_line) :=
  match rev ks with
  | [] => []
  | g :: r => if user g then ks else rev r
  end.
Lemma trim_snoc ks g : trim (ks ++ [g]) = if user g then ks ++ [g] else ks.
Proof. unfold trim. rewrite rev_app_distr. cbn [rev app]. now rewrite rev_involutive. Qed.
Lemma trim_filter gs : trim (filter user gs) = filter user gs.
Proof.
  destruct (list_snoc (filter user gs)) as [->|(a & x & E)]; [reflexivity|]. rewrite E, trim_snoc.
  assert (H : In x (filter user gs)) by (rewrite E; apply in_or_app; right; now left).
  apply filter_In in H as [_ ->]. reflexivity.
Qed.
Lemma trim_keep e gs : trim (keep e gs) = filter user gs.
Proof.
  destruct (list_snoc gs) as [->|(a & x & ->)]; [reflexivity|]. rewrite keep_snoc, filter_app. cbn [filter].
  destruct (user x) eqn:E; cbn [negb]; [rewrite andb_false_r, trim_snoc, E; reflexivity|]. rewrite andb_true_r.
  destruct e; rewrite app_nil_r; [apply trim_filter|]. rewrite trim_snoc, E. reflexivity.
Qed.

Lemma label_table_plain n ls : Forall plain ls -> label_table n ls = [].
Proof. intros H. revert n. induction H as [|l ls H _ IH]; intros n; cbn [label_table]; [reflexivity|]. unfold plain in H. now rewrite H. Qed.
Lemma label_table_snoc pre gs g l b : g = l :: b -> l_is_label l = true -> Forall plain b ->
  label_table 1 (pre ++ List.concat (gs ++ [g])) =
  label_table 1 (pre ++ List.concat gs) ++ [(l_label l, 1 + Z.of_nat (length (pre ++ List.concat gs)))].
Proof.
  intros -> Hl Hb. rewrite concat_app. cbn [List.concat]. rewrite app_nil_r, app_assoc, label_table_app.
  cbn [label_table]. rewrite Hl, (label_table_plain _ b) by assumption. reflexivity.
Qed.
Lemma label_table_pre pre gs : shape pre gs -> label_table 1 (pre ++ List.concat gs) = [] -> gs = [].
Proof.
  intros [_ H2] H. destruct (list_snoc gs) as [->|(a & x & ->)]; [reflexivity|].
  apply Forall_app in H2 as [_ H2]. apply Forall_inv in H2 as (l & b & E & Hl & Hb).
  erewrite label_table_snoc in H by eassumption. now destruct (label_table _ _).
Qed.

Lemma rm_last_shape pre ks : shape pre ks ->
  rm_last (pre ++ List.concat ks) (label_table 1 (pre ++ List.concat ks)) =
  Ok (pre ++ List.concat (trim ks), label_table 1 (pre ++ List.concat (trim ks))).
Proof.
  intros [H1 H2]. destruct (list_snoc ks) as [->|(a & x & ->)].
  - cbn [List.concat trim rev]. rewrite app_nil_r, label_table_plain by assumption. reflexivity.
  - apply Forall_app in H2 as [_ H2]. apply Forall_inv in H2 as (l & b & E & Hl & Hb).
    rewrite trim_snoc. unfold rm_last. rewrite (label_table_snoc pre a x l b E Hl Hb), rev_app_distr.
    cbn [rev app]. set (n := length (pre ++ List.concat a)).
    replace (1 + Z.of_nat n - 1) with (Z.of_nat n) by lia.
    rewrite concat_app, app_assoc. cbn [List.concat]. rewrite app_nil_r, app_length. fold n.
    replace (_ || _) with false by (symmetry; apply orb_false_intro; [apply Z.ltb_ge|apply Z.ltb_ge]; lia).
    rewrite Nat2Z.id. unfold n. rewrite skipn_app, skipn_all, Nat.sub_diag. cbn [app skipn]. fold (user x).
    destruct (user x) eqn:Eu.
    + rewrite (label_table_snoc pre a x l b E Hl Hb), concat_app. cbn [List.concat]. rewrite app_nil_r, app_assoc.
      reflexivity.
    + rewrite firstn_app, firstn_all, Nat.sub_diag. cbn [firstn]. rewrite app_nil_r, rev_involutive. reflexivity.
Qed.

Lemma rm_shape flt s pre ks : Tab s -> o_stopParsing s = false -> shape pre ks -> o_lines s = pre ++ List.concat ks ->
  f_library_functions flt = true ->
  rm flt s = Ok (pre ++ List.concat (trim ks), label_table 1 (pre ++ List.concat (trim ks))).
Proof.
  intros [_ _ HT _] Hs Hsh Hl Hf. unfold rm. rewrite Hf, (HT Hs), Hl. now apply rm_last_shape.
Qed.

Lemma push_label pre gs l : shape pre gs -> l_is_label l = true ->
  shape pre (gs ++ [[l]]) /\ (pre ++ List.concat gs) ++ [l] = pre ++ List.concat (gs ++ [[l]]).
Proof.
  intros [H1 H2] Hl. split; [split; [assumption|apply Forall_app; split; [assumption|]]|].
  - constructor; [|constructor]. exists l, []. auto.
  - rewrite concat_app. cbn [List.concat]. now rewrite app_nil_r, app_assoc.
Qed.
Lemma push_group pre gs g l : shape pre (gs ++ [g]) -> l_is_label l = false ->
  shape pre (gs ++ [g ++ [l]]) /\ (pre ++ List.concat (gs ++ [g])) ++ [l] = pre ++ List.concat (gs ++ [g ++ [l]]).
Proof.
  intros [H1 H2] Hl. apply Forall_app in H2 as [H2 H3]. apply Forall_inv in H3 as (x & b & -> & Hx & Hb).
  split; [split; [assumption|apply Forall_app; split; [assumption|]]|].
  - constructor; [|constructor]. exists x, (b ++ [l]). repeat split; auto. apply Forall_app. auto.
  - rewrite !concat_app. cbn [List.concat]. now rewrite !app_nil_r, !app_assoc.
Qed.

(** ** C18 *)
Definition Lib (s : ostate) : Prop :=
  exists pre gs, shape pre gs /\ o_lines s = pre ++ List.concat gs /\ Forall (fun g => user g = true) (removelast gs).

Lemma Lib_plain s ls l : (exists pre gs, shape pre gs /\ ls = pre ++ List.concat gs /\ Forall (fun g => user g = true) (removelast gs)) ->
  l_is_label l = false -> o_lines s = ls ++ [l] -> Lib s.
Proof.
  intros (pre & gs & Hsh & -> & Hf) Hl E. destruct (list_snoc gs) as [->|(a & x & ->)].
  - exists (pre ++ [l]), []. cbn [List.concat removelast] in *. rewrite app_nil_r in *. split; [|auto].
    split; [|constructor]. apply Forall_app. split; [apply Hsh|]. constructor; [exact Hl|constructor].
  - destruct (push_group _ _ _ _ Hsh Hl) as [H1 H2]. exists pre, (a ++ [x ++ [l]]). rewrite <- H2.
    repeat split; auto; try apply H1. rewrite removelast_last in *. assumption.
Qed.

Lemma trim_user ks : Forall (fun g => user g = true) (removelast ks) -> Forall (fun g => user g = true) (trim ks).
Proof.
  destruct (list_snoc ks) as [->|(a & x & ->)]; [intros; constructor|]. rewrite removelast_last, trim_snoc. intros H.
  destruct (user x) eqn:E; [|assumption]. apply Forall_app. auto.
Qed.
Lemma trim_shape pre ks : shape pre ks -> shape pre (trim ks).
Proof.
  intros [H1 H2]. split; [assumption|]. destruct (list_snoc ks) as [->|(a & x & ->)]; [constructor|]. rewrite trim_snoc.
  destruct (user x); [assumption|]. now apply Forall_app in H2.
Qed.
Lemma Forall_removelast {A} (P : A -> Prop) l : Forall P l -> Forall P (removelast l).
Proof.
  destruct (list_snoc l) as [->|(a & x & ->)]; [auto|]. rewrite removelast_last. intros H. now apply Forall_app in H.
Qed.

Lemma Lib_eol flt s x : f_library_functions flt = true -> Tab s -> Lib s -> o_stopParsing s = false -> eol_trans flt s x -> Lib (next_line x).
Proof.
  intros Hf HT HL Hs H. pose proof HL as (pre & gs & Hsh & Hl & Hu).
  destruct H as [ls lb _ _ _ Hrm|ls lb Hil _ _ Hrm Hn nm|ls lb n Hil _ _ Hrm Hn| | | |]; auto.
  - rewrite (rm_shape _ _ _ _ HT Hs Hsh Hl Hf) in Hrm. injection Hrm as <- _.
    exists pre, (trim gs). split; [now apply trim_shape|]. split; [reflexivity|]. now apply Forall_removelast, trim_user.
  - rewrite (rm_shape _ _ _ _ HT Hs Hsh Hl Hf) in Hrm. injection Hrm as <- _.
    set (l := set_l_source _ _). unfold push_line. osimp. destruct (_ <? _).
    + destruct (push_label pre (trim gs) l (trim_shape _ _ Hsh) eq_refl) as [H1 H2].
      exists pre, (trim gs ++ [[l]]). split; [assumption|]. split; [exact H2|]. rewrite removelast_last. now apply trim_user.
    + eapply (Lib_plain _ (pre ++ List.concat (trim gs)) truncated_line); [|reflexivity|reflexivity].
      exists pre, (trim gs). split; [now apply trim_shape|]. split; [reflexivity|]. now apply Forall_removelast, trim_user.
  - destruct HT as [[_ HM _ _ _] _ _ _]. specialize (HM Hil). congruence.
  - unfold push_line. destruct (_ <? _).
    + eapply (Lib_plain _ (o_lines s) (finish_line s)); [exact HL| |reflexivity].
      unfold finish_line. destruct HT as [[_ _ _ HM _] _ _ _]. cbn [l_is_label set_l_section set_l_text]. rewrite HM. lsimp. exact HM.
    + eapply (Lib_plain _ (o_lines s) truncated_line); [exact HL|reflexivity|reflexivity].
Qed.

Lemma Lib_run mb flt input s : f_library_functions flt = true -> run mb flt input = Ok s -> Lib s.
Proof.
  intros Hf H. apply (run_inv mb flt (fun s => Tab s /\ Lib s)) in H; [tauto|..].
  - split; [apply Tab_start|]. exists [], []. repeat split; constructor.
  - intros a c b Hc [HT HL] Ht. split; [eapply Tab_trans; eauto|]. unfold Lib.
    apply trans_out in Ht as (-> & _); assumption.
  - intros a x [HT HL] Hs Hx. split; [eapply Tab_eol; eauto|eapply Lib_eol; eauto].
Qed.

Lemma C18_lemma mb flt input s : f_library_functions flt = true -> run mb flt input = Ok s ->
  forall before g after, snd (functions (o_lines s)) = before ++ g :: after -> after <> [] ->
  exists l, In l g /\ s_is_usercode (l_source l) = true.
Proof.
  intros Hf H before g after E Ha. destruct (Lib_run _ _ _ _ Hf H) as (pre & gs & Hsh & Hl & Hu).
  rewrite Hl, functions_shape in E by assumption. cbn [snd] in E. subst gs.
  rewrite removelast_app in Hu by discriminate. apply Forall_app in Hu as [_ Hu].
  destruct after as [|y z]; [congruence|]. cbn [removelast] in Hu. apply Forall_inv in Hu.
  apply existsb_exists in Hu. exact Hu.
Qed.

(** ** C20: two runs. *)
Lemma eol_make flt s x : eol_trans flt s x -> eol flt s = Ok (next_line x).
Proof.
  intros H. unfold eol. osimp.
  destruct H as [ls lb Hl Ht Hi Hrm|ls lb Hl Ht Hi Hrm Hn nm|ls lb n Hl Ht Hi Hrm Hn nm Hv|Hl Hi|n Hl Hi Hn Hv|Hl Hi Hn Ht|Hi Hn Ht];
    try rewrite Hl.
  1-3: rewrite label_eq by exact Ht; change (rm flt (set_o_total_lines (o_total_lines s + 1) s)) with (rm flt s);
       rewrite Hrm; cbn [obind fst snd]; osimp; rewrite Hi; osimp; cbn [obind]; osimp.
  - now destruct s.
  - rewrite Hn, is_nil_app, andb_false_r. cbn [negb].
    unfold next_line, push_line, finish_line. destruct s, o_currentLine; osimp; lsimp. destruct (_ <? _); reflexivity.
  - rewrite Hn. unfold updateSourceRefLineNumber. osimp. fold nm. rewrite Hv. cbn [obind].
    destruct s, o_currentSourceRef; osimp. destruct (0 <? n); reflexivity.
  - destruct (o_inLabel s);
      [unfold label; osimp; rewrite (Hl eq_refl); cbn [is_nil obind]|cbn [obind]]; osimp; rewrite Hi; now destruct s.
  - destruct (o_inLabel s);
      [unfold label; osimp; rewrite (Hl eq_refl); cbn [is_nil obind]|cbn [obind]]; osimp; rewrite Hi, Hn; unfold updateSourceRefLineNumber; osimp; rewrite Hv; cbn [obind];
    destruct s, o_currentSourceRef; osimp; destruct (0 <? n); reflexivity.
  - cbn [obind]. osimp. rewrite Hi, Hn.
    destruct (is_nil (o_text s)) eqn:En; cnv; [contradiction|]. cbn [negb]. f_equal.
    change (finish_line (set_o_total_lines (o_total_lines s + 1) s)) with (finish_line s).
    apply next_line_push.
  - destruct (o_inLabel s);
      [unfold label; osimp; rewrite Ht; cbn [is_nil obind]|cbn [obind]]; osimp; rewrite Hi, Hn, Ht; now destruct s.
Qed.

(** The same state with other lines and labels; [b] is the flag that is never read. *)
Definition upd (ls : list asm_line) (lb : list (str * Z)) (b : bool) (s : ostate) : ostate :=
  set_o_lines ls (set_o_labels lb (set_o_checkNextFileForLibraryCode b s)).

Section Two.
Variables (mb : str -> Z) (flt flt' : Filter).
Hypothesis Hplt : f_plt flt' = f_plt flt.

Lemma ignore_same n : shouldIgnoreFunction n flt' = shouldIgnoreFunction n flt.
Proof. unfold shouldIgnoreFunction. now rewrite Hplt. Qed.

Lemma upd_append ls lb b c s : append_char c (upd ls lb b s) = upd ls lb b (append_char c s).
Proof. unfold append_char, upd. destruct s; osimp. destruct (_ && _); reflexivity. Qed.
Lemma upd_opcodes ls lb b s : opcodes (upd ls lb b s) = upd ls lb b (opcodes s).
Proof. unfold opcodes, upd. destruct s; osimp. destruct o_ignoreUntilNextLabel; reflexivity. Qed.
Lemma upd_labelref ls lb b s : labelref mb flt' (upd ls lb b s) = upd ls lb b (labelref mb flt s).
Proof.
  unfold labelref, upd. destruct s; osimp. destruct o_ignoreUntilNextLabel; cbn [negb]; [reflexivity|].
  destruct (substr_from _ _); [|reflexivity]. rewrite ignore_same. destruct (shouldIgnoreFunction _ _); reflexivity.
Qed.
Lemma upd_actually_address ls lb b s : actually_address (upd ls lb b s) = omap (upd ls lb b) (actually_address s).
Proof.
  unfold actually_address, upd. destruct s; osimp. destruct o_ignoreUntilNextLabel; cbn [negb obind omap]; [reflexivity|].
  destruct (addr_loop _ _ _) as [[a h]| | |]; cbn [obind omap fst snd]; try reflexivity. destruct h; reflexivity.
Qed.
Lemma upd_address ls lb b s : address (upd ls lb b s) = omap (upd ls lb b) (address s).
Proof.
  unfold address. change (o_text (upd ls lb b s)) with (o_text s). destruct (o_text s) as [|c t]; [reflexivity|].
  destruct (ceq c "/"); [reflexivity|]. rewrite upd_actually_address.
  destruct (actually_address s); reflexivity.
Qed.
Lemma upd_srcnum ls lb b s : updateSourceRefLineNumber (upd ls lb b s) = omap (upd ls lb b) (updateSourceRefLineNumber s).
Proof.
  unfold updateSourceRefLineNumber, upd. destruct s; osimp. destruct (atoi _); [|reflexivity]. destruct (_ <? _); reflexivity.
Qed.

Ltac proj :=
  repeat match goal with |- context [?p (upd ?ls ?lb ?b ?s)] => progress change (p (upd ls lb b s)) with (p s) end.

Lemma upd_step_address ls lb b s c : step_address (upd ls lb b s) c = omap (upd ls lb b) (step_address s c).
Proof.
  unfold step_address.
  destruct (ceq c "/"); [cbn [omap obind]; rewrite <- upd_append; reflexivity|]. destruct (ceq c ";"); [reflexivity|].
  destruct (ceq c ":"); [apply upd_address|]. destruct (is_whitespace c); [|cbn [omap obind]; now rewrite upd_append].
  change (o_text (upd ls lb b s)) with (o_text s).
  destruct (str_eqb _ _); [cbn [omap obind]; rewrite <- upd_append; reflexivity|].
  destruct (is_nil _); cbn [negb]; [reflexivity|]. rewrite upd_address. destruct (address s); reflexivity.
Qed.
Lemma upd_step_opcodes ls lb b s c : step_opcodes (upd ls lb b s) c = upd ls lb b (step_opcodes s c).
Proof.
  unfold step_opcodes. change (o_text (upd ls lb b s)) with (o_text s).
  destruct (is_whitespace c). { destruct (is_nil _); [reflexivity|]. destruct (last_is _ _); [apply upd_opcodes|apply upd_append]. }
  destruct (ceq c "R"); [now rewrite <- upd_append|]. destruct (is_hex c); cbn [negb]; now rewrite <- upd_append.
Qed.
Lemma upd_step_relocation ls lb b s c : step_relocation (upd ls lb b s) c = upd ls lb b (step_relocation s c).
Proof. unfold step_relocation. destruct (ceq c TAB); [reflexivity|apply upd_append]. Qed.
Lemma upd_step_section ls lb b s c : step_section (upd ls lb b s) c = upd ls lb b (step_section s c).
Proof.
  unfold step_section. change (o_inSectionName (upd ls lb b s)) with (o_inSectionName s).
  change (o_text (upd ls lb b s)) with (o_text s).
  destruct (o_inSectionName s); cbn [negb]; [destruct (ceq c ":"); reflexivity|].
  destruct (str_eqb _ _); [reflexivity|]. now rewrite <- upd_append.
Qed.
Lemma upd_step_sourceref ls lb b s c : step_sourceref (upd ls lb b s) c = omap (upd ls lb b) (step_sourceref s c).
Proof.
  unfold step_sourceref. destruct (ceq c ":"); [reflexivity|].
  change (o_inSourceRefLineNumber (upd ls lb b s)) with (o_inSourceRefLineNumber s).
  destruct (_ && _); [|cbn [omap obind]; now rewrite upd_append]. rewrite upd_srcnum.
  destruct (updateSourceRefLineNumber s); reflexivity.
Qed.
Lemma upd_step_text ls lb b s c : step_text mb flt' (upd ls lb b s) c = upd ls lb b (step_text mb flt s c).
Proof.
  unfold step_text. rewrite <- upd_append. f_equal.
  destruct (ceq c "#"); [reflexivity|]. destruct (ceq c "<"); [reflexivity|].
  change (o_inSomethingWithALabel (upd ls lb b s)) with (o_inSomethingWithALabel s).
  destruct (o_inSomethingWithALabel s); [|reflexivity].
  destruct (ceq c ">").
  - change (set_o_inSomethingWithALabel false (upd ls lb b s)) with (upd ls lb b (set_o_inSomethingWithALabel false s)).
    cbv zeta. change (o_currentLabelReference (upd ls lb b (set_o_inSomethingWithALabel false s)))
      with (o_currentLabelReference (set_o_inSomethingWithALabel false s)).
    destruct (is_nil _); [apply upd_labelref|reflexivity].
  - destruct (ceq c "+"); [|reflexivity]. rewrite <- upd_labelref. reflexivity.
Qed.

Lemma upd_step ls lb b s c : c <> LF -> step mb flt' (upd ls lb b s) c = omap (upd ls lb b) (step mb flt s c).
Proof.
  intros Hc. unfold step.
  assert (E : ceq c LF = false) by (unfold ceq; now apply Ascii.eqb_neq). rewrite E.
  rewrite upd_step_address, upd_step_sourceref, upd_step_text, upd_step_opcodes, upd_step_relocation, upd_step_section, upd_append.
  change (o_stopParsing (upd ls lb b s)) with (o_stopParsing s).
  change (o_skipRestOfTheLine (upd ls lb b s)) with (o_skipRestOfTheLine s).
  change (o_inAddress (upd ls lb b s)) with (o_inAddress s).
  change (o_inLabel (upd ls lb b s)) with (o_inLabel s).
  change (o_inOpcodes (upd ls lb b s)) with (o_inOpcodes s).
  change (o_inRelocation (upd ls lb b s)) with (o_inRelocation s).
  change (o_inSectionStart (upd ls lb b s)) with (o_inSectionStart s).
  change (o_inSourceRef (upd ls lb b s)) with (o_inSourceRef s).
  change (o_inComment (upd ls lb b s)) with (o_inComment s).
  repeat match goal with |- (if ?b then _ else _) = omap _ (if ?b then _ else _) => destruct b; try reflexivity end.
Qed.

Hypotheses (Hoff : f_library_functions flt = false) (Hon : f_library_functions flt' = true).

(** [s] without, [s'] with the filter. *)
Definition Sim (s s' : ostate) : Prop :=
  Tab s /\ Tab s' /\ o_stopParsing s = false
  /\ exists pre gs lb b, shape pre gs /\ o_lines s = pre ++ List.concat gs
    /\ s' = upd (pre ++ List.concat (keep (o_ignoreUntilNextLabel s) gs)) lb b s.

Lemma Sim_char s s' c x : c <> LF -> Sim s s' -> step mb flt s c = Ok x ->
  exists x', step mb flt' s' c = Ok x' /\ Sim x x'.
Proof.
  intros Hc (H1 & H2 & H3 & pre & gs & lb & b & Hsh & Hl & ->) Hx.
  pose proof (upd_step (pre ++ List.concat (keep (o_ignoreUntilNextLabel s) gs)) lb b s c Hc) as E. rewrite Hx in E.
  cbn [omap obind] in E. eexists. split; [exact E|].
  pose proof (step_trans _ _ _ _ _ Hc Hx) as T1. pose proof (step_trans _ _ _ _ _ Hc E) as T2.
  pose proof (Tab_trans _ _ _ _ _ Hc H1 T1). pose proof (Tab_trans _ _ _ _ _ Hc H2 T2).
  apply trans_out in T1 as (Ea & _ & _ & Eb & Ec); [|exact Hc].
  split; [assumption|]. split; [assumption|]. rewrite Ea, Eb, Ec. split; [assumption|].
  exists pre, gs, lb, b. auto.
Qed.

Lemma push_line_lt l s : o_stopParsing (push_line l s) = false -> o_stopParsing s = false /\ Z.of_nat (length (o_lines s)) < 5000.
Proof. unfold push_line. destruct (_ <? _) eqn:E; osimp; [|discriminate]. apply Z.ltb_lt in E. auto. Qed.
Lemma push_upd l ls lb b s : Z.of_nat (length ls) < 5000 -> Z.of_nat (length (o_lines s)) < 5000 ->
  push_line l (upd ls lb b s) = upd (ls ++ [l]) lb b (push_line l s).
Proof.
  intros H1 H2. unfold push_line. change (o_lines (upd ls lb b s)) with ls.
  apply Z.ltb_lt in H1, H2. rewrite H1, H2. now destruct s.
Qed.

Lemma eol_make' s' x : eol_trans flt' s' x -> o_stopParsing s' = false -> step mb flt' s' LF = Ok (next_line x).
Proof.
  intros H Hs. unfold step. rewrite Hs. change (ceq LF CR) with false. change (ceq LF LF) with true. cbn iota. now apply eol_make.
Qed.

Lemma Sim_eol s s' x : Sim s s' -> eol_trans flt s x -> o_stopParsing x = false ->
  exists x', step mb flt' s' LF = Ok x' /\ Sim (next_line x) x'.
Proof.
  intros (H1 & H2 & H3 & pre & gs & lb & b & Hsh & Hl & E) Hx Hst.
  set (e := o_ignoreUntilNextLabel s) in *. set (ls := pre ++ List.concat (keep e gs)) in *.
  assert (G : exists x', eol_trans flt' s' x'
     /\ exists pre1 gs1 lb1 b1, shape pre1 gs1 /\ o_lines x = pre1 ++ List.concat gs1
    /\ x' = upd (pre1 ++ List.concat (keep (o_ignoreUntilNextLabel x) gs1)) lb1 b1 x).
  { assert (Hs' : o_stopParsing s' = false) by (rewrite E; exact H3).
    assert (Hrm' : rm flt' s' = Ok (pre ++ List.concat (filter user gs), label_table 1 (pre ++ List.concat (filter user gs)))).
    { rewrite <- (trim_keep e). apply rm_shape; auto; [now apply keep_shape|]. rewrite E. reflexivity. }
    assert (Hlen : (length ls <= length (o_lines s))%nat).
    { unfold ls. rewrite Hl, !app_length. apply Nat.add_le_mono_l, keep_length. }
    destruct Hx as [ls1 lb1 Hil Ht Hi Hrm|ls1 lb1 Hil Ht Hi Hrm Hn nm|ls1 lb1 n Hil _ _ Hrm Hn|Hil Hi|n Hil Hi Hn Hv|Hil Hi Hn Ht|Hi Hn Ht].
    - unfold rm in Hrm. rewrite Hoff in Hrm. injection Hrm as <- <-.
      eexists. split; [eapply E_ignored_label; [rewrite E; exact Hil|rewrite E; exact Ht| |exact Hrm']; rewrite E, ignore_same; exact Hi|].
      exists pre, gs, (label_table 1 (pre ++ List.concat (filter user gs))), b. split; [assumption|]. split; [exact Hl|].
      osimp. rewrite keep_ended, E. now destruct s.
    - unfold rm in Hrm. rewrite Hoff in Hrm. injection Hrm as <- <-.
      eexists. split; [eapply E_label; [rewrite E; exact Hil|rewrite E; exact Ht| |exact Hrm'|rewrite E; exact Hn]; rewrite E, ignore_same; exact Hi|].
      change (o_currentSourceRef s') with (o_currentSourceRef s'). rewrite E. unfold upd at 1 2 3 4 5 6 7. osimp. fold nm.
      set (l := set_l_source _ _) in *. set (base := set_o_lines (o_lines s) _) in *.
      apply push_line_lt in Hst as [_ Hst]. change (o_lines base) with (o_lines s) in Hst.
      assert (Hk : (length (pre ++ List.concat (filter user gs)) <= length (o_lines s))%nat).
      { rewrite Hl, !app_length, <- keep_ended. apply Nat.add_le_mono_l, keep_length. }
      set (A := pre ++ List.concat (filter user gs)) in *. set (B := label_table 1 A ++ _).
      exists pre, (gs ++ [[l]]), B, (f_library_functions flt' || b).
      destruct (push_label pre gs l Hsh eq_refl) as [Ha Hb]. split; [assumption|]. split.
      { unfold push_line. apply Z.ltb_lt in Hst. change (o_lines base) with (o_lines s). rewrite Hst. osimp. now rewrite Hl. }
      assert (Hi' : o_ignoreUntilNextLabel (push_line l base) = false).
      { unfold push_line. destruct (_ <? _); reflexivity. }
      rewrite Hi', keep_snoc, concat_app. cbn [andb List.concat app].
      rewrite app_assoc. fold A.
      rewrite <- push_upd; [now destruct s|eapply Z.le_lt_trans; [apply inj_le; exact Hk|exact Hst]|exact Hst].
    - destruct H1 as [[_ HM _ _ _] _ _ _]. specialize (HM Hil). congruence.
    - exists s'. split; [rewrite E; apply E_ignoring; assumption|]. exists pre, gs, lb, b. fold e ls. auto.
    - eexists. split; [apply (E_srcnum flt' s' n); rewrite E; assumption|]. exists pre, gs, lb, b.
      split; [assumption|]. split; [exact Hl|]. osimp. fold e ls. rewrite E. now destruct s.
    - eexists. split; [apply (E_line flt' s'); rewrite E; assumption|].
      assert (Hlab : l_is_label (finish_line s) = false).
      { unfold finish_line. destruct H1 as [[_ _ _ HM _] _ _ _]. cbn [l_is_label set_l_section set_l_text]. rewrite HM. lsimp. exact HM. }
      assert (Hf : finish_line s' = finish_line s) by now rewrite E. rewrite Hf.
      set (l := finish_line s) in *. apply push_line_lt in Hst as [_ Hst].
      assert (Hpl : o_lines (push_line l s) = (pre ++ List.concat gs) ++ [l]).
      { unfold push_line. apply Z.ltb_lt in Hst. rewrite Hst. osimp. now rewrite Hl. }
      assert (Hi' : o_ignoreUntilNextLabel (push_line l s) = false).
      { unfold push_line. destruct (_ <? _); exact Hi. }
      assert (Hst' : Z.of_nat (length ls) < 5000) by (eapply Z.le_lt_trans; [apply inj_le; exact Hlen|exact Hst]).
      rewrite Hpl, Hi', E, (push_upd l ls lb b s Hst' Hst). unfold ls, e. rewrite Hi.
      destruct (list_snoc gs) as [->|(a & g & ->)].
      + exists (pre ++ [l]), [], lb, b. cbn [List.concat keep]. rewrite !app_nil_r. split; [|auto].
        split; [|constructor]. apply Forall_app. split; [apply Hsh|]. constructor; [exact Hlab|constructor].
      + destruct (push_group _ _ _ _ Hsh Hlab) as [Ha Hb]. exists pre, (a ++ [g ++ [l]]), lb, b.
        split; [assumption|]. split; [exact Hb|]. rewrite !keep_snoc. cbn [andb]. rewrite !concat_app. cbn [List.concat].
        now rewrite !app_nil_r, !app_assoc.
    - exists s'. split; [rewrite E; apply E_blank; assumption|]. exists pre, gs, lb, b. fold e ls. auto. }
  destruct G as (x' & Hx' & pre1 & gs1 & lb1 & b1 & Hsh1 & Hl1 & E1).
  assert (Hs' : o_stopParsing s' = false) by (rewrite E; exact H3).
  exists (next_line x'). split; [now apply eol_make'|].
  split; [exact (Tab_eol _ _ _ H1 H3 Hx)|]. split; [exact (Tab_eol _ _ _ H2 Hs' Hx')|]. split; [exact Hst|].
  exists pre1, gs1, lb1, b1. split; [assumption|]. split; [exact Hl1|]. rewrite E1. reflexivity.
Qed.

Lemma feed_stopped m f t s : o_stopParsing s = true -> feed m f s t = Ok s.
Proof. intros H. induction t as [|c t IH]; [reflexivity|]. cbn [feed]. unfold step. rewrite H. exact IH. Qed.

Lemma Sim_feed t : forall s s' z, Sim s s' -> feed mb flt s t = Ok z -> o_stopParsing z = false ->
  exists z', feed mb flt' s' t = Ok z' /\ Sim z z'.
Proof.
  induction t as [|c t IH]; intros s s' z HS H Hz; cbn [feed] in *; [injection H as <-; eauto|].
  apply obind_Ok in H as (s1 & H1 & H2).
  assert (Hs1 : o_stopParsing s1 = false).
  { destruct (o_stopParsing s1) eqn:E; [|reflexivity]. rewrite feed_stopped in H2 by exact E. congruence. }
  assert (G : exists s1', step mb flt' s' c = Ok s1' /\ Sim s1 s1').
  { destruct (Ascii.eqb c LF) eqn:E.
    - apply Ascii.eqb_eq in E. subst c. apply step_LF in H1 as [[Hst ->]|(Hs & x & Hx & ->)]; [congruence|].
      exact (Sim_eol s s' x HS Hx Hs1).
    - apply Ascii.eqb_neq in E. exact (Sim_char s s' c s1 E HS H1). }
  destruct G as (s1' & G1 & G2). rewrite G1. exact (IH s1 s1' z G2 H2 Hz).
Qed.

Lemma C20_lemma input s : run mb flt input = Ok s -> o_stopParsing s = false ->
  exists s', run mb flt' input = Ok s' /\
  (let (pre, gs) := functions (o_lines s) in o_lines s' = pre ++ List.concat (keep (o_ignoreUntilNextLabel s) gs)) /\
  o_labels s' = label_table 1 (o_lines s') /\ o_stopParsing s' = false /\ o_total_lines s' = o_total_lines s.
Proof.
  intros H Hs. unfold run, fromStream in H. eapply Sim_feed in H as (s' & H' & HS); [|  |exact Hs].
  - destruct HS as (_ & HT & _ & pre & gs & lb & b & Hsh & Hl & E).
    exists s'. split; [exact H'|]. rewrite Hl, functions_shape by assumption.
    assert (o_stopParsing s' = false) by (rewrite E; exact Hs).
    split; [rewrite E; reflexivity|]. split; [now apply HT|]. split; [assumption|]. now rewrite E.
  - split; [apply Tab_start|]. split; [apply Tab_start|]. split; [reflexivity|].
    exists [], [], [], false. repeat split; constructor.
Qed.
End Two.

Lemma C20_last mb flt flt' input s pre gs g : f_plt flt' = f_plt flt -> f_library_functions flt = false -> f_library_functions flt' = true ->
  run mb flt input = Ok s -> o_stopParsing s = false -> o_ignoreUntilNextLabel s = false ->
  functions (o_lines s) = (pre, gs ++ [g]) ->
  exists s' a, run mb flt' input = Ok s' /\ functions (o_lines s') = (pre, a ++ [g]).
Proof.
  intros Hp H0 H1 H Hs Hi E. destruct (C20_lemma mb flt flt' Hp H0 H1 _ _ H Hs) as (s' & H' & Hl & _).
  pose proof (shape_functions (o_lines s)) as Hsh. rewrite E in Hl, Hsh. destruct Hsh as [Hsh _].
  exists s', (filter user gs). split; [assumption|]. rewrite Hl, Hi, functions_shape by now apply keep_shape.
  now rewrite keep_snoc.
Qed.

(** Read off the two runs: what is missing with the filter. *)
Lemma keep_in e gs g : In g (keep e gs) -> In g gs.
Proof.
  induction gs as [|a gs IH]; [auto|]. destruct gs as [|b gs].
  - cbn [keep]. destruct (_ && _); cbn [In]; tauto.
  - rewrite keep_cons. destruct (user a); cbn [In] in *; intuition.
Qed.
Lemma keep_user e gs g : In g gs -> user g = true -> In g (keep e gs).
Proof.
  intros H Hu. induction gs as [|a gs IH]; [auto|]. destruct gs as [|b gs].
  - destruct H as [<-|[]]. cbn [keep]. rewrite Hu, andb_false_r. now left.
  - rewrite keep_cons. destruct H as [->|H]; [rewrite Hu; now left|]. destruct (user a); [right|]; auto.
Qed.
