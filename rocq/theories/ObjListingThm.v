(** Whole listings (C17) and single lines after any input (C13-C16). *)
From Verif Require Export ObjItems ObjPieces.

Lemma item_ok mb flt s i : ascii_compatible mb -> clean s -> Idx s -> o_stopParsing s = false -> wf_item i ->
  line_ok mb flt s (render_item i) (denote_item flt (abs s) i).
Proof.
  intros Hmb Hc HI Hs Hw. destruct i.
  - now apply section_ok.
  - now apply label_ok.
  - now apply source_ok.
  - now apply instr_ok.
  - now apply bytes_ok.
  - now apply reloc_ok.
  - now apply other_ok.
  - now apply blank_ok.
Qed.
Lemma denote_stopped flt a i : a_stopped a = true -> denote_item flt a i = a.
Proof. intros H. unfold denote_item. now rewrite H. Qed.

Lemma Idx_feed mb flt input : forall s s', Idx s -> feed mb flt s input = Ok s' -> Idx s'.
Proof.
  induction input as [|c input IH]; cbn [feed]; intros s s' HI H; [injection H as <-; exact HI|].
  apply obind_Ok in H as (s1 & H1 & H). eapply IH; [|exact H]. eapply Idx_reachable_step; eassumption.
Qed.

Lemma listing_feed mb flt : ascii_compatible mb -> forall items s, clean s -> Idx s -> Forall wf_item items ->
  exists s', feed mb flt s (render items) = Ok s' /\ clean s' /\ Idx s' /\ abs s' = fold_left (denote_item flt) items (abs s).
Proof.
  intros Hmb. induction items as [|i items IH]; intros s Hc HI Hw.
  - exists s. repeat split; try assumption; apply Hc || apply HI.
  - inversion Hw as [|? ? Hi Hw']; subst. unfold render. cbn [map List.concat fold_left]. rewrite feed_app. fold (render items).
    destruct (o_stopParsing s) eqn:Es.
    + rewrite feed_stopped by exact Es. cbn [obind]. rewrite denote_stopped by exact Es. now apply IH.
    + destruct (item_ok mb flt s i Hmb Hc HI Es Hi) as (s1 & E1 & Hc1 & Ha1). rewrite E1. cbn [obind].
      destruct (IH s1 Hc1 (Idx_feed _ _ _ _ _ HI E1) Hw') as (s2 & E2 & Hc2 & HI2 & Ha2). exists s2.
      rewrite Ha1 in Ha2. auto.
Qed.

Lemma clean_fresh : clean (set_o_inAddress true (set_o_total_lines 0 ostate0)).
Proof. constructor; reflexivity. Qed.

Lemma C17_lemma mb flt items : ascii_compatible mb -> Forall wf_item items ->
  exists s, run mb flt (render items) = Ok s /\ o_lines s = a_lines (denote flt items) /\ o_labels s = a_labels (denote flt items)
    /\ o_stopParsing s = a_stopped (denote flt items).
Proof.
  intros Hmb Hw. destruct (listing_feed mb flt Hmb items _ clean_fresh (Idx_start _ Idx0) Hw) as (s & E & _ & _ & Ha).
  exists s. split; [exact E|]. change (abs (set_o_inAddress true (set_o_total_lines 0 ostate0))) with lstate0 in Ha.
  unfold denote. rewrite <- Ha. auto.
Qed.

(** ** A line after any input *)
Definition no_open_reference (s : ostate) : Prop :=
  o_inSomethingWithALabel s = false /\ o_currentLabelReference s = label0.
Definition line_start (mb : str -> Z) (flt : Filter) (pre : str) (s : ostate) : Prop :=
  whole_lines pre /\ run mb flt pre = Ok s /\ o_stopParsing s = false /\ no_open_reference s.

Lemma line_start_clean mb flt pre s : line_start mb flt pre s -> clean s.
Proof.
  intros ([->|[b ->]] & H & Hs & Ho1 & Ho2).
  - injection H as <-. exact clean_fresh.
  - unfold run, fromStream in H. rewrite feed_snoc in H. apply obind_Ok in H as (s0 & _ & H).
    apply step_LF in H as [[H1 ->]|(_ & x & _ & ->)]; [congruence|]. constructor; try assumption; reflexivity.
Qed.
Lemma line_start_Idx mb flt pre s : line_start mb flt pre s -> Idx s.
Proof. intros (_ & H & _). apply (Idx_reachable mb flt). econstructor; [constructor|exact H]. Qed.
Lemma run_more mb flt pre s x : run mb flt pre = Ok s -> run mb flt (pre ++ x) = feed mb flt s x.
Proof. intros H. unfold run, fromStream in *. now rewrite feed_app, H. Qed.

Lemma after_listing mb flt pre s items : ascii_compatible mb -> line_start mb flt pre s -> Forall wf_item items ->
  exists s', run mb flt (pre ++ render items) = Ok s' /\ abs s' = fold_left (denote_item flt) items (abs s).
Proof.
  intros Hmb Hl Hw. destruct (listing_feed mb flt Hmb items s (line_start_clean _ _ _ _ Hl) (line_start_Idx _ _ _ _ Hl) Hw)
    as (s' & E & _ & _ & Ha). exists s'. split; [|exact Ha]. rewrite (run_more mb flt pre s); [exact E|apply Hl].
Qed.
Lemma render_one i : render [i] = render_item i ++ [LF].
Proof. unfold render. cbn. now rewrite app_nil_r. Qed.

Lemma whole_render items : whole_lines (render items).
Proof.
  destruct items as [|i items] using rev_ind; [now left|]. right. exists (render items ++ render_item i).
  unfold render. rewrite map_app, concat_app. cbn. now rewrite app_nil_r, app_assoc.
Qed.
(** Every listing ends at a line start (unless the cap was reached). *)
Lemma listing_line_start mb flt items : ascii_compatible mb -> Forall wf_item items -> a_stopped (denote flt items) = false ->
  exists s, line_start mb flt (render items) s /\ abs s = denote flt items.
Proof.
  intros Hmb Hw Hst. destruct (listing_feed mb flt Hmb items _ clean_fresh (Idx_start _ Idx0) Hw) as (s & E & Hc & _ & Ha).
  change (abs (set_o_inAddress true (set_o_total_lines 0 ostate0))) with lstate0 in Ha. fold (denote flt items) in Ha.
  exists s. split; [|exact Ha]. split; [apply whole_render|]. split; [exact E|].
  split; [change (a_stopped (abs s) = false); congruence|]. split; apply Hc.
Qed.

(** ** C13 *)
Lemma hex_value_good h v : hex_value h = Some v -> v < 2147483648 -> Z.of_nat (length h) <= 64 -> good_addr h /\ addr_value h = v.
Proof. intros H1 H2 H3. split; [exists v; auto|]. unfold addr_value. now rewrite H1. Qed.

Lemma C13_lemma mb flt pre s b h v gs pad text : ascii_compatible mb -> line_start mb flt pre s -> o_ignoreUntilNextLabel s = false ->
  Z.of_nat (length (o_lines s)) < 5000 ->
  Forall blank b -> hex_value h = Some v -> v < 2147483648 -> Z.of_nat (length h) <= 64 ->
  gs <> [] -> Forall hex_string gs -> pad <> [] -> Forall blank pad ->
  starts_nonblank text -> ascii_text text -> Z.of_nat (length text) < 65533 ->
  ~ In "<"%char text -> ~ In "#"%char text -> ~ In LF text -> ~ In CR text ->
  exists s' l, run mb flt (pre ++ b ++ h ++ [":"%char; TAB] ++ render_groups gs ++ pad ++ text ++ [LF]) = Ok s'
    /\ o_lines s' = o_lines s ++ [l] /\ o_labels s' = o_labels s
    /\ l_address l = Some v /\ l_opcodes l = gs /\ l_text l = SP :: text /\ l_labels l = [] /\ l_is_label l = false
    /\ l_section l = o_currentSection s /\ l_source l = o_currentSourceRef s.
Proof.
  intros Hmb Hl Hig Hlen Hb Hv Hlt Hh Hgn Hg Hpn Hp Hst Ha Htl N1 N2 N3 N4.
  destruct (hex_value_good h v Hv Hlt Hh) as [Hgood Hav].
  assert (Hr : render_segs [Txt text] = text) by (unfold render_segs; cbn; apply app_nil_r).
  destruct (after_listing mb flt pre s [IInstr b h gs pad [Txt text] []] Hmb Hl) as (s' & E & Habs).
  { constructor; [|constructor]. cbn [wf_item]. rewrite Hr. repeat (split; [assumption|]). split.
    - constructor; [|constructor]. apply Forall_forall. intros c Hc. repeat split; intros ->; tauto.
    - repeat (split; [assumption|]). now left. }
  exists s', (instr_line (abs s) h text gs []). split.
  - rewrite <- E. f_equal. f_equal. rewrite render_one. cbn [render_item]. rewrite Hr, app_nil_r. rewrite <- !app_assoc. cbn [app].
    now rewrite <- !app_assoc.
  - cbn [fold_left] in Habs. unfold denote_item in Habs. destruct Hl as (_ & _ & Hs & _).
    change (a_stopped (abs s)) with (o_stopParsing s) in Habs. rewrite Hs in Habs.
    change (a_ignoring (abs s)) with (o_ignoreUntilNextLabel s) in Habs. rewrite Hig, Hr, app_nil_r in Habs.
    unfold emit in Habs. change (a_lines (abs s)) with (o_lines s) in Habs. rewrite (proj2 (Z.ltb_lt _ _) Hlen) in Habs.
    unfold abs at 1 in Habs. injection Habs as R1 R2 R3 R4 R5 R6.
    split; [exact R5|]. split; [exact R6|]. unfold instr_line. lsimp_goal. rewrite Hav. repeat split; reflexivity.
Qed.

(** ** C14, C15 *)
Definition only_new (P : asm_line -> Prop) (old : list asm_line) (lines : list asm_line) : Prop :=
  Forall (fun l => In l old \/ P l) lines.
Lemma only_new_refl P old : only_new P old old.
Proof. apply Forall_forall. auto. Qed.
Lemma only_new_app P old a b : only_new P old a -> Forall P b -> only_new P old (a ++ b).
Proof. intros H1 H2. apply Forall_app. split; [exact H1|]. eapply Forall_impl; [|exact H2]. auto. Qed.
Lemma only_new_firstn P old n a : only_new P old a -> only_new P old (firstn n a).
Proof.
  unfold only_new. rewrite !Forall_forall. intros H x Hx. apply H. rewrite <- (firstn_skipn n a). apply in_or_app. now left.
Qed.
Lemma drop_sub P old a : only_new P old (a_lines a) -> only_new P old (a_lines (drop_library_function a)).
Proof.
  unfold drop_library_function. destruct (rev (a_labels a)) as [|[? ?] ?]; [auto|]. destruct (existsb _ _); [auto|].
  cbn [a_lines]. apply only_new_firstn.
Qed.
Lemma emit_new (P : asm_line -> Prop) old l a : P l -> P marker -> only_new P old (a_lines a) -> only_new P old (a_lines (emit l a)).
Proof. intros H1 H2 H. unfold emit. destruct (_ <? _); cbn [a_lines]; apply only_new_app; auto. Qed.
Lemma emit_keep l a : a_section (emit l a) = a_section a /\ a_source (emit l a) = a_source a.
Proof. unfold emit. now destruct (_ <? _). Qed.

Definition sourced (src : asm_source) (l : asm_line) : Prop := l_source l = src \/ l = marker.
Definition sectioned (sec : str) (l : asm_line) : Prop := l_section l = sec \/ l = marker.
Definition is_source (i : item) : bool := match i with ISource _ _ _ => true | _ => false end.
Definition is_section (i : item) : bool := match i with ISection _ => true | _ => false end.

Lemma source_kept flt i a src old : is_source i = false -> a_source a = src -> only_new (sourced src) old (a_lines a) ->
  a_source (denote_item flt a i) = src /\ only_new (sourced src) old (a_lines (denote_item flt a i)).
Proof.
  intros Hi Ha Ho. unfold denote_item. destruct (a_stopped a); [auto|]. destruct i; try discriminate; cbn [a_source a_lines]; auto.
  - assert (Hd : only_new (sourced src) old (a_lines (if f_library_functions flt then drop_library_function a else a)))
      by (destruct (f_library_functions flt); [now apply drop_sub|exact Ho]).
    cbn zeta. destruct (shouldIgnoreFunction name flt); cbn [a_source a_lines]; [auto|].
    split; [rewrite (proj2 (emit_keep _ _)); exact Ha|]. apply emit_new; [left; exact Ha|now right|exact Hd].
  - destruct (a_ignoring a); [auto|]. split; [now rewrite (proj2 (emit_keep _ _))|]. apply emit_new; [left; exact Ha|now right|exact Ho].
  - destruct (a_ignoring a); [auto|]. split; [now rewrite (proj2 (emit_keep _ _))|]. apply emit_new; [left; exact Ha|now right|exact Ho].
  - destruct (a_ignoring a); [auto|]. split; [now rewrite (proj2 (emit_keep _ _))|]. apply emit_new; [left; exact Ha|now right|exact Ho].
Qed.
Lemma section_kept flt i a sec old : is_section i = false -> a_section a = sec -> only_new (sectioned sec) old (a_lines a) ->
  a_section (denote_item flt a i) = sec /\ only_new (sectioned sec) old (a_lines (denote_item flt a i)).
Proof.
  intros Hi Ha Ho. unfold denote_item. destruct (a_stopped a); [auto|]. destruct i; try discriminate; cbn [a_section a_lines]; auto.
  - assert (Hd : only_new (sectioned sec) old (a_lines (if f_library_functions flt then drop_library_function a else a)))
      by (destruct (f_library_functions flt); [now apply drop_sub|exact Ho]).
    cbn zeta. destruct (shouldIgnoreFunction name flt); cbn [a_section a_lines]; [auto|].
    split; [rewrite (proj1 (emit_keep _ _)); exact Ha|]. apply emit_new; [left; exact Ha|now right|exact Hd].
  - destruct (a_ignoring a); [auto|]. split; [now rewrite (proj1 (emit_keep _ _))|]. apply emit_new; [left; exact Ha|now right|exact Ho].
  - destruct (a_ignoring a); [auto|]. split; [now rewrite (proj1 (emit_keep _ _))|]. apply emit_new; [left; exact Ha|now right|exact Ho].
  - destruct (a_ignoring a); [auto|]. split; [now rewrite (proj1 (emit_keep _ _))|]. apply emit_new; [left; exact Ha|now right|exact Ho].
Qed.
Lemma source_kept_all flt items src old : forall a, Forall (fun i => is_source i = false) items -> a_source a = src ->
  only_new (sourced src) old (a_lines a) -> only_new (sourced src) old (a_lines (fold_left (denote_item flt) items a)).
Proof.
  induction items as [|i items IH]; intros a Hi Ha Ho; [exact Ho|]. inversion Hi; subst. cbn [fold_left].
  destruct (source_kept flt i a (a_source a) old) as [H3 H4]; auto.
Qed.
Lemma section_kept_all flt items sec old : forall a, Forall (fun i => is_section i = false) items -> a_section a = sec ->
  only_new (sectioned sec) old (a_lines a) -> only_new (sectioned sec) old (a_lines (fold_left (denote_item flt) items a)).
Proof.
  induction items as [|i items IH]; intros a Hi Ha Ho; [exact Ho|]. inversion Hi; subst. cbn [fold_left].
  destruct (section_kept flt i a (a_section a) old) as [H3 H4]; auto.
Qed.

(** C14: outside ignored functions, the location applies to every later line
    until the next source line. *)
Lemma C14_lemma mb flt pre s file num tail rest : ascii_compatible mb -> line_start mb flt pre s -> o_ignoreUntilNextLabel s = false ->
  wf_item (ISource file num tail) -> Forall wf_item rest -> Forall (fun i => is_source i = false) rest ->
  exists s1 s2, run mb flt (pre ++ "/"%char :: file ++ ":"%char :: num ++ tail ++ [LF]) = Ok s1
    /\ o_lines s1 = o_lines s /\ o_labels s1 = o_labels s
    /\ run mb flt (pre ++ "/"%char :: file ++ ":"%char :: num ++ tail ++ [LF] ++ render rest) = Ok s2
    /\ forall l, In l (o_lines s2) -> In l (o_lines s) \/ l = marker \/
         (s_file (l_source l) = "/"%char :: file /\ s_line (l_source l) = dec_value num
          /\ s_is_usercode (l_source l) = negb (file_in_library ("/"%char :: file))).
Proof.
  intros Hmb Hl Hig Hw Hr Hn. assert (Hw1 : Forall wf_item [ISource file num tail]) by (constructor; auto).
  assert (Hw2 : Forall wf_item (ISource file num tail :: rest)) by (constructor; auto).
  destruct (after_listing mb flt pre s _ Hmb Hl Hw1) as (s1 & E1 & A1).
  destruct (after_listing mb flt pre s _ Hmb Hl Hw2) as (s2 & E2 & A2).
  exists s1, s2. unfold render in E2. cbn [map List.concat] in E2. fold (render rest) in E2. rewrite render_one in E1.
  cbn [render_item app] in E1, E2. repeat (progress (rewrite <- ?app_assoc in E1; cbn [app] in E1)). repeat (progress (rewrite <- ?app_assoc in E2; cbn [app] in E2)).
  cbn [fold_left] in A1, A2. set (a1 := denote_item flt (abs s) (ISource file num tail)) in *.
  assert (H1 : a_lines a1 = o_lines s /\ a_labels a1 = o_labels s /\
     a_source a1 = mkSource ("/"%char :: file) 0 (dec_value num) 0 (negb (file_in_library ("/"%char :: file))) false).
  { subst a1. unfold denote_item. change (a_stopped (abs s)) with (o_stopParsing s). destruct Hl as (_ & _ & -> & _).
    change (a_ignoring (abs s)) with (o_ignoreUntilNextLabel s). rewrite Hig. auto. }
  destruct H1 as (H1 & H2 & H3). split; [exact E1|]. split; [change (a_lines (abs s1) = o_lines s); congruence|].
  split; [change (a_labels (abs s1) = o_labels s); congruence|]. split; [exact E2|].
  intros l Hin. pose proof (source_kept_all flt rest (a_source a1) (a_lines a1) a1 Hn eq_refl (only_new_refl _ _)) as HH.
  rewrite <- A2 in HH. unfold only_new in HH. rewrite Forall_forall in HH. destruct (HH l Hin) as [H|[H|H]].
  - left. congruence.
  - right. right. rewrite H, H3. auto.
  - auto.
Qed.
Lemma C15_lemma mb flt pre s name rest : ascii_compatible mb -> line_start mb flt pre s ->
  name <> [] -> ~ In ":"%char name -> ~ In LF name -> ~ In CR name -> Forall wf_item rest -> Forall (fun i => is_section i = false) rest ->
  exists s1 s2, run mb flt (pre ++ lit "Disassembly of section " ++ name ++ [":"%char; LF]) = Ok s1
    /\ o_lines s1 = o_lines s /\ o_labels s1 = o_labels s
    /\ run mb flt (pre ++ lit "Disassembly of section " ++ name ++ [":"%char; LF] ++ render rest) = Ok s2
    /\ forall l, In l (o_lines s2) -> In l (o_lines s) \/ l = marker \/ l_section l = name.
Proof.
  intros Hmb Hl N0 N1 N2 N3 Hr Hn.
  assert (Hw : wf_item (ISection name)).
  { split; [exact N0|]. split; [exact N1|]. apply Forall_forall. intros c Hc. split; intros ->; contradiction. }
  assert (Hw1 : Forall wf_item [ISection name]) by (constructor; auto).
  assert (Hw2 : Forall wf_item (ISection name :: rest)) by (constructor; auto).
  destruct (after_listing mb flt pre s _ Hmb Hl Hw1) as (s1 & E1 & A1).
  destruct (after_listing mb flt pre s _ Hmb Hl Hw2) as (s2 & E2 & A2).
  exists s1, s2. unfold render in E2. cbn [map List.concat] in E2. fold (render rest) in E2. rewrite render_one in E1.
  cbn [render_item] in E1, E2. rewrite <- !app_assoc in E1. rewrite <- !app_assoc in E2.
  cbn [fold_left] in A1, A2. set (a1 := denote_item flt (abs s) (ISection name)) in *.
  assert (H1 : a_lines a1 = o_lines s /\ a_labels a1 = o_labels s /\ a_section a1 = name).
  { subst a1. unfold denote_item. change (a_stopped (abs s)) with (o_stopParsing s). destruct Hl as (_ & _ & -> & _). auto. }
  destruct H1 as (H1 & H2 & H3). split; [exact E1|]. split; [change (a_lines (abs s1) = o_lines s); congruence|].
  split; [change (a_labels (abs s1) = o_labels s); congruence|]. split; [exact E2|].
  intros l Hin. pose proof (section_kept_all flt rest (a_section a1) (a_lines a1) a1 Hn eq_refl (only_new_refl _ _)) as HH.
  rewrite <- A2 in HH. unfold only_new in HH. rewrite Forall_forall in HH. destruct (HH l Hin) as [H|[H|H]].
  - left. congruence.
  - right. right. congruence.
  - auto.
Qed.

(** ** C16 *)
Definition is_label_item (i : item) : bool := match i with ILabel _ _ => true | _ => false end.
Lemma ignored_rest flt items : forall a, a_ignoring a = true -> Forall (fun i => is_label_item i = false) items ->
  a_lines (fold_left (denote_item flt) items a) = a_lines a /\ a_labels (fold_left (denote_item flt) items a) = a_labels a
  /\ a_ignoring (fold_left (denote_item flt) items a) = true.
Proof.
  induction items as [|i items IH]; intros a Ha Hi; [auto|]. inversion Hi; subst. cbn [fold_left].
  assert (H : a_lines (denote_item flt a i) = a_lines a /\ a_labels (denote_item flt a i) = a_labels a /\ a_ignoring (denote_item flt a i) = true).
  { unfold denote_item. destruct (a_stopped a); [auto|]. rewrite Ha. destruct i; cbn; auto; discriminate. }
  destruct H as (H3 & H4 & H5). destruct (IH (denote_item flt a i) H5) as (H6 & H7 & H8); [assumption|].
  split; [congruence|]. split; congruence.
Qed.

Lemma label_bytes pre h name : pre ++ render [ILabel h name] = pre ++ h ++ lit " <" ++ name ++ lit ">:" ++ [LF].
Proof. rewrite render_one. cbn [render_item]. now rewrite <- !app_assoc. Qed.
Lemma C16_shown mb flt pre s h v name : ascii_compatible mb -> line_start mb flt pre s -> f_library_functions flt = false ->
  hex_value h = Some v -> v < 2147483648 -> Z.of_nat (length h) <= 64 -> ~ In LF name -> ~ In CR name ->
  Z.of_nat (length (o_lines s)) < 5000 -> shouldIgnoreFunction name flt = false ->
  exists s' l, run mb flt (pre ++ h ++ lit " <" ++ name ++ lit ">:" ++ [LF]) = Ok s'
    /\ o_lines s' = o_lines s ++ [l] /\ o_labels s' = o_labels s ++ [(name, Z.of_nat (length (o_lines s)) + 1)]
    /\ l_text l = name ++ [":"%char] /\ l_is_label l = true /\ l_label l = name
    /\ l_address l = (if o_ignoreUntilNextLabel s then None else Some v)
    /\ o_ignoreUntilNextLabel s' = false.
Proof.
  intros Hmb Hl Hf Hv Hlt Hh N1 N2 Hlen Hig. destruct (hex_value_good h v Hv Hlt Hh) as [Hg Hav].
  destruct (after_listing mb flt pre s [ILabel h name] Hmb Hl) as (s' & E & A).
  { constructor; [|constructor]. split; [exact Hg|]. apply Forall_forall. intros c Hc. split; intros ->; contradiction. }
  rewrite label_bytes in E. cbn [fold_left] in A. unfold denote_item in A.
  change (a_stopped (abs s)) with (o_stopParsing s) in A. destruct Hl as (_ & _ & Hs & _). rewrite Hs, Hf, Hig in A.
  unfold emit in A. cbn [a_lines] in A. change (a_lines (abs s)) with (o_lines s) in A. rewrite (proj2 (Z.ltb_lt _ _) Hlen) in A.
  unfold abs at 1 in A. injection A as R1 R2 R3 R4 R5 R6.
  exists s', (label_line (abs s) h name). split; [exact E|]. split; [exact R5|]. split; [exact R6|].
  unfold label_line. lsimp_goal. rewrite Hav. repeat split; auto.
Qed.
(** An ignored label and everything up to the next label yield nothing. *)
Lemma C16_ignored mb flt pre s h v name rest : ascii_compatible mb -> line_start mb flt pre s ->
  f_library_functions flt = false ->
  hex_value h = Some v -> v < 2147483648 -> Z.of_nat (length h) <= 64 -> ~ In LF name -> ~ In CR name ->
  shouldIgnoreFunction name flt = true -> Forall wf_item rest -> Forall (fun i => is_label_item i = false) rest ->
  exists s', run mb flt (pre ++ h ++ lit " <" ++ name ++ lit ">:" ++ [LF] ++ render rest) = Ok s'
    /\ o_lines s' = o_lines s /\ o_labels s' = o_labels s.
Proof.
  intros Hmb Hl Hf Hv Hlt Hh N1 N2 Hig Hw Hn. destruct (hex_value_good h v Hv Hlt Hh) as [Hg Hav].
  destruct (after_listing mb flt pre s (ILabel h name :: rest) Hmb Hl) as (s' & E & A).
  { constructor; [|exact Hw]. split; [exact Hg|]. apply Forall_forall. intros c Hc. split; intros ->; contradiction. }
  exists s'. split.
  - rewrite <- E. f_equal. f_equal. unfold render. cbn [map List.concat render_item]. now rewrite <- !app_assoc.
  - cbn [fold_left] in A. set (a1 := denote_item _ _ (ILabel _ _)) in A.
    assert (H1 : a_lines a1 = o_lines s /\ a_labels a1 = o_labels s /\ a_ignoring a1 = true).
    { subst a1. unfold denote_item. change (a_stopped (abs s)) with (o_stopParsing s). destruct Hl as (_ & _ & -> & _).
      rewrite Hf, Hig. auto. }
    destruct H1 as (H1 & H2 & H3). destruct (ignored_rest flt rest a1 H3 Hn) as (H4 & H5 & _). rewrite <- A in H4, H5.
    change (a_lines (abs s')) with (o_lines s') in H4. change (a_labels (abs s')) with (o_labels s') in H5. split; congruence.
Qed.

(** ** C06: the two overflow cases exist *)
Definition nop (addr : str) : item := IInstr [] addr [lit "90"] [TAB] [Txt (lit "nop")] [].
Lemma nops_denote flt n : forall a, a_stopped a = false -> a_ignoring a = false -> Z.of_nat (length (a_lines a)) + Z.of_nat n <= 5000 ->
  let a' := fold_left (denote_item flt) (repeat (nop (lit "0")) n) a in
  a_stopped a' = false /\ a_ignoring a' = false /\ a_labels a' = a_labels a
  /\ Z.of_nat (length (a_lines a')) = Z.of_nat (length (a_lines a)) + Z.of_nat n
  /\ exists x, a_lines a' = a_lines a ++ x /\ Forall (fun l => l_is_label l = false) x.
Proof.
  induction n as [|n IH]; intros a H1 H2 H3; cbn zeta.
  - cbn [repeat fold_left]. split; [exact H1|]. split; [exact H2|]. split; [reflexivity|]. split; [lia|]. exists []. rewrite app_nil_r. auto.
  - cbn [repeat fold_left]. set (a1 := denote_item flt a (nop (lit "0"))).
    assert (E : a1 = mkL (a_section a) (a_source a) (a_ignoring a) (a_stopped a)
        (a_lines a ++ [instr_line a (lit "0") (lit "nop") [lit "90"] []]) (a_labels a)).
    { subst a1. unfold denote_item, nop. rewrite H1, H2. unfold emit. rewrite (proj2 (Z.ltb_lt _ _)) by lia. now rewrite H1, H2. }
    destruct (IH a1) as (I1 & I2 & I3 & I4 & x & I5 & I6); rewrite E; cbn [a_stopped a_ignoring a_lines]; auto.
    + rewrite app_length. cbn [length]. lia.
    + rewrite <- E. split; [exact I1|]. split; [exact I2|]. split; [rewrite I3, E; reflexivity|].
      split; [rewrite I4, E; cbn [a_lines]; rewrite app_length; cbn [length]; lia|].
      exists (instr_line a (lit "0") (lit "nop") [lit "90"] [] :: x). rewrite I5, E. cbn [a_lines]. rewrite <- app_assoc. split; [reflexivity|].
      constructor; [reflexivity|exact I6].
Qed.
Lemma nop_wf h : good_addr h -> wf_item (nop h).
Proof.
  intros H. cbn [nop wf_item]. split; [constructor|]. split; [exact H|]. split; [discriminate|].
  split; [constructor; [split; [discriminate|repeat constructor; vm_compute; discriminate]|constructor]|].
  split; [discriminate|]. split; [constructor; [now right|constructor]|].
  split; [constructor; [repeat constructor; discriminate|constructor]|].
  split; [exists "n"%char, (lit "op"); split; [reflexivity|intros [E|E]; discriminate]|].
  split; [repeat constructor; vm_compute; reflexivity|]. split; [vm_compute; reflexivity|now left].
Qed.
