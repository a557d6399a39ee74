(** Parsing a rendered listing gives its meaning (C13-C17). *)
From Verif Require Export ObjAddr ObjListing.

(** ** The state at the start of a line of a well-formed listing *)
Record clean (s : ostate) : Prop := {
  cl_comment : o_inComment s = false;
  cl_some : o_inSomethingWithALabel s = false;
  cl_addr : o_inAddress s = true;
  cl_label : o_inLabel s = false;
  cl_opc : o_inOpcodes s = false;
  cl_sec : o_inSectionStart s = false;
  cl_secn : o_inSectionName s = false;
  cl_src : o_inSourceRef s = false;
  cl_srcn : o_inSourceRefLineNumber s = false;
  cl_rel : o_inRelocation s = false;
  cl_skip : o_skipRestOfTheLine s = false;
  cl_ref : o_currentLabelReference s = label0;
  cl_text : o_text s = [];
  cl_line : o_currentLine s = line0 }.

Definition abs (s : ostate) : lstate :=
  mkL (o_currentSection s) (o_currentSourceRef s) (o_ignoreUntilNextLabel s) (o_stopParsing s) (o_lines s) (o_labels s).

Lemma clean_start s : clean s -> o_stopParsing s = false -> at_line_start s.
Proof. intros [] ?. constructor; assumption. Qed.

(** next_line of a state whose pending reference is closed is clean. *)
Lemma clean_next s : o_inSomethingWithALabel s = false -> o_currentLabelReference s = label0 -> clean (next_line s).
Proof. intros. constructor; unfold next_line, commonReset; osimp_goal; auto. Qed.
Lemma abs_next s : abs (next_line s) = abs s.
Proof. reflexivity. Qed.
Lemma abs_push l s : abs (push_line l s) = emit l (abs s).
Proof. unfold push_line, emit, abs. destruct s; osimp; cbn [a_lines a_section a_source a_ignoring a_stopped a_labels]. now destruct (_ <? _). Qed.
Lemma push_line_some l s : o_inSomethingWithALabel (push_line l s) = o_inSomethingWithALabel s
  /\ o_currentLabelReference (push_line l s) = o_currentLabelReference s.
Proof. unfold push_line. destruct (_ <? _); auto. Qed.

(** What one rendered line should do. *)
Definition line_ok (mb : str -> Z) (flt : Filter) (s : ostate) (input : str) (a : lstate) : Prop :=
  exists s', feed mb flt s (input ++ [LF]) = Ok s' /\ clean s' /\ abs s' = a.

(** ** End of line *)
Lemma step_eol mb flt s : o_stopParsing s = false -> step mb flt s LF = eol flt s.
Proof. intros H. unfold step. rewrite H. reflexivity. Qed.
Lemma eol_ignoring flt s : o_inLabel s = false -> o_ignoreUntilNextLabel s = true -> eol flt s = Ok (next_line s).
Proof. intros H1 H2. unfold eol. destruct s; osimp; subst. reflexivity. Qed.
Lemma eol_text flt s : o_inLabel s = false -> o_ignoreUntilNextLabel s = false -> o_inSourceRefLineNumber s = false ->
  o_text s <> [] -> eol flt s = Ok (next_line (push_line (finish_line s) s)).
Proof.
  intros H1 H2 H3 H4. unfold eol. rewrite <- next_line_push. destruct s; osimp; subst. cbn [obind]. osimp_goal.
  destruct o_text; [contradiction|reflexivity].
Qed.
Lemma eol_blank flt s : o_inLabel s = false -> o_inSourceRefLineNumber s = false -> o_text s = [] -> eol flt s = Ok (next_line s).
Proof.
  intros H1 H2 H3. unfold eol. destruct s; osimp; subst. cbn [obind]. osimp_goal. now destruct o_ignoreUntilNextLabel.
Qed.

Lemma feed_snoc mb flt s t c : feed mb flt s (t ++ [c]) = (s' <- feed mb flt s t ;; step mb flt s' c).
Proof. rewrite feed_app. destruct (feed mb flt s t); cbn [obind feed]; try reflexivity. now destruct (step mb flt a c). Qed.

(** ** Reading the rest of a line that is skipped *)
Lemma feed_skip mb flt s t : o_skipRestOfTheLine s = true -> ~ In LF t -> feed mb flt s t = Ok s.
Proof.
  intros Hs. induction t as [|c t IH]; intros Hn; [reflexivity|]. cbn [feed In] in *.
  replace (step mb flt s c) with (@Ok ostate s); [cbn [obind]; tauto|].
  unfold step. rewrite Hs. destruct (o_stopParsing s); [reflexivity|]. destruct (ceq c CR); [reflexivity|].
  destruct (ceq c LF) eqn:E; [cnv; subst; tauto|reflexivity].
Qed.

(** ** Text *)
Record text_mode (s : ostate) : Prop := {
  tm_stop : o_stopParsing s = false;
  tm_comment : o_inComment s = false;
  tm_addr : o_inAddress s = false;
  tm_label : o_inLabel s = false;
  tm_opc : o_inOpcodes s = false;
  tm_sec : o_inSectionStart s = false;
  tm_src : o_inSourceRef s = false;
  tm_rel : o_inRelocation s = false;
  tm_skip : o_skipRestOfTheLine s = false }.

Lemma step_text_mode mb flt s c : text_mode s -> c <> LF -> c <> CR -> step mb flt s c = Ok (step_text mb flt s c).
Proof.
  intros [] H1 H2. apply ceq_false in H1, H2. unfold step.
  repeat match goal with H : _ s = false |- _ => rewrite H; clear H end. rewrite H1, H2. reflexivity.
Qed.
Lemma text_mode_text t s : text_mode s -> text_mode (set_o_text t s).
Proof. intros []. constructor; assumption. Qed.

Lemma app_text_ok c t : (t <> [] \/ is_whitespace c = false) -> app_text c t = t ++ [c].
Proof. intros [H|H]; [now apply app_text_ne|now apply app_text_nows]. Qed.
Lemma app_ne {A} (a : list A) c : a ++ [c] <> [].
Proof. intros E. apply app_eq_nil in E. destruct E; discriminate. Qed.

(** The first character would not be dropped as leading white space. *)
Definition kept_start (pre t : str) : Prop := forall c u, t = c :: u -> pre <> [] \/ is_whitespace c = false.

Lemma feed_plain mb flt t : forall s, text_mode s -> kept_start (o_text s) t ->
  Forall (fun c => c <> "<"%char /\ c <> "#"%char /\ c <> LF /\ c <> CR /\
                   (o_inSomethingWithALabel s = true -> c <> ">"%char /\ c <> "+"%char)) t ->
  feed mb flt s t = Ok (set_o_text (o_text s ++ t) s).
Proof.
  induction t as [|c t IH]; intros s Hm Ht Hc; cbn [feed].
  - rewrite app_nil_r. now destruct s.
  - inversion Hc as [|? ? (C1 & C2 & C3 & C4 & C5) Hc']; subst. rewrite step_text_mode by assumption. cbn [obind].
    specialize (Ht c t eq_refl).
    replace (step_text mb flt s c) with (set_o_text (o_text s ++ [c]) s).
    + rewrite IH; [f_equal; destruct s; osimp; now rewrite <- app_assoc|now apply text_mode_text| |exact Hc'].
      osimp. intros ? ? _. left. apply app_ne.
    + unfold step_text. apply ceq_false in C1, C2. rewrite C1, C2.
      destruct (o_inSomethingWithALabel s) eqn:Es.
      * destruct (C5 eq_refl) as [C6 C7]. apply ceq_false in C6, C7. rewrite C6, C7. rewrite append_char_eq, app_text_ok by exact Ht. reflexivity.
      * rewrite append_char_eq, app_text_ok by exact Ht. reflexivity.
Qed.

(** A comment: everything after # is text. *)
Lemma feed_comment mb flt t : forall s, text_mode (set_o_inComment false s) -> o_inComment s = true -> o_text s <> [] ->
  same_line t -> feed mb flt s t = Ok (set_o_text (o_text s ++ t) s).
Proof.
  induction t as [|c t IH]; intros s Hm Hi Ht Hc; cbn [feed].
  - rewrite app_nil_r. now destruct s.
  - inversion Hc as [|? ? (C1 & C2) Hc']; subst. apply ceq_false in C1, C2.
    replace (step mb flt s c) with (Ok (set_o_text (o_text s ++ [c]) s)).
    + cbn [obind]. rewrite IH; [f_equal; destruct s; osimp; now rewrite <- app_assoc| | | |exact Hc'].
      * destruct Hm. constructor; assumption.
      * exact Hi.
      * osimp. intros E. apply app_eq_nil in E. destruct E; discriminate.
    + destruct Hm as [M1 M2 M3 M4 M5 M6 M7 M8 M9]. osimp. unfold step. rewrite M1, C1, C2, M3, M4, M5, M6, M7, M8, M9, Hi.
      cbn [negb]. rewrite append_char_eq, app_text_ne by exact Ht. reflexivity.
Qed.

(** ** Opcode bytes *)
Record opc_mode (s : ostate) : Prop := {
  om_stop : o_stopParsing s = false;
  om_addr : o_inAddress s = false;
  om_label : o_inLabel s = false;
  om_opc : o_inOpcodes s = true;
  om_skip : o_skipRestOfTheLine s = false }.
Lemma step_opc_mode mb flt s c : opc_mode s -> c <> LF -> c <> CR -> step mb flt s c = Ok (step_opcodes s c).
Proof.
  intros [] H1 H2. apply ceq_false in H1, H2. unfold step.
  repeat match goal with H : _ s = _ |- _ => rewrite H; clear H end. rewrite H1, H2. reflexivity.
Qed.
Lemma opc_mode_text t s : opc_mode s -> opc_mode (set_o_text t s).
Proof. intros []. constructor; assumption. Qed.

Lemma hex_string_is_hex g : hex_string g -> g <> [] /\ Forall (fun c => is_hex c = true) g.
Proof.
  intros [H1 H2]. split; [exact H1|]. eapply Forall_impl; [|exact H2]. intros c. cbn beta.
  destruct (hex_digit c) eqn:E; [|congruence]. intros _. now apply hex_digit_is_hex in E.
Qed.
Lemma is_hex_not_special c : is_hex c = true -> c <> LF /\ c <> CR /\ is_whitespace c = false /\ ceq c "R" = false.
Proof. intros H. repeat split; try (intros ->; discriminate). all: destruct c as [[] [] [] [] [] [] [] []]; cbn in H; try discriminate; reflexivity. Qed.

Lemma feed_hex_bytes mb flt g : forall s, opc_mode s -> Forall (fun c => is_hex c = true) g ->
  feed mb flt s g = Ok (set_o_text (o_text s ++ g) s).
Proof.
  induction g as [|c g IH]; intros s Hm Hg; cbn [feed].
  - rewrite app_nil_r. now destruct s.
  - inversion Hg as [|? ? Hc Hg']; subst. pose proof (is_hex_not_special c Hc) as (C1 & C2 & C3 & C4).
    rewrite step_opc_mode by assumption. cbn [obind]. unfold step_opcodes. rewrite C3, C4, Hc. cbn [negb].
    rewrite append_char_eq, app_text_nows by exact C3. rewrite IH by (assumption || now apply opc_mode_text).
    f_equal. destruct s; osimp. now rewrite <- app_assoc.
Qed.

Lemma last_is_app_ne c a b : b <> [] -> last_is c (a ++ b) = last_is c b.
Proof.
  intros H. destruct b as [|x b _] using rev_ind; [contradiction|]. rewrite app_assoc, !last_is_app. reflexivity.
Qed.
Lemma last_is_hex g : g <> [] -> Forall (fun c => is_hex c = true) g -> last_is SP g = false.
Proof.
  intros H HF. destruct g as [|x g _] using rev_ind; [contradiction|]. rewrite last_is_app.
  apply Forall_app in HF as [_ HF]. inversion HF as [|? ? Hx]; subst. apply ceq_false. intros ->. discriminate.
Qed.

Lemma feed_groups mb flt gs : forall s, opc_mode s -> Forall hex_string gs ->
  feed mb flt s (render_groups gs) = Ok (set_o_text (o_text s ++ render_groups gs) s).
Proof.
  unfold render_groups. induction gs as [|g gs IH]; intros s Hm Hg; cbn [map List.concat].
  - cbn [feed]. rewrite app_nil_r. now destruct s.
  - inversion Hg as [|? ? Hg1 Hg']; subst. apply hex_string_is_hex in Hg1 as [Hne Hh].
    rewrite feed_app, feed_snoc, feed_hex_bytes by assumption. cbn [obind].
    rewrite step_opc_mode; [|now apply opc_mode_text|discriminate|discriminate]. cbn [obind]. unfold step_opcodes. osimp_goal.
    change (is_whitespace SP) with true. cbn iota.
    assert (Hne2 : o_text s ++ g <> []) by (intros E; apply app_eq_nil in E; tauto).
    destruct (is_nil (o_text s ++ g)) eqn:E; [cnv; contradiction|]. clear E.
    rewrite last_is_app_ne, last_is_hex by assumption.
    rewrite append_char_eq, app_text_ne by exact Hne2. osimp_goal.
    rewrite IH; [f_equal; destruct s; osimp; now rewrite <- !app_assoc| |assumption].
    destruct Hm; constructor; assumption.
Qed.

Lemma split_app_hex g : forall acc rest, Forall (fun c => is_hex c = true) g ->
  split_opcodes (g ++ rest) acc = split_opcodes rest (acc ++ g).
Proof.
  induction g as [|c g IH]; intros acc rest Hg; cbn [app split_opcodes]; [now rewrite app_nil_r|].
  inversion Hg as [|? ? Hc Hg']; subst. replace (ceq c SP) with false by (symmetry; apply ceq_false; intros ->; discriminate).
  cbn [negb]. rewrite IH by assumption. now rewrite <- app_assoc.
Qed.
Lemma split_groups gs : Forall hex_string gs -> split_opcodes (render_groups gs) [] = gs.
Proof.
  unfold render_groups. induction 1 as [|g gs Hg Hgs IH]; [reflexivity|]. cbn [map List.concat].
  apply hex_string_is_hex in Hg as [Hne Hh]. rewrite <- app_assoc, split_app_hex by assumption. cbn [app split_opcodes].
  change (ceq SP SP) with true. cbn [negb]. destruct g; [contradiction|]. cbn [is_nil negb]. now rewrite IH.
Qed.
Lemma render_groups_last gs : gs <> [] -> last_is SP (render_groups gs) = true.
Proof.
  intros H. destruct gs as [|g gs _] using rev_ind; [contradiction|]. unfold render_groups.
  rewrite map_app, concat_app. cbn [map List.concat]. rewrite app_nil_r, app_assoc. now rewrite last_is_app.
Qed.
Lemma render_groups_ne gs : gs <> [] -> render_groups gs <> [].
Proof. intros H E. apply render_groups_last in H. rewrite E in H. discriminate. Qed.

(** ** Instruction text with references *)
Fixpoint raw_refs (flt : Filter) (pos : Z) (l : list seg) : list asm_label :=
  match l with
  | [] => []
  | Txt t :: l' => raw_refs flt (pos + Z.of_nat (length t)) l'
  | Ref name rest :: l' =>
      let next := raw_refs flt (pos + Z.of_nat (length name) + Z.of_nat (length rest) + 2) l' in
      if shouldIgnoreFunction name flt then next
      else mkLabel name (mkRange (pos + 1) (pos + 1 + Z.of_nat (length name))) :: next
  end.
Lemma render_segs_cons x l : render_segs (x :: l) = render_seg x ++ render_segs l.
Proof. reflexivity. Qed.
Lemma shift_raw flt l : forall pos, 0 <= pos -> pos + Z.of_nat (length (render_segs l)) < 65533 ->
  map shift_label (raw_refs flt pos l) = seg_refs flt pos l.
Proof.
  induction l as [|x l IH]; intros pos Hp Hl; [reflexivity|]. rewrite render_segs_cons, app_length in Hl. destruct x as [t|name rest].
  - cbn [raw_refs seg_refs render_seg] in *. apply IH; lia.
  - cbn [raw_refs seg_refs render_seg length] in *. rewrite !app_length in Hl. cbn [length] in Hl.
    destruct (shouldIgnoreFunction name flt); [apply IH; lia|]. cbn [map]. f_equal; [|apply IH; lia].
    unfold shift_label. cbn [lb_name lb_range r_start r_end]. rewrite !u16_small by lia. f_equal. f_equal; lia.
Qed.

Definition refs_if (s : ostate) (rs : list asm_label) : list asm_label := if o_ignoreUntilNextLabel s then [] else rs.
Definition texted (t : str) (rs : list asm_label) (s : ostate) : ostate :=
  set_o_text (o_text s ++ t) (set_o_currentLine (add_refs (refs_if s rs) (o_currentLine s)) s).

Lemma texted_texted t u r1 r2 s : texted u r2 (texted t r1 s) = texted (t ++ u) (r1 ++ r2) s.
Proof.
  unfold texted, refs_if, add_refs. destruct s; osimp_goal. destruct o_ignoreUntilNextLabel; cbn [l_labels set_l_labels].
  - rewrite !app_nil_r, <- app_assoc. now destruct o_currentLine.
  - rewrite <- !app_assoc. reflexivity.
Qed.
Lemma texted_nil t s : texted t [] s = set_o_text (o_text s ++ t) s.
Proof. unfold texted, refs_if. replace (if o_ignoreUntilNextLabel s then [] else []) with (@nil asm_label) by (now destruct (o_ignoreUntilNextLabel s)). rewrite add_refs_nil. now destruct s. Qed.
Lemma texted_mode t rs s : text_mode s -> text_mode (texted t rs s).
Proof. intros []. constructor; assumption. Qed.

Lemma whitespace_blank c : ~ blank c <-> is_whitespace c = false.
Proof. unfold blank, is_whitespace. rewrite orb_false_iff, !ceq_false. tauto. Qed.

Lemma ascii_app a b : ascii_text (a ++ b) <-> ascii_text a /\ ascii_text b.
Proof. apply Forall_app. Qed.

Lemma feed_ref mb flt s name rest : ascii_compatible mb -> text_mode s -> o_inSomethingWithALabel s = false ->
  o_currentLabelReference s = label0 -> wf_seg (Ref name rest) ->
  ascii_text (o_text s ++ render_seg (Ref name rest)) -> Z.of_nat (length (o_text s ++ render_seg (Ref name rest))) < 65533 ->
  feed mb flt s (render_seg (Ref name rest)) =
  Ok (texted (render_seg (Ref name rest)) (raw_refs flt (Z.of_nat (length (o_text s))) [Ref name rest]) s).
Proof.
  intros Hmb Hm Hs Hr [Hn Hrest] Ha Hl. cbn [render_seg] in *.
  apply ascii_app in Ha as [Ha1 Ha2]. inversion Ha2 as [|? ? Hlt Ha3]; subst. apply ascii_app in Ha3 as [Ha3 Ha4].
  rewrite app_length in Hl. cbn [length] in Hl. rewrite !app_length in Hl. cbn [length] in Hl.
  cbn [feed]. rewrite step_text_mode by (assumption || discriminate). cbn [obind].
  unfold step_text. change (ceq "<" "#") with false. change (ceq "<" "<") with true. cbn iota.
  rewrite append_char_eq, app_text_ok by now right. osimp_goal.
  set (s1 := set_o_text _ _).
  assert (Hm1 : text_mode s1) by (destruct Hm; constructor; assumption).
  rewrite feed_app, feed_plain; [|exact Hm1| |].
  2:{ intros ? ? _. left. subst s1. osimp_goal. apply app_ne. }
  2:{ eapply Forall_impl; [|exact Hn]. cbn. intros c. tauto. }
  cbn [obind]. set (s2 := set_o_text _ s1).
  assert (Ht2 : o_text s2 = (o_text s ++ ["<"%char]) ++ name) by reflexivity.
  assert (Hm2 : text_mode s2) by (destruct Hm; constructor; assumption).
  assert (Hne2 : o_text s2 <> []) by (rewrite Ht2, <- app_assoc; intros E; apply app_eq_nil in E; destruct E; discriminate).
  assert (Hu1 : ustrlen mb (o_text s) = Z.of_nat (length (o_text s))) by now apply ustrlen_ascii.
  assert (Hu2 : ustrlen mb (o_text s2) = Z.of_nat (length (o_text s)) + 1 + Z.of_nat (length name)).
  { rewrite ustrlen_ascii; [rewrite Ht2, !app_length; cbn [length]; lia|exact Hmb|]. rewrite Ht2.
    apply ascii_app. split; [|exact Ha3]. apply ascii_app. split; [exact Ha1|]. now constructor. }
  assert (Hlr : labelref mb flt (set_o_inSomethingWithALabel false s2) =
      set_o_text (o_text s2) (set_o_currentLine (add_refs (refs_if s (raw_refs flt (Z.of_nat (length (o_text s))) [Ref name rest])) (o_currentLine s)) s)).
  { rewrite labelref_eq.
    replace (new_ref mb flt (set_o_inSomethingWithALabel false s2)) with (refs_if s (raw_refs flt (Z.of_nat (length (o_text s))) [Ref name rest])).
    - subst s2 s1. clear - Hs Hr. destruct s; osimp; subst. reflexivity.
    - unfold new_ref. change (o_ignoreUntilNextLabel (set_o_inSomethingWithALabel false s2)) with (o_ignoreUntilNextLabel s).
      unfold refs_if. destruct (o_ignoreUntilNextLabel s); [reflexivity|].
      change (o_text (set_o_inSomethingWithALabel false s2)) with (o_text s2).
      change (r_start (lb_range (o_currentLabelReference (set_o_inSomethingWithALabel false s2)))) with (u16 (ustrlen mb (o_text s) + 1)).
      rewrite Hu1, Hu2, !u16_small by lia. unfold substr_from.
      replace (Z.of_nat (length (o_text s2)) <? Z.of_nat (length (o_text s)) + 1) with false
        by (rewrite Ht2, !app_length; cbn [length]; lia).
      replace (skipn (Z.to_nat (Z.of_nat (length (o_text s)) + 1)) (o_text s2)) with name.
      + cbn [raw_refs]. destruct (shouldIgnoreFunction name flt); reflexivity.
      + replace (Z.to_nat (Z.of_nat (length (o_text s)) + 1)) with (length (o_text s ++ ["<"%char])) by (rewrite app_length; cbn [length]; lia).
        rewrite Ht2. now rewrite skipn_len_app. }
  assert (Hlrc : forall c, c = ">"%char \/ c = "+"%char -> step mb flt s2 c =
     Ok (set_o_text (o_text s2 ++ [c]) (set_o_currentLine (add_refs (refs_if s (raw_refs flt (Z.of_nat (length (o_text s))) [Ref name rest])) (o_currentLine s)) s))).
  { intros c Hc. rewrite step_text_mode; [|exact Hm2|destruct Hc; subst; discriminate|destruct Hc; subst; discriminate].
    f_equal. unfold step_text. rewrite append_char_eq.
    replace (if ceq c "#" then _ else _) with (labelref mb flt (set_o_inSomethingWithALabel false s2)).
    - rewrite Hlr. osimp_goal. rewrite app_text_ok by now left. clear. destruct s; reflexivity.
    - change (o_inSomethingWithALabel s2) with true.
      assert (E : is_nil (lb_name (o_currentLabelReference (set_o_inSomethingWithALabel false s2))) = true).
      { subst s2 s1. osimp_goal. now rewrite Hr. }
      destruct Hc as [->| ->]; cbn [ceq Ascii.eqb Bool.eqb]; cbn zeta; rewrite ?E; reflexivity. }
  destruct Hrest as [->|(r & -> & Hrr)].
  - cbn [app]. cbn [feed]. rewrite Hlrc by now left. cbn [obind]. f_equal. unfold texted. rewrite Ht2, <- !app_assoc. reflexivity.
  - cbn [app]. cbn [feed]. rewrite Hlrc by now right. cbn [obind].
    rewrite feed_plain.
    + f_equal. unfold texted. osimp_goal. rewrite Ht2, <- !app_assoc. reflexivity.
    + destruct Hm; constructor; assumption.
    + intros ? ? _. left. osimp_goal. apply app_ne.
    + osimp_goal. rewrite Hs. apply Forall_app. split.
      * eapply Forall_impl; [|exact Hrr]. cbn. intros c Hc. repeat split; try tauto; congruence.
      * constructor; [|constructor]. repeat split; try discriminate; congruence.
Qed.

Lemma feed_segs mb flt : ascii_compatible mb -> forall segs s, text_mode s -> o_inSomethingWithALabel s = false ->
  o_currentLabelReference s = label0 -> Forall wf_seg segs -> kept_start (o_text s) (render_segs segs) ->
  ascii_text (o_text s ++ render_segs segs) -> Z.of_nat (length (o_text s ++ render_segs segs)) < 65533 ->
  feed mb flt s (render_segs segs) = Ok (texted (render_segs segs) (raw_refs flt (Z.of_nat (length (o_text s))) segs) s).
Proof.
  intros Hmb. induction segs as [|x segs IH]; intros s Hm Hs Hr Hw Hk Ha Hl.
  - cbn [render_segs map List.concat feed raw_refs]. rewrite texted_nil, app_nil_r. now destruct s.
  - inversion Hw as [|? ? Hx Hw']; subst. rewrite render_segs_cons in *. rewrite feed_app. rewrite app_assoc in Ha, Hl.
    assert (Hgo : forall rs, feed mb flt s (render_seg x) = Ok (texted (render_seg x) rs s) ->
      rs ++ raw_refs flt (Z.of_nat (length (o_text s ++ render_seg x))) segs = raw_refs flt (Z.of_nat (length (o_text s))) (x :: segs) ->
      (s' <- feed mb flt s (render_seg x) ;; feed mb flt s' (render_segs segs)) =
      Ok (texted (render_seg x ++ render_segs segs) (raw_refs flt (Z.of_nat (length (o_text s))) (x :: segs)) s)).
    { intros rs -> <-. cbn [obind]. rewrite IH; [now rewrite texted_texted|now apply texted_mode|exact Hs|exact Hr|exact Hw'| |exact Ha|exact Hl].
      unfold texted. osimp_goal. intros c u E. destruct (o_text s) as [|y ys] eqn:Et; [|left; discriminate].
      destruct (render_seg x) as [|z zs] eqn:Ez; [|left; discriminate]. cbn [app] in *. destruct (Hk c u E); [contradiction|now right]. }
    destruct x as [t|name rest].
    + apply (Hgo []).
      * cbn [render_seg] in *. rewrite texted_nil. apply feed_plain; [exact Hm| |].
        -- intros c u ->. apply (Hk c (u ++ render_segs segs)). reflexivity.
        -- eapply Forall_impl; [|exact Hx]. cbn. intros c Hc. rewrite Hs. repeat split; try tauto; congruence.
      * cbn [app raw_refs render_seg]. f_equal. rewrite app_length. lia.
    + apply (Hgo (raw_refs flt (Z.of_nat (length (o_text s))) [Ref name rest])).
      * apply feed_ref; try assumption; [apply ascii_app in Ha; tauto|]. rewrite app_length in Hl. lia.
      * cbn [raw_refs render_seg]. rewrite app_length. cbn [length]. rewrite !app_length. cbn [length].
        replace (Z.of_nat (length (o_text s)) + Z.of_nat (length name) + Z.of_nat (length rest) + 2)
           with (Z.of_nat (length (o_text s) + S (length name + (length rest + 1)))) by lia.
        destruct (shouldIgnoreFunction name flt); reflexivity.
Qed.
