(** Each kind of listing line does what it denotes (C13-C17). *)
From Verif Require Export ObjListingProofs.

Lemma blank_whitespace c : blank c <-> is_whitespace c = true.
Proof. unfold blank, is_whitespace. rewrite orb_true_iff, !ceq_true. tauto. Qed.
Lemma same_line_LF t : same_line t -> ~ In LF t.
Proof. intros H HI. unfold same_line in H. rewrite Forall_forall in H. apply H in HI. tauto. Qed.
Lemma blank_same_line t : Forall blank t -> same_line t.
Proof. apply Forall_impl. intros c [->| ->]; split; discriminate. Qed.

(** After ADDR: *)
Definition addr_of (s : ostate) (h : str) : option Z := if o_ignoreUntilNextLabel s then None else Some (addr_value h).
Definition after_addr (h : str) (s : ostate) : ostate :=
  set_o_inOpcodes true (set_o_inAddress false (set_o_currentLine (set_l_address (addr_of s h) line0) s)).

Lemma as_int_small v : 0 <= v < 2147483648 -> as_int v = v.
Proof. intros H. unfold as_int. destruct (_ <? _) eqn:E; lia. Qed.
Lemma good_addr_nonneg h v : hex_value h = Some v -> 0 <= v.
Proof. intros H. apply hex_value_le in H as (_ & H & ->). apply le_value_nonneg. now apply Forall_rev. Qed.

Lemma good_addr_chars h : good_addr h -> h <> [] /\ Forall (fun c => is_hex c = true) h.
Proof. intros (v & H & _). apply hex_value_le in H. tauto. Qed.

(** The address field is read when its end is seen. *)
Lemma address_good s h : clean s -> o_stopParsing s = false -> good_addr h ->
  address (set_o_text h s) = Ok (after_addr h s).
Proof.
  intros Hc Hs Hg. pose proof (good_addr_chars _ Hg) as [Hne Hh]. destruct Hg as (v & Hv & Hlt & Hlen).
  pose proof (good_addr_nonneg _ _ Hv) as Hnn.
  unfold address. osimp_goal. destruct h as [|c h]; [contradiction|].
  replace (ceq c "/") with false by (inversion Hh; symmetry; apply ceq_false; now apply hex_addr_char).
  unfold actually_address. osimp_goal. unfold after_addr, addr_of.
  destruct (o_ignoreUntilNextLabel s) eqn:Ei; cbn [negb obind].
  - f_equal. destruct Hc. destruct s; osimp; subst. reflexivity.
  - rewrite (addr_loop_value _ _ Hv Hlen). replace (v <? 4294967296) with true by lia. cbn [obind fst snd].
    rewrite as_int_small by lia. unfold addr_value. rewrite Hv. f_equal. destruct Hc. destruct s; osimp; subst. reflexivity.
Qed.

Lemma feed_addr_text mb flt s b t : clean s -> o_stopParsing s = false -> Forall blank b -> Forall addr_char t ->
  feed mb flt s (b ++ t) = Ok (set_o_text t s).
Proof.
  intros Hc Hs Hb Ht. rewrite feed_app, feed_blanks; [|exact Hb|now apply clean_start]. cbn [obind].
  rewrite feed_addr_chars; [|exact Ht|apply Hc|apply Hc|exact Hs]. now rewrite (cl_text _ Hc).
Qed.
Lemma feed_addr_text0 mb flt s t : clean s -> o_stopParsing s = false -> Forall addr_char t ->
  feed mb flt s t = Ok (set_o_text t s).
Proof. intros. now apply (feed_addr_text mb flt s [] t). Qed.
Lemma step_colon mb flt s t : clean s -> o_stopParsing s = false ->
  step mb flt (set_o_text t s) ":"%char = address (set_o_text t s).
Proof.
  intros [] Hs. unfold step. osimp_goal. repeat match goal with H : _ s = _ |- _ => rewrite H end. reflexivity.
Qed.

Lemma hex_chars_addr h : Forall (fun c => is_hex c = true) h -> Forall addr_char h.
Proof. apply Forall_impl. exact hex_addr_char. Qed.

Lemma feed_addr_colon mb flt s b h : clean s -> o_stopParsing s = false -> Forall blank b -> good_addr h ->
  feed mb flt s (b ++ h ++ [":"%char]) = Ok (after_addr h s).
Proof.
  intros Hc Hs Hb Hg. pose proof (good_addr_chars _ Hg) as [_ Hh].
  rewrite app_assoc, feed_snoc, feed_addr_text; [|assumption|assumption|assumption|now apply hex_chars_addr]. cbn [obind].
  rewrite step_colon by assumption. now apply address_good.
Qed.

Lemma after_addr_opc h s : clean s -> o_stopParsing s = false -> opc_mode (after_addr h s) /\ o_text (after_addr h s) = [].
Proof. intros [] Hs. split; [constructor|]; unfold after_addr; osimp_goal; auto. Qed.

Lemma step_opc_blank mb flt s c : opc_mode s -> o_text s = [] -> blank c -> step mb flt s c = Ok s.
Proof.
  intros Hm Ht Hc. rewrite step_opc_mode; [|exact Hm|destruct Hc; subst; discriminate|destruct Hc; subst; discriminate].
  unfold step_opcodes. rewrite Ht. apply blank_whitespace in Hc. now rewrite Hc.
Qed.

(** ** Instruction lines *)
Definition coded (gs : list str) (s : ostate) : ostate :=
  set_o_inOpcodes false (set_o_text [] (set_o_currentLine (add_ops (if o_ignoreUntilNextLabel s then [] else gs) (o_currentLine s)) s)).

Lemma step_opc_end mb flt s gs c : opc_mode s -> blank c -> gs <> [] -> Forall hex_string gs ->
  step mb flt (set_o_text (render_groups gs) s) c = Ok (coded gs s).
Proof.
  intros Hm Hc Hne Hg. rewrite step_opc_mode; [|now apply opc_mode_text|destruct Hc; subst; discriminate|destruct Hc; subst; discriminate].
  unfold step_opcodes. apply blank_whitespace in Hc. rewrite Hc. osimp_goal.
  pose proof (render_groups_ne gs Hne). destruct (is_nil (render_groups gs)) eqn:E; [cnv; contradiction|].
  rewrite render_groups_last by assumption. rewrite opcodes_eq. f_equal. unfold coded, new_ops. osimp_goal.
  rewrite split_groups by assumption. destruct s; reflexivity.
Qed.
Lemma coded_text_mode gs h s : clean s -> o_stopParsing s = false -> text_mode (coded gs (after_addr h s))
  /\ o_inSomethingWithALabel (coded gs (after_addr h s)) = false
  /\ o_currentLabelReference (coded gs (after_addr h s)) = label0 /\ o_text (coded gs (after_addr h s)) = [].
Proof. intros [] Hs. repeat split; unfold coded, after_addr; osimp_goal; auto. Qed.

Lemma feed_text_blanks mb flt b : Forall blank b -> forall s, text_mode s -> o_text s = [] -> feed mb flt s b = Ok s.
Proof.
  induction 1 as [|c b Hc Hb IH]; intros s Hm Ht; [reflexivity|]. cbn [feed].
  rewrite step_text_mode; [|exact Hm|destruct Hc; subst; discriminate|destruct Hc; subst; discriminate]. cbn [obind].
  replace (step_text mb flt s c) with s; [now apply IH|]. unfold step_text. rewrite append_char_eq. unfold app_text.
  destruct Hc; subst c; destruct s; osimp; subst; cbn; now destruct o_inSomethingWithALabel.
Qed.

(** Finishing a line in text or opcode or relocation mode. *)
Lemma finish_item mb flt s a : o_stopParsing s = false -> o_inLabel s = false -> o_inSourceRefLineNumber s = false ->
  o_text s <> [] -> o_inSomethingWithALabel s = false -> o_currentLabelReference s = label0 ->
  a = (if o_ignoreUntilNextLabel s then abs s else emit (finish_line s) (abs s)) ->
  exists s', step mb flt s LF = Ok s' /\ clean s' /\ abs s' = a.
Proof.
  intros H1 H2 H3 H4 H5 H6 ->. rewrite step_eol by exact H1. destruct (o_ignoreUntilNextLabel s) eqn:Ei.
  - rewrite eol_ignoring by assumption. eexists. split; [reflexivity|]. split; [now apply clean_next|apply abs_next].
  - rewrite eol_text by assumption. eexists. split; [reflexivity|]. pose proof (push_line_some (finish_line s) s) as [E1 E2].
    split; [apply clean_next; congruence|]. now rewrite abs_next, abs_push.
Qed.

Lemma feed_comment_part mb flt s comment : text_mode s -> o_text s <> [] ->
  (comment = [] \/ exists t, comment = "#"%char :: t /\ same_line t) ->
  exists b, feed mb flt s comment = Ok (set_o_inComment b (set_o_text (o_text s ++ comment) s)).
Proof.
  intros Hm Ht [->|(t & -> & Hl)].
  - exists (o_inComment s). cbn [feed]. rewrite app_nil_r. now destruct s.
  - exists true. cbn [feed]. rewrite step_text_mode by (assumption || discriminate). cbn [obind].
    unfold step_text. change (ceq "#" "#") with true. cbn iota. rewrite append_char_eq, app_text_ok by now right.
    rewrite feed_comment; [| | | |exact Hl].
    + f_equal. osimp_goal. destruct s; osimp_goal. now rewrite <- app_assoc.
    + destruct Hm; constructor; osimp_goal; auto.
    + reflexivity.
    + osimp_goal. apply app_ne.
Qed.

Lemma starts_nonblank_kept t : starts_nonblank t -> kept_start [] t.
Proof. intros (c & u & -> & H) c' u' [= <- <-]. right. now apply whitespace_blank. Qed.

Lemma texted_fields t rs s :
  o_stopParsing (texted t rs s) = o_stopParsing s /\ o_inLabel (texted t rs s) = o_inLabel s
  /\ o_inSourceRefLineNumber (texted t rs s) = o_inSourceRefLineNumber s
  /\ o_inSomethingWithALabel (texted t rs s) = o_inSomethingWithALabel s
  /\ o_currentLabelReference (texted t rs s) = o_currentLabelReference s
  /\ o_ignoreUntilNextLabel (texted t rs s) = o_ignoreUntilNextLabel s
  /\ abs (texted t rs s) = abs s /\ o_currentSection (texted t rs s) = o_currentSection s
  /\ o_currentSourceRef (texted t rs s) = o_currentSourceRef s
  /\ o_text (texted t rs s) = o_text s ++ t
  /\ o_currentLine (texted t rs s) = add_refs (refs_if s rs) (o_currentLine s).
Proof. repeat split. Qed.
Lemma coded_fields gs s :
  o_inSourceRefLineNumber (coded gs s) = o_inSourceRefLineNumber s
  /\ o_ignoreUntilNextLabel (coded gs s) = o_ignoreUntilNextLabel s
  /\ abs (coded gs s) = abs s /\ o_currentSection (coded gs s) = o_currentSection s
  /\ o_currentSourceRef (coded gs s) = o_currentSourceRef s
  /\ o_currentLine (coded gs s) = add_ops (if o_ignoreUntilNextLabel s then [] else gs) (o_currentLine s).
Proof. repeat split. Qed.
Lemma after_addr_fields h s :
  o_inSourceRefLineNumber (after_addr h s) = o_inSourceRefLineNumber s
  /\ o_ignoreUntilNextLabel (after_addr h s) = o_ignoreUntilNextLabel s
  /\ abs (after_addr h s) = abs s /\ o_currentSection (after_addr h s) = o_currentSection s
  /\ o_currentSourceRef (after_addr h s) = o_currentSourceRef s
  /\ o_currentLine (after_addr h s) = set_l_address (addr_of s h) line0.
Proof. repeat split. Qed.

Lemma instr_finished s h gs refs text : o_ignoreUntilNextLabel s = false ->
  o_currentLine s = add_refs refs (add_ops gs (set_l_address (Some (addr_value h)) line0)) -> o_text s = text ->
  finish_line s = instr_line (abs s) h text gs (map shift_label refs).
Proof. intros _ H2 H3. unfold finish_line. rewrite H2, H3. reflexivity. Qed.

Lemma finish_instr mb flt a h gs segs comment s1 : text_mode s1 -> o_inSourceRefLineNumber s1 = false ->
  o_inSomethingWithALabel s1 = false -> o_currentLabelReference s1 = label0 -> abs s1 = a ->
  o_text s1 = render_segs segs -> starts_nonblank (render_segs segs) -> Z.of_nat (length (render_segs segs)) < 65533 ->
  (comment = [] \/ exists t, comment = "#"%char :: t /\ same_line t) ->
  (o_ignoreUntilNextLabel s1 = false ->
   o_currentLine s1 = add_refs (raw_refs flt 0 segs) (add_ops gs (set_l_address (Some (addr_value h)) line0))) ->
  exists s', obind (feed mb flt s1 comment) (fun s => step mb flt s LF) = Ok s' /\ clean s' /\
    abs s' = (if a_ignoring a then a else emit (instr_line a h (render_segs segs ++ comment) gs (seg_refs flt 0 segs)) a).
Proof.
  intros Hm1 F3 F4 F5 F7 F10 Hst Hl Hcm F11.
  assert (Hne1 : o_text s1 <> []) by (rewrite F10; destruct Hst as (c & u & E & _); rewrite E; discriminate).
  destruct (feed_comment_part mb flt s1 comment Hm1 Hne1 Hcm) as [bc ->]. cbn [obind]. destruct Hm1.
  apply finish_item; osimp_goal; try assumption.
  - intros E. apply app_eq_nil in E. tauto.
  - change (abs (set_o_inComment bc (set_o_text (o_text s1 ++ comment) s1))) with (abs s1). subst a.
    change (a_ignoring (abs s1)) with (o_ignoreUntilNextLabel s1).
    destruct (o_ignoreUntilNextLabel s1) eqn:Ei; [reflexivity|].
    rewrite (instr_finished _ h gs (raw_refs flt 0 segs) (render_segs segs ++ comment)).
    + now rewrite (shift_raw flt segs 0 (Z.le_refl 0) Hl).
    + exact Ei.
    + osimp_goal. now apply F11.
    + osimp_goal. now rewrite F10.
Qed.

Lemma instr_ok mb flt s b h gs pad segs comment : ascii_compatible mb -> clean s -> o_stopParsing s = false ->
  wf_item (IInstr b h gs pad segs comment) ->
  line_ok mb flt s (render_item (IInstr b h gs pad segs comment)) (denote_item flt (abs s) (IInstr b h gs pad segs comment)).
Proof.
  intros Hmb Hc Hs (Hb & Hh & Hgn & Hg & Hpn & Hp & Hw & Hst & Ha & Hl & Hcm). unfold line_ok.
  cbn [render_item]. rewrite feed_snoc.
  replace (b ++ h ++ [":"%char] ++ TAB :: render_groups gs ++ pad ++ render_segs segs ++ comment)
     with ((b ++ h ++ [":"%char]) ++ [TAB] ++ render_groups gs ++ pad ++ render_segs segs ++ comment)
     by (rewrite <- !app_assoc; reflexivity).
  rewrite feed_app, feed_addr_colon by assumption. cbn [obind].
  destruct (after_addr_opc h s Hc Hs) as [Hom Hot].
  cbn [app]. cbn [feed]. rewrite step_opc_blank; [|exact Hom|exact Hot|now right]. cbn [obind].
  rewrite feed_app, feed_groups by assumption. cbn [obind]. rewrite Hot. cbn [app].
  destruct pad as [|p pad]; [contradiction|]. inversion Hp as [|? ? Hp1 Hp2]; subst.
  cbn [app]. cbn [feed]. rewrite step_opc_end by assumption. cbn [obind].
  destruct (coded_text_mode gs h s Hc Hs) as (Htm & Hsm & Hrf & Htx).
  rewrite feed_app, feed_text_blanks by assumption. cbn [obind].
  rewrite feed_app, feed_segs; [|exact Hmb|exact Htm|exact Hsm|exact Hrf|exact Hw| | |].
  2:{ rewrite Htx. now apply starts_nonblank_kept. }
  2:{ rewrite Htx. exact Ha. }
  2:{ rewrite Htx. exact Hl. }
  cbn [obind]. rewrite Htx. cbn [length]. change (Z.of_nat 0) with 0.
  destruct (texted_fields (render_segs segs) (raw_refs flt 0 segs) (coded gs (after_addr h s)))
    as (F1 & F2 & F3 & F4 & F5 & F6 & F7 & F8 & F9 & F10 & F11).
  pose proof (texted_mode (render_segs segs) (raw_refs flt 0 segs) _ Htm) as Hm1.
  destruct (coded_fields gs (after_addr h s)) as (G1 & G2 & G3 & G4 & G5 & G6).
  destruct (after_addr_fields h s) as (A1 & A2 & A3 & A4 & A5 & A6).
  unfold refs_if in F11. rewrite G6, A6, A2 in F11. rewrite G2, A2 in F6, F11. rewrite G3, A3 in F7. rewrite G1, A1, (cl_srcn _ Hc) in F3.
  rewrite (tm_stop _ Htm), (tm_label _ Htm), Hsm, Hrf in *. rewrite Htx in F10. cbn [app] in F10.
  unfold denote_item. change (a_stopped (abs s)) with (o_stopParsing s). rewrite Hs.
  apply finish_instr; try assumption.
  rewrite F6, F11. intros E. unfold addr_of. now rewrite E.
Qed.

Lemma bytes_ok mb flt s b h gs : clean s -> o_stopParsing s = false -> wf_item (IBytes b h gs) ->
  line_ok mb flt s (render_item (IBytes b h gs)) (denote_item flt (abs s) (IBytes b h gs)).
Proof.
  intros Hc Hs (Hb & Hh & Hgn & Hg). unfold line_ok. cbn [render_item]. rewrite feed_snoc.
  replace (b ++ h ++ [":"%char] ++ TAB :: render_groups gs) with ((b ++ h ++ [":"%char]) ++ [TAB] ++ render_groups gs)
     by (rewrite <- !app_assoc; reflexivity).
  rewrite feed_app, feed_addr_colon by assumption. cbn [obind].
  destruct (after_addr_opc h s Hc Hs) as [Hom Hot].
  cbn [app]. cbn [feed]. rewrite step_opc_blank; [|exact Hom|exact Hot|now right]. cbn [obind].
  rewrite feed_groups by assumption. cbn [obind]. rewrite Hot. cbn [app].
  apply finish_item; osimp_goal.
  - apply Hom.
  - apply Hom.
  - apply Hc.
  - now apply render_groups_ne.
  - apply Hc.
  - apply Hc.
  - unfold denote_item. change (a_stopped (abs s)) with (o_stopParsing s). rewrite Hs.
    change (a_ignoring (abs s)) with (o_ignoreUntilNextLabel s).
    change (o_ignoreUntilNextLabel (after_addr h s)) with (o_ignoreUntilNextLabel s).
    destruct (o_ignoreUntilNextLabel s) eqn:Ei; [reflexivity|].
    unfold finish_line. unfold after_addr, addr_of. osimp_goal. rewrite Ei. reflexivity.
Qed.

(** ** Relocations *)
Lemma feed_reloc mb flt t : forall s, o_stopParsing s = false -> o_skipRestOfTheLine s = false -> o_inAddress s = false ->
  o_inLabel s = false -> o_inOpcodes s = false -> o_inRelocation s = true -> o_text s <> [] -> same_line t ->
  feed mb flt s t = Ok (set_o_text (o_text s ++ map (fun c => if Ascii.eqb c TAB then SP else c) t) s).
Proof.
  induction t as [|c t IH]; intros s H1 H2 H3 H4 H5 H6 H7 Hl; cbn [feed].
  - cbn [map]. rewrite app_nil_r. now destruct s.
  - inversion Hl as [|? ? (C1 & C2) Hl']; subst. apply ceq_false in C1, C2.
    replace (step mb flt s c) with (Ok (set_o_text (o_text s ++ [if Ascii.eqb c TAB then SP else c]) s)).
    + cbn [obind]. rewrite IH; try assumption; [|osimp_goal; apply app_ne]. f_equal. destruct s; osimp_goal. cbn [map]. now rewrite <- app_assoc.
    + unfold step. rewrite H1, C1, C2, H2, H3, H4, H5, H6. unfold step_relocation. change (Ascii.eqb c TAB) with (ceq c TAB).
      destruct (ceq c TAB); [reflexivity|]. now rewrite append_char_eq, app_text_ne by exact H7.
Qed.
Lemma reloc_ok mb flt s b h rest : clean s -> o_stopParsing s = false -> wf_item (IReloc b h rest) ->
  line_ok mb flt s (render_item (IReloc b h rest)) (denote_item flt (abs s) (IReloc b h rest)).
Proof.
  intros Hc Hs (Hb & Hh & Hr). unfold line_ok. cbn [render_item]. rewrite feed_snoc.
  replace (b ++ h ++ [":"%char] ++ SP :: "R"%char :: rest) with ((b ++ h ++ [":"%char]) ++ [SP] ++ ["R"%char] ++ rest)
     by (rewrite <- !app_assoc; reflexivity).
  rewrite feed_app, feed_addr_colon by assumption. cbn [obind].
  destruct (after_addr_opc h s Hc Hs) as [Hom Hot].
  cbn [app]. cbn [feed]. rewrite step_opc_blank; [|exact Hom|exact Hot|now left]. cbn [obind].
  rewrite step_opc_mode by (assumption || discriminate). cbn [obind]. unfold step_opcodes.
  change (is_whitespace "R") with false. change (ceq "R" "R") with true. cbn iota.
  rewrite append_char_eq, app_text_ok by now right. osimp_goal. rewrite Hot. cbn [app].
  rewrite feed_reloc; [|apply Hom|apply Hom|apply Hom|apply Hom|reflexivity|reflexivity|discriminate|exact Hr]. cbn [obind].
  apply finish_item; osimp_goal.
  - apply Hom.
  - apply Hom.
  - apply Hc.
  - discriminate.
  - apply Hc.
  - apply Hc.
  - unfold denote_item. change (a_stopped (abs s)) with (o_stopParsing s). rewrite Hs.
    change (a_ignoring (abs s)) with (o_ignoreUntilNextLabel s).
    change (o_ignoreUntilNextLabel (after_addr h s)) with (o_ignoreUntilNextLabel s).
    destruct (o_ignoreUntilNextLabel s) eqn:Ei; [reflexivity|].
    unfold finish_line. unfold after_addr, addr_of. osimp_goal. rewrite Ei. reflexivity.
Qed.

(** ** Blank lines, other lines *)
Lemma blank_ok mb flt s b : clean s -> o_stopParsing s = false -> wf_item (IBlank b) ->
  line_ok mb flt s (render_item (IBlank b)) (denote_item flt (abs s) (IBlank b)).
Proof.
  intros Hc Hs Hb. unfold line_ok. cbn [render_item]. rewrite feed_snoc, feed_blanks; [|exact Hb|now apply clean_start].
  cbn [obind]. rewrite step_eol by exact Hs. rewrite eol_blank; [|apply Hc|apply Hc|apply Hc].
  eexists. split; [reflexivity|]. split; [apply clean_next; apply Hc|]. rewrite abs_next. unfold denote_item.
  change (a_stopped (abs s)) with (o_stopParsing s). now rewrite Hs.
Qed.

(** While a function is ignored, nothing that contains no < leaves a trace. *)
Record quiet (s0 s : ostate) : Prop := {
  q_abs : abs s = abs s0;
  q_some : o_inSomethingWithALabel s = false;
  q_ref : o_currentLabelReference s = label0;
  q_addr : o_inAddress s = false;
  q_label : o_inLabel s = false;
  q_sec : o_inSectionStart s = false;
  q_src : o_inSourceRef s = false }.
Lemma quiet_step mb flt s0 s c : quiet s0 s -> c <> LF -> c <> "<"%char -> exists s', step mb flt s c = Ok s' /\ quiet s0 s'.
Proof.
  intros [Q1 Q2 Q3 Q4 Q5 Q6 Q7] H1 H2. apply ceq_false in H1, H2. unfold step.
  assert (Q : quiet s0 s) by now constructor.
  destruct (o_stopParsing s) eqn:Es; [eauto|]. destruct (ceq c CR); [eauto|]. rewrite H1.
  destruct (o_skipRestOfTheLine s); [eauto|]. rewrite Q4, Q5, Q6, Q7.
  destruct (o_inOpcodes s).
  { eexists. split; [reflexivity|]. unfold step_opcodes. rewrite opcodes_eq, !append_char_eq.
    repeat match goal with |- quiet _ (if ?b then _ else _) => destruct b end; try exact Q;
      constructor; osimp_goal; auto. }
  destruct (o_inRelocation s).
  { eexists. split; [reflexivity|]. unfold step_relocation. rewrite append_char_eq. destruct (ceq c TAB); constructor; osimp_goal; auto. }
  destruct (o_inComment s); cbn [negb].
  { eexists. split; [reflexivity|]. rewrite append_char_eq. constructor; osimp_goal; auto. }
  eexists. split; [reflexivity|]. unfold step_text. rewrite H2, Q2, append_char_eq. destruct (ceq c "#"); constructor; osimp_goal; auto.
Qed.
Lemma quiet_feed mb flt s0 t : ~ In LF t -> ~ In "<"%char t -> forall s, quiet s0 s -> exists s', feed mb flt s t = Ok s' /\ quiet s0 s'.
Proof.
  induction t as [|c t IH]; intros Hn Hn2 s Hq; cbn [feed]; [eauto|]. cbn [In] in *.
  destruct (quiet_step mb flt s0 s c Hq) as (s1 & -> & Hq1); [intuition congruence|intuition congruence|]. cbn [obind]. apply IH; tauto.
Qed.

Lemma field_addr_char c : field_char c -> addr_char c.
Proof. intros (A & B & C & D & E & F). unfold blank in D. repeat split; tauto. Qed.

Lemma other_ok mb flt s name rest : clean s -> o_stopParsing s = false -> wf_item (IOther name rest) ->
  line_ok mb flt s (render_item (IOther name rest)) (denote_item flt (abs s) (IOther name rest)).
Proof.
  intros Hc Hs ((n & c & -> & Hx) & Hf & Hr & Hlt). unfold line_ok. cbn [render_item]. rewrite feed_snoc.
  rewrite app_assoc, feed_app, feed_snoc.
  rewrite (feed_addr_text0 mb flt s (n ++ [c])); [|exact Hc|exact Hs|eapply Forall_impl; [|exact Hf]; exact field_addr_char].
  cbn [obind]. rewrite step_colon by assumption.
  assert (Hnh : is_hex c = false).
  { destruct (is_hex c) eqn:E; [|reflexivity]. apply hex_char in E as (d & E & _). congruence. }
  unfold address. osimp_goal.
  assert (Hsl : ceq (hd "x"%char (n ++ [c])) "/" = false).
  { destruct n as [|x n]; cbn [app hd]; inversion Hf as [|? ? (A & _)]; subst; now apply ceq_false. }
  destruct (n ++ [c]) as [|x xs] eqn:Enc; [destruct n; discriminate|]. cbn [hd] in Hsl. rewrite Hsl. rewrite <- Enc.
  unfold actually_address. osimp_goal. unfold denote_item.
  change (a_stopped (abs s)) with (o_stopParsing s). rewrite Hs.
  destruct (o_ignoreUntilNextLabel s) eqn:Ei; cbn [negb obind].
  - set (s1 := set_o_text [] _).
    assert (Hq : quiet s s1) by (destruct Hc; constructor; subst s1; osimp_goal; auto).
    destruct (quiet_feed mb flt s rest (same_line_LF _ Hr) Hlt s1 Hq) as (s2 & -> & Hq2). cbn [obind].
    assert (Ha2 : o_stopParsing s2 = false /\ o_ignoreUntilNextLabel s2 = true).
    { pose proof (q_abs _ _ Hq2) as E. unfold abs in E. injection E as E1 E2 E3 E4 E5 E6. split; congruence. }
    rewrite step_eol, eol_ignoring; [|apply Hq2|apply Ha2|apply Ha2].
    eexists. split; [reflexivity|]. split; [apply clean_next; apply Hq2|]. rewrite abs_next. apply Hq2.
  - rewrite rev_app_distr. cbn [rev app addr_loop]. rewrite Hnh. cbn [negb obind fst snd].
    rewrite feed_skip; [|reflexivity|now apply same_line_LF]. cbn [obind]. rewrite step_eol by exact Hs.
    rewrite eol_blank; [|apply Hc|apply Hc|reflexivity].
    eexists. split; [reflexivity|]. split; [apply clean_next; apply Hc|]. reflexivity.
Qed.

(** ** Section headers *)
Lemma feed_section_name mb flt t : forall s, o_stopParsing s = false -> o_skipRestOfTheLine s = false -> o_inAddress s = false ->
  o_inLabel s = false -> o_inOpcodes s = false -> o_inRelocation s = false -> o_inSectionStart s = true -> o_inSectionName s = true ->
  same_line t -> ~ In ":"%char t ->
  feed mb flt s t = Ok (set_o_currentSection (o_currentSection s ++ t) s).
Proof.
  induction t as [|c t IH]; intros s H1 H2 H3 H4 H5 H6 H7 H8 Hl Hn; cbn [feed].
  - rewrite app_nil_r. now destruct s.
  - inversion Hl as [|? ? (C1 & C2) Hl']; subst. cbn [In] in Hn.
    replace (step mb flt s c) with (Ok (set_o_currentSection (o_currentSection s ++ [c]) s)).
    + cbn [obind]. rewrite IH; try assumption; [|tauto]. f_equal. destruct s; osimp_goal. now rewrite <- app_assoc.
    + apply ceq_false in C1, C2. unfold step. rewrite H1, C1, C2, H2, H3, H4, H5, H6, H7. unfold step_section. rewrite H8. cbn [negb].
      replace (ceq c ":") with false by (symmetry; apply ceq_false; intuition congruence). reflexivity.
Qed.
Lemma section_ok mb flt s name : clean s -> o_stopParsing s = false -> wf_item (ISection name) ->
  line_ok mb flt s (render_item (ISection name)) (denote_item flt (abs s) (ISection name)).
Proof.
  intros Hc Hs (Hne & Hn & Hl). unfold line_ok. cbn [render_item]. rewrite feed_snoc, feed_app.
  destruct name as [|c name]; [contradiction|]. inversion Hl as [|? ? (C1 & C2) Hl']; subst. cbn [In] in Hn.
  replace (feed mb flt s (lit "Disassembly of section ")) with
    (Ok (set_o_text (lit "Disassembly of section ") (set_o_currentSection [] (set_o_inSectionStart true (set_o_inAddress false s)))))
    by (destruct Hc; destruct s; osimp; subst; reflexivity).
  cbn [obind app feed].
  replace (step mb flt _ c) with
    (Ok (set_o_text [] (set_o_currentSection [c] (set_o_inSectionName true (set_o_inSectionStart true (set_o_inAddress false s)))))).
  2:{ apply ceq_false in C1, C2. destruct Hc; destruct s; osimp; subst. unfold step. osimp_goal. rewrite C1, C2. reflexivity. }
  cbn [obind]. rewrite feed_app, feed_section_name; try (reflexivity || assumption || apply Hc); [|tauto].
  cbn [obind feed].
  replace (step mb flt _ ":"%char) with
    (Ok (set_o_text [] (set_o_skipRestOfTheLine true (set_o_currentSection (c :: name) (set_o_inSectionName true (set_o_inSectionStart true (set_o_inAddress false s))))))).
  2:{ destruct Hc; destruct s; osimp; subst. unfold step. osimp_goal. reflexivity. }
  cbn [obind]. rewrite step_eol by exact Hs. rewrite eol_blank; [|apply Hc|apply Hc|reflexivity].
  eexists. split; [reflexivity|]. split; [apply clean_next; apply Hc|]. rewrite abs_next. unfold denote_item.
  change (a_stopped (abs s)) with (o_stopParsing s). rewrite Hs. unfold abs. osimp_goal. cbn. now rewrite Hs.
Qed.

(** ** Source lines *)
Lemma feed_source_chars mb flt t : forall s, o_stopParsing s = false -> o_skipRestOfTheLine s = false -> o_inAddress s = false ->
  o_inLabel s = false -> o_inOpcodes s = false -> o_inRelocation s = false -> o_inSectionStart s = false -> o_inSourceRef s = true ->
  same_line t -> ~ In ":"%char t -> (o_inSourceRefLineNumber s = true \/ o_text s = [] -> Forall (fun c => is_whitespace c = false) t) ->
  feed mb flt s t = Ok (set_o_text (o_text s ++ t) s).
Proof.
  induction t as [|c t IH]; intros s H1 H2 H3 H4 H5 H6 H7 H8 Hl Hn Hw; cbn [feed].
  - rewrite app_nil_r. now destruct s.
  - inversion Hl as [|? ? (C1 & C2) Hl']; subst. cbn [In] in Hn.
    replace (step mb flt s c) with (Ok (set_o_text (o_text s ++ [c]) s)).
    + cbn [obind]. rewrite IH; try assumption; [|tauto|].
      * f_equal. destruct s; osimp_goal. now rewrite <- app_assoc.
      * osimp_goal. intros [E|E]; [|now apply app_ne in E]. assert (HH := Hw (or_introl E)). inversion HH; assumption.
    + apply ceq_false in C1, C2. unfold step. rewrite H1, C1, C2, H2, H3, H4, H5, H6, H7, H8. unfold step_sourceref.
      replace (ceq c ":") with false by (symmetry; apply ceq_false; intuition congruence).
      destruct (o_inSourceRefLineNumber s) eqn:En; cbn [andb].
      * assert (HH := Hw (or_introl eq_refl)). inversion HH as [|? ? Hc _]; subst. rewrite Hc.
        now rewrite append_char_eq, app_text_nows by exact Hc.
      * rewrite append_char_eq, app_text_ok; [reflexivity|]. destruct (o_text s) eqn:Et; [|left; discriminate].
        right. assert (HH := Hw (or_intror eq_refl)). now inversion HH.
Qed.

Lemma decimal_digit c : decimal c -> is_digit c = true /\ is_space c = false /\ is_whitespace c = false /\ c <> LF /\ c <> CR /\ c <> ":"%char
  /\ c <> "-"%char /\ c <> "+"%char.
Proof.
  unfold decimal. intros H. destruct c as [[] [] [] [] [] [] [] []]; vm_compute in H; destruct H as [Ha Hb];
    first [exfalso; apply Ha; reflexivity | exfalso; apply Hb; reflexivity | repeat split; (reflexivity || discriminate)].
Qed.
Lemma take_while_all {A} (p : A -> bool) t : Forall (fun c => p c = true) t -> take_while p t = t.
Proof. induction 1 as [|c t Hc _ IH]; cbn; [reflexivity|]. now rewrite Hc, IH. Qed.
Lemma atoi_digits num : num <> [] -> Forall decimal num -> 0 < dec_value num <= 2147483647 -> atoi num = Some (dec_value num).
Proof.
  intros Hne Hd Hr. unfold atoi. destruct num as [|c num]; [contradiction|]. inversion Hd as [|? ? Hc Hd']; subst.
  pose proof (decimal_digit c Hc) as (D1 & D2 & _ & _ & _ & _ & D3 & D4). cbn [drop_while]. rewrite D2.
  apply ceq_false in D3, D4. rewrite D3, D4.
  rewrite take_while_all by (eapply Forall_impl; [|exact Hd]; intros x Hx; now apply decimal_digit in Hx).
  unfold INT_MIN, INT_MAX in *. replace (_ && _) with true; [reflexivity|]. symmetry. apply andb_true_iff. split; lia.
Qed.

Definition numbered (n : Z) (s : ostate) : ostate :=
  let r := o_currentSourceRef s in
  set_o_currentSourceRef (mkSource (s_file r) (s_file_idx r) n (s_column r) (s_is_usercode r) (s_inside_proc r)) s.
Lemma eol_source flt s n : o_inLabel s = false -> o_ignoreUntilNextLabel s = false -> o_inSourceRefLineNumber s = true ->
  atoi (o_text s) = Some n -> 0 < n -> eol flt s = Ok (next_line (numbered n s)).
Proof.
  intros H1 H2 H3 H4 H5. unfold eol, updateSourceRefLineNumber. destruct s; osimp; subst. cbn [obind]. osimp_goal. rewrite H4.
  rewrite (proj2 (Z.ltb_lt 0 n)) by assumption. reflexivity.
Qed.
Lemma eol_source_empty flt s : o_inLabel s = false -> o_inSourceRefLineNumber s = true -> o_text s = [] ->
  eol flt s = Ok (next_line s).
Proof.
  intros H1 H3 H4. unfold eol, updateSourceRefLineNumber. destruct s; osimp; subst. cbn [obind]. osimp_goal.
  change (atoi []) with (Some 0). now destruct o_ignoreUntilNextLabel.
Qed.
Lemma step_source_blank mb flt s n c : o_stopParsing s = false -> o_skipRestOfTheLine s = false -> o_inAddress s = false ->
  o_inLabel s = false -> o_inOpcodes s = false -> o_inRelocation s = false -> o_inSectionStart s = false -> o_inSourceRef s = true ->
  o_inSourceRefLineNumber s = true -> atoi (o_text s) = Some n -> 0 < n -> blank c ->
  step mb flt s c = Ok (set_o_skipRestOfTheLine true (set_o_text [] (numbered n s))).
Proof.
  intros H1 H2 H3 H4 H5 H6 H7 H8 H9 Ha Hn Hb. unfold step. rewrite H1.
  replace (ceq c CR) with false by (destruct Hb; subst c; reflexivity).
  replace (ceq c LF) with false by (destruct Hb; subst c; reflexivity).
  rewrite H2, H3, H4, H5, H6, H7, H8. unfold step_sourceref. replace (ceq c ":") with false by (destruct Hb; subst c; reflexivity).
  rewrite H9. apply blank_whitespace in Hb. rewrite Hb. cbn [andb]. unfold updateSourceRefLineNumber. rewrite Ha.
  rewrite (proj2 (Z.ltb_lt 0 n)) by assumption. reflexivity.
Qed.
Lemma step_source_colon mb flt s : o_stopParsing s = false -> o_skipRestOfTheLine s = false -> o_inAddress s = false ->
  o_inLabel s = false -> o_inOpcodes s = false -> o_inRelocation s = false -> o_inSectionStart s = false -> o_inSourceRef s = true ->
  step mb flt s ":"%char = Ok (set_o_text [] (set_o_inSourceRefLineNumber true (set_o_currentSourceRef
     (mkSource (o_text s) 0 0 0 (negb (file_in_library (o_text s))) false) (set_o_currentFilename (o_text s) s)))).
Proof.
  intros H1 H2 H3 H4 H5 H6 H7 H8. unfold step. rewrite H1, H2, H3, H4, H5, H6, H7, H8. destruct s; osimp; subst; reflexivity.
Qed.

Lemma source_num mb flt s1 f a num tail : o_stopParsing s1 = false -> o_skipRestOfTheLine s1 = false -> o_inAddress s1 = false ->
  o_inLabel s1 = false -> o_inOpcodes s1 = false -> o_inRelocation s1 = false -> o_inSectionStart s1 = false -> o_inSourceRef s1 = true ->
  o_inSourceRefLineNumber s1 = true -> o_text s1 = [] -> o_inSomethingWithALabel s1 = false -> o_currentLabelReference s1 = label0 ->
  abs s1 = mkL (a_section a) (mkSource f 0 0 0 (negb (file_in_library f)) false) (a_ignoring a) (a_stopped a) (a_lines a) (a_labels a) ->
  num <> [] -> Forall decimal num -> atoi num = Some (dec_value num) -> 0 < dec_value num -> same_line tail ->
  (tail = [] \/ exists c t, tail = c :: t /\ blank c) ->
  exists s', obind (feed mb flt s1 (num ++ tail)) (fun s => step mb flt s LF) = Ok s' /\ clean s' /\
    abs s' = mkL (a_section a) (mkSource f 0 (if a_ignoring a && is_nil tail then 0 else dec_value num) 0 (negb (file_in_library f)) false)
                 (a_ignoring a) (a_stopped a) (a_lines a) (a_labels a).
Proof.
  intros E11 E12 E13 E14 E15 E16 E17 E18 E19 E110 E112 E113 E2 Hnn Hnd Hat Hpos Htl Htail.
  assert (E111 : o_ignoreUntilNextLabel s1 = a_ignoring a) by (unfold abs in E2; injection E2 as R1 R2 R3 R4 R5 R6; exact R3).
  assert (E3 : o_currentSourceRef s1 = a_source (abs s1)) by reflexivity.
  rewrite feed_app, feed_source_chars; try assumption.
  2:{ eapply Forall_impl; [|exact Hnd]. intros c Hx. apply decimal_digit in Hx. tauto. }
  2:{ intros HI. rewrite Forall_forall in Hnd. apply Hnd, decimal_digit in HI. tauto. }
  2:{ intros _. eapply Forall_impl; [|exact Hnd]. intros c Hx. apply decimal_digit in Hx. tauto. }
  cbn [obind]. rewrite E110. cbn [app].
  assert (Hnum : forall x, abs (numbered x (set_o_text num s1)) =
     mkL (a_section a) (mkSource f 0 x 0 (negb (file_in_library f)) false) (a_ignoring a) (a_stopped a) (a_lines a) (a_labels a)).
  { intros x. unfold numbered. osimp_goal. rewrite E3, E2. cbn.
    unfold abs in *. osimp_goal. injection E2 as R1 R2 R3 R4 R5 R6. now rewrite R1, R3, R4, R5, R6. }
  destruct Htail as [->|(c & t & -> & Hbc)].
  - cbn [feed obind is_nil]. rewrite step_eol by exact E11. rewrite andb_true_r.
    destruct (a_ignoring a) eqn:Ei.
    + rewrite eol_ignoring by assumption. eexists. split; [reflexivity|]. split; [now apply clean_next|].
      rewrite abs_next. exact E2.
    + rewrite (eol_source flt _ (dec_value num)) by assumption. eexists. split; [reflexivity|].
      split; [now apply clean_next|]. now rewrite abs_next, Hnum.
  - cbn [feed is_nil]. rewrite andb_false_r. inversion Htl as [|? ? (C1 & C2) Htl']; subst.
    rewrite (step_source_blank mb flt (set_o_text num s1) (dec_value num)) by assumption. cbn [obind].
    rewrite feed_skip; [|reflexivity|now apply same_line_LF]. cbn [obind]. rewrite step_eol by exact E11.
    rewrite eol_source_empty; try assumption; [|reflexivity].
    eexists. split; [reflexivity|]. split; [now apply clean_next|]. rewrite abs_next. apply Hnum.
Qed.

Lemma step_slash mb flt s : clean s -> o_stopParsing s = false ->
  step mb flt s "/"%char = Ok (set_o_text ["/"%char] (set_o_inSourceRef true (set_o_inAddress false s))).
Proof. intros Hc Hs. destruct Hc; destruct s; osimp; subst; reflexivity. Qed.

Lemma source_ok mb flt s file num tail : clean s -> o_stopParsing s = false -> wf_item (ISource file num tail) ->
  line_ok mb flt s (render_item (ISource file num tail)) (denote_item flt (abs s) (ISource file num tail)).
Proof.
  intros Hc Hs (Hf & Hfl & Hnn & Hnd & Hnv & Htl & Htail). unfold line_ok. cbn [render_item]. rewrite feed_snoc.
  cbn [feed]. rewrite step_slash by assumption.
  cbn [obind]. rewrite feed_app, feed_source_chars; try (reflexivity || assumption || apply Hc).
  2:{ osimp_goal. intros [E|E]; [|discriminate]. rewrite (cl_srcn _ Hc) in E. discriminate. }
  cbn [obind app feed].
  rewrite step_source_colon; try (reflexivity || assumption || apply Hc). osimp_goal. cbn [obind app].
  set (s1 := set_o_text [] _).
  destruct (source_num mb flt s1 ("/"%char :: file) (abs s) num tail) as (s' & R1 & R2 & R3);
    try assumption; try (subst s1; reflexivity || apply Hc).
  - now apply atoi_digits.
  - apply Hnv.
  - exists s'. split; [exact R1|]. split; [exact R2|]. rewrite R3. unfold denote_item.
    change (a_stopped (abs s)) with (o_stopParsing s). now rewrite Hs.
Qed.

(** ** Label lines *)
Lemma feed_label_chars mb flt t : forall s, o_stopParsing s = false -> o_skipRestOfTheLine s = false -> o_inAddress s = false ->
  o_inLabel s = true -> same_line t -> kept_start (o_text s) t ->
  feed mb flt s t = Ok (set_o_text (o_text s ++ t) s).
Proof.
  induction t as [|c t IH]; intros s H1 H2 H3 H4 Hl Hk; cbn [feed].
  - rewrite app_nil_r. now destruct s.
  - inversion Hl as [|? ? (C1 & C2) Hl']; subst.
    replace (step mb flt s c) with (Ok (set_o_text (o_text s ++ [c]) s)).
    + cbn [obind]. rewrite IH; try assumption; [|intros ? ? _; left; apply app_ne].
      f_equal. destruct s; osimp_goal. now rewrite <- app_assoc.
    + apply ceq_false in C1, C2. unfold step. rewrite H1, C1, C2, H2, H3, H4.
      rewrite append_char_eq, app_text_ok; [reflexivity|]. exact (Hk c t eq_refl).
Qed.
Lemma label_name_brackets name : label_name ("<"%char :: name ++ lit ">:") = name.
Proof.
  unfold label_name, getLabelFromObjdumpLabel.
  replace (starts_with (lit "<") ("<"%char :: name ++ lit ">:")) with true by reflexivity.
  replace (ends_with (lit ">:") ("<"%char :: name ++ lit ">:")) with true.
  - cbn [andb skipn]. cbn [length]. rewrite app_length. cbn [length lit list_ascii_of_string].
    replace (S (length name + 2) - 3)%nat with (length name) by lia. apply firstn_len_app.
  - symmetry. apply ends_with_spec. now exists ("<"%char :: name).
Qed.

Lemma rm_drop flt s : Idx s -> exists ls lb, rm flt s = Ok (ls, lb) /\
  ls = a_lines (if f_library_functions flt then drop_library_function (abs s) else abs s) /\
  lb = a_labels (if f_library_functions flt then drop_library_function (abs s) else abs s).
Proof.
  intros HI. destruct (rm_defined flt s HI) as [[ls lb] H]. exists ls, lb. split; [exact H|].
  unfold rm in H. destruct (f_library_functions flt); [|injection H as <- <-; auto].
  unfold rm_last, drop_library_function in *. change (a_labels (abs s)) with (o_labels s). change (a_lines (abs s)) with (o_lines s).
  destruct (rev (o_labels s)) as [|[nm k] b]; [injection H as <- <-; auto|].
  destruct (_ || _); [discriminate|]. unfold user_line.
  destruct (existsb _ _); injection H as <- <-; auto.
Qed.

Lemma label_ok mb flt s h name : clean s -> o_stopParsing s = false -> Idx s -> wf_item (ILabel h name) ->
  line_ok mb flt s (render_item (ILabel h name)) (denote_item flt (abs s) (ILabel h name)).
Proof.
  intros Hc Hs HI (Hg & Hl). unfold line_ok. cbn [render_item].
  replace ((h ++ lit " <" ++ name ++ lit ">:") ++ [LF]) with (((h ++ [SP]) ++ ("<"%char :: name ++ lit ">:")) ++ [LF])
    by (change (lit " <") with [SP; "<"%char]; repeat (rewrite <- app_assoc; cbn [app]); reflexivity).
  rewrite feed_snoc, feed_app, feed_snoc. pose proof (good_addr_chars _ Hg) as [Hhne Hh].
  rewrite (feed_addr_text0 mb flt s h); [|exact Hc|exact Hs|now apply hex_chars_addr]. cbn [obind].
  replace (step mb flt (set_o_text h s) SP) with (Ok (set_o_inLabel true (after_addr h s))).
  2:{ unfold step. osimp_goal. rewrite Hs, (cl_skip _ Hc), (cl_addr _ Hc).
      change (ceq SP CR) with false. change (ceq SP LF) with false. cbn iota. unfold step_address.
      change (ceq SP "/") with false. change (ceq SP ";") with false. change (ceq SP ":") with false.
      change (is_whitespace SP) with true. cbn iota. osimp_goal.
      replace (str_eqb h (lit "Disassembly")) with false.
      2:{ symmetry. apply str_eqb_neq. intros ->. inversion Hh. discriminate. }
      destruct (is_nil h) eqn:En; cnv; [contradiction|]. cbn [negb].
      rewrite address_good by assumption. cbn [obind]. f_equal. }
  cbn [obind]. rewrite feed_label_chars; [|exact Hs|apply Hc|reflexivity|reflexivity| |].
  2:{ constructor; [split; discriminate|]. apply Forall_app. split; [exact Hl|]. change (lit ">:") with [">"%char; ":"%char]. repeat constructor; discriminate. }
  2:{ intros c u [= <- _]. now right. }
  cbn [obind].
  change (o_text (set_o_inLabel true (after_addr h s))) with (o_text s). rewrite (cl_text _ Hc). cbn [app].
  set (t := "<"%char :: name ++ lit ">:"). set (s1 := set_o_text t _).
  rewrite step_eol by exact Hs. destruct (rm_drop flt s HI) as (ls & lb & Hrm & Hls & Hlb).
  assert (Hname : label_name t = name) by apply label_name_brackets.
  assert (Hle : (length ls <= length (o_lines s))%nat) by (eapply rm_length; exact Hrm).
  assert (Hlen : Z.of_nat (length ls) <= 5000).
  { destruct HI as [[[_ HC]|[HC _]] _ _]; [lia|congruence]. }
  unfold denote_item. change (a_stopped (abs s)) with (o_stopParsing s). rewrite Hs.
  cbn zeta. rewrite <- Hls, <- Hlb.
  unfold eol. subst s1. osimp_goal. change (o_inLabel (after_addr h s)) with (o_inLabel s).
  rewrite label_eq by discriminate.
  change (rm flt (set_o_total_lines (o_total_lines (after_addr h s) + 1) (set_o_text t (set_o_inLabel true (after_addr h s))))) with (rm flt s).
  rewrite Hrm. cbn [obind fst snd]. osimp_goal. rewrite Hname. cbn zeta.
  destruct (shouldIgnoreFunction name flt) eqn:Eig; cbn [obind]; osimp_goal.
  - eexists. split; [reflexivity|]. split.
    + destruct Hc. constructor; unfold commonReset, after_addr; osimp_goal; auto.
    + unfold abs, commonReset, after_addr. osimp_goal. cbn [a_section a_source a_ignoring a_stopped]. now rewrite Hs.
  - change (o_inSourceRefLineNumber (after_addr h s)) with (o_inSourceRefLineNumber s). rewrite (cl_srcn _ Hc).
    replace (is_nil (name ++ lit ":")) with false by (destruct name; reflexivity). cbn [negb].
    eexists. split; [reflexivity|]. set (x := push_line _ _).
    assert (Hx : abs x = emit (label_line (abs s) h name)
      (mkL (o_currentSection s) (o_currentSourceRef s) false (o_stopParsing s) ls (lb ++ [(name, Z.of_nat (length ls) + 1)]))).
    { subst x. rewrite abs_push. rewrite i32_small by lia. reflexivity. }
    split.
    + assert (Hx2 : o_inSomethingWithALabel x = false /\ o_currentLabelReference x = label0).
      { subst x. unfold push_line. destruct (_ <? _); osimp_goal; split; apply Hc. }
      destruct Hx2. constructor; unfold commonReset; osimp_goal; auto.
    + rewrite Hs in Hx. exact Hx.
Qed.
