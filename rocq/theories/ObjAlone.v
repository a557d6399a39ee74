(** A line of objdump output means the same wherever it stands. *)
From Verif Require Export ObjBrackets.

(** Everything but the section and the source location. *)
Definition reading (l : asm_line) : asm_line := set_l_section [] (set_l_source source0 l).
Definition shift (k : Z) (x : str * Z) : str * Z := (fst x, snd x + k).

Definition alike (a a' b' : lstate) : Prop := exists X, a_lines a' = a_lines a ++ X /\ map reading X = map reading (a_lines b')
  /\ a_labels a' = a_labels a ++ map (shift (len (a_lines a))) (a_labels b').

Lemma scan_col mb flt : forall rest c1 c2 pre, fst (scan mb flt false c1 pre rest) = fst (scan mb flt false c2 pre rest).
Proof. induction rest as [|c rest IH]; intros c1 c2 pre; cbn [scan]; [reflexivity|]. destruct (Ascii.eqb c "<"); [reflexivity|]. cbn [andb]. apply IH. Qed.

Lemma alike_none a a' : a_lines a' = a_lines a -> a_labels a' = a_labels a -> forall b, a_lines b = [] -> a_labels b = [] -> alike a a' b.
Proof. intros H1 H2 b H3 H4. exists []. rewrite H1, H2, H3, H4. cbn [map]. now rewrite !app_nil_r. Qed.

Lemma Ok_inj {A} (a b : A) : Ok a = Ok b -> a = b.
Proof. now intros [= ->]. Qed.

Section Alone.
Variables (mb : str -> Z) (flt : Filter) (p : pstate).
Hypotheses (Hs : a_stopped (p_l p) = false) (Hi : a_ignoring (p_l p) = false) (Ho : p_open p = false)
  (Hn : len (a_lines (p_l p)) < 5000) (Hlib : f_library_functions flt = false).
Local Notation like := (alike (p_l p)).

Lemma show_alike sec sec' ad gs refs text :
  like (show (set_section sec (p_l p)) ad gs refs text) (show (set_section sec' lstate0) ad gs refs text).
Proof.
  unfold show, set_section, emit. cbn [a_ignoring a_lines a_section a_source a_stopped a_labels lstate0]. rewrite Hi. cbn [orb].
  destruct (is_nil text); [now apply alike_none|]. replace (_ <? 5000) with true by slia.
  cbn [length]. change (Z.of_nat 0 <? 5000) with true. cbn iota.
  eexists. cbn [a_lines a_labels]. split; [reflexivity|]. split; [reflexivity|]. cbn [map]. now rewrite app_nil_r.
Qed.
Lemma set_same a : set_section (a_section a) a = a.
Proof. now destruct a. Qed.
Lemma show_alike0 ad gs refs text : like (show (p_l p) ad gs refs text) (show lstate0 ad gs refs text).
Proof. pose proof (show_alike (a_section (p_l p)) (a_section lstate0) ad gs refs text) as H. now rewrite !set_same in H. Qed.
Lemma text_alike ad gs pre r : like (p_l (text_part mb flt p ad gs pre r)) (p_l (text_part mb flt pstate0 ad gs pre r)).
Proof.
  unfold text_part. cbn zeta. cbn [p_l p_open p_col pstate0]. rewrite Ho.
  rewrite (scan_col mb flt _ (p_col p) 0). apply show_alike0.
Qed.
Lemma bytes_alike ad : forall r t, like (p_l (bytes_part mb flt p ad t r)) (p_l (bytes_part mb flt pstate0 ad t r)).
Proof.
  induction r as [|c r IH]; intros t; cbn [bytes_part]; [apply show_alike0|].
  destruct (is_whitespace c); [destruct (is_nil t); [apply IH|]; destruct (last_is SP t); [apply text_alike|apply IH]|].
  destruct (Ascii.eqb c "R"); [apply show_alike0|]. destruct (hex_digit c); [apply IH|]. apply text_alike.
Qed.
Lemma label_alike ad name : like (new_label flt (p_l p) ad name) (new_label flt lstate0 ad name).
Proof.
  unfold new_label. cbn zeta. rewrite Hlib. destruct (shouldIgnoreFunction _ _); [now apply alike_none|].
  unfold emit. cbn [a_lines lstate0 a_section a_source a_ignoring a_stopped a_labels]. replace (_ <? 5000) with true by slia.
  cbn [length]. change (Z.of_nat 0 <? 5000) with true. cbn iota.
  eexists. cbn [a_lines a_labels]. split; [reflexivity|]. split; [reflexivity|]. cbn [app map shift fst snd]. unfold shift. cbn [fst snd]. do 3 f_equal. change (len []) with 0. slia.
Qed.

Lemma line_alike l p0 : read_line mb flt pstate0 l = Ok p0 -> exists p', read_line mb flt p l = Ok p' /\ like (p_l p') (p_l p0).
Proof.
  unfold read_line. cbn zeta. rewrite Hs. change (a_stopped (p_l pstate0)) with false. cbn iota.
  set (body := drop_while (fun c => is_whitespace c || Ascii.eqb c ";") l).
  match goal with |- context [filter ?f ?t] => set (w := filter f t) in * end.
  assert (Hw : address_word (p_l p) w = address_word (p_l pstate0) w) by (unfold address_word; rewrite Hi; reflexivity).
  destruct (drop_while (fun c => negb (word_end c)) body) as [|c r].
  { intros H; apply Ok_inj in H; subst p0. eexists. split; [reflexivity|]. apply show_alike0. }
  destruct (Ascii.eqb c "/").
  { match goal with |- match ?e with _ => _ end = _ -> _ => destruct e as [|x q] end.
    - intros H; apply Ok_inj in H; subst p0. eexists. split; [reflexivity|]. apply show_alike0.
    - unfold source_part. cbn zeta. rewrite Hi. change (a_ignoring (p_l pstate0)) with false. cbn [andb].
      destruct (atoi _); [|discriminate]. cbn [omap]. intros H; apply Ok_inj in H; subst p0. eexists. split; [reflexivity|]. now apply alike_none. }
  destruct (Ascii.eqb c ":").
  { destruct (is_nil w).
    - intros H; apply Ok_inj in H; subst p0. eexists. split; [reflexivity|]. apply text_alike.
    - rewrite Hw. destruct (address_word (p_l pstate0) w) as [[ad|]| | |]; try discriminate; cbn [obind]; intros H; apply Ok_inj in H; subst p0; eexists; (split; [reflexivity|]).
      + apply bytes_alike.
      + now apply alike_none. }
  destruct (str_eqb _ _).
  { destruct (starts_with _ _); [match goal with |- match ?e with _ => _ end = _ -> _ => destruct e as [|x q] end|];
      intros H; apply Ok_inj in H; subst p0; eexists; (split; [reflexivity|]); cbn [on_list p_l].
    - apply (show_alike [] []).
    - now apply alike_none.
    - apply (show_alike [] []). }
  rewrite Hw. destruct (address_word (p_l pstate0) w) as [[ad|]| | |]; try discriminate; cbn [obind]; intros H; apply Ok_inj in H; subst p0; eexists; (split; [reflexivity|]).
  - destruct (drop_while is_whitespace r); [now apply alike_none|]. apply label_alike.
  - now apply alike_none.
Qed.
End Alone.

Lemma lines_open mb flt : forall ls p p', p_open p = false -> Forall closes ls -> read_lines mb flt p ls = Ok p' -> p_open p' = false.
Proof.
  assert (Ht : forall p ad gs pre r, p_open p = false -> closes r -> p_open (text_part mb flt p ad gs pre r) = false).
  { intros p ad gs pre r Ho Hc. unfold text_part. cbn zeta. cbn [p_open]. rewrite Ho.
    apply scan_closed; [|discriminate]. apply closes_take. destruct (is_nil pre); [now apply closes_drop|exact Hc]. }
  assert (Hb : forall p ad r t, p_open p = false -> closes r -> p_open (bytes_part mb flt p ad t r) = false).
  { intros p ad. induction r as [|c r IH]; intros t Ho Hc; cbn [bytes_part]; [exact Ho|].
    assert (Hr : closes r) by now apply closes_tail in Hc.
    destruct (is_whitespace c); [destruct (is_nil t); [now apply IH|]; destruct (last_is SP t); [now apply Ht|now apply IH]|].
    destruct (Ascii.eqb c "R"); [exact Ho|]. destruct (hex_digit c); [now apply IH|]. now apply Ht. }
  assert (Hl : forall p l p', p_open p = false -> closes l -> read_line mb flt p l = Ok p' -> p_open p' = false).
  { intros p l p' Ho Hc H. unfold read_line in H. cbn zeta in H. destruct (a_stopped _); [now injection H as <-|].
    set (body := drop_while (fun c => is_whitespace c || Ascii.eqb c ";") l) in *.
    assert (Hbd : closes body) by now apply closes_drop.
    match type of H with context [filter ?f ?t] => set (w := filter f t) in * end.
    destruct (drop_while (fun c => negb (word_end c)) body) as [|c r] eqn:Er; [now injection H as <-|].
    assert (Hcr : closes r) by (apply (closes_tail c); exact (eq_ind _ closes (closes_drop (fun c => negb (word_end c)) body Hbd) _ Er)).
    destruct (Ascii.eqb c "/").
    { match type of H with match ?e with _ => _ end = _ => destruct e as [|x q] end; [now injection H as <-|].
      destruct (source_part _ _ _); try discriminate. now injection H as <-. }
    destruct (Ascii.eqb c ":").
    { destruct (is_nil w); [injection H as <-; now apply Ht|]. destruct (address_word _ _) as [[ad|]| | |]; try discriminate; injection H as <-; [now apply Hb|exact Ho]. }
    destruct (str_eqb _ _); [destruct (starts_with _ _); [match type of H with match ?e with _ => _ end = _ => destruct e as [|x q] end|]; now injection H as <-|].
    destruct (address_word _ _) as [[ad|]| | |]; try discriminate; injection H as <-; [|exact Ho]. now destruct (drop_while is_whitespace r). }
  induction ls as [|l ls IH]; intros p p' Ho HF H; cbn [read_lines] in H; [now injection H as <-|].
  inversion HF as [|? ? H1 HF']; subst. destruct (read_line mb flt p l) as [p1| | |] eqn:E; try discriminate. cbn [obind] in H.
  eapply IH; [|exact HF'|exact H]. now apply (Hl p l).
Qed.

Lemma boot_same d p d' p' : boot d p = boot d' p' -> p = p'.
Proof.
  destruct p as [[a1 a2 a3 a4 a5 a6] a7 a8], p' as [[b1 b2 b3 b4 b5 b6] b7 b8]. unfold boot, mk.
  cbn [p_l p_open p_col a_section a_source a_ignoring a_stopped a_lines a_labels]. intros H. injection H. intros. subst. reflexivity.
Qed.
Lemma alone mb flt ls s l t : Forall one_line ls -> Forall closes ls -> run mb flt (unlines ls) = Ok s -> one_line l ->
  o_stopParsing s = false -> o_ignoreUntilNextLabel s = false -> len (o_lines s) < 5000 -> f_library_functions flt = false ->
  run mb flt (l ++ [LF]) = Ok t ->
  exists s' X, run mb flt (unlines (ls ++ [l])) = Ok s' /\ o_lines s' = o_lines s ++ X /\ map reading X = map reading (o_lines t)
    /\ o_labels s' = o_labels s ++ map (shift (len (o_lines s))) (o_labels t).
Proof.
  intros HF Hc Hrun Hl Hs Hi Hn Hlib Ht.
  destruct (after mb flt ls s HF Hrun) as (d0 & p0 & E0 & _ & Hp).
  assert (Ho : p_open p0 = false).
  { eapply lines_open; [|clear - Hc|exact Hp]; [reflexivity|]. apply Forall_forall. intros x Hx. apply in_map_iff in Hx as (y & <- & Hy).
    apply closes_drop_cr. rewrite Forall_forall in Hc. now apply Hc. }
  destruct (after_next mb flt ls s l HF Hrun Hl) as (d & p & E & H).
  assert (Epp : p = p0) by (rewrite E in E0; now apply boot_same in E0). subst p0.
  destruct (after_next mb flt [] (boot (mkD false [] [] 0) pstate0) l (Forall_nil _) eq_refl Hl) as (d1 & p1 & E1 & H1).
  assert (Ep : p1 = pstate0) by (symmetry; now apply boot_same in E1).
  subst p1. cbn [app] in H1. replace (unlines [l]) with (l ++ [LF]) in H1 by (cbn; now rewrite app_nil_r). rewrite Ht in H1.
  destruct (read_line mb flt pstate0 (drop_cr l)) as [q| | |] eqn:Eq; try discriminate; try contradiction. destruct H1 as [d1' H1]. injection H1 as ->.
  subst s. destruct (line_alike mb flt p) with (l := drop_cr l) (p0 := q) as (p' & Hp' & X & HX1 & HX2 & HX3).
  - exact Hs.
  - exact Hi.
  - exact Ho.
  - exact Hn.
  - exact Hlib.
  - exact Eq.
  - rewrite Hp' in H. destruct H as [d' H]. exists (boot d' p'), X. split; [exact H|]. split; [exact HX1|]. split; [exact HX2|exact HX3].
Qed.
