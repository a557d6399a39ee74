(** The objdump parser reads every line as ObjEvery.v says. *)
From Verif Require Export ObjEvery ObjItems.

(** Members that nothing shown depends on. *)
Record dead := mkD { d_check : bool; d_prev : str; d_file : str; d_total : Z }.
Definition mk (d : dead) (p : pstate) (com addr lab opc sec secn src srcn rel skip : bool) (text : str) (line : asm_line) : ostate :=
  mkO com (p_open p) false addr lab opc sec secn src srcn rel skip (a_stopped (p_l p)) (a_ignoring (p_l p)) (d_check d)
      (mkLabel [] (mkRange (p_col p) 0)) (a_source (p_l p)) (d_prev d) text (d_file d) (a_section (p_l p)) line
      (a_lines (p_l p)) (a_labels (p_l p)) (d_total d).
Definition boot (d : dead) (p : pstate) : ostate := mk d p false true false false false false false false false false [] line0.

Definition gives (mb : str -> Z) (flt : Filter) (s : ostate) (input : str) (o : outcome pstate) : Prop :=
  match o with
  | Ok p' => exists d', feed mb flt s (input ++ [LF]) = Ok (boot d' p')
  | UB k => feed mb flt s (input ++ [LF]) = UB k
  | _ => False
  end.

Lemma gives_app mb flt s a b s' o : feed mb flt s a = Ok s' -> gives mb flt s' b o -> gives mb flt s (a ++ b) o.
Proof.
  intros Ha Hb. unfold gives in *. destruct o; try contradiction; rewrite <- app_assoc, feed_app, Ha; exact Hb.
Qed.
Lemma gives_cons mb flt s c b s' o : step mb flt s c = Ok s' -> gives mb flt s' b o -> gives mb flt s (c :: b) o.
Proof. intros Ha. apply (gives_app mb flt s [c]). cbn [feed]. now rewrite Ha. Qed.

(** What a line shows before the text is put in. *)
Definition mkline (addr : option Z) (groups : list str) (refs : list asm_label) : asm_line :=
  set_l_address addr (set_l_opcodes groups (set_l_labels refs line0)).

Lemma shift_moved r : shift_label r = moved r. Proof. reflexivity. Qed.

Ltac opened p Hs := destruct p as [[z_sec z_src z_ign z_stop z_lines z_labels] z_open z_col]; cbn [p_l a_stopped] in Hs; subst z_stop.

Section Phases.
Variables (mb : str -> Z) (flt : Filter).

(** End of a line that is no label and no source line. *)
Lemma end_show d p com addr opc sec secn src rel skip text ad gs refs :
  a_stopped (p_l p) = false ->
  gives mb flt (mk d p com addr false opc sec secn src false rel skip text (mkline ad gs refs)) []
    (Ok (on_list (fun a => show a ad gs (map moved refs) text) p)).
Proof.
  intros Hs. unfold gives, on_list, show. cbn [app feed]. rewrite step_eol by exact Hs.
  destruct p as [[sec0 src0 ig st ls lb] o k]. cbn [p_l p_open p_col a_stopped a_ignoring a_section a_source a_lines a_labels] in *. subst st.
  unfold eol, mk. osimp_goal. cbn [obind]. osimp_goal. cbn [p_l p_open p_col a_stopped a_ignoring a_section a_source a_lines a_labels].
  destruct ig; cbn [orb].
  { exists (mkD (d_check d) (d_prev d) (d_file d) (d_total d + 1)). reflexivity. }
  destruct (is_nil text) eqn:Et; cbn [negb].
  { exists (mkD (d_check d) (d_prev d) (d_file d) (d_total d + 1)). reflexivity. }
  exists (mkD (d_check d) (d_prev d) (d_file d) (d_total d + 1)).
  unfold push_line, emit, finish_line, mkline. cbn [obind]. osimp_goal. cbn [a_lines a_section a_source a_ignoring a_stopped a_labels].
  destruct (_ <? 5000); reflexivity.
Qed.

Lemma skip_rest d p com addr lab opc sec secn src srcn rel text line t o :
  ~ In LF t -> gives mb flt (mk d p com addr lab opc sec secn src srcn rel true text line) [] o ->
  gives mb flt (mk d p com addr lab opc sec secn src srcn rel true text line) t o.
Proof. intros Ht H. rewrite <- (app_nil_r t). eapply gives_app; [|exact H]. apply feed_skip; [reflexivity|exact Ht]. Qed.

(** *** Text *)
Definition tx d p com text ad gs refs := mk d p com false false false false false false false false false text (mkline ad gs refs).
Definition kept (p : pstate) (refs : list asm_label) : list asm_label := if a_ignoring (p_l p) then [] else refs.
Definition moved_to (p : pstate) (e : bool * Z) : pstate := mkP (p_l p) (fst e) (snd e).

Lemma tx_comment d p text ad gs refs t : a_stopped (p_l p) = false -> text <> [] -> ~ In LF t -> ~ In CR t ->
  gives mb flt (tx d p true text ad gs refs) t (Ok (on_list (fun a => show a ad gs (map moved refs) (text ++ t)) p)).
Proof.
  intros Hs Ht H1 H2. rewrite <- (app_nil_r t) at 1.
  eapply gives_app with (s' := tx d p true (text ++ t) ad gs refs); [|unfold tx; apply end_show; exact Hs].
  rewrite feed_comment; [reflexivity| |reflexivity|exact Ht|].
  - constructor; try reflexivity. exact Hs.
  - apply Forall_forall. intros c Hc. split; intros ->; contradiction.
Qed.

Lemma scan_read : forall rest d p pre ad gs refs, a_stopped (p_l p) = false -> kept_start pre rest ->
  ~ In LF rest -> ~ In CR rest -> ~ In "#"%char rest ->
  let f := scan mb flt (p_open p) (p_col p) pre rest in
  feed mb flt (tx d p false pre ad gs refs) rest =
  Ok (tx d (moved_to p (snd f)) false (pre ++ rest) ad gs (refs ++ kept p (fst f))).
Proof.
  induction rest as [|c r IH]; intros d p pre ad gs refs Hs Hk H1 H2 H3 f.
  - subst f. cbn [feed scan fst snd]. unfold kept. replace (if a_ignoring (p_l p) then [] else []) with (@nil asm_label) by (now destruct (a_ignoring _)).
    rewrite !app_nil_r. destruct p. reflexivity.
  - cbn [feed]. assert (Hc1 : c <> LF) by (intros ->; apply H1; now left). assert (Hc2 : c <> CR) by (intros ->; apply H2; now left).
    assert (Hc3 : c <> "#"%char) by (intros ->; apply H3; now left).
    rewrite step_text_mode; [|constructor; try reflexivity; exact Hs|exact Hc1|exact Hc2]. cbn [obind].
    assert (Hn : forall d p refs, a_stopped (p_l p) = false ->
       let f := scan mb flt (p_open p) (p_col p) (pre ++ [c]) r in
       feed mb flt (tx d p false (pre ++ [c]) ad gs refs) r = Ok (tx d (moved_to p (snd f)) false (pre ++ c :: r) ad gs (refs ++ kept p (fst f)))).
    { intros d' p' refs' Hs'. cbn zeta. rewrite IH; [now rewrite <- app_assoc|exact Hs'| | | |].
      - intros ? ? _. left. apply app_ne.
      - intros H. apply H1. now right.
      - intros H. apply H2. now right.
      - intros H. apply H3. now right. }
    specialize (Hk c r eq_refl).
    unfold step_text. apply ceq_false in Hc3. rewrite Hc3. subst f. cbn [scan]. change Ascii.eqb with ceq.
    destruct (ceq c "<") eqn:E1.
    + rewrite append_char_eq, app_text_ok by exact Hk.
      specialize (Hn d (mkP (p_l p) true (u16 (ustrlen mb pre + 1))) refs Hs). cbn [p_l p_open p_col] in Hn.
      exact Hn.
    + change (o_inSomethingWithALabel (tx d p false pre ad gs refs)) with (p_open p).
      destruct (p_open p) eqn:Eo; cbn [andb].
      2:{ rewrite append_char_eq, app_text_ok by exact Hk. specialize (Hn d p refs Hs). rewrite Eo in Hn. exact Hn. }
      assert (Hl : labelref mb flt (set_o_inSomethingWithALabel false (tx d p false pre ad gs refs)) =
         tx d (mkP (p_l p) false 0) false pre ad gs (refs ++ kept p
           (match substr_from pre (p_col p) with
            | Some name => if shouldIgnoreFunction name flt then [] else [mkLabel name (mkRange (p_col p) (u16 (ustrlen mb pre)))]
            | None => [] end))).
      { unfold labelref, tx, mk, kept. osimp_goal. cbn [lb_range r_start lb_name p_l p_open p_col].
        destruct (a_ignoring (p_l p)); cbn [negb]; [rewrite app_nil_r; reflexivity|].
        destruct (substr_from pre (p_col p)) as [nm|]; [|rewrite app_nil_r; reflexivity].
        destruct (shouldIgnoreFunction nm flt); cbn [negb]; [rewrite app_nil_r; reflexivity|]. reflexivity. }
      destruct (ceq c ">") eqn:E2; cbn [orb].
      * change (is_nil (lb_name (o_currentLabelReference (set_o_inSomethingWithALabel false (tx d p false pre ad gs refs))))) with true. cbn iota zeta.
        rewrite Hl, append_char_eq, app_text_ok by exact Hk. cbn [fst snd].
        specialize (Hn d (mkP (p_l p) false 0) (refs ++ kept p
           (match substr_from pre (p_col p) with
            | Some name => if shouldIgnoreFunction name flt then [] else [mkLabel name (mkRange (p_col p) (u16 (ustrlen mb pre)))]
            | None => [] end)) Hs). cbn [p_l p_open p_col] in Hn.
        etransitivity; [exact Hn|]. f_equal. unfold moved_to. cbn [p_l]. f_equal. rewrite <- app_assoc. f_equal.
        unfold kept. cbn [p_l]. destruct (a_ignoring (p_l p)); reflexivity.
      * destruct (ceq c "+") eqn:E3.
        -- rewrite Hl, append_char_eq, app_text_ok by exact Hk. cbn [fst snd].
        specialize (Hn d (mkP (p_l p) false 0) (refs ++ kept p
           (match substr_from pre (p_col p) with
            | Some name => if shouldIgnoreFunction name flt then [] else [mkLabel name (mkRange (p_col p) (u16 (ustrlen mb pre)))]
            | None => [] end)) Hs). cbn [p_l p_open p_col] in Hn.
        etransitivity; [exact Hn|]. f_equal. unfold moved_to. cbn [p_l]. f_equal. rewrite <- app_assoc. f_equal.
        unfold kept. cbn [p_l]. destruct (a_ignoring (p_l p)); reflexivity.
        -- rewrite append_char_eq, app_text_ok by exact Hk. specialize (Hn d p refs Hs). rewrite Eo in Hn. exact Hn.
Qed.

Lemma drop_ws_in c r : In c (drop_while is_whitespace r) -> In c r.
Proof. induction r as [|x r IH]; [auto|]. cbn [drop_while]. destruct (is_whitespace x); [right; auto|auto]. Qed.
Lemma take_drop {A} (f : A -> bool) l : l = take_while f l ++ drop_while f l.
Proof. induction l as [|x l IH]; [reflexivity|]. cbn [take_while drop_while]. destruct (f x); [cbn [app]; now f_equal|reflexivity]. Qed.
Lemma drop_head {A} (f : A -> bool) l c r : drop_while f l = c :: r -> f c = false.
Proof. induction l as [|x l IH]; [discriminate|]. cbn [drop_while]. destruct (f x) eqn:E; [auto|]. now intros [= -> ->]. Qed.
Lemma take_all {A} (f : A -> bool) l c : In c (take_while f l) -> f c = true.
Proof. induction l as [|x l IH]; [contradiction|]. cbn [take_while]. destruct (f x) eqn:E; [|contradiction]. intros [->|H]; auto. Qed.

Lemma feed_leading d p ad gs refs r :
  a_stopped (p_l p) = false -> ~ In LF r -> ~ In CR r ->
  feed mb flt (tx d p false [] ad gs refs) (take_while is_whitespace r) = Ok (tx d p false [] ad gs refs).
Proof.
  intros Hs. induction r as [|c r IH]; intros H1 H2; [reflexivity|]. cbn [take_while]. destruct (is_whitespace c) eqn:E; [|reflexivity].
  cbn [feed]. rewrite step_text_mode; [|constructor; try reflexivity; exact Hs|intros ->; apply H1; now left|intros ->; apply H2; now left].
  cbn [obind]. replace (step_text mb flt (tx d p false [] ad gs refs) c) with (tx d p false [] ad gs refs).
  - apply IH; intros H; [apply H1|apply H2]; now right.
  - unfold is_whitespace in E. apply orb_true_iff in E. unfold step_text.
    assert (X : ceq c "#" = false /\ ceq c "<" = false /\ ceq c ">" = false /\ ceq c "+" = false /\ is_whitespace c = true).
    { destruct E as [E|E]; apply ceq_true in E; subst; repeat split. }
    destruct X as (X1 & X2 & X3 & X4 & X5). rewrite X1, X2, X3, X4.
    replace (if o_inSomethingWithALabel _ then _ else _) with (tx d p false [] ad gs refs) by (now destruct (o_inSomethingWithALabel _)).
    unfold append_char. rewrite X5. reflexivity.
Qed.

Lemma text_read d p pre ad gs r : a_stopped (p_l p) = false -> ~ In LF r -> ~ In CR r ->
  gives mb flt (tx d p false pre ad gs []) r (Ok (text_part mb flt p ad gs pre r)).
Proof.
  intros Hs H1 H2. unfold text_part. set (body := if is_nil pre then _ else _).
  set (act := take_while (fun c => negb (Ascii.eqb c "#")) body).
  assert (Hb : exists ld, r = ld ++ body /\ feed mb flt (tx d p false pre ad gs []) ld = Ok (tx d p false pre ad gs [])).
  { subst body. destruct pre as [|x pre]; cbn [is_nil].
    - exists (take_while is_whitespace r). split; [apply take_drop|]. now apply feed_leading.
    - exists []. split; reflexivity. }
  destruct Hb as (ld & Hr & Hld).
  assert (Hk : kept_start pre body).
  { subst body. destruct pre as [|x pre]; cbn [is_nil]; intros c u E; [right|left; discriminate]. eapply drop_head. exact E. }
  assert (H1b : ~ In LF body) by (intros H; apply H1; rewrite Hr; apply in_or_app; now right).
  assert (H2b : ~ In CR body) by (intros H; apply H2; rewrite Hr; apply in_or_app; now right).
  clearbody body. subst r. eapply gives_app; [exact Hld|].
  pose proof (take_drop (fun c => negb (Ascii.eqb c "#")) body) as Hbody. fold act in Hbody.
  set (tl := drop_while (fun c => negb (Ascii.eqb c "#")) body) in Hbody.
  assert (Hact : ~ In LF act /\ ~ In CR act /\ ~ In "#"%char act).
  { repeat split; intros H.
    - apply H1b. rewrite Hbody. apply in_or_app. now left.
    - apply H2b. rewrite Hbody. apply in_or_app. now left.
    - apply take_all in H. discriminate. }
  destruct Hact as (A1 & A2 & A3).
  assert (Hka : kept_start pre act).
  { intros c u E. apply (Hk c (u ++ tl)). rewrite Hbody, E. reflexivity. }
  rewrite Hbody at 1. eapply gives_app; [apply scan_read; assumption|]. cbn [app].
  set (fnd := scan _ _ _ _ _ _).
  assert (Hshow : forall a, a_ignoring a = a_ignoring (p_l p) -> show a ad gs (map moved (kept p (fst fnd))) (pre ++ body) = show a ad gs (map moved (fst fnd)) (pre ++ body)).
  { intros a Ha. unfold show, kept. rewrite Ha. destruct (a_ignoring (p_l p)); reflexivity. }
  destruct tl as [|c u] eqn:Etl.
  - rewrite app_nil_r in Hbody. rewrite <- Hbody. rewrite <- Hshow by reflexivity.
    apply (end_show d (moved_to p (snd fnd)) false false false false false false false false (pre ++ body) ad gs (kept p (fst fnd)) Hs).
  - assert (c = "#"%char). { pose proof (drop_head (fun c => negb (Ascii.eqb c "#")) body c u Etl) as Hc. cbn beta in Hc. destruct (Ascii.eqb c "#") eqn:Hq; [|discriminate]. now apply Ascii.eqb_eq in Hq. }
    subst c.
    assert (B1 : ~ In LF u) by (intros H; apply H1b; rewrite Hbody; apply in_or_app; right; now right).
    assert (B2 : ~ In CR u) by (intros H; apply H2b; rewrite Hbody; apply in_or_app; right; now right).
    eapply gives_cons with (s' := tx d (moved_to p (snd fnd)) true (pre ++ act ++ ["#"%char]) ad gs (kept p (fst fnd))).
    + rewrite step_text_mode; [|constructor; try reflexivity; exact Hs|discriminate|discriminate]. f_equal.
      unfold step_text. change (ceq "#" "#") with true. cbn iota. rewrite append_char_eq, app_text_ok by now right.
      rewrite app_assoc. reflexivity.
    + rewrite <- Hshow by reflexivity. replace (pre ++ body) with ((pre ++ act ++ ["#"%char]) ++ u).
      * apply (tx_comment d (moved_to p (snd fnd)) (pre ++ act ++ ["#"%char]) ad gs (kept p (fst fnd)) u Hs); [|exact B1|exact B2].
        rewrite app_assoc. apply app_ne.
      * rewrite Hbody. rewrite <- !app_assoc. reflexivity.
Qed.

(** *** Bytes *)
Definition bx d p text ad := mk d p false false false true false false false false false false text (mkline ad [] []).

Lemma split_on_ne sep t : split_on sep t <> [].
Proof. induction t as [|c t IH]; [discriminate|]. cbn [split_on]. destruct (Ascii.eqb c sep); [discriminate|]. now destruct (split_on sep t). Qed.
(** Only a blank closes a group; the text ends in one. *)
Lemma split_words_aux t : forall acc, split_opcodes (t ++ [SP]) acc =
  filter (fun g => negb (is_nil g)) (match split_on SP t with g :: gs => (acc ++ g) :: gs | [] => [] end).
Proof.
  induction t as [|c t IH]; intros acc; cbn [app split_opcodes split_on].
  - change (ceq SP SP) with true. cbn [negb filter]. rewrite app_nil_r. destruct acc; reflexivity.
  - change (ceq c SP) with (Ascii.eqb c SP). destruct (Ascii.eqb c SP) eqn:E; cbn [negb].
    + rewrite !IH. cbn [filter]. rewrite app_nil_r.
      replace (match split_on SP t with g :: gs => ([] ++ g) :: gs | [] => [] end) with (split_on SP t) by (destruct (split_on SP t); reflexivity).
      destruct acc; reflexivity.
    + rewrite IH. pose proof (split_on_ne SP t). destruct (split_on SP t) as [|g gs]; [contradiction|]. now rewrite <- app_assoc.
Qed.
Lemma split_words t : last_is SP t = true -> split_opcodes t [] = words t.
Proof.
  intros H. destruct t as [|c t _] using rev_ind; [discriminate|]. rewrite last_is_app in H. apply ceq_true in H. subst c.
  rewrite split_words_aux. unfold words.
  assert (X : forall u, split_on SP (u ++ [SP]) = split_on SP u ++ [[]]).
  { clear. induction u as [|c u IH]; [reflexivity|]. cbn [app split_on]. rewrite IH. destruct (Ascii.eqb c SP); [reflexivity|].
    pose proof (split_on_ne SP u). destruct (split_on SP u); [contradiction|reflexivity]. }
  rewrite X, filter_app. cbn [filter is_nil negb]. rewrite app_nil_r. destruct (split_on SP t); reflexivity.
Qed.

Definition untab (x : char) : char := if Ascii.eqb x TAB then SP else x.
Lemma feed_reloc d p ad : forall r text, a_stopped (p_l p) = false -> text <> [] -> ~ In LF r -> ~ In CR r ->
  feed mb flt (mk d p false false false false false false false false true false text (mkline ad [] [])) r =
  Ok (mk d p false false false false false false false false true false (text ++ map untab r) (mkline ad [] [])).
Proof.
  induction r as [|c r IH]; intros text Hs Ht H1 H2; cbn [feed map]; [now rewrite app_nil_r|].
  assert (Hc1 : ceq c LF = false) by (apply ceq_false; intros ->; apply H1; now left).
  assert (Hc2 : ceq c CR = false) by (apply ceq_false; intros ->; apply H2; now left).
  replace (step mb flt _ c) with (Ok (mk d p false false false false false false false false true false (text ++ [untab c]) (mkline ad [] []))).
  - cbn [obind]. rewrite IH; [now rewrite <- app_assoc|exact Hs|apply app_ne| |]; intros H; [apply H1|apply H2]; now right.
  - unfold step, mk. osimp_goal. rewrite Hs, Hc1, Hc2. unfold step_relocation, untab. change (Ascii.eqb c TAB) with (ceq c TAB).
    destruct (ceq c TAB); [reflexivity|]. rewrite append_char_eq, app_text_ne by exact Ht. reflexivity.
Qed.

Lemma hex_digit_none c : hex_digit c = None <-> is_hex c = false.
Proof. destruct c as [[] [] [] [] [] [] [] []]; vm_compute; split; congruence. Qed.

Lemma bytes_read ad : forall r d p t, a_stopped (p_l p) = false -> ~ In LF r -> ~ In CR r ->
  gives mb flt (bx d p t ad) r (Ok (bytes_part mb flt p ad t r)).
Proof.
  induction r as [|c r IH]; intros d p t Hs H1 H2; cbn [bytes_part].
  - apply (end_show d p false false true false false false false false t ad [] [] Hs).
  - assert (Hc1 : c <> LF) by (intros ->; apply H1; now left). assert (Hc2 : c <> CR) by (intros ->; apply H2; now left).
    assert (H1' : ~ In LF r) by (intros H; apply H1; now right). assert (H2' : ~ In CR r) by (intros H; apply H2; now right).
    assert (Hst : step mb flt (bx d p t ad) c = Ok (step_opcodes (bx d p t ad) c)).
    { apply step_opc_mode; [constructor; try reflexivity; exact Hs|exact Hc1|exact Hc2]. }
    unfold step_opcodes in Hst. change (o_text (bx d p t ad)) with t in Hst.
    destruct (is_whitespace c) eqn:Ew.
    + destruct (is_nil t) eqn:Et.
      * eapply gives_cons; [exact Hst|]. now apply IH.
      * cnv. destruct (last_is SP t) eqn:El.
        -- eapply gives_cons; [exact Hst|].
           replace (opcodes (bx d p t ad)) with (tx d p false [] ad (if a_ignoring (p_l p) then [] else words t) []).
           ++ replace (text_part mb flt p ad (words t) [] r) with (text_part mb flt p ad (if a_ignoring (p_l p) then [] else words t) [] r);
                [now apply text_read|].
              unfold text_part, show. destruct (a_ignoring (p_l p)) eqn:Ei; reflexivity.
           ++ unfold opcodes, bx, tx, mk. osimp_goal. rewrite (split_words t El). destruct (a_ignoring (p_l p)); reflexivity.
        -- eapply gives_cons; [exact Hst|]. rewrite append_char_eq, app_text_ne by exact Et. now apply IH.
    + change (Ascii.eqb c "R") with (ceq c "R"). destruct (ceq c "R") eqn:Er.
      * apply ceq_true in Er. subst c. eapply gives_cons; [exact Hst|]. rewrite append_char_eq, app_text_nows by reflexivity.
        rewrite <- (app_nil_r r) at 1. eapply gives_app with
          (s' := mk d p false false false false false false false false true false (t ++ lit "   R" ++ map untab r) (mkline ad [] [])).
        -- match goal with |- feed _ _ ?x _ = _ => replace x with (mk d p false false false false false false false false true false (t ++ lit "   R") (mkline ad [] [])) end.
           ++ rewrite feed_reloc; [now rewrite <- app_assoc|exact Hs| |exact H1'|exact H2']. change (lit "   R") with ([SP; SP; SP] ++ ["R"%char]). rewrite app_assoc. apply app_ne.
           ++ unfold mk, bx. osimp_goal. change (lit "   R") with (lit "   " ++ ["R"%char]). rewrite app_assoc. reflexivity.
        -- apply (end_show d p false false false false false false true false _ ad [] [] Hs).
      * destruct (hex_digit c) as [v|] eqn:Eh.
        -- assert (Hx : is_hex c = true) by (destruct (is_hex c) eqn:Hx; [reflexivity|]; apply hex_digit_none in Hx; congruence).
           rewrite Hx in Hst. cbn [negb] in Hst. rewrite append_char_eq, app_text_nows in Hst by exact Ew.
           eapply gives_cons; [exact Hst|]. now apply IH.
        -- apply hex_digit_none in Eh. rewrite Eh in Hst. cbn [negb] in Hst. rewrite append_char_eq, app_text_nows in Hst by exact Ew.
           eapply gives_cons; [exact Hst|]. exact (text_read d p (t ++ [c]) ad [] r Hs H1' H2').
Qed.

(** *** Source lines *)
Definition sx d p srcn text := mk d p false false false false false false true srcn false false text line0.

Lemma feed_source d p : forall r t, a_stopped (p_l p) = false -> t <> [] -> ~ In LF r -> ~ In CR r -> ~ In ":"%char r ->
  feed mb flt (sx d p false t) r = Ok (sx d p false (t ++ r)).
Proof.
  induction r as [|c r IH]; intros t Hs Ht H1 H2 H3; cbn [feed]; [now rewrite app_nil_r|].
  assert (Hc1 : ceq c LF = false) by (apply ceq_false; intros ->; apply H1; now left).
  assert (Hc2 : ceq c CR = false) by (apply ceq_false; intros ->; apply H2; now left).
  assert (Hc3 : ceq c ":" = false) by (apply ceq_false; intros ->; apply H3; now left).
  replace (step mb flt _ c) with (Ok (sx d p false (t ++ [c]))).
  - cbn [obind]. rewrite IH; [now rewrite <- app_assoc|exact Hs|apply app_ne| | |]; intros H; [apply H1|apply H2|apply H3]; now right.
  - unfold step, sx, mk. osimp_goal. rewrite Hs, Hc1, Hc2. unfold step_sourceref. rewrite Hc3. osimp_goal. cbn [andb].
    rewrite append_char_eq, app_text_ne by exact Ht. reflexivity.
Qed.

Definition with_source (file : str) (n : Z) (a : lstate) : lstate :=
  mkL (a_section a) (mkSource file 0 n 0 (negb (file_in_library file)) false) (a_ignoring a) (a_stopped a) (a_lines a) (a_labels a).
Lemma step_colon d p srcn t : a_stopped (p_l p) = false ->
  step mb flt (sx d p srcn t) ":"%char = Ok (sx (mkD (d_check d) (d_prev d) t (d_total d)) (on_list (with_source t 0) p) true []).
Proof. intros Hs. opened p Hs. reflexivity. Qed.

Definition num_part (a : lstate) (file t q : str) : outcome lstate :=
  let pieces := file :: split_on ":" (t ++ take_while (fun c => negb (is_whitespace c)) q) in
  let f := last (removelast pieces) [] in
  if a_ignoring a && forallb (fun c => negb (is_whitespace c)) q then Ok (with_source f 0 a)
  else match atoi (last pieces []) with
       | None => UB AtoiRange
       | Some n => Ok (with_source f (if 0 <? n then n else 0) a)
       end.
Lemma split_on_app_sep sep t u : ~ In sep t -> split_on sep (t ++ sep :: u) = t :: split_on sep u.
Proof.
  induction t as [|c t IH]; intros H; cbn [app split_on].
  - now rewrite Ascii.eqb_refl.
  - destruct (Ascii.eqb c sep) eqn:E; [apply Ascii.eqb_eq in E; subst; exfalso; apply H; now left|].
    rewrite IH; [reflexivity|]. intros H'. apply H. now right.
Qed.
Lemma split_on_none sep t : ~ In sep t -> split_on sep t = [t].
Proof.
  induction t as [|c t IH]; intros H; cbn [split_on]; [reflexivity|].
  destruct (Ascii.eqb c sep) eqn:E; [apply Ascii.eqb_eq in E; subst; exfalso; apply H; now left|].
  rewrite IH; [reflexivity|]. intros H'. apply H. now right.
Qed.
Lemma source_num_part a f q : ~ In ":"%char f -> source_part a f q = num_part a f [] q.
Proof. intros H. unfold source_part, num_part. rewrite split_on_app_sep by exact H. reflexivity. Qed.

Lemma end_number d p file t skip : a_stopped (p_l p) = false ->
  gives mb flt (mk d (on_list (with_source file 0) p) false false false false false false true true false skip t line0) []
    (omap (fun a => mkP a (p_open p) (p_col p))
       (if a_ignoring (p_l p) then Ok (with_source file 0 (p_l p))
        else match atoi t with None => UB AtoiRange | Some n => Ok (with_source file (if 0 <? n then n else 0) (p_l p)) end)).
Proof.
  intros Hs. destruct p as [[sec0 src0 ig st ls lb] o k]. cbn [p_l a_stopped] in Hs. subst st.
  unfold gives, on_list, with_source. cbn [app feed]. rewrite step_eol by reflexivity.
  unfold eol, mk. osimp_goal. cbn [obind]. osimp_goal. cbn [p_l p_open p_col a_stopped a_ignoring a_section a_source a_lines a_labels].
  destruct ig; cbn [omap obind].
  { exists (mkD (d_check d) (d_prev d) (d_file d) (d_total d + 1)). reflexivity. }
  unfold updateSourceRefLineNumber. osimp_goal. destruct (atoi t) as [n|]; cbn [omap obind]; [|reflexivity].
  exists (mkD (d_check d) (d_prev d) (d_file d) (d_total d + 1)). destruct (0 <? n); reflexivity.
Qed.

Lemma number_read : forall q d p file t, a_stopped (p_l p) = false -> ~ In LF q -> ~ In CR q -> ~ In ":"%char t ->
  gives mb flt (sx d (on_list (with_source file 0) p) true t) q
    (omap (fun a => mkP a (p_open p) (p_col p)) (num_part (p_l p) file t q)).
Proof.
  induction q as [|c q IH]; intros d p file t Hs H1 H2 Ht.
  - unfold num_part. cbn [take_while forallb]. rewrite app_nil_r, split_on_none by exact Ht. cbn [removelast last].
    rewrite andb_true_r. apply end_number. exact Hs.
  - assert (Hc1 : ceq c LF = false) by (apply ceq_false; intros ->; apply H1; now left).
    assert (Hc2 : ceq c CR = false) by (apply ceq_false; intros ->; apply H2; now left).
    assert (H1' : ~ In LF q) by (intros H; apply H1; now right). assert (H2' : ~ In CR q) by (intros H; apply H2; now right).
    destruct (ceq c ":") eqn:Ec.
    + apply ceq_true in Ec. subst c. eapply gives_cons; [apply step_colon; exact Hs|].
      match goal with |- gives _ _ _ _ (omap _ ?x) => replace x with (num_part (p_l p) t [] q) end.
      * exact (IH (mkD (d_check d) (d_prev d) t (d_total d)) p t [] Hs H1' H2' (fun H => H)).
      * unfold num_part. cbn [take_while forallb]. change (is_whitespace ":") with false. cbn [negb andb].
        rewrite split_on_app_sep by exact Ht. cbn [app]. pose proof (split_on_ne ":" (take_while (fun c => negb (is_whitespace c)) q)) as Hne.
        destruct (split_on ":" (take_while (fun c => negb (is_whitespace c)) q)); [contradiction|]. reflexivity.
    + destruct (is_whitespace c) eqn:Ew.
      * unfold num_part. cbn [take_while forallb]. rewrite Ew. cbn [negb andb]. rewrite andb_false_r, app_nil_r, split_on_none by exact Ht.
        cbn [removelast last].
        assert (Hst : step mb flt (sx d (on_list (with_source file 0) p) true t) c =
          match atoi t with
          | None => UB AtoiRange
          | Some n => Ok (mk d (on_list (with_source file (if 0 <? n then n else 0)) p) false false false false false false true true false true [] line0)
          end).
        { clear IH. opened p Hs. unfold step, sx, mk. osimp_goal. cbn [on_list with_source p_l a_stopped]. rewrite Hc1, Hc2.
          unfold step_sourceref. rewrite Ec, Ew. osimp_goal. cbn [andb]. unfold updateSourceRefLineNumber. osimp_goal.
          destruct (atoi t) as [n|]; [|reflexivity]. destruct (0 <? n); reflexivity. }
        destruct (atoi t) as [n|]; cbn [omap obind].
        2:{ unfold gives. cbn [app feed]. now rewrite Hst. }
        eapply gives_cons; [exact Hst|]. apply skip_rest; [exact H1'|].
        destruct p as [[sec0 src0 ig st ls lb] o k]. cbn [p_l a_stopped] in Hs. subst st.
        unfold gives, on_list, with_source. cbn [app feed]. rewrite step_eol by reflexivity.
        unfold eol, mk. osimp_goal. cbn [obind]. osimp_goal. cbn [p_l p_open p_col a_stopped a_ignoring a_section a_source a_lines a_labels].
        exists (mkD (d_check d) (d_prev d) (d_file d) (d_total d + 1)). destruct ig; cbn [omap obind]; reflexivity.
      * match goal with |- gives _ _ _ _ (omap _ ?x) => replace x with (num_part (p_l p) file (t ++ [c]) q) end.
        -- eapply gives_cons; [|apply IH; try assumption].
           ++ clear IH. opened p Hs. unfold step, sx, mk. osimp_goal. cbn [on_list with_source p_l a_stopped]. rewrite Hc1, Hc2.
              unfold step_sourceref. rewrite Ec, Ew. rewrite andb_false_r. rewrite append_char_eq, app_text_nows by exact Ew. reflexivity.
           ++ rewrite in_app_iff. intros [H|[H|[]]]; [contradiction|]. subst c. discriminate.
        -- unfold num_part. cbn [take_while forallb]. rewrite Ew. cbn [negb andb]. now rewrite <- app_assoc.
Qed.

(** *** Section lines *)
Definition cx d p secn text := mk d p false false false false true secn false false false false text line0.
Definition with_section (name : str) (p : pstate) : pstate := on_list (set_section name) p.

Lemma end_none d p com addr opc sec secn src rel skip line : a_stopped (p_l p) = false ->
  gives mb flt (mk d p com addr false opc sec secn src false rel skip [] line) [] (Ok p).
Proof.
  intros Hs. unfold gives. cbn [app feed]. rewrite step_eol by exact Hs. rewrite eol_blank by reflexivity.
  exists (mkD (d_check d) (d_prev d) (d_file d) (d_total d + 1)). destruct p. reflexivity.
Qed.

Lemma name_read : forall u d p x, a_stopped (p_l p) = false -> ~ In LF u -> ~ In CR u ->
  gives mb flt (cx d (with_section x p) true []) u (Ok (with_section (x ++ take_while (fun y => negb (Ascii.eqb y ":")) u) p)).
Proof.
  induction u as [|c u IH]; intros d p x Hs H1 H2; cbn [take_while].
  - rewrite app_nil_r. now apply end_none.
  - assert (Hc1 : ceq c LF = false) by (apply ceq_false; intros ->; apply H1; now left).
    assert (Hc2 : ceq c CR = false) by (apply ceq_false; intros ->; apply H2; now left).
    assert (H1' : ~ In LF u) by (intros H; apply H1; now right). assert (H2' : ~ In CR u) by (intros H; apply H2; now right).
    assert (Hst : step mb flt (cx d (with_section x p) true []) c =
       Ok (if ceq c ":" then mk d (with_section x p) false false false false true true false false false true [] line0
           else cx d (with_section (x ++ [c]) p) true [])).
    { clear IH. opened p Hs. unfold step, cx, mk. osimp_goal. cbn [with_section on_list set_section p_l a_stopped]. rewrite Hc1, Hc2.
      unfold step_section. osimp_goal. cbn [negb]. destruct (ceq c ":"); reflexivity. }
    eapply gives_cons; [exact Hst|]. change (Ascii.eqb c ":") with (ceq c ":"). destruct (ceq c ":"); cbn [negb].
    + rewrite app_nil_r. apply skip_rest; [exact H1'|]. now apply end_none.
    + specialize (IH d p (x ++ [c]) Hs H1' H2'). rewrite <- app_assoc in IH. exact IH.
Qed.

Lemma starts_with_app_self h t : starts_with h (h ++ t) = true.
Proof. apply starts_with_spec. now exists t. Qed.

Definition head_of_section : str := lit "Disassembly of section ".
Definition section_end (p : pstate) (t : str) : pstate :=
  if starts_with head_of_section t then
    match skipn (length head_of_section) t with
    | [] => on_list (fun a => show (set_section [] a) None [] [] t) p
    | x :: u => with_section (x :: take_while (fun y => negb (Ascii.eqb y ":")) u) p
    end
  else on_list (fun a => show (set_section [] a) None [] [] t) p.

Lemma section_read : forall r d p t, a_stopped (p_l p) = false -> ~ In LF r -> ~ In CR r -> t <> [] ->
  (starts_with head_of_section t = true -> t = head_of_section) ->
  gives mb flt (cx d (with_section [] p) false t) r (Ok (section_end p (t ++ r))).
Proof.
  induction r as [|c r IH]; intros d p t Hs H1 H2 Ht Hi.
  - rewrite app_nil_r. replace (section_end p t) with (on_list (fun a => show (set_section [] a) None [] [] t) p).
    + apply (end_show d (with_section [] p) false false false true false false false false t None [] []). exact Hs.
    + unfold section_end. destruct (starts_with head_of_section t) eqn:E; [|reflexivity]. rewrite (Hi eq_refl). reflexivity.
  - assert (Hc1 : ceq c LF = false) by (apply ceq_false; intros ->; apply H1; now left).
    assert (Hc2 : ceq c CR = false) by (apply ceq_false; intros ->; apply H2; now left).
    assert (H1' : ~ In LF r) by (intros H; apply H1; now right). assert (H2' : ~ In CR r) by (intros H; apply H2; now right).
    assert (Hst : step mb flt (cx d (with_section [] p) false t) c =
       Ok (if str_eqb t head_of_section then cx d (with_section [c] p) true [] else cx d (with_section [] p) false (t ++ [c]))).
    { clear IH. opened p Hs. unfold step, cx, mk. osimp_goal. cbn [with_section on_list set_section p_l a_stopped]. rewrite Hc1, Hc2.
      unfold step_section. osimp_goal. cbn [negb]. fold head_of_section. destruct (str_eqb t head_of_section); [reflexivity|].
      rewrite append_char_eq. osimp_goal. rewrite app_text_ne by exact Ht. reflexivity. }
    eapply gives_cons; [exact Hst|]. destruct (str_eqb t head_of_section) eqn:E.
    + apply str_eqb_eq in E. subst t. unfold section_end. rewrite starts_with_app_self.
      replace (skipn (length head_of_section) (head_of_section ++ c :: r)) with (c :: r) by (symmetry; apply skipn_len_app).
      exact (name_read r d p [c] Hs H1' H2').
    + apply str_eqb_neq in E. replace (t ++ c :: r) with ((t ++ [c]) ++ r) by (rewrite <- app_assoc; reflexivity).
      apply IH; try assumption; [apply app_ne|].
      intros Hw. apply starts_with_spec in Hw as (z & Hz).
      destruct z as [|y z _] using rev_ind; [now rewrite app_nil_r in Hz|].
      rewrite app_assoc in Hz. apply app_inj_tail in Hz as [Hz _]. exfalso. apply E, Hi. rewrite Hz. apply starts_with_app_self.
Qed.

(** *** Label lines *)
Definition lx d p opc skip text line := mk d p false false true opc false false false false false skip text line.

Lemma Idx_same s s' : Idx s -> o_stopParsing s' = o_stopParsing s -> o_lines s' = o_lines s -> o_labels s' = o_labels s -> Idx s'.
Proof.
  intros [HC HR HS] E1 E2 E3. constructor.
  - unfold Cap in *. rewrite E1, E2. exact HC.
  - now rewrite E2, E3.
  - now rewrite E3.
Qed.

Lemma end_label d p ad t : Idx (boot d p) -> a_stopped (p_l p) = false -> t <> [] ->
  gives mb flt (lx d p true false t (mkline ad [] [])) []
    (Ok (on_list (fun a => new_label flt a ad (name_of_label t)) p)).
Proof.
  intros HI Hs Ht. unfold gives. cbn [app feed]. rewrite step_eol by exact Hs.
  set (s := lx d p true false t (mkline ad [] [])).
  assert (HIs : Idx s) by (eapply Idx_same; [exact HI|reflexivity|reflexivity|reflexivity]).
  destruct (rm_drop flt s HIs) as (ls & lb & Hrm & Hls & Hlb).
  assert (Hle : (length ls <= length (o_lines s))%nat) by (eapply rm_length; exact Hrm).
  assert (Hlen : Z.of_nat (length ls) <= 5000).
  { destruct HIs as [[[_ HC]|[HC _]] _ _]; [lia|]. change (a_stopped (p_l p) = true) in HC. congruence. }
  assert (Habs : abs s = p_l p) by (destruct p as [[] ? ?]; reflexivity). rewrite Habs in Hls, Hlb.
  unfold on_list, new_label. cbn zeta beta. rewrite <- Hls, <- Hlb. change (name_of_label t) with (label_name t).
  unfold eol. change (o_inLabel (set_o_total_lines (o_total_lines s + 1) s)) with true. cbn iota.
  rewrite label_eq by exact Ht.
  change (rm flt (set_o_total_lines (o_total_lines s + 1) s)) with (rm flt s).
  change (o_text (set_o_total_lines (o_total_lines s + 1) s)) with t.
  rewrite Hrm. cbn [obind fst snd]. cbn zeta.
  clear Hls Hlb Habs HIs Hle. subst s. clear Hrm HI. opened p Hs.
  cbn [p_l p_open p_col a_section a_source a_ignoring a_stopped a_lines a_labels].
  destruct (shouldIgnoreFunction (label_name t) flt) eqn:Eig; cbn [obind]; osimp_goal.
  - exists (mkD (d_check d) (d_prev d) (d_file d) (d_total d + 1)). reflexivity.
  - replace (is_nil (label_name t ++ lit ":")) with false by (destruct (label_name t); reflexivity).
    rewrite i32_small by lia.
    exists (mkD (f_library_functions flt || d_check d) (label_name t) (d_file d) (d_total d + 1)).
    unfold push_line, emit. osimp_goal. cbn [a_section a_source a_ignoring a_stopped a_lines a_labels].
    change (o_inSourceRefLineNumber _) with false. cbn iota. cbn [negb obind].
    destruct (_ <? 5000); reflexivity.
Qed.

Lemma feed_label_lead d p opc line : forall r, a_stopped (p_l p) = false -> ~ In LF r -> ~ In CR r ->
  feed mb flt (lx d p opc false [] line) r = Ok (lx d p opc false (drop_while is_whitespace r) line).
Proof.
  assert (Hne : forall r t, a_stopped (p_l p) = false -> t <> [] -> ~ In LF r -> ~ In CR r ->
    feed mb flt (lx d p opc false t line) r = Ok (lx d p opc false (t ++ r) line)).
  { induction r as [|c r IH]; intros t Hs Ht H1 H2; cbn [feed]; [now rewrite app_nil_r|].
    assert (Hc1 : ceq c LF = false) by (apply ceq_false; intros ->; apply H1; now left).
    assert (Hc2 : ceq c CR = false) by (apply ceq_false; intros ->; apply H2; now left).
    replace (step mb flt _ c) with (Ok (lx d p opc false (t ++ [c]) line)).
    - cbn [obind]. rewrite IH; [now rewrite <- app_assoc|exact Hs|apply app_ne| |]; intros H; [apply H1|apply H2]; now right.
    - clear IH. opened p Hs. unfold step, lx, mk. osimp_goal. rewrite Hc1, Hc2. cbn [p_l a_stopped].
      rewrite append_char_eq. osimp_goal. rewrite app_text_ne by exact Ht. reflexivity. }
  induction r as [|c r IH]; intros Hs H1 H2; cbn [drop_while]; [reflexivity|].
  assert (Hc1 : ceq c LF = false) by (apply ceq_false; intros ->; apply H1; now left).
  assert (Hc2 : ceq c CR = false) by (apply ceq_false; intros ->; apply H2; now left).
  assert (H1' : ~ In LF r) by (intros H; apply H1; now right). assert (H2' : ~ In CR r) by (intros H; apply H2; now right).
  cbn [feed]. replace (step mb flt _ c) with (Ok (lx d p opc false (if is_whitespace c then [] else [c]) line)).
  - cbn [obind]. destruct (is_whitespace c); [now apply IH|]. apply (Hne r [c]); try assumption. discriminate.
  - clear IH. opened p Hs. unfold step, lx, mk. osimp_goal. rewrite Hc1, Hc2. cbn [p_l a_stopped].
    rewrite append_char_eq. osimp_goal. unfold app_text. destruct (is_whitespace c); reflexivity.
Qed.

Lemma end_no_label d p opc skip line : a_stopped (p_l p) = false ->
  gives mb flt (lx d p opc skip [] line) [] (Ok p).
Proof.
  intros Hs. unfold gives. cbn [app feed]. rewrite step_eol by exact Hs. opened p Hs.
  exists (mkD (d_check d) (d_prev d) (d_file d) (d_total d + 1)). unfold eol, lx, mk. osimp_goal. unfold label. osimp_goal. cbn [is_nil obind]. osimp_goal.
  cbn [negb p_l a_ignoring]. match goal with |- context[if ?b then _ else _] => destruct b end; reflexivity.
Qed.

Lemma label_read d p ad r : Idx (boot d p) -> a_stopped (p_l p) = false -> ~ In LF r -> ~ In CR r ->
  gives mb flt (lx d p true false [] (mkline ad [] [])) r
    (Ok (match drop_while is_whitespace r with
         | [] => p
         | t => on_list (fun a => new_label flt a ad (name_of_label t)) p
         end)).
Proof.
  intros HI Hs H1 H2. rewrite <- (app_nil_r r) at 1. eapply gives_app; [now apply feed_label_lead|].
  destruct (drop_while is_whitespace r) as [|c t] eqn:E; [now apply end_no_label|]. apply end_label; [exact HI|exact Hs|discriminate].
Qed.

(** *** The first word *)
Definition ax d p text := mk d p false true false false false false false false false false text line0.

Lemma address_read d p w : a_stopped (p_l p) = false -> w <> [] -> ~ In "/"%char w ->
  match address_word (p_l p) w with
  | Ok (Some ad) => address (ax d p w) = Ok (bx d p [] ad)
  | Ok None => exists line, address (ax d p w) = Ok (mk d p false false false false false false false false false true [] line)
  | UB k => address (ax d p w) = UB k
  | _ => False
  end.
Proof.
  intros Hs Hw Hn. unfold address_word, address. change (o_text (ax d p w)) with w.
  destruct w as [|c w]; [contradiction|]. replace (ceq c "/") with false by (symmetry; apply ceq_false; intros ->; apply Hn; now left).
  unfold actually_address. change (o_ignoreUntilNextLabel (ax d p (c :: w))) with (a_ignoring (p_l p)).
  change (o_text (ax d p (c :: w))) with (c :: w). opened p Hs. cbn [p_l a_ignoring].
  match goal with |- context[if negb ?b then _ else _] => destruct b end; cbn [negb].
  - reflexivity.
  - set (al := addr_loop _ 0 0). assert (Hal : (exists x, al = Ok x) \/ al = UB ShiftRange).
    { subst al. clear. enough (G : forall l z y, (exists x, addr_loop l z y = Ok x) \/ addr_loop l z y = UB ShiftRange) by apply G.
      induction l as [|x l IH]; intros z y; [left; eexists; reflexivity|]. cbn [addr_loop]. destruct (is_hex x); cbn [negb]; [|left; eexists; reflexivity].
      destruct (hex2int x =? 0); [apply IH|]. destruct (_ || _); [now right|apply IH]. }
    destruct Hal as [[[x b] ->]| ->]; cbn [obind omap fst snd]; [|reflexivity].
    destruct b; [|reflexivity]. eexists. reflexivity.
Qed.

Lemma feed_lead d p : forall r, a_stopped (p_l p) = false -> ~ In LF r -> ~ In CR r ->
  feed mb flt (ax d p []) (take_while (fun c => is_whitespace c || Ascii.eqb c ";") r) = Ok (ax d p []).
Proof.
  induction r as [|c r IH]; intros Hs H1 H2; cbn [take_while]; [reflexivity|].
  destruct (is_whitespace c || Ascii.eqb c ";") eqn:E; [|reflexivity]. cbn [feed].
  replace (step mb flt _ c) with (Ok (ax d p [])).
  - cbn [obind]. apply IH; [exact Hs| |]; intros H; [apply H1|apply H2]; now right.
  - opened p Hs. apply orb_true_iff in E. destruct E as [E|E].
    + unfold is_whitespace in E. apply orb_true_iff in E. destruct E as [E|E]; apply ceq_true in E; subst; reflexivity.
    + apply Ascii.eqb_eq in E. subst. reflexivity.
Qed.

Definition not_semi (c : char) : bool := negb (Ascii.eqb c ";").
Lemma feed_word d p : forall r t, a_stopped (p_l p) = false -> Forall (fun c => word_end c = false /\ c <> LF /\ c <> CR) r ->
  feed mb flt (ax d p t) r = Ok (ax d p (t ++ filter not_semi r)).
Proof.
  induction r as [|c r IH]; intros t Hs HF; cbn [feed filter]; [now rewrite app_nil_r|].
  inversion HF as [|? ? (Hc & H1 & H2) HF']; subst. apply ceq_false in H1, H2.
  unfold word_end in Hc. apply orb_false_iff in Hc as [Hc Hc3]. apply orb_false_iff in Hc as [Hc1 Hc2].
  replace (step mb flt _ c) with (Ok (ax d p (if not_semi c then t ++ [c] else t))).
  - cbn [obind]. rewrite IH by assumption. destruct (not_semi c); [now rewrite <- app_assoc|reflexivity].
  - clear IH. opened p Hs. unfold step, ax, mk. osimp_goal. cbn [p_l a_stopped]. rewrite H1, H2. unfold step_address.
    change (ceq c "/") with (Ascii.eqb c "/"). change (ceq c ":") with (Ascii.eqb c ":"). rewrite Hc1, Hc2, Hc3.
    unfold not_semi. change (Ascii.eqb c ";") with (ceq c ";"). destruct (ceq c ";"); cbn [negb]; [reflexivity|].
    rewrite append_char_eq, app_text_nows by exact Hc3. reflexivity.
Qed.

Lemma line_read d p line : Idx (boot d p) -> ~ In LF line -> ~ In CR line ->
  gives mb flt (boot d p) line (read_line mb flt p line).
Proof.
  intros HI H1 H2. unfold read_line. cbn zeta. destruct (a_stopped (p_l p)) eqn:Hs.
  { unfold gives. exists d. rewrite feed_stopped by exact Hs. reflexivity. }
  set (body := drop_while (fun c => is_whitespace c || Ascii.eqb c ";") line).
  pose proof (take_drop (fun c => is_whitespace c || Ascii.eqb c ";") line) as Hline. fold body in Hline.
  assert (Hld : feed mb flt (boot d p) (take_while (fun c => is_whitespace c || Ascii.eqb c ";") line) = Ok (ax d p [])) by now apply feed_lead.
  assert (Hb1 : ~ In LF body) by (intros H; apply H1; rewrite Hline; apply in_or_app; now right).
  assert (Hb2 : ~ In CR body) by (intros H; apply H2; rewrite Hline; apply in_or_app; now right).
  assert (Hhead : forall c u, body = c :: u -> is_whitespace c || Ascii.eqb c ";" = false) by (intros c u; apply (drop_head (fun c => is_whitespace c || Ascii.eqb c ";"))).
  rewrite Hline. eapply gives_app; [exact Hld|]. clear Hld Hline. clearbody body. clear H1 H2 line.
  pose proof (take_drop (fun c => negb (word_end c)) body) as Hbody.
  set (w0 := take_while (fun c => negb (word_end c)) body) in *.
  set (rest := drop_while (fun c => negb (word_end c)) body) in *.
  assert (Hw0 : Forall (fun c => word_end c = false /\ c <> LF /\ c <> CR) w0).
  { apply Forall_forall. intros c Hc. repeat split.
    - pose proof (take_all (fun c => negb (word_end c)) body c Hc) as E. cbn beta in E. now destruct (word_end c).
    - intros ->. apply Hb1. rewrite Hbody. apply in_or_app. now left.
    - intros ->. apply Hb2. rewrite Hbody. apply in_or_app. now left. }
  set (w := filter (fun c : ascii => negb (Ascii.eqb c ";")) w0).
  assert (Hfw : feed mb flt (ax d p []) w0 = Ok (ax d p w)) by (rewrite (feed_word d p w0 [] Hs Hw0); reflexivity).
  assert (Hwn : ~ In "/"%char w).
  { intros H. apply filter_In in H as [H _]. rewrite Forall_forall in Hw0. apply Hw0 in H as [H _]. discriminate. }
  rewrite Hbody. eapply gives_app; [exact Hfw|].
  assert (Hnil : is_nil w = true -> w = []) by (destruct w; [reflexivity|discriminate]).
  destruct rest as [|c r] eqn:Er.
  { apply (end_show d p false true false false false false false false w None [] [] Hs). }
  assert (Hce : word_end c = true).
  { pose proof (drop_head (fun c => negb (word_end c)) body c r Er) as E. cbn beta in E. now destruct (word_end c). }
  assert (Hr1 : ~ In LF r) by (intros H; apply Hb1; rewrite Hbody; apply in_or_app; right; now right).
  assert (Hr2 : ~ In CR r) by (intros H; apply Hb2; rewrite Hbody; apply in_or_app; right; now right).
  clear Hbody Hfw.
  destruct (Ascii.eqb c "/") eqn:E1.
  { apply Ascii.eqb_eq in E1. subst c.
    eapply gives_cons with (s' := sx d p false (w ++ ["/"%char])).
    { clear - Hs. opened p Hs. unfold step, ax, sx, mk. osimp_goal. cbn [p_l a_stopped].
      change (ceq "/" CR) with false. change (ceq "/" LF) with false. cbn iota. unfold step_address. change (ceq "/" "/") with true. cbn iota.
      rewrite append_char_eq, app_text_nows by reflexivity. reflexivity. }
    pose proof (take_drop (fun x => negb (Ascii.eqb x ":")) r) as Hr.
    set (f0 := take_while (fun x => negb (Ascii.eqb x ":")) r) in *.
    set (q0 := drop_while (fun x => negb (Ascii.eqb x ":")) r) in *.
    assert (Hf : feed mb flt (sx d p false (w ++ ["/"%char])) f0 = Ok (sx d p false (w ++ "/"%char :: f0))).
    { rewrite feed_source; [now rewrite <- app_assoc|exact Hs|apply app_ne| | |].
      - intros H. apply Hr1. rewrite Hr. apply in_or_app. now left.
      - intros H. apply Hr2. rewrite Hr. apply in_or_app. now left.
      - intros H. apply take_all in H. discriminate. }
    rewrite Hr. eapply gives_app; [exact Hf|].
    destruct q0 as [|x q] eqn:Eq.
    { apply (end_show d p false false false false false true false false (w ++ "/"%char :: f0) None [] [] Hs). }
    assert (x = ":"%char).
    { pose proof (drop_head (fun x => negb (Ascii.eqb x ":")) r x q Eq) as E. cbn beta in E. destruct (Ascii.eqb x ":") eqn:E'; [now apply Ascii.eqb_eq|discriminate]. }
    subst x. eapply gives_cons; [apply step_colon; exact Hs|].
    rewrite source_num_part.
    - apply number_read; [exact Hs| | |auto].
      + intros H. apply Hr1. rewrite Hr. apply in_or_app. right. now right.
      + intros H. apply Hr2. rewrite Hr. apply in_or_app. right. now right.
    - intros H. apply in_app_iff in H as [H|[H|H]]; [|discriminate|apply take_all in H; discriminate].
      apply filter_In in H as [H _]. rewrite Forall_forall in Hw0. apply Hw0 in H as [H _]. discriminate. }
  destruct (Ascii.eqb c ":") eqn:E2.
  { apply Ascii.eqb_eq in E2. subst c.
    assert (Hst : step mb flt (ax d p w) ":"%char = address (ax d p w)).
    { unfold step, ax, mk. osimp_goal. rewrite Hs. reflexivity. }
    destruct (is_nil w) eqn:En.
    { rewrite (Hnil eq_refl) in *. eapply gives_cons with (s' := tx d p false [] None [] []); [exact Hst|]. apply text_read; assumption. }
    cnv. pose proof (address_read d p w Hs En Hwn) as Ha. destruct (address_word (p_l p) w) as [[ad|]|k| |]; cbn [obind].
    - eapply gives_cons; [rewrite Hst; exact Ha|]. now apply bytes_read.
    - destruct Ha as [line Ha]. eapply gives_cons; [rewrite Hst; exact Ha|]. apply skip_rest; [exact Hr1|]. now apply end_none.
    - unfold gives. cbn [app feed]. rewrite Hst, Ha. reflexivity.
    - contradiction.
    - contradiction. }
  assert (Ew : is_whitespace c = true) by (unfold word_end in Hce; rewrite E1, E2 in Hce; exact Hce).
  assert (Hwne : w <> []).
  { intros E. destruct w0 as [|x w1] eqn:Ew0.
    - assert (body = c :: r) by (rewrite (take_drop (fun c => negb (word_end c)) body); fold w0; fold rest; now rewrite Er, Ew0).
      apply Hhead in H. rewrite Ew in H. discriminate.
    - assert (Hx : is_whitespace x || Ascii.eqb x ";" = false).
      { apply (Hhead x (w1 ++ rest)). rewrite (take_drop (fun c => negb (word_end c)) body). fold w0. fold rest. now rewrite Ew0. }
      apply orb_false_iff in Hx as [_ Hx]. subst w. cbn [filter] in E. rewrite Hx in E. discriminate. }
  assert (Hcc : ceq c LF = false /\ ceq c CR = false /\ ceq c "/" = false /\ ceq c ";" = false /\ ceq c ":" = false).
  { unfold is_whitespace in Ew. apply orb_true_iff in Ew as [Ew|Ew]; apply ceq_true in Ew; subst; repeat split. }
  destruct Hcc as (C1 & C2 & C3 & C4 & C5).
  assert (Hst : step mb flt (ax d p w) c =
     if str_eqb w (lit "Disassembly") then Ok (cx d (with_section [] p) false (w ++ [c]))
     else s <- address (ax d p w) ;; Ok (set_o_inLabel true (set_o_inAddress false s))).
  { unfold step. change (o_stopParsing (ax d p w)) with (a_stopped (p_l p)). rewrite Hs, C1, C2.
    change (o_skipRestOfTheLine (ax d p w)) with false. change (o_inAddress (ax d p w)) with true. cbn iota.
    unfold step_address. rewrite C3, C4, C5, Ew. change (o_text (ax d p w)) with w.
    destruct (str_eqb w (lit "Disassembly")).
    - rewrite append_char_eq. change (o_text (set_o_currentSection [] _)) with w. rewrite app_text_ne by exact Hwne. reflexivity.
    - destruct (is_nil w) eqn:En; cnv; [contradiction|]. reflexivity. }
  destruct (str_eqb w (lit "Disassembly")) eqn:Ed.
  { eapply gives_cons; [exact Hst|]. apply str_eqb_eq in Ed.
    match goal with |- gives _ _ _ _ ?o => replace o with (Ok (section_end p ((w ++ [c]) ++ r))) end.
    - apply section_read; try assumption; [apply app_ne|]. rewrite Ed. intros H.
      unfold is_whitespace in Ew. apply orb_true_iff in Ew as [Ew|Ew]; apply ceq_true in Ew; subst c; discriminate.
    - rewrite <- app_assoc. cbn [app]. unfold section_end. fold head_of_section. unfold str, char in *.
      destruct (starts_with head_of_section (w ++ c :: r)); [|reflexivity].
      destruct (skipn (length head_of_section) (w ++ c :: r)); reflexivity. }
  pose proof (address_read d p w Hs Hwne Hwn) as Ha. destruct (address_word (p_l p) w) as [[ad|]|k| |]; cbn [obind].
  - rewrite Ha in Hst. cbn [obind] in Hst. eapply gives_cons; [exact Hst|].
    apply (label_read d p ad r HI Hs Hr1 Hr2).
  - destruct Ha as [line Ha]. rewrite Ha in Hst. cbn [obind] in Hst. eapply gives_cons; [exact Hst|].
    apply skip_rest; [exact Hr1|]. apply (end_no_label d p false true line Hs).
  - unfold gives. cbn [app feed]. rewrite Hst, Ha. reflexivity.
  - contradiction.
  - contradiction.
Qed.
End Phases.

Lemma Idx_feed mb flt : forall t s s', Idx s -> feed mb flt s t = Ok s' -> Idx s'.
Proof.
  induction t as [|c t IH]; intros s s' HI H; cbn [feed] in H; [now injection H as <-|].
  apply obind_Ok in H as (s1 & H1 & H2). eapply IH; [|exact H2]. eapply Idx_reachable_step; eassumption.
Qed.

Lemma lines_read mb flt : forall ls d p, Idx (boot d p) -> Forall (fun l => ~ In LF l) ls ->
  match read_lines mb flt p (map drop_cr ls) with
  | Ok p' => exists d', feed mb flt (boot d p) (unlines ls) = Ok (boot d' p')
  | UB k => feed mb flt (boot d p) (unlines ls) = UB k
  | _ => False
  end.
Proof.
  induction ls as [|l ls IH]; intros d p HI HF; cbn [map read_lines unlines flat_map]; [exists d; reflexivity|].
  inversion HF as [|? ? Hl HF']; subst. rewrite feed_app.
  assert (Hcr : feed mb flt (boot d p) (l ++ [LF]) = feed mb flt (boot d p) (drop_cr l ++ [LF])).
  { rewrite <- feed_drop_cr. f_equal. unfold drop_cr. rewrite filter_app. reflexivity. }
  rewrite Hcr. pose proof (line_read mb flt d p (drop_cr l) HI) as H. unfold gives in H.
  assert (A : ~ In LF (drop_cr l)) by (intros X; apply filter_In in X; tauto).
  assert (B : ~ In CR (drop_cr l)) by (intros X; apply filter_In in X as [_ X]; discriminate).
  specialize (H A B). destruct (read_line mb flt p (drop_cr l)) as [p'|k| |]; cbn [obind]; try contradiction.
  - destruct H as [d' H]. rewrite H. cbn [obind]. apply IH; [|exact HF']. eapply Idx_feed; eassumption.
  - rewrite H. reflexivity.
Qed.

Lemma every_line mb flt ls : Forall (fun l => ~ In LF l) ls ->
  omap (fun s => (o_lines s, o_labels s)) (run mb flt (unlines ls)) =
  omap (fun p => (a_lines (p_l p), a_labels (p_l p))) (read_lines mb flt pstate0 (map drop_cr ls)).
Proof.
  intros HF. pose proof (lines_read mb flt ls (mkD false [] [] 0) pstate0) as H.
  assert (HI : Idx (boot (mkD false [] [] 0) pstate0)) by exact (Idx_start _ Idx0).
  specialize (H HI HF). unfold run, fromStream.
  change (set_o_inAddress true (set_o_total_lines 0 ostate0)) with (boot (mkD false [] [] 0) pstate0).
  destruct (read_lines _ _ _ _); try contradiction.
  - destruct H as [d' ->]. reflexivity.
  - rewrite H. reflexivity.
Qed.
