(** The text parser: the source location of every stored line. *)
From Coq Require Import Sorted.
From Verif Require Import AsmLemmas AsmRead AsmMark AsmTrace AsmThms.

(** *** A generic induction over the lines of the input *)
Section Trace.
Variables (mblen : str -> Z) (flt : Filter) (R : list cand -> tstate -> Prop).
Hypothesis R_text : forall cs s t, R cs s -> R cs (set_t_text t s).
Hypothesis R_line : forall cs s, R cs s -> good flt s -> R (cs ++ [fst (scan_line flt (scan_of s) [])]) (eol mblen flt s).
Lemma fold_cands input : forall s cur sc cs0, good flt s -> t_stopParsing s = false -> nv_inv s ->
  scan_of s = mkScan (sc_pend sc ++ cur) (sc_block sc) (sc_nest sc) -> R cs0 s ->
  R (cs0 ++ fst (scan_lines flt sc (fst (raw_lines cur input)))) (fold_left (step mblen flt) input s).
Proof.
  induction input as [|c t IH]; intros s cur sc cs0 Hg Hst Hnv Hsc HR; cbn [raw_lines fold_left fst scan_lines].
  - now rewrite app_nil_r.
  - assert (Hstep : step mblen flt s c = if ceq c LF then eol mblen flt s else set_t_text (t_text s ++ [c]) s)
      by (unfold step; now rewrite Hst).
    rewrite Hstep. clear Hstep. destruct (ceq c LF) eqn:Ec.
    + destruct (eol_step mblen flt s Hg) as [A B C Cu D].
      change (mkScan (t_text s) (t_hasStartedCommentBlock s) (t_inCustomAssembly s)) with (scan_of s) in A.
      pose proof (R_line _ _ HR Hg) as HR'. rewrite Hsc in A, HR'. rewrite scan_line_app, app_nil_r in A, HR'.
      assert (Hsc0 : mkScan (sc_pend sc) (sc_block sc) (sc_nest sc) = sc) by now destruct sc. rewrite Hsc0 in A, HR'.
      assert (Hs' : t_stopParsing (eol mblen flt s) = false) by now rewrite eol_stop.
      specialize (IH (eol mblen flt s) [] (snd (scan_line flt sc cur)) (cs0 ++ [fst (scan_line flt sc cur)]) (eol_good _ _ _ Hg) Hs' (C Hnv)).
      destruct (raw_lines [] t) as [ls rest]. cbn [fst scan_lines] in *. destruct (scan_line flt sc cur) as [c0 sc1]. cbn [fst snd] in *.
      rewrite app_nil_r in IH. specialize (IH ltac:(rewrite A; now destruct sc1) HR').
      destruct (scan_lines flt sc1 ls) as [cs sc2]. cbn [fst] in *. now rewrite <- app_assoc in IH.
    + apply (IH (set_t_text (t_text s ++ [c]) s) (cur ++ [c]) sc); auto; [now apply good_set_text|].
      unfold scan_of in *. tsimp. injection Hsc as E1 E2 E3. rewrite E1, E2, E3, app_assoc. reflexivity.
Qed.
Lemma read_cands input : R [] tstate0 -> R (scan_input flt input) (read_lines mblen flt tstate0 input).
Proof.
  intros H0. unfold read_lines. change (set_t_total_lines 0 tstate0) with tstate0.
  assert (Hg : good flt tstate0) by (intros _; now constructor).
  pose proof (fold_trace mblen flt input tstate0 [] scan0 Hg eq_refl (fun _ => eq_refl) eq_refl) as H.
  pose proof (fold_cands input tstate0 [] scan0 [] Hg eq_refl (fun _ => eq_refl) eq_refl H0) as HR.
  cbv zeta in H. set (s := fold_left (step mblen flt) input tstate0) in *. clearbody s. unfold scan_input.
  destruct (raw_lines [] input) as [ls rest]. cbn [fst] in *.
  destruct (scan_lines flt scan0 ls) as [cs sc]. cbn [fst app] in *.
  destruct H as (I1 & I2 & I3 & I4 & _).
  assert (Et : t_text s = sc_pend sc ++ rest) by (unfold scan_of in I4; now injection I4).
  rewrite Et. destruct (is_nil (sc_pend sc ++ rest)); cbn [negb]; [assumption|].
  pose proof (R_line _ _ HR I1) as D. rewrite I4, scan_line_app, app_nil_r in D. now destruct sc.
Qed.
End Trace.

(** *** Source locations *)
Record spot := mkSpot { sp_file : str; sp_idx : Z; sp_line : Z; sp_col : Z; sp_end : bool; sp_user : bool; sp_inside : bool }.
Definition spot0 : spot := mkSpot [] 0 0 0 false false false.
Definition spot_of (r : asm_source_v) : spot :=
  mkSpot (v_str (sv_file r)) (sv_file_idx r) (sv_line r) (sv_column r) (sv_is_end r) (sv_is_usercode r) (sv_inside_proc r).

(** What is carried from line to line: the current location, the file named by
    .d2file, the table of .file directives, and whether CUDA code was seen. *)
Record place := mkPlace { pl_spot : spot; pl_file : str; pl_files : list (Z * str); pl_cuda : bool }.
Definition place0 : place := mkPlace spot0 [] [] false.
(** The directive lines that give a location: is it one, and what then. *)
Definition place_directive (w : place) (t : str) : option place :=
  match getFileDef t with
  | Some (i, f) => Some (mkPlace (pl_spot w) (pl_file w) (files_assign (pl_files w) i f) (pl_cuda w))
  | None =>
      let '(i, n, c) := getSourceRef t in
      if negb (i =? 0) then
        Some (mkPlace (mkSpot (sp_file (pl_spot w)) i n c (sp_end (pl_spot w)) (sp_user (pl_spot w)) true) (pl_file w) (pl_files w) (pl_cuda w))
      else match getSourceInfoFromStabs t with
      | Some sb =>
          Some (if sb_type sb =? 68 then mkPlace (mkSpot [] 0 (sb_line sb) 0 false false false) (pl_file w) (pl_files w) (pl_cuda w)
                else if (sb_type sb =? 100) || (sb_type sb =? 132) then mkPlace spot0 (pl_file w) (pl_files w) (pl_cuda w) else w)
      | None =>
          match get6502DbgInfo t with
          | Some (f, n, fin) => Some (if fin then w else mkPlace (mkSpot f 0 n 0 false false false) (pl_file w) (pl_files w) (pl_cuda w))
          | None =>
              match getD2LineInfo t with
              | Some n => Some (mkPlace (mkSpot (pl_file w) 0 n 0 false (isExampleOrStdin (pl_file w)) false) (pl_file w) (pl_files w) (pl_cuda w))
              | None => option_map (fun f => mkPlace (pl_spot w) f (pl_files w) (pl_cuda w)) (getD2FileInfo t)
              end
          end
      end
  end.
Definition only_comment (flt : Filter) (cuda : bool) (raw : str) : bool :=
  f_comment_only flt && ((isJustComments raw && negb cuda) || (isJustNvccComments raw && cuda)).
Definition cuda_label (t : str) : bool := match label_of t with Some (_, (_, c)) => c | None => false end.
Definition place_text (flt : Filter) (w : place) (raw t : str) : place :=
  if f_directives flt && (startProcBlock t && (sp_line (pl_spot w) =? 0)) then w
  else
    let blk := endBlock t || (pl_cuda w && has_char "}"%char t) in
    let d := if blk then None else place_directive w t in
    match d with
    | Some w' => w'
    | None =>
        mkPlace (if blk then spot0 else pl_spot w) (pl_file w) (pl_files w)
                (pl_cuda w || (negb (only_comment flt (pl_cuda w) raw) && cuda_label t))
    end.
Definition place_cand (flt : Filter) (w : place) (c : cand) : place :=
  match c with CText raw nest => place_text flt w raw (clean flt nest raw) | _ => w end.
Definition places (flt : Filter) (cs : list cand) : place := fold_left (place_cand flt) cs place0.

Definition place_of (s : tstate) : place :=
  mkPlace (spot_of (t_currentSourceRef s)) (v_str (t_currentSourceFile s)) (t_files s) (t_inNvccCode s).

(** Lines that differ at most in the location of label lines. *)
Definition keeps (l l' : asm_line_v) : Prop := same_line l l' /\ (lv_is_label l = false -> l' = l).
Lemma keeps_refl l : keeps l l.
Proof. split; [apply same_line_refl|auto]. Qed.
Lemma keeps_trans a b c : keeps a b -> keeps b c -> keeps a c.
Proof.
  intros [A A'] [B B']. split; [eapply same_line_trans; eassumption|]. intros H. rewrite (A' H) in *. auto.
Qed.
Lemma keeps_list_refl ls : Forall2 keeps ls ls.
Proof. induction ls; constructor; auto using keeps_refl. Qed.
Lemma keeps_list_trans a : forall b c, Forall2 keeps a b -> Forall2 keeps b c -> Forall2 keeps a c.
Proof. induction a as [|x a IH]; intros b c H1 H2; inversion H1; subst; inversion H2; subst; constructor; eauto using keeps_trans. Qed.
Lemma forall2_rev {A B} (R : A -> B -> Prop) a b : Forall2 R a b -> Forall2 R (rev a) (rev b).
Proof. induction 1; cbn [rev]; [constructor|]. apply Forall2_app; [assumption|now repeat constructor]. Qed.
Lemma keeps_source l r : lv_is_label l = true -> keeps l (set_lv_source r l).
Proof. intros H. split; [apply same_line_set|congruence]. Qed.
Lemma amend_keeps src rl : Forall2 keeps rl (amend_rev src rl).
Proof.
  induction rl as [|x t IH]; [constructor|]. cbn [amend_rev]. destruct (lv_is_label x) eqn:E; [|apply keeps_list_refl].
  cbv zeta. destruct (negb _); constructor; auto using keeps_list_refl; now apply keeps_source.
Qed.
Lemma amend_lines_keeps src s : Forall2 keeps (t_lines s) (t_lines (amendPreviousLinesWith src s)).
Proof.
  unfold amendPreviousLinesWith. tsimp_goal. pose proof (forall2_rev _ _ _ (amend_keeps src (rev (t_lines s)))) as H. now rewrite rev_involutive in H.
Qed.
Lemma inside_keeps s : Forall2 keeps (t_lines s) (t_lines (markPreviousInternalLabelAsInsideProc s)).
Proof.
  unfold markPreviousInternalLabelAsInsideProc. destruct (rev (t_lines s)) as [|x t] eqn:E; [apply keeps_list_refl|].
  destruct (lv_is_label x) eqn:El; cbn [andb]; [|apply keeps_list_refl]. destruct (lv_is_internal_label x); [|apply keeps_list_refl].
  tsimp_goal. apply (f_equal (@rev _)) in E. rewrite rev_involutive in E. rewrite E. apply forall2_rev. constructor; [now apply keeps_source|apply keeps_list_refl].
Qed.

Lemma amend_place src s : place_of (amendPreviousLinesWith src s) = place_of s. Proof. reflexivity. Qed.
Lemma source_directive_place l s :
  match handleSourceDirective l s with
  | Some s' => place_directive (place_of s) (lv_text l) = Some (place_of s') /\ Forall2 keeps (t_lines s) (t_lines s') /\ t_text s' = t_text s
  | None => place_directive (place_of s) (lv_text l) = None
  end.
Proof.
  unfold handleSourceDirective, handleFiledef, handleSource, handleStabs, handle6502, handleD2, place_directive.
  destruct (getFileDef _) as [[i f]|]; [split; [reflexivity|split; [apply keeps_list_refl|reflexivity]]|].
  destruct (getSourceRef _) as [[fi li] col]. destruct (negb (fi =? 0)); [split; [reflexivity|split; [|reflexivity]]|].
  { eapply keeps_list_trans; [|apply amend_lines_keeps]. apply keeps_list_refl. }
  destruct (getSourceInfoFromStabs _) as [sb|].
  { split; [|split]; destruct (sb_type sb =? 68); try destruct (_ || _); try reflexivity; apply keeps_list_refl. }
  destruct (get6502DbgInfo _) as [[[f n] e]|].
  { split; [|split]; destruct e; try reflexivity; apply keeps_list_refl. }
  destruct (getD2LineInfo _) as [n|]; [split; [reflexivity|split; [|reflexivity]]|].
  { eapply keeps_list_trans; [|apply amend_lines_keeps]. apply keeps_list_refl. }
  destruct (getD2FileInfo _) as [f|]; [split; [reflexivity|split; [apply keeps_list_refl|reflexivity]]|reflexivity].
Qed.

(** What storing a line does. *)
Inductive stores (s s' : tstate) (t : str) : Prop :=
| ST_none : Forall2 keeps (t_lines s) (t_lines s') -> stores s s' t
| ST_line L l : Forall2 keeps (t_lines s) L -> t_lines s' = L ++ [l] -> lv_text l = t -> lv_source l = t_currentSourceRef s' -> stores s s' t.

Lemma keep_stores mblen l s0 s t : Forall2 keeps (t_lines s0) (t_lines s) -> lv_text l = t ->
  stores s0 (eol_keep mblen l s) t /\ place_of (eol_keep mblen l s) = place_of s.
Proof.
  intros H Ht. destruct (keep_shape mblen l s) as (a & p & E). split; [|rewrite E; reflexivity].
  eapply ST_line; [exact H|apply keep_lines|rewrite final_text; exact Ht|]. rewrite E. reflexivity.
Qed.
Lemma classify_place mblen flt handled l s0 s : Forall2 keeps (t_lines s0) (t_lines s) ->
  stores s0 (eol_classify mblen flt handled l s) (lv_text l) /\
  place_of (eol_classify mblen flt handled l s) =
    mkPlace (pl_spot (place_of s)) (pl_file (place_of s)) (pl_files (place_of s))
            (pl_cuda (place_of s) || (negb handled && cuda_label (lv_text l))).
Proof.
  intros H. pose proof (label_cases handled l s) as HL. pose proof (classify_cases mblen flt handled l s) as Hc.
  destruct (label_step handled l s) as [l2 s2]. cbn [fst snd] in *.
  set (w := mkPlace _ _ _ _).
  assert (A : place_of s2 = w /\ t_lines s2 = t_lines s /\ lv_text l2 = lv_text l).
  { unfold w. destruct HL as [|E|n a c E].
    - split; [|split; reflexivity]. unfold place_of. cbn [negb andb]. now rewrite orb_false_r.
    - split; [|split; reflexivity]. unfold place_of, cuda_label. rewrite E. cbn [negb andb]. now rewrite orb_false_r.
    - split; [|split; [apply define_frame|unfold labelled; destruct a; reflexivity]].
      unfold cuda_label. rewrite E. cbn [negb andb]. unfold place_of. cbn [pl_spot pl_file pl_files pl_cuda].
      destruct (define_code (slice l n) c s) as [-> _]. rewrite orb_comm. unfold define_label. destruct c; split_if; reflexivity. }
  destruct A as (A1 & A2 & A3). clearbody w. rewrite <- A2 in H. rewrite <- A3, <- A1.
  assert (HD : forall x, place_of (extractUsedLabelsFromDirective x s2) = place_of s2 /\ t_lines (extractUsedLabelsFromDirective x s2) = t_lines s2).
  { intros x. destruct (directive_frame x s2) as (u & c & ->). split; reflexivity. }
  destruct Hc.
  - destruct (isCudaEndDef (lv_text l2)); [|now apply keep_stores].
    change (place_of s2) with (place_of (set_t_inNvccDef false s2)). now apply keep_stores.
  - destruct (HD l3) as [D1 D2]. split; [|exact D1]. apply ST_none. unfold move_filtered. tsimp_goal. now rewrite D2.
  - destruct (HD l3) as [D1 D2]. rewrite <- D1. apply keep_stores; [now rewrite D2|subst l3; now destruct handled].
  - apply keep_stores; [assumption|subst l3; now destruct handled].
  - now apply keep_stores.
Qed.
Lemma stores_none s s1 s' t : Forall2 keeps (t_lines s) (t_lines s1) -> t_lines s' = t_lines s1 -> stores s s' t.
Proof. intros H E. apply ST_none. now rewrite E. Qed.

Section Steps.
Variables (mblen : str -> Z) (flt : Filter).
Hypothesis Hlib : f_library_functions flt = false.
Lemma directives_place l s0 s : Forall2 keeps (t_lines s0) (t_lines s) ->
  f_directives flt && (startProcBlock (lv_text l) && (sp_line (pl_spot (place_of s)) =? 0)) = false ->
  stores s0 (eol_directives mblen flt l s) (lv_text l) /\
  place_of (eol_directives mblen flt l s) = place_text flt (place_of s) (t_text s) (lv_text l).
Proof.
  intros H Hp. unfold place_text. rewrite Hp. unfold eol_directives, str_contains.
  change (pl_cuda (place_of s)) with (t_inNvccCode s).
  unfold libraryFilter, justComment. rewrite Hlib. cbn [andb].
  destruct (endBlock (lv_text l) || (t_inNvccCode s && has_char "}" (lv_text l))).
  - cbn [negb]. set (s1 := set_t_mayRemovePreviousLabel true _).
    assert (E : place_of s1 = mkPlace spot0 (pl_file (place_of s)) (pl_files (place_of s)) (t_inNvccCode s) /\ t_lines s1 = t_lines s /\ t_text s1 = t_text s).
    { unfold s1, handleSection. destruct (getSectionNameDef _); repeat split; reflexivity. }
    clearbody s1. destruct E as (E1 & E2 & E3). rewrite E3.
    assert (E4 : t_inNvccCode s1 = t_inNvccCode s) by (change (pl_cuda (place_of s1) = t_inNvccCode s); now rewrite E1). rewrite E4.
    fold (only_comment flt (t_inNvccCode s) (t_text s)). destruct (only_comment _ _ _).
    + split; [eapply stores_none; [exact H|exact E2]|]. unfold drop_line. change (place_of (set_t_text [] _)) with (place_of s1). rewrite E1. cbn [negb andb]. now rewrite orb_false_r.
    + rewrite <- E2 in H. destruct (classify_place mblen flt false l s0 s1 H) as [A B]. split; [exact A|]. rewrite B, E1. cbn [negb andb]. reflexivity.
  - pose proof (source_directive_place l s) as HS. destruct (handleSourceDirective l s) as [s'|] eqn:Eh.
    + destruct HS as (HS & HK & HT). rewrite HS. cbn [negb].
      assert (H' : Forall2 keeps (t_lines s0) (t_lines (set_t_mayRemovePreviousLabel true s'))) by (eapply keeps_list_trans; eassumption).
      match goal with |- context [if ?b then drop_line _ _ else _] => destruct b end.
      * split; [eapply stores_none; [exact H'|reflexivity]|reflexivity].
      * destruct (classify_place mblen flt true l s0 _ H') as [A B]. split; [exact A|]. rewrite B. cbn [negb andb]. rewrite orb_false_r. reflexivity.
    + rewrite HS. cbn [negb]. set (s1 := set_t_mayRemovePreviousLabel true _).
      assert (E : place_of s1 = place_of s /\ t_lines s1 = t_lines s /\ t_text s1 = t_text s).
      { unfold s1, handleSection. destruct (getSectionNameDef _); repeat split; reflexivity. }
      clearbody s1. destruct E as (E1 & E2 & E3). rewrite E3.
      assert (E4 : t_inNvccCode s1 = t_inNvccCode s) by (change (pl_cuda (place_of s1) = t_inNvccCode s); now rewrite E1). rewrite E4.
      fold (only_comment flt (t_inNvccCode s) (t_text s)). destruct (only_comment _ _ _).
      * split; [eapply stores_none; [exact H|exact E2]|]. unfold drop_line. change (place_of (set_t_text [] _)) with (place_of s1). rewrite E1. cbn [negb andb]. now rewrite orb_false_r.
      * rewrite <- E2 in H. destruct (classify_place mblen flt false l s0 s1 H) as [A B]. split; [exact A|]. rewrite B, E1. cbn [negb andb]. reflexivity.
Qed.
(** One line of the input. *)
Lemma eol_place s : place_of (eol mblen flt s) = place_cand flt (place_of s) (fst (scan_line flt (scan_of s) [])) /\
  match fst (scan_line flt (scan_of s) []) with
  | CText raw nest => stores s (eol mblen flt s) (clean flt nest raw)
  | CBlank _ => t_lines (eol mblen flt s) = t_lines s \/ exists i, t_lines (eol mblen flt s) = t_lines s ++ [line_v0 i]
  | CBlock _ => t_lines (eol mblen flt s) = t_lines s
  end.
Proof.
  rewrite scan_line_eq. unfold eol, new_line. tsimp.
  change (set_t_currentLine _ (set_t_next_id _ _)) with (begun s).
  rewrite block_eq. change (t_text (begun s)) with (t_text s).
  change (t_hasStartedCommentBlock (begun s)) with (t_hasStartedCommentBlock s).
  change (set_t_hasStartedCommentBlock _ (begun s)) with (base1 flt s).
  destruct (fst (block_of flt (t_text s) (t_hasStartedCommentBlock s))) eqn:Hb; [split; reflexivity|].
  change (t_text (base1 flt s)) with (t_text s). rewrite all_blank_eq.
  destruct (all_blank (t_text s)) eqn:Hws; cbn [fst].
  { destruct (blank_cases (base1 flt s)) as [[_ ->]|[_ ->]]; split; try reflexivity; [now left|right; eexists; reflexivity]. }
  rewrite custom_eq. change (set_t_inCustomAssembly _ (base1 flt s)) with (base2 flt s).
  set (l := set_lv_text (filteredLine flt (base2 flt s)) (line_v0 (t_next_id s))).
  assert (Et : lv_text l = clean flt (next_nest s) (t_text s)) by reflexivity.
  cbn [place_cand]. change (place_of s) with (place_of (base2 flt s)). change (sv_line (t_currentSourceRef (base2 flt s))) with (sp_line (pl_spot (place_of (base2 flt s)))).
  rewrite <- Et. set (s2 := base2 flt s).
  assert (K : Forall2 keeps (t_lines s) (t_lines s2)) by apply keeps_list_refl.
  assert (T2 : t_text s2 = t_text s) by reflexivity. clearbody s2. rewrite <- T2.
  destruct (startProcBlock (lv_text l) && (sp_line (pl_spot (place_of s2)) =? 0)) eqn:Ep.
  - set (s3 := markPreviousInternalLabelAsInsideProc s2).
    assert (E3 : place_of s3 = place_of s2 /\ t_text s3 = t_text s2).
    { unfold s3, markPreviousInternalLabelAsInsideProc. destruct (rev (t_lines s2)) as [|x y]; [split; reflexivity|]. destruct (lv_is_label x && lv_is_internal_label x); split; reflexivity. }
    destruct E3 as [E3 T3].
    assert (K3 : Forall2 keeps (t_lines s) (t_lines s3)) by (eapply keeps_list_trans; [exact K|apply inside_keeps]). clearbody s3.
    destruct (f_directives flt) eqn:Ed.
    + unfold place_text. rewrite Ed, Ep. cbn [andb]. split; [exact E3|]. eapply stores_none; [exact K3|reflexivity].
    + rewrite <- E3, <- T3. destruct (directives_place l s s3 K3) as [A B]; [now rewrite Ed|]. now split.
  - destruct (directives_place l s s2 K) as [A B]; [rewrite Ep; apply andb_false_r|]. now split.
Qed.

(** Where the stored lines come from: line [k] of the input (counted from 0). *)
Definition row (cs : list cand) (k : nat) (l : asm_line_v) : Prop :=
  match nth_error cs k with
  | Some (CText raw nest) => lv_text l = clean flt nest raw /\
      (lv_is_label l = false -> spot_of (lv_source l) = pl_spot (places flt (firstn (S k) cs)))
  | Some (CBlank _) => lv_text l = [] /\ lv_is_label l = false /\ spot_of (lv_source l) = spot0
  | _ => False
  end.
Definition placed (cs : list cand) (s : tstate) : Prop :=
  place_of s = places flt cs /\
  exists ks, StronglySorted lt ks /\ Forall (fun k => k < length cs)%nat ks /\ Forall2 (row cs) ks (t_lines s).
Lemma row_keeps cs k l l' : keeps l l' -> row cs k l -> row cs k l'.
Proof.
  intros [A B] H. unfold row in *. assert (Ht : lv_text l' = lv_text l) by (rewrite A; reflexivity).
  assert (Hl : lv_is_label l' = lv_is_label l) by (rewrite A; reflexivity).
  destruct (nth_error cs k) as [[raw|raw|raw nest]|]; [assumption| | |assumption]; rewrite Ht, Hl.
  - destruct H as (H1 & H2 & H3). repeat split; auto. now rewrite (B H2).
  - destruct H as (H1 & H2). split; [assumption|]. intros H. rewrite (B H). auto.
Qed.
Lemma rows_keeps cs ks : forall ls ls', Forall2 keeps ls ls' -> Forall2 (row cs) ks ls -> Forall2 (row cs) ks ls'.
Proof.
  induction ks as [|k ks IH]; intros ls ls' K H; inversion H; subst; inversion K; subst; constructor; eauto using row_keeps.
Qed.
Lemma row_more cs c k l : (k < length cs)%nat -> row cs k l -> row (cs ++ [c]) k l.
Proof.
  intros Hk H. unfold row in *. rewrite nth_error_app1 by assumption.
  replace (firstn (S k) (cs ++ [c])) with (firstn (S k) cs); [exact H|].
  rewrite firstn_app. replace (S k - length cs)%nat with 0%nat by lia. cbn [firstn]. now rewrite app_nil_r.
Qed.
Lemma rows_more cs c ks ls : Forall (fun k => k < length cs)%nat ks -> Forall2 (row cs) ks ls -> Forall2 (row (cs ++ [c])) ks ls.
Proof. intros Hk H. induction H; inversion Hk; subst; constructor; auto using row_more. Qed.
Lemma row_new cs c l : match c with
    | CText raw nest => lv_text l = clean flt nest raw /\ spot_of (lv_source l) = pl_spot (places flt (cs ++ [c]))
    | CBlank _ => lv_text l = [] /\ lv_is_label l = false /\ spot_of (lv_source l) = spot0
    | _ => False end -> row (cs ++ [c]) (length cs) l.
Proof.
  unfold row. rewrite nth_error_app2, Nat.sub_diag by lia. cbn [nth_error].
  replace (firstn (S (length cs)) (cs ++ [c])) with (cs ++ [c]); [|symmetry; apply firstn_all2; rewrite app_length; cbn; lia].
  destruct c; auto. intros []; auto.
Qed.
Lemma sorted_snoc ks n : StronglySorted lt ks -> Forall (fun k => k < n)%nat ks -> StronglySorted lt (ks ++ [n]).
Proof.
  induction 1 as [|k ks H IH Hk]; intros F; cbn [app]; [repeat constructor|]. inversion F; subst.
  constructor; [auto|]. apply Forall_app. split; [assumption|now repeat constructor].
Qed.
Lemma placed_line cs s : placed cs s -> placed (cs ++ [fst (scan_line flt (scan_of s) [])]) (eol mblen flt s).
Proof.
  intros (Hw & ks & Hs & Hk & Hr). destruct (eol_place s) as [A B]. set (c := fst (scan_line flt (scan_of s) [])) in *. clearbody c.
  assert (Hp : place_of (eol mblen flt s) = places flt (cs ++ [c])) by (unfold places in *; rewrite fold_left_app; cbn [fold_left]; rewrite <- Hw; exact A).
  split; [exact Hp|].
  assert (Hsame : Forall2 keeps (t_lines s) (t_lines (eol mblen flt s)) ->
    exists ks, StronglySorted lt ks /\ Forall (fun k => k < length (cs ++ [c]))%nat ks /\ Forall2 (row (cs ++ [c])) ks (t_lines (eol mblen flt s))).
  { intros K. exists ks. split; [assumption|]. split.
    - eapply Forall_impl; [|exact Hk]. intros k Hlt. cbn beta in *. rewrite app_length. cbn [length]. lia.
    - apply rows_more; [assumption|]. eapply rows_keeps; eassumption. }
  assert (Hmore : forall L l, Forall2 keeps (t_lines s) L -> t_lines (eol mblen flt s) = L ++ [l] -> row (cs ++ [c]) (length cs) l ->
    exists ks, StronglySorted lt ks /\ Forall (fun k => k < length (cs ++ [c]))%nat ks /\ Forall2 (row (cs ++ [c])) ks (t_lines (eol mblen flt s))).
  { intros L l K E Hl. exists (ks ++ [length cs]). split; [now apply sorted_snoc|]. split.
    - rewrite app_length. apply Forall_app. split; [|constructor; [cbn [length]; lia|constructor]]. eapply Forall_impl; [|exact Hk]. intros k Hlt. cbn beta in *. cbn [length]. lia.
    - rewrite E. apply Forall2_app; [|constructor; [exact Hl|constructor]]. apply rows_more; [assumption|]. eapply rows_keeps; eassumption. }
  destruct c as [raw|raw|raw nest].
  - apply Hsame. rewrite B. apply keeps_list_refl.
  - destruct B as [B|(i & B)]; [apply Hsame; rewrite B; apply keeps_list_refl|].
    eapply Hmore; [apply keeps_list_refl|exact B|]. apply row_new. repeat split; reflexivity.
  - destruct B as [B|L l B1 B2 B3 B4]; [now apply Hsame|]. eapply Hmore; [exact B1|exact B2|]. apply row_new.
    split; [exact B3|]. rewrite <- Hp, B4. reflexivity.
Qed.
Lemma read_placed input : placed (scan_input flt input) (read_lines mblen flt tstate0 input).
Proof.
  apply read_cands.
  - intros cs s t H. exact H.
  - intros cs s H _. now apply placed_line.
  - split; [reflexivity|]. exists []. repeat constructor.
Qed.
End Steps.
