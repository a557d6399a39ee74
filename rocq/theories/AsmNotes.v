(** The text parser with and without the comment filter. *)
From Coq Require Import Sorted.
From Verif Require Import RegexSpec RegexLemmas AsmLemmas AsmRead AsmMark AsmTrace AsmThms AsmUse AsmSearch AsmComplete AsmRemove
  AsmPlace AsmWorld AsmStored AsmLadder AsmLines UtilAgain AsmTwice AsmDirect Recog AsmLoc.

(** *** Lines that are only a comment *)
Definition note (raw : str) : bool := isJustComments raw || isJustNvccComments raw.
Definition sign (c : char) : bool := one_of "#@/;" c.
Lemma note_sign raw : note raw = true -> exists c, In c raw /\ sign c = true.
Proof.
  intros H. apply existsb_exists. unfold note, isJustComments, isJustNvccComments in H.
  destruct (existsb sign raw) eqn:E; [exact E|]. rewrite !(needs_match sign) in H by (exact E || (vm_compute; reflexivity)). discriminate.
Qed.
Lemma sign_not_space c : sign c = true -> is_space c = false /\ is_whitespace c = false /\ is_hspace c = false /\ c <> ")"%char.
Proof.
  assert (X : forallb (fun c => implb (sign c) (negb (is_space c) && negb (is_whitespace c) && negb (is_hspace c) && negb (ceq c ")"%char))) all_chars = true) by (vm_compute; reflexivity).
  rewrite forallb_forall in X. specialize (X c (all_chars_in c)). intros H. rewrite H in X. cbn [implb] in X. rewrite !andb_true_iff, !negb_true_iff in X.
  destruct X as [[[A B] C] D]. repeat split; auto. intros ->. discriminate.
Qed.
Lemma clean_keeps_sign flt nest raw c : sign c = true -> In c raw -> In c (clean flt nest raw).
Proof.
  intros H Hc. destruct (sign_not_space c H) as (A & B & _). destruct (0 <? nest) eqn:E.
  - replace (clean flt nest raw) with (clean flt 0 (fixLabelIndentation raw)) by (unfold clean; rewrite E; reflexivity).
    apply clean_keeps; [lia|assumption|]. unfold fixLabelIndentation. destruct (is_probably_label raw); [|exact Hc]. clear - A Hc. unfold ltrim.
    induction raw as [|d t IH]; [destruct Hc|]. cbn [drop_while]. destruct (is_space d) eqn:Ed; [|exact Hc]. apply IH. destruct Hc as [->|Hc]; [congruence|exact Hc].
  - apply clean_keeps; [apply Z.ltb_ge in E; exact E|assumption|exact Hc].
Qed.
Lemma note_no_end flt nest raw : note raw = true -> isCudaEndDef (clean flt nest raw) = false.
Proof.
  intros H. destruct (note_sign raw H) as (c & A & B). apply (clean_keeps_sign flt nest) in A; [|exact B]. destruct (isCudaEndDef _) eqn:E; [|reflexivity]. exfalso.
  apply cuda_end_iff in E as (u & v & E & U & V). rewrite E in A. destruct (sign_not_space c B) as (_ & _ & N & M). unfold blanks in *. rewrite Forall_forall in U, V.
  apply in_app_or in A as [A|[A|A]]; [apply U in A|now contradiction M|apply V in A]; destruct A as [-> | ->]; discriminate.
Qed.

Section Two.
Variables (flt flt' : Filter).
Hypothesis Hoff : f_comment_only flt = false.
Hypothesis Hon : f_comment_only flt' = true.
Hypothesis Hdir : f_directives flt' = f_directives flt.
Hypothesis Hws : f_whitespace flt' = f_whitespace flt.
Hypothesis Hlib : f_library_functions flt = false.
Hypothesis Hlib' : f_library_functions flt' = false.

(** No block comment begins at the start of a line. *)
Definition no_block (cs : list cand) : Prop := forall raw nest, In (CText raw nest) cs -> startCommentBlock raw = false.
Lemma scan_line_off sc l : sc_block sc = false -> sc_block (snd (scan_line flt sc l)) = false /\ (no_block [fst (scan_line flt sc l)] -> scan_line flt' sc l = scan_line flt sc l).
Proof.
  intros H. unfold scan_line. rewrite Hoff, Hon, H. cbn [andb orb]. destruct (all_blank (sc_pend sc ++ l)) eqn:E; cbn [fst snd sc_block].
  - split; [reflexivity|]. intros _. now rewrite (blank_no_comment _ E).
  - split; [reflexivity|]. intros N. rewrite (N _ _ (or_introl eq_refl)). reflexivity.
Qed.
Lemma scan_lines_off ls : forall sc, sc_block sc = false -> sc_block (snd (scan_lines flt sc ls)) = false /\
  (no_block (fst (scan_lines flt sc ls)) -> scan_lines flt' sc ls = scan_lines flt sc ls).
Proof.
  induction ls as [|l t IH]; intros sc H; cbn [scan_lines]; [split; [exact H|reflexivity]|]. destruct (scan_line_off sc l H) as [A B].
  destruct (scan_line flt sc l) as [c sc1]. cbn [fst snd] in *. destruct (IH sc1 A) as [C D]. destruct (scan_lines flt sc1 t) as [cs sc2]. cbn [fst snd] in *.
  split; [exact C|]. intros N. rewrite B by (intros r n [X|[]]; apply (N r n); now left). rewrite D by (intros r n X; apply (N r n); now right). reflexivity.
Qed.
Lemma scan_same input : no_block (scan_input flt input) -> scan_input flt' input = scan_input flt input.
Proof.
  unfold scan_input. destruct (raw_lines [] input) as [ls r]. destruct (scan_lines_off ls scan0 eq_refl) as [A B]. destruct (scan_lines flt scan0 ls) as [cs sc]. cbn [fst snd] in *.
  destruct (is_nil _) eqn:E; intros N.
  - rewrite (B N), E. reflexivity.
  - rewrite B by (intros x n X; apply (N x n); apply in_or_app; now left). rewrite E.
    rewrite (proj2 (scan_line_off sc r A)); [reflexivity|]. intros x n X. apply (N x n), in_or_app. now right.
Qed.
Lemma clean_same nest raw : clean flt' nest raw = clean flt nest raw.
Proof. unfold clean. now rewrite Hws. Qed.
Lemma hidden_same w w' t : like w w' -> hidden_start flt' w' t = hidden_start flt w t.
Proof. intros (A & _). unfold hidden_start. now rewrite Hdir, A. Qed.
Lemma comment_off c raw : only_comment flt c raw = false.
Proof. unfold only_comment. now rewrite Hoff. Qed.
Lemma comment_note c raw : only_comment flt' c raw = true -> note raw = true.
Proof. unfold only_comment, note. rewrite Hon. cbn [andb]. rewrite !orb_true_iff, !andb_true_iff. tauto. Qed.

(** No line that is only a comment is a label line. *)
Definition idle_notes (cs : list cand) : Prop := forall raw nest, In (CText raw nest) cs -> note raw = true -> label_of (clean flt nest raw) = None.
Lemma idle_class h t w : label_of t = None -> isCudaEndDef t = false -> like (class_world flt h t w) w.
Proof.
  intros A B. unfold like, class_world, opens, next_label, next_parent, found. rewrite A, B. destruct h; cbn;
  rewrite !orb_false_r, andb_true_r; destruct w as [[? ? ? ?] ? ? ? ? ?]; cbn; auto.
Qed.
Lemma like_note w w' raw nest : like w w' -> (note raw = true -> label_of (clean flt nest raw) = None) ->
  like (world_text flt w raw (clean flt nest raw)) (world_text flt' w' raw (clean flt nest raw)).
Proof.
  intros L H. unfold world_text. rewrite (hidden_same _ _ _ L), comment_off. destruct (hidden_start flt w _); [exact L|].
  destruct (only_comment flt' _ raw) eqn:E.
  - apply comment_note in E. destruct (idle_class (locates w (clean flt nest raw)) (clean flt nest raw) (pre_world w (clean flt nest raw)) (H E) (note_no_end _ _ _ E)) as (X1 & X2 & X3 & X4 & X5).
    destruct (like_pre w w' (clean flt nest raw) L) as (Y1 & Y2 & Y3 & Y4 & Y5). unfold like. rewrite X1, X2, X3, X4, X5. auto.
  - rewrite (like_locates w w' _ L). now apply like_class, like_pre.
Qed.
Lemma worlds_like_notes cs : idle_notes cs -> like (worlds flt cs) (worlds flt' cs).
Proof.
  induction cs as [|c cs IH] using rev_ind; intros H; [repeat split|]. unfold worlds. rewrite !fold_left_app. cbn [fold_left].
  assert (L : like (worlds flt cs) (worlds flt' cs)) by (apply IH; intros raw nest X; apply H, in_or_app; now left).
  destruct c as [raw|raw|raw nest]; [exact L|exact L|]. cbn [world_cand]. rewrite clean_same. apply like_note; [exact L|].
  apply H, in_or_app. right. now left.
Qed.
Lemma idle_firstn cs k : idle_notes cs -> idle_notes (firstn k cs).
Proof. intros H raw nest X. apply H. rewrite <- (firstn_skipn k cs). apply in_or_app. now left. Qed.
Lemma text_same cs k : text_at flt' cs k = text_at flt cs k.
Proof. unfold text_at, cand_text. destruct (nth_error cs k) as [[raw|raw|raw nest]|]; auto. now rewrite clean_same. Qed.
Lemma verdict_notes cs k : idle_notes cs -> (verdict_at flt' cs k = Kept -> verdict_at flt cs k = Kept) /\
  (verdict_at flt cs k = Kept -> verdict_at flt' cs k = Kept \/ exists raw nest, nth_error cs k = Some (CText raw nest) /\ note raw = true).
Proof.
  intros H. unfold verdict_at. destruct (nth_error cs k) as [[raw|raw|raw nest]|]; auto. rewrite clean_same.
  pose proof (worlds_like_notes _ (idle_firstn cs k H)) as L. set (w := worlds flt _) in *. set (w' := worlds flt' _) in *. unfold verdict_of.
  rewrite (hidden_same _ _ _ L), comment_off, orb_false_r. destruct (hidden_start flt w _); [split; discriminate|]. cbn [orb].
  rewrite <- (like_locates w w' _ L), <- (proj2 (proj2 (proj2 (proj2 L)))). unfold class_verdict. rewrite Hdir. split.
  - destruct (only_comment flt' _ raw); [discriminate|auto].
  - destruct (only_comment flt' _ raw) eqn:E; [|auto]. intros _. right. exists raw, nest. split; [reflexivity|now apply comment_note in E].
Qed.
End Two.

(** Blank lines and comments. *)
Definition left_note (flt : Filter) (l : asm_line_v) : Prop := lv_is_label l = false /\
  (lv_text l = [] \/ exists raw nest, lv_text l = clean flt nest raw /\ note raw = true).
Lemma left_note_label flt l : left_note flt l -> lv_is_label l = false.
Proof. now intros [H _]. Qed.
Lemma left_note_keeps flt l l' : lv_text l' = lv_text l -> lv_is_label l' = lv_is_label l -> lv_is_directive l' = lv_is_directive l -> lv_is_data l' = lv_is_data l -> left_note flt l -> left_note flt l'.
Proof. unfold left_note. intros -> -> _ _. auto. Qed.
Section Results.
Variables (mblen : str -> Z) (flt flt' : Filter) (input : str).
Hypothesis Hoff : f_comment_only flt = false.
Hypothesis Hon : f_comment_only flt' = true.
Hypothesis Hdir : f_directives flt' = f_directives flt.
Hypothesis Hws : f_whitespace flt' = f_whitespace flt.
Hypothesis Hlib : f_library_functions flt = false.
Hypothesis Hlib' : f_library_functions flt' = false.
Hypothesis Hblock : no_block (scan_input flt input).
Hypothesis Hidle : idle_notes flt (scan_input flt input).

Lemma notes_left k l ks ks' : (forall k, In k ks <-> stored_at flt (scan_input flt input) ks k) ->
  (forall k, In k ks' <-> stored_at flt' (scan_input flt input) ks' k) -> In k ks -> srow mblen flt (scan_input flt input) k l -> ~ In k ks' -> left_note flt l.
Proof.
  intros A B Hk S Hn. apply A in Hk. unfold stored_at in Hk. unfold srow in S. unfold left_note.
  destruct (nth_error (scan_input flt input) k) as [[raw|raw|raw nest]|] eqn:E; try contradiction.
  { destruct S as (i & ->). split; [reflexivity|]. now left. }
  cbv zeta in S. destruct (proj2 (verdict_notes flt flt' Hoff Hon Hdir Hws _ k Hidle) Hk) as [X|(r & n & X & Y)].
  { exfalso. apply Hn, B. unfold stored_at. now rewrite E. }
  rewrite E in X. injection X as <- <-. destruct S as [A1 A2 A3 A4 A5 A6 A7 A8 A9 A10 A11 A12 A13]. rewrite A1, A4. split; [|eauto].
  unfold found. rewrite (Hidle raw nest (nth_error_In _ _ E) Y). now destruct (locates _ _).
Qed.
Lemma notes_thinned : thinned (left_note flt) alike (t_lines (read_lines mblen flt tstate0 input)) (t_lines (read_lines mblen flt' tstate0 input)) /\
  t_files (read_lines mblen flt' tstate0 input) = t_files (read_lines mblen flt tstate0 input).
Proof.
  destruct (read_stored mblen flt Hlib input) as (ks & js & [A0 A1 A2 A3 A4 _ _ _ _]).
  destruct (read_stored mblen flt' Hlib' input) as (ks' & js' & [B0 B1 B2 B3 B4 _ _ _ _]). rewrite (scan_same flt flt' Hoff Hon input Hblock) in *. split.
  - eapply thin_rows; [exact A3|exact A1|exact B3|exact B1|apply (stored_less flt flt' (scan_input flt input)); [intros k; apply text_same; assumption|intros k; apply (verdict_notes flt flt'); assumption|apply scan_input_ok|exact A4|exact B4]| |].
    + intros k l l' _. apply rows_alike; [intros; now apply clean_same| |]; apply worlds_like_notes; auto; now apply idle_firstn.
    + intros k l Hk S Hn. eapply notes_left; eauto.
  - pose proof (worlds_like_notes flt flt' Hoff Hon Hdir Hws _ Hidle) as (L & _). rewrite <- A0, <- B0 in L. unfold world_of, place_of in L. cbn [w_place] in L. congruence.
Qed.
End Results.
