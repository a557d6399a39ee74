(** The text parser: the location of label lines. *)
From Coq Require Import Sorted.
From Verif Require Import AsmLemmas AsmRead AsmMark AsmTrace AsmThms AsmUse AsmComplete AsmPlace AsmWorld AsmStored.

(** *** What a location directive does to the lines before it *)
Definition ilabel (l : asm_line_v) : bool := lv_is_label l && lv_is_internal_label l.
Definition given (src : asm_source_v) (l : asm_line_v) : asm_line_v :=
  set_lv_source (mkSourceV (sv_file src) (sv_file_idx src) (sv_line src) (sv_column src) false
                   (sv_is_usercode src && negb (lv_is_internal_label l)) (sv_inside_proc src)) l.
Fixpoint give (src : asm_source_v) (ls : list asm_line_v) : list asm_line_v :=
  match ls with
  | [] => []
  | l :: t => (if lv_is_label l && forallb ilabel t then given src l else l) :: give src t
  end.
Fixpoint inside (ls : list asm_line_v) : list asm_line_v :=
  match ls with
  | [] => []
  | l :: t => (if ilabel l && is_nil t then set_inside_proc l else l) :: inside t
  end.
Lemma give_snoc src p x : give src (p ++ [x]) = (if ilabel x then give src p else p) ++ [if lv_is_label x then given src x else x].
Proof.
  induction p as [|y p IH]; cbn [app give].
  - cbn [forallb]. rewrite andb_true_r. now destruct (ilabel x).
  - rewrite IH, forallb_app. cbn [forallb]. rewrite andb_true_r. destruct (ilabel x); [now rewrite andb_true_r|]. now rewrite !andb_false_r.
Qed.
Lemma amend_give src ls : rev (amend_rev src (rev ls)) = give src ls.
Proof.
  induction ls as [|x p IH] using rev_ind; [reflexivity|]. rewrite give_snoc, rev_app_distr. cbn [rev app amend_rev]. unfold ilabel.
  destruct (lv_is_label x); cbn [andb]; cbv zeta.
  - destruct (lv_is_internal_label x) eqn:E; cbn [negb rev]; [rewrite IH|rewrite rev_involutive]; unfold given; now rewrite E.
  - cbn [rev]. now rewrite rev_involutive.
Qed.
Lemma inside_snoc p x : inside (p ++ [x]) = p ++ [if ilabel x then set_inside_proc x else x].
Proof. induction p as [|y p IH]; cbn [app inside is_nil]; [now rewrite andb_true_r|]. rewrite IH. destruct p; cbn [app is_nil]; now rewrite andb_false_r. Qed.
Lemma mark_inside s : t_lines (markPreviousInternalLabelAsInsideProc s) = inside (t_lines s).
Proof.
  unfold markPreviousInternalLabelAsInsideProc. destruct (rev (t_lines s)) as [|x q] eqn:E; apply (f_equal (@rev _)) in E; rewrite rev_involutive in E; rewrite E.
  - reflexivity.
  - cbn [rev]. rewrite inside_snoc. fold (ilabel x). destruct (ilabel x); tsimp_goal; [reflexivity|exact E].
Qed.
Lemma given_ilabel src l : ilabel (given src l) = ilabel l. Proof. reflexivity. Qed.
Lemma give_ilabels src ls : forallb ilabel (give src ls) = forallb ilabel ls /\ is_nil (give src ls) = is_nil ls.
Proof.
  split; [|now destruct ls]. induction ls as [|x t IH]; [reflexivity|]. cbn [give forallb]. rewrite IH. f_equal. now destruct (_ && _).
Qed.
Lemma inside_ilabels ls : forallb ilabel (inside ls) = forallb ilabel ls /\ is_nil (inside ls) = is_nil ls.
Proof.
  split; [|now destruct ls]. induction ls as [|x t IH]; [reflexivity|]. cbn [inside forallb]. rewrite IH. f_equal. now destruct (_ && _).
Qed.

(** *** A label line waiting for its location *)
(** [pd_open]: all lines stored since are internal labels; [pd_last]: none was. *)
Record pend := mkPend { pd_open : bool; pd_last : bool; pd_spot : spot }.
Definition p_mark (int : bool) (pd : pend) : pend :=
  let r := pd_spot pd in
  mkPend (pd_open pd) (pd_last pd)
    (if int && pd_last pd then mkSpot (sp_file r) (sp_idx r) (sp_line r) (sp_col r) (sp_end r) (sp_user r) true else r).
Definition p_give (int : bool) (r : spot) (pd : pend) : pend :=
  mkPend (pd_open pd) (pd_last pd)
    (if pd_open pd then mkSpot (sp_file r) (sp_idx r) (sp_line r) (sp_col r) false (sp_user r && negb int) (sp_inside r) else pd_spot pd).
Definition p_store (i : bool) (pd : pend) : pend := mkPend (pd_open pd && i) false (pd_spot pd).

Fixpoint pinv (int : nat -> bool) (F : nat -> pend) (ks : list nat) (ls : list asm_line_v) : Prop :=
  match ks, ls with
  | k :: ks, l :: ls => (lv_is_label l = true -> lv_is_internal_label l = int k /\ F k = mkPend (forallb ilabel ls) (is_nil ls) (spot_of (lv_source l))) /\ pinv int F ks ls
  | [], [] => True
  | _, _ => False
  end.
Lemma pinv_mark int F : forall ks ls, pinv int F ks ls -> pinv int (fun k => p_mark (int k) (F k)) ks (inside ls).
Proof.
  induction ks as [|k ks IH]; intros [|l ls]; cbn [pinv inside]; auto. intros [A B]. split; [|auto].
  destruct (inside_ilabels ls) as [-> ->]. intros H.
  assert (H' : lv_is_label l = true) by (destruct (ilabel l && is_nil ls); exact H). destruct (A H') as [A1 A2].
  split; [destruct (_ && _); exact A1|]. rewrite A2. unfold p_mark, ilabel. cbn [pd_open pd_last pd_spot]. rewrite H', A1. cbn [andb].
  now destruct (int k && is_nil ls).
Qed.
Lemma pinv_give int F src : forall ks ls, pinv int F ks ls -> pinv int (fun k => p_give (int k) (spot_of src) (F k)) ks (give src ls).
Proof.
  induction ks as [|k ks IH]; intros [|l ls]; cbn [pinv give]; auto. intros [A B]. split; [|auto].
  destruct (give_ilabels src ls) as [-> ->]. intros H.
  assert (H' : lv_is_label l = true) by (destruct (lv_is_label l && forallb ilabel ls) eqn:E; [exact H|exact H]). destruct (A H') as [A1 A2].
  split; [destruct (_ && _); exact A1|]. rewrite A2. unfold p_give. cbn [pd_open pd_last pd_spot]. rewrite H'. cbn [andb].
  destruct (forallb ilabel ls); [|reflexivity]. unfold given. rewrite A1. reflexivity.
Qed.
Lemma pinv_store int F x F' k : forall ks ls, pinv int F ks ls -> Forall (fun j => F' j = p_store (ilabel x) (F j)) ks ->
  (lv_is_label x = true -> lv_is_internal_label x = int k /\ F' k = mkPend true true (spot_of (lv_source x))) -> pinv int F' (ks ++ [k]) (ls ++ [x]).
Proof.
  induction ks as [|j ks IH]; intros [|l ls]; cbn [pinv app]; try contradiction.
  - intros _ _ H. now split.
  - intros [A B] HF HX. inversion HF as [|? ? E HF']; subst. split; [|auto]. intros H. destruct (A H) as [A1 A2]. split; [exact A1|]. rewrite E, A2. unfold p_store. cbn [pd_open pd_last pd_spot].
    rewrite forallb_app. cbn [forallb]. rewrite andb_true_r. f_equal. now destruct ls.
Qed.
Lemma pinv_ext int F int' F' : forall ks ls, pinv int F ks ls -> Forall (fun j => int' j = int j /\ F' j = F j) ks -> pinv int' F' ks ls.
Proof.
  induction ks as [|j ks IH]; intros [|l ls]; cbn [pinv]; auto. intros [A B] HF. inversion HF as [|? ? [E1 E2] HF']; subst. rewrite E1, E2. auto.
Qed.
Lemma pinv_length int F : forall ks ls, pinv int F ks ls -> length ks = length ls.
Proof. induction ks as [|j ks IH]; intros [|l ls]; cbn [pinv]; try contradiction; intros H; cbn [length]; [reflexivity|]. f_equal. now apply IH. Qed.

(** *** From line to line *)
(** The line gives its location to the labels before it. *)
Definition gives (w : world) (t : str) : bool :=
  negb (closes w t) && negb (is_some (getFileDef t)) &&
  (negb (fst (fst (getSourceRef t)) =? 0) ||
   (negb (is_some (getSourceInfoFromStabs t)) && negb (is_some (get6502DbgInfo t)) && is_some (getD2LineInfo t))).
Definition marks (w : world) (t : str) : bool := startProcBlock t && (sp_line (pl_spot (w_place w)) =? 0).
Definition name_of (flt : Filter) (w : world) (c : cand) : option (str * (bool * bool)) :=
  match c with CText raw nest => found (locates w (clean flt nest raw)) (clean flt nest raw) | _ => None end.
Definition internal_of (flt : Filter) (w : world) (c : cand) : bool := match name_of flt w c with Some (n, _) => isInternalLabel n | None => false end.
(** [int]: the waiting label is internal. *)
Definition pend_text (flt : Filter) (int : bool) (w : world) (raw : str) (nest : Z) (pd : pend) : pend :=
  let t := clean flt nest raw in
  let pd := if marks w t then p_mark int pd else pd in
  if hidden_start flt w t then pd
  else
    let pd := if gives w t then p_give int (pl_spot (w_place (pre_world w t))) pd else pd in
    match verdict_of flt w raw t with Kept => p_store (internal_of flt w (CText raw nest)) pd | _ => pd end.
Definition pend_cand (flt : Filter) (int : bool) (w : world) (c : cand) (pd : pend) : pend :=
  match c with
  | CBlock _ => pd
  | CBlank _ => p_store false pd
  | CText raw nest => pend_text flt int w raw nest pd
  end.
Fixpoint pend_from (flt : Filter) (int : bool) (w : world) (pd : pend) (cs : list cand) : pend :=
  match cs with
  | [] => pd
  | c :: t => pend_from flt int (world_cand flt w c) (pend_cand flt int w c pd) t
  end.

Section Spots.
Variables (mblen : str -> Z) (flt : Filter).
Hypothesis Hlib : f_library_functions flt = false.
Definition int_at (cs : list cand) (k : nat) : bool :=
  match nth_error cs k with Some c => internal_of flt (worlds flt (firstn k cs)) c | None => false end.
Definition pend_at (cs : list cand) (k : nat) : pend :=
  let w := worlds flt (firstn (S k) cs) in pend_from flt (int_at cs k) w (mkPend true true (pl_spot (w_place w))) (skipn (S k) cs).
Lemma pend_from_snoc int c : forall cs w pd,
  pend_from flt int w pd (cs ++ [c]) = pend_cand flt int (fold_left (world_cand flt) cs w) c (pend_from flt int w pd cs).
Proof. induction cs as [|x cs IH]; intros w pd; cbn [app pend_from fold_left]; [reflexivity|apply IH]. Qed.
Lemma int_more cs c k : (k < length cs)%nat -> int_at (cs ++ [c]) k = int_at cs k.
Proof. intros H. unfold int_at. rewrite nth_more by exact H. now rewrite (firstn_more flt Hlib) by lia. Qed.
Lemma pend_more cs c k : (k < length cs)%nat -> pend_at (cs ++ [c]) k = pend_cand flt (int_at cs k) (worlds flt cs) c (pend_at cs k).
Proof.
  intros H. unfold pend_at. rewrite int_more, (firstn_more flt Hlib) by lia. rewrite skipn_app. replace (S k - length cs)%nat with 0%nat by lia. cbn [skipn].
  rewrite pend_from_snoc. f_equal. unfold worlds. rewrite <- fold_left_app. now rewrite firstn_skipn.
Qed.
Lemma pend_new cs c : pend_at (cs ++ [c]) (length cs) = mkPend true true (pl_spot (w_place (worlds flt (cs ++ [c])))).
Proof.
  unfold pend_at. rewrite (proj2 (firstn_new flt Hlib cs c)). rewrite skipn_all2; [reflexivity|]. rewrite app_length. cbn. lia.
Qed.

(** The lines stored before are changed only as [inside] and [give] say. *)
Lemma source_directive_lines l s : closes (world_of s) (lv_text l) = false ->
  match handleSourceDirective l s with
  | Some s' => exists src, (gives (world_of s) (lv_text l) = true -> spot_of src = pl_spot (place_of s')) /\
      t_lines s' = if gives (world_of s) (lv_text l) then give src (t_lines s) else t_lines s
  | None => gives (world_of s) (lv_text l) = false
  end.
Proof.
  intros Hc. unfold gives. rewrite Hc. cbn [negb andb].
  unfold handleSourceDirective, handleFiledef, handleSource, handleStabs, handle6502, handleD2.
  destruct (getFileDef _) as [[i f]|]; cbn [is_some negb andb]; [exists source_v0; split; [discriminate|reflexivity]|].
  destruct (getSourceRef _) as [[fi li] col]. cbn [fst]. destruct (negb (fi =? 0)); cbn [orb].
  { eexists. unfold amendPreviousLinesWith. tsimp_goal. rewrite amend_give. split; [|reflexivity]. reflexivity. }
  destruct (getSourceInfoFromStabs _) as [sb|]; cbn [is_some negb andb].
  { exists source_v0. split; [discriminate|]. destruct (sb_type sb =? 68); [reflexivity|]. destruct (_ || _); reflexivity. }
  destruct (get6502DbgInfo _) as [[[f n] e]|]; cbn [is_some negb andb]; [exists source_v0; split; [discriminate|destruct e; reflexivity]|].
  destruct (getD2LineInfo _) as [n|]; cbn [is_some].
  { eexists. unfold amendPreviousLinesWith. tsimp_goal. rewrite amend_give. split; [|reflexivity]. reflexivity. }
  destruct (getD2FileInfo _) as [f|]; [exists source_v0; split; [discriminate|reflexivity]|reflexivity].
Qed.
Lemma classify_lines h id t s : exists n, t_lines (eol_classify mblen flt h (set_lv_text t (line_v0 id)) s) = t_lines s ++ n.
Proof.
  pose proof (classify_world mblen flt h id t (t_inCustomAssembly s) s eq_refl) as [_ H]. cbv zeta in H. destruct (class_verdict _ _ _ _).
  - destruct H.
  - destruct H as [H _]. exists []. now rewrite app_nil_r.
  - destruct H as (_ & (x & H & _) & _). eauto.
Qed.
Lemma directives_lines id t s :
  exists src n, (gives (world_of s) t = true -> spot_of src = pl_spot (w_place (pre_world (world_of s) t))) /\
    t_lines (eol_directives mblen flt (set_lv_text t (line_v0 id)) s) = (if gives (world_of s) t then give src (t_lines s) else t_lines s) ++ n.
Proof.
  set (l := set_lv_text t (line_v0 id)). assert (Ht : lv_text l = t) by reflexivity.
  unfold eol_directives, libraryFilter. rewrite Hlib. cbn [andb]. rewrite Ht.
  set (step1 := if endBlock t || (t_inNvccCode s && str_contains t "}") then
      (false, set_t_lastOwnSource source_v0 (set_t_previousLabel view0 (set_t_currentSourceRef source_v0 s)))
      else match handleSourceDirective l s with Some s' => (true, s') | None => (false, s) end).
  assert (P : exists src, (gives (world_of s) t = true -> spot_of src = pl_spot (w_place (pre_world (world_of s) t))) /\
     t_lines (snd step1) = (if gives (world_of s) t then give src (t_lines s) else t_lines s)).
  { unfold step1. destruct (closes (world_of s) t) eqn:Hc.
    - assert (G : gives (world_of s) t = false) by (unfold gives; now rewrite Hc). rewrite G. unfold closes in Hc.
      change str_contains with (fun x (c : char) => has_char c x). cbn beta.
      change (pl_cuda (w_place (world_of s))) with (t_inNvccCode s) in Hc. rewrite Hc. exists source_v0. split; [discriminate|reflexivity].
    - pose proof (source_directive_lines l s Hc) as H. pose proof (source_directive_place l s) as H'. rewrite Ht in *. unfold pre_world. rewrite Hc. cbn [w_place].
      unfold closes in Hc. change str_contains with (fun x (c : char) => has_char c x). cbn beta.
      change (pl_cuda (w_place (world_of s))) with (t_inNvccCode s) in Hc. rewrite Hc.
      destruct (handleSourceDirective l s) as [s'|].
      + destruct H as (src & A & B). exists src. cbn [snd]. split; [|exact B]. change (w_place (world_of s)) with (place_of s). rewrite (proj1 H'). exact A.
      + exists source_v0. rewrite H. split; [discriminate|reflexivity]. }
  destruct P as (src & P1 & P2). exists src. destruct step1 as [h s1]. cbn [snd] in P2. rewrite <- P2.
  set (s2 := set_t_mayRemovePreviousLabel true (if negb h then handleSection l s1 else s1)).
  assert (E2 : t_lines s2 = t_lines s1) by (unfold s2, handleSection; destruct h; cbn [negb]; [reflexivity|]; destruct (getSectionNameDef _); reflexivity).
  clearbody s2. rewrite <- E2. destruct (justComment flt s2).
  - exists []. split; [exact P1|]. rewrite app_nil_r. reflexivity.
  - destruct (classify_lines h id t s2) as [n Hn]. exists n. split; [exact P1|exact Hn].
Qed.

Lemma eol_lines s raw nest : fst (scan_line flt (scan_of s) []) = CText raw nest ->
  let w := world_of s in let t := clean flt nest raw in let L1 := if marks w t then inside (t_lines s) else t_lines s in
  exists src n, (hidden_start flt w t = false -> gives w t = true -> spot_of src = pl_spot (w_place (pre_world w t))) /\
    t_lines (eol mblen flt s) = (if negb (hidden_start flt w t) && gives w t then give src L1 else L1) ++ n.
Proof.
  rewrite scan_line_eq. unfold eol, new_line. tsimp.
  change (set_t_currentLine _ (set_t_next_id _ _)) with (begun s).
  rewrite block_eq. change (t_text (begun s)) with (t_text s).
  change (t_hasStartedCommentBlock (begun s)) with (t_hasStartedCommentBlock s).
  change (set_t_hasStartedCommentBlock _ (begun s)) with (base1 flt s).
  destruct (fst (block_of flt (t_text s) (t_hasStartedCommentBlock s))) eqn:Hb; [discriminate|].
  change (t_text (base1 flt s)) with (t_text s). pose proof (all_blank_eq (t_text s)) as Hab.
  destruct (all_blank (t_text s)) eqn:Hws; rewrite Hab; clear Hab; cbn [fst]; [discriminate|]. intros [= <- <-]. cbv zeta.
  rewrite custom_eq. change (set_t_inCustomAssembly _ (base1 flt s)) with (base2 flt s).
  rewrite filtered_clean.
  set (t := clean flt (next_nest s) (t_text s)). cbn [lv_text set_lv_text].
  change (sv_line (t_currentSourceRef (base2 flt s))) with (sp_line (pl_spot (w_place (world_of s)))).
  change (lv_text (set_lv_text t (line_v0 (t_next_id s)))) with t.
  fold (marks (world_of s) t). unfold hidden_start. fold (marks (world_of s) t).
  destruct (marks (world_of s) t) eqn:Ep.
  - set (s3 := markPreviousInternalLabelAsInsideProc (base2 flt s)).
    assert (E : t_lines s3 = inside (t_lines s)) by (exact (mark_inside (base2 flt s))).
    assert (W : world_of s3 = world_of s).
    { unfold s3, markPreviousInternalLabelAsInsideProc. destruct (rev (t_lines (base2 flt s))) as [|x y]; [reflexivity|]. destruct (lv_is_label x && lv_is_internal_label x); reflexivity. }
    clearbody s3. destruct (f_directives flt); cbn [andb negb].
    + exists source_v0, []. split; [discriminate|]. rewrite app_nil_r. exact E.
    + rewrite <- W, <- E. destruct (directives_lines (t_next_id s) t s3) as (src & n & A & B). eauto.
  - rewrite andb_false_r. cbn [negb andb]. destruct (directives_lines (t_next_id s) t (base2 flt s)) as (src & n & A & B). exists src, n. split; [intros _; exact A|exact B].
Qed.

Definition spots_inv (cs : list cand) (s : tstate) : Prop :=
  exists ks js, stored_inv mblen flt cs s ks js /\ pinv (int_at cs) (pend_at cs) ks (t_lines s).
Lemma app_same {A} (a b c d : list A) : length a = length b -> a ++ c = b ++ d -> a = b /\ c = d.
Proof.
  revert b. induction a as [|x a IH]; intros [|y b]; cbn [length app]; try discriminate; [auto|]. intros [= H] [= -> E]. destruct (IH b H E) as [-> ->]. auto.
Qed.
Lemma give_length src ls : length (give src ls) = length ls.
Proof. induction ls; cbn [give length]; congruence. Qed.
Lemma inside_length ls : length (inside ls) = length ls.
Proof. induction ls; cbn [inside length]; congruence. Qed.
Lemma rows_length {A B} (R : A -> B -> Prop) a b : Forall2 R a b -> length a = length b.
Proof. induction 1; cbn; congruence. Qed.
Lemma spots_line cs s : spots_inv cs s -> spots_inv (cs ++ [fst (scan_line flt (scan_of s) [])]) (eol mblen flt s).
Proof.
  intros (ks & js & I & P). destruct (stored_line mblen flt Hlib cs s ks js I) as (ks' & js' & HK & I'). exists ks', js'. split; [exact I'|].
  pose proof (eol_world mblen flt Hlib s) as H. pose proof (si_world _ _ _ _ _ _ I) as HW. pose proof (si_bound _ _ _ _ _ _ I) as HB.
  pose proof (rows_length _ _ _ (si_rows _ _ _ _ _ _ I')) as HL'. pose proof (rows_length _ _ _ (si_rows _ _ _ _ _ _ I)) as HL.
  pose proof (fun raw nest => eol_lines s raw nest) as HE.
  set (c := fst (scan_line flt (scan_of s) [])) in *. clearbody c.
  assert (OLD : forall k, In k ks -> int_at (cs ++ [c]) k = int_at cs k /\ pend_at (cs ++ [c]) k = pend_cand flt (int_at cs k) (worlds flt cs) c (pend_at cs k)).
  { intros k Hk. pose proof (bound_in _ _ _ HB Hk). split; [now apply int_more|now apply pend_more]. }
  destruct c as [raw|raw|raw nest].
  - destruct H as (_ & _ & _ & H). rewrite H in *.
    assert (ks' = ks) as -> by (destruct HK as [->| ->]; [reflexivity|rewrite app_length in HL'; cbn [length] in HL'; lia]).
    eapply pinv_ext; [exact P|]. apply Forall_forall. exact OLD.
  - destruct H as (_ & _ & _ & i & H).
    destruct (rev (t_lines s)) as [|x q] eqn:Er; [|destruct (is_nil (lv_text x)) eqn:En].
    + rewrite app_nil_r in H. rewrite H in *.
      assert (ks' = ks) as -> by (destruct HK as [->| ->]; [reflexivity|rewrite app_length in HL'; cbn [length] in HL'; lia]).
      assert (E : t_lines s = []) by (rewrite <- (rev_involutive (t_lines s)), Er; reflexivity). rewrite E in *. destruct ks; [exact P|discriminate].
    + rewrite app_nil_r in H. rewrite H in *.
      assert (ks' = ks) as -> by (destruct HK as [->| ->]; [reflexivity|rewrite app_length in HL'; cbn [length] in HL'; lia]).
      (* the last line is blank: no label *)
      assert (E : exists q', t_lines s = q' ++ [x]) by (exists (rev q); rewrite <- (rev_involutive (t_lines s)), Er; reflexivity).
      destruct E as [q' E]. rewrite E in *.
      assert (NX : lv_is_label x = false).
      { destruct (rows_last mblen flt _ _ _ (si_rows _ _ _ _ _ _ I) x q) as (ks0 & k & Ek & S); [rewrite E; exact Er|].
        pose proof (srow_text mblen flt _ _ _ S) as T. unfold srow in S. destruct (nth_error cs k) as [[raw'|raw'|raw' nest']|] eqn:Enth; [contradiction| |..|contradiction].
        - destruct S as [i' ->]. reflexivity.
        - rewrite (lh_is_label _ _ _ _ _ _ _ S). pose proof (lh_text _ _ _ _ _ _ _ S) as T'. rewrite T' in En. destruct (clean flt nest' raw') eqn:Ec; [|discriminate]. unfold found. destruct (locates _ _); [reflexivity|]. now vm_compute. }
      clear - P OLD NX. revert P OLD. revert ks. induction q' as [|y q' IH]; intros [|k ks]; cbn [app pinv]; try contradiction.
      * intros [A B] OLD. destruct ks; [|contradiction]. split; [|exact I]. congruence.
      * intros [A B] OLD. split; [|apply IH; [exact B|intros j Hj; apply OLD; now right]]. intros Hy. destruct (A Hy) as [A1 A2].
        destruct (OLD k) as [-> ->]; [now left|]. split; [exact A1|]. rewrite A2. unfold pend_cand, p_store. cbn [pd_open pd_last pd_spot].
        rewrite forallb_app. cbn [forallb]. unfold ilabel at 2 4. rewrite NX. cbn [andb]. rewrite andb_false_r. cbn [andb]. f_equal; [now rewrite andb_false_r|now destruct q'].
    + assert (ks' = ks ++ [length cs]) as -> by (destruct HK as [->| ->]; [rewrite H, app_length in HL'; cbn [length] in HL'; lia|reflexivity]).
      rewrite H. apply pinv_store with (F := pend_at cs).
      * eapply pinv_ext; [exact P|]. apply Forall_forall. intros k Hk. split; [apply OLD, Hk|reflexivity].
      * apply Forall_forall. intros k Hk. exact (proj2 (OLD k Hk)).
      * discriminate.
  - destruct (HE raw nest eq_refl) as (src & n & A & B). clear HE. cbv zeta in A, B. rewrite HW in *.
    set (w := worlds flt cs) in *. set (t := clean flt nest raw) in *.
    set (G := fun k => let pd := pend_at cs k in let pd := if marks w t then p_mark (int_at cs k) pd else pd in
       if hidden_start flt w t then pd else if gives w t then p_give (int_at cs k) (pl_spot (w_place (pre_world w t))) pd else pd).
    set (L1 := if marks w t then inside (t_lines s) else t_lines s) in *.
    set (L2 := if negb (hidden_start flt w t) && gives w t then give src L1 else L1) in *.
    assert (PG : pinv (int_at cs) G ks L2).
    { assert (P1 : pinv (int_at cs) (fun k => if marks w t then p_mark (int_at cs k) (pend_at cs k) else pend_at cs k) ks L1).
      { unfold L1. destruct (marks w t); [now apply pinv_mark|exact P]. }
      unfold L2, G. destruct (hidden_start flt w t) eqn:Eh; cbn [negb andb]; [exact P1|]. destruct (gives w t); [|exact P1].
      rewrite <- (A eq_refl eq_refl). now apply (pinv_give (int_at cs) (fun k => if marks w t then p_mark (int_at cs k) (pend_at cs k) else pend_at cs k)). }
    assert (PEND : forall k, In k ks -> int_at (cs ++ [CText raw nest]) k = int_at cs k /\
       pend_at (cs ++ [CText raw nest]) k = match verdict_of flt w raw t with Kept => p_store (internal_of flt w (CText raw nest)) (G k) | _ => G k end).
    { intros k Hk. destruct (OLD k Hk) as [O1 O2]. split; [exact O1|]. rewrite O2. cbn [pend_cand]. unfold pend_text. fold w t. cbv zeta. unfold G. cbv zeta.
      unfold verdict_of. destruct (hidden_start flt w t); [reflexivity|]. cbn [orb]. reflexivity. }
    assert (LL : length L2 = length (t_lines s)).
    { unfold L2, L1. destruct (_ && _); destruct (marks w t); now rewrite ?give_length, ?inside_length. }
    unfold text_done in H. cbv zeta in H. rewrite HW in H. fold w t in H. destruct H as [H1 H2].
    destruct (verdict_of flt w raw t) eqn:EV.
    + destruct H2 as (H2 & _). assert (EL : length (t_lines s) = length (t_lines (eol mblen flt s))) by (exact (rows_length _ _ _ H2)).
      assert (ks' = ks) as -> by (destruct HK as [->| ->]; [reflexivity|rewrite app_length in HL'; cbn [length] in HL'; lia]).
      assert (n = []) as -> by (rewrite B, app_length in EL; destruct n; [reflexivity|cbn [length] in EL; lia]). rewrite B, app_nil_r.
      eapply pinv_ext; [exact PG|]. apply Forall_forall. exact PEND.
    + destruct H2 as (H2 & _). assert (EL : length (t_lines s) = length (t_lines (eol mblen flt s))) by (exact (rows_length _ _ _ H2)).
      assert (ks' = ks) as -> by (destruct HK as [->| ->]; [reflexivity|rewrite app_length in HL'; cbn [length] in HL'; lia]).
      assert (n = []) as -> by (rewrite B, app_length in EL; destruct n; [reflexivity|cbn [length] in EL; lia]). rewrite B, app_nil_r.
      eapply pinv_ext; [exact PG|]. apply Forall_forall. exact PEND.
    + destruct H2 as ((L & x & H2 & H3 & H4) & _). apply rows_length in H2.
      assert (ks' = ks ++ [length cs]) as -> by (destruct HK as [->| ->]; [rewrite H3, app_length in HL'; cbn [length] in HL'; lia|reflexivity]).
      rewrite H3 in B. assert (EL : length L = length L2) by lia. destruct (app_same _ _ _ _ EL B) as [-> <-].
      rewrite H3. apply pinv_store with (F := G).
      * eapply pinv_ext; [exact PG|]. apply Forall_forall. intros k Hk. split; [apply PEND, Hk|reflexivity].
      * apply Forall_forall. intros k Hk. rewrite (proj2 (PEND k Hk)). f_equal. unfold ilabel. rewrite (ls_is_label _ _ _ _ _ _ _ H4), (ls_internal _ _ _ _ _ _ _ H4).
        unfold internal_of, name_of. fold t. now destruct (found _ _) as [[? ?]|].
      * intros Hx. split.
        -- rewrite (ls_internal _ _ _ _ _ _ _ H4). unfold int_at. rewrite (nth_new flt Hlib), (proj1 (firstn_new flt Hlib cs _)). reflexivity.
        -- rewrite pend_new. f_equal. rewrite (ls_source _ _ _ _ _ _ _ H4). rewrite worlds_snoc. fold w. cbn [world_cand]. fold t. now rewrite <- H1.
Qed.
Lemma read_spots input : spots_inv (scan_input flt input) (read_lines mblen flt tstate0 input).
Proof.
  apply (read_cands mblen flt spots_inv).
  - intros cs s t (ks & js & [] & P). exists ks, js. split; [split; assumption|exact P].
  - intros cs s H _. now apply spots_line.
  - exists [], []. split; [|exact I]. split; try (now constructor); try reflexivity.
    + intros k. unfold stored_at. destruct k; cbn; tauto.
    + intros k. unfold verdict_at. destruct k; cbn; (split; [tauto|discriminate]).
Qed.
End Spots.


(** *** Reading off the location *)
(** The line leaves the label waiting: nothing is stored, or an internal label. *)
Definition waits (flt : Filter) (w : world) (c : cand) : Prop :=
  match c with
  | CBlock _ => True
  | CBlank _ => False
  | CText raw nest => verdict_of flt w raw (clean flt nest raw) = Kept -> internal_of flt w c = true
  end.
(** The line ends the wait: it is stored, is no internal label and gives no location. *)
Definition ends_wait (flt : Filter) (w : world) (c : cand) : Prop :=
  match c with
  | CBlock _ => False
  | CBlank _ => True
  | CText raw nest =>
      let t := clean flt nest raw in
      verdict_of flt w raw t = Kept /\ internal_of flt w c = false /\ gives w t = false /\ marks w t = false
  end.
Section Read.
Variable flt : Filter.
Lemma pend_closed int : forall cs w sp, pend_from flt int w (mkPend false false sp) cs = mkPend false false sp.
Proof.
  induction cs as [|c cs IH]; intros w sp; [reflexivity|]. cbn [pend_from]. replace (pend_cand flt int w c _) with (mkPend false false sp); [apply IH|].
  destruct c as [raw|raw|raw nest]; try reflexivity. cbn [pend_cand]. unfold pend_text. cbv zeta.
  unfold p_mark, p_give, p_store. cbn [pd_open pd_last pd_spot]. rewrite andb_false_r. destruct (marks _ _), (hidden_start _ _ _); try reflexivity.
  all: destruct (gives _ _); cbn [pd_open pd_last pd_spot]; destruct (verdict_of _ _ _ _); reflexivity.
Qed.
Lemma pend_waits int : forall mid w pd, pd_open pd = true ->
  (forall p x q, mid = p ++ x :: q -> waits flt (fold_left (world_cand flt) p w) x) -> pd_open (pend_from flt int w pd mid) = true.
Proof.
  induction mid as [|c mid IH]; intros w pd Ho H; [exact Ho|]. cbn [pend_from]. apply IH.
  - specialize (H [] c mid eq_refl). cbn [fold_left] in H. destruct c as [raw|raw|raw nest]; [exact Ho|destruct H|].
    cbn [pend_cand waits] in *. unfold pend_text. cbv zeta.
    assert (E : forall b (x y : pend), pd_open x = true -> pd_open y = true -> pd_open (if b : bool then x else y) = true) by (intros []; auto).
    apply E; [apply E; auto|]. destruct (verdict_of _ _ _ _); try (apply E; [cbn [p_give pd_open]|]; apply E; auto).
    cbn [p_store pd_open]. rewrite H by reflexivity. rewrite andb_true_r. apply E; [cbn [p_give pd_open]|]; apply E; auto.
  - intros p x q ->. exact (H (c :: p) x q eq_refl).
Qed.
Lemma gives_locates w t : gives w t = true -> locates w t = true.
Proof.
  unfold gives, locates, place_directive. intros H. apply andb_prop in H as [H1 H]. apply andb_prop in H1 as [-> H1]. cbn [andb].
  destruct (getFileDef t); [discriminate|]. destruct (getSourceRef t) as [[i n] c]. cbn [fst] in H. destruct (negb (i =? 0)); [reflexivity|]. cbn [orb] in H.
  destruct (getSourceInfoFromStabs t); [discriminate|]. destruct (get6502DbgInfo t) as [[[? ?] ?]|]; [discriminate|]. cbn [is_some negb andb] in H.
  destruct (getD2LineInfo t); [reflexivity|discriminate].
Qed.
(** The label takes the location of the directive that follows it. *)
Lemma pend_given int mid raw nest post w0 sp0 :
  let w := fold_left (world_cand flt) mid w0 in let t := clean flt nest raw in let r := pl_spot (w_place (pre_world w t)) in
  (forall p x q, mid = p ++ x :: q -> waits flt (fold_left (world_cand flt) p w0) x) ->
  hidden_start flt w t = false -> gives w t = true ->
  (verdict_of flt w raw t = Kept \/ post = [] \/ exists x q, post = x :: q /\ ends_wait flt (world_cand flt w (CText raw nest)) x) ->
  pd_spot (pend_from flt int w0 (mkPend true true sp0) (mid ++ CText raw nest :: post)) =
    mkSpot (sp_file r) (sp_idx r) (sp_line r) (sp_col r) false (sp_user r && negb int) (sp_inside r).
Proof.
  intros w t r Hm Hh Hg Hp. pose proof (pend_waits int mid w0 (mkPend true true sp0) eq_refl Hm) as Ho.
  assert (E : forall a b v pd, pend_from flt int v pd (a ++ b) = pend_from flt int (fold_left (world_cand flt) a v) (pend_from flt int v pd a) b).
  { induction a as [|x a IH]; intros b v pd; [reflexivity|]. cbn [app pend_from fold_left]. apply IH. }
  rewrite E. fold w. set (pd := pend_from flt int w0 (mkPend true true sp0) mid) in *. clearbody pd. cbn [pend_from pend_cand]. unfold pend_text. fold t. cbv zeta.
  rewrite Hh, Hg. fold r. set (pm := if marks w t then p_mark int pd else pd).
  assert (Om : pd_open pm = true) by (unfold pm; destruct (marks w t); exact Ho). clearbody pm.
  assert (I : internal_of flt w (CText raw nest) = false) by (unfold internal_of, name_of, found; fold t; now rewrite (gives_locates w t Hg)).
  rewrite I. unfold p_give. rewrite Om. set (sp := mkSpot (sp_file r) (sp_idx r) (sp_line r) (sp_col r) false (sp_user r && negb int) (sp_inside r)).
  assert (K : forall post w', (post = [] \/ exists x q, post = x :: q /\ ends_wait flt w' x) -> pd_spot (pend_from flt int w' (mkPend true (pd_last pm) sp) post) = sp).
  { clear. intros post w' [->|(x & q & -> & H)]; [reflexivity|]. cbn [pend_from]. destruct x as [raw1|raw1|raw1 nest1]; [destruct H| |].
    - cbn [pend_cand]. unfold p_store. cbn [pd_open pd_spot andb]. now rewrite pend_closed.
    - cbn [ends_wait] in H. destruct H as (V & I & G & M). cbn [pend_cand]. unfold pend_text. cbv zeta. rewrite M.
      unfold verdict_of in *. destruct (hidden_start flt w' _); [discriminate|]. rewrite G, V, I. unfold p_store. cbn [pd_open pd_spot andb]. now rewrite pend_closed. }
  destruct (verdict_of flt w raw t) eqn:V.
  - apply K. destruct Hp as [Hp|Hp]; [discriminate|exact Hp].
  - apply K. destruct Hp as [Hp|Hp]; [discriminate|exact Hp].
  - unfold p_store. cbn [pd_open pd_spot andb]. now rewrite pend_closed.
Qed.
(** A stored line that is no internal label comes first: nothing changes. *)
Lemma pend_own int x post w0 sp0 : ends_wait flt w0 x -> pd_spot (pend_from flt int w0 (mkPend true true sp0) (x :: post)) = sp0.
Proof.
  intros H. cbn [pend_from]. destruct x as [raw|raw|raw nest]; [destruct H| |].
  - cbn [pend_cand]. unfold p_store. cbn [pd_open pd_spot andb]. now rewrite pend_closed.
  - cbn [ends_wait] in H. destruct H as (V & I & G & M). cbn [pend_cand]. unfold pend_text. cbv zeta. rewrite M.
    unfold verdict_of in *. destruct (hidden_start flt w0 _); [discriminate|]. rewrite G, V, I. unfold p_store. cbn [pd_open pd_spot andb]. now rewrite pend_closed.
Qed.
End Read.
