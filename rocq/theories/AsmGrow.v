(** The text parser: reading on only adds lines (C109). *)
From Verif Require Import AsmLemmas AsmRead AsmMark AsmTrace AsmThms AsmUse AsmSearch AsmLines AsmRemove AsmDirect ObjGrow.
From Verif Require Import AsmText.
Local Open Scope Z_scope.

(** [b] begins with the lines of [a], up to their locations. *)
Definition extends (a b : list asm_line_v) : Prop := exists L r, same_lines a L /\ b = L ++ r.
Lemma extends_refl a : extends a a.
Proof. exists a, []. split; [apply same_lines_refl|now rewrite app_nil_r]. Qed.
Lemma same_lines_split a b c : same_lines (a ++ b) c -> exists c1 c2, same_lines a c1 /\ same_lines b c2 /\ c = c1 ++ c2.
Proof.
  revert c. induction a as [|x a IH]; intros c H; [exists [], c; repeat split; [constructor|exact H]|].
  inversion H as [|? y ? c' H1 H2]; subst. apply IH in H2 as (c1 & c2 & A & B & ->). exists (y :: c1), c2. repeat split; [now constructor|exact B].
Qed.
Lemma extends_trans a b c : extends a b -> extends b c -> extends a c.
Proof.
  intros (L & r & H & ->) (M & q & H' & ->). apply same_lines_split in H' as (M1 & M2 & A & B & ->).
  exists M1, (M2 ++ q). split; [eapply same_lines_trans; eassumption|now rewrite app_assoc].
Qed.

Lemma contains_assign {A} (m : list (view * A)) v a k : map_contains (map_assign m v a) k = map_contains m k || str_eqb (v_str v) k.
Proof.
  apply Bool.eq_iff_eq_true. rewrite orb_true_iff, str_eqb_eq. unfold map_contains, map_find. induction m as [|[v' a'] m IH].
  - cbn. unfold same_key. destruct (str_eqb (v_str v) k) eqn:E; cbn.
    + apply str_eqb_eq in E. intuition.
    + split; [discriminate|]. intros [H|H]; [discriminate|]. rewrite <- str_eqb_eq in H. congruence.
  - cbn [map_assign]. destruct (same_key (v_str v) v') eqn:E; cbn [find fst]; unfold same_key in *.
    + apply str_eqb_eq in E. destruct (str_eqb (v_str v') k) eqn:E2; cbn; [intuition|].
      split; [auto|]. intros [H|H]; [exact H|]. rewrite E, H in E2. rewrite <- not_true_iff_false in E2. contradict E2. now apply str_eqb_eq.
    + destruct (str_eqb (v_str v') k) eqn:E2; cbn; [intuition|exact IH].
Qed.
Section Grow.
Variables (mb : str -> Z) (flt : Filter).
Lemma eol_extends s : good flt s -> extends (t_lines s) (t_lines (eol mb flt s)) /\
  (forall k, map_contains (t_labels_defined s) k = true -> map_contains (t_labels_defined (eol mb flt s)) k = true).
Proof.
  intros Hg. destruct (eol_lines mb flt s Hg) as (_ & L & HL & [E D|i E D|l E _ D|l E _ D]); rewrite E, D; (split; [exists L; eexists; split; [exact HL|]|auto]).
  - now rewrite app_nil_r.
  - reflexivity.
  - reflexivity.
  - reflexivity.
  - intros k. intros H. rewrite contains_assign, H. reflexivity.
Qed.
Definition more (s s' : tstate) : Prop := extends (t_lines s) (t_lines s') /\
  (forall k, map_contains (t_labels_defined s) k = true -> map_contains (t_labels_defined s') k = true).
Lemma more_refl s : more s s. Proof. split; [apply extends_refl|auto]. Qed.
Lemma more_trans a b c : more a b -> more b c -> more a c.
Proof. intros [A B] [C D]. split; [eapply extends_trans; eassumption|auto]. Qed.
Lemma fold_more input s : good flt s -> t_stopParsing s = false -> more s (fold_left (step mb flt) input s).
Proof.
  intros Hg Hs. apply (fold_invariant mb flt (more s)); auto; [|apply more_refl].
  intros x H Hx. eapply more_trans; [exact H|now apply eol_extends].
Qed.
Lemma finish_more s : good flt s -> more s (finish_read mb flt s).
Proof. intros H. unfold finish_read. destruct (negb _); [now apply eol_extends|apply more_refl]. Qed.

(** At the end of a line only white space can be pending, and then a blank line
    was the last thing stored, so that the end of the input adds nothing. *)
Lemma eol_again s : good flt s -> is_nil (t_text (eol mb flt s)) = false ->
  t_lines (eol mb flt (eol mb flt s)) = t_lines (eol mb flt s) /\ t_labels_defined (eol mb flt (eol mb flt s)) = t_labels_defined (eol mb flt s).
Proof.
  intros Hg Hn. destruct (all_blank (t_text s)) eqn:Hb; [|rewrite eol_text in Hn by assumption; discriminate].
  pose proof (eol_good mb flt s Hg) as Hg2.
  destruct (eol_cases mb flt s Hg) as [_|Hk Hw|s1 l _ Hw _ _ _ _|h s1 l _ Hw _ _ _ _ _ _]; [discriminate Hn| |rewrite all_blank_eq in Hw; congruence..].
  set (x := keep_text (line_v0 (t_next_id s)) (maybeAddBlank (base1 flt s))) in *.
  assert (Hx : t_text x = t_text s /\ t_hasStartedCommentBlock x = next_block flt s /\ ends_blank (t_lines x) = true).
  { subst x. unfold keep_text, maybeAddBlank, new_line. unfold ends_blank. change (t_lines (base1 flt s)) with (t_lines s).
    destruct (rev (t_lines s)) as [|l t] eqn:E; cbn [negb]; [repeat split; tsimp_goal; change (t_lines (base1 flt s)) with (t_lines s); now rewrite E|].
    destruct (is_nil (lv_text l)) eqn:E2; cbn [negb].
    - repeat split. tsimp_goal. change (t_lines (base1 flt s)) with (t_lines s). now rewrite E.
    - repeat split. tsimp_goal. now rewrite rev_app_distr. }
  destruct Hx as (Ht & Hh & He).
  assert (Hnb : fst (block_of flt (t_text x) (t_hasStartedCommentBlock x)) = false).
  { rewrite Ht, Hh. revert Hk. unfold next_block. rewrite !block_of_eq. cbn [fst snd]. destruct (f_comment_only flt); cbn [andb negb]; [|reflexivity].
    intros Hk. rewrite Hk, andb_false_r. cbn [orb]. apply orb_false_iff in Hk as [_ Hk]. exact Hk. }
  clearbody x. destruct (eol_cases mb flt x Hg2) as [Hk2|_ _|s1 l _ Hw2 _ _ _ _|h s1 l _ Hw2 _ _ _ _ _ _]; [congruence| |rewrite Ht, all_blank_eq in Hw2; congruence..].
  unfold keep_text, maybeAddBlank. change (t_lines (base1 flt x)) with (t_lines x). unfold ends_blank in He. rewrite He. split; reflexivity.
Qed.
Lemma read_more (a b : str) : (a = [] \/ exists a', a = a' ++ [LF]) -> more (read_lines mb flt tstate0 a) (read_lines mb flt tstate0 (a ++ b)).
Proof.
  intros Ha. rewrite (read_before mb flt a b). rewrite <- (app_nil_r a) at 1. rewrite (read_before mb flt a []). cbn [fold_left].
  destruct (before_good mb flt a) as [Hg Hs].
  assert (E : t_lines (finish_read mb flt (before mb flt a)) = t_lines (before mb flt a)  /\ t_labels_defined (finish_read mb flt (before mb flt a)) = t_labels_defined (before mb flt a)).
  { unfold finish_read. destruct Ha as [->|(a' & ->)]; [split; reflexivity|].
    assert (EE : before mb flt (a' ++ [LF]) = eol mb flt (before mb flt a')).
    { unfold before. rewrite fold_left_app. cbn [fold_left]. apply step_lf. apply before_good. }
    rewrite EE. destruct (is_nil (t_text (eol mb flt (before mb flt a')))) eqn:En; cbn [negb]; [split; reflexivity|].
    apply eol_again; [apply before_good|exact En]. }
  destruct E as [E1 E2].
  assert (M : more (before mb flt a) (finish_read mb flt (fold_left (step mb flt) b (before mb flt a)))).
  { eapply more_trans; [apply fold_more; assumption|]. apply finish_more.
    now apply (fold_invariant mb flt (fun _ => True)). }
  destruct M as [M1 M2]. split; [rewrite E1|rewrite E2]; assumption.
Qed.

(** The same line of a longer input: its location may change and references may
    be added. *)
Definition grown (l l' : asm_line_v) : Prop :=
  lv_text l' = lv_text l /\ lv_is_label l' = lv_is_label l /\ lv_label l' = lv_label l /\ lv_is_internal_label l' = lv_is_internal_label l /\
  lv_is_assignment l' = lv_is_assignment l /\ lv_has_opcode l' = lv_has_opcode l /\ lv_is_data l' = lv_is_data l /\
  lv_is_directive l' = lv_is_directive l /\ lv_is_inline_asm l' = lv_is_inline_asm l /\ lv_section l' = lv_section l /\
  lv_closest_parent_label l' = lv_closest_parent_label l /\ subseq (lv_labels l) (lv_labels l').
Lemma filter_less {A} (f g : A -> bool) l : (forall x, f x = true -> g x = true) -> subseq (filter f l) (filter g l).
Proof.
  intros H. induction l as [|x l IH]; [constructor|]. cbn. destruct (f x) eqn:E; [rewrite (H _ E); now constructor|].
  destruct (g x); [now constructor|exact IH].
Qed.
Lemma grown_shown s s' l l' m m' : (forall k, map_contains (t_labels_defined s) k = true -> map_contains (t_labels_defined s') k = true) ->
  same_line l l' -> same_but_marks l m -> same_but_marks l' m' -> grown (shown s m) (shown s' m').
Proof.
  intros D E M M'. unfold grown. rewrite !shown_labels, (shown_core s m), (shown_core s' m'). vsimp_goal.
  unfold same_line in E. unfold same_but_marks in M, M'. rewrite M, M', E. vsimp_goal. repeat split. apply filter_less. intros r. apply D.
Qed.
Lemma run_more oref olab fuel a vis s v oref' olab' fuel' b vis' s' v' : f_unused_labels flt = false -> f_compatmode flt = false ->
  (a = [] \/ exists a', a = a' ++ [LF]) ->
  AsmText.run mb flt oref olab fuel a vis = Ok (s, v) -> AsmText.run mb flt oref' olab' fuel' (a ++ b) vis' = Ok (s', v') ->
  exists ls r, t_lines s' = ls ++ r /\ Forall2 grown (t_lines s) ls.
Proof.
  intros F1 F2 Ha H H'. destruct (read_more a b Ha) as [(L & r & HL & E) D].
  destruct (all_kept _ _ _ _ _ _ _ _ _ F1 F2 H) as (M & HM & ->). destruct (all_kept _ _ _ _ _ _ _ _ _ F1 F2 H') as (M' & HM' & ->).
  unfold str, char in *. rewrite E in HM'. apply Forall2_app_inv_l in HM' as (M1 & M2 & A & B & ->).
  rewrite map_app. eexists _, _. split; [reflexivity|]. clear H H' E Ha B. revert D HL HM.
  generalize (read_lines mb flt tstate0 a) (read_lines mb flt tstate0 (a ++ b)). intros x y D HL HMx.
  revert HL M M1 HMx A. generalize (t_lines x). intros ls HL. induction HL as [|l l' ls L Hl HL IH]; intros M M1 HMx A.
  - inversion HMx; inversion A; subst. constructor.
  - inversion HMx as [|? m ? M0 X1 X2]; inversion A as [|? m1 ? M3 X3 X4]; subst. cbn [map]. constructor; [eapply grown_shown; eassumption|now apply IH].
Qed.
End Grow.
