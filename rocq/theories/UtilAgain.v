(** C101: cleaning a line that was cleaned already. *)
From Verif Require Export UtilQuotes UtilText.
Local Open Scope nat_scope.

(** *** White space without quotes *)
Lemma one_space_again g : one_space (one_space g) = one_space g.
Proof. destruct g; reflexivity. Qed.
Lemma one_space_blank g : blank (one_space g).
Proof. destruct g; repeat constructor. Qed.
Lemma spaces_blank n : blank (repeat SP n).
Proof. induction n; constructor; auto. Qed.
Definition spaced_out (l : list (str * str)) : list (str * str) := map (fun p => (fst p, one_space (snd p))) l.
Lemma spaced_out_words l : word_list l -> word_list (spaced_out l).
Proof.
  induction 1 as [|w g Hw Hg|w g p l Hw Hg Hn _ IH]; cbn [spaced_out map fst snd]; constructor; auto using one_space_blank.
  destruct g; [contradiction|discriminate].
Qed.
Lemma squashed_again l : squashed (spaced_out l) = squashed l.
Proof. unfold squashed, spaced_out. rewrite map_map. cbn [fst snd]. f_equal. apply map_ext. intros [w g]. cbn [fst snd]. now rewrite one_space_again. Qed.
Lemma squashed_text l : squashed l = text_of (spaced_out l).
Proof. reflexivity. Qed.
Lemma squash_start_again line : squashHorizontalWhitespace (squashHorizontalWhitespace line true) true = squashHorizontalWhitespace line true.
Proof.
  destruct (decompose line) as (ind & l & Hi & Hl & ->). rewrite (C54_lemma ind l) by assumption. destruct l as [|[w g] l]; [reflexivity|].
  assert (Hw : word w) by (inversion Hl; assumption).
  assert (Ht : word_list l) by (inversion Hl; [constructor|assumption]).
  set (i := repeat SP (Nat.min 2 (length ind))).
  assert (Li : length i = Nat.min 2 (length ind)) by apply repeat_length.
  assert (Ri : repeat SP (Nat.min 2 (length i)) = i) by (unfold i; rewrite repeat_length; f_equal; lia).
  cbn [squash_result]. fold i. destruct (Nat.eqb (length w) 1 && Nat.ltb (length ind) 2) eqn:E.
  - cbn [app]. destruct l as [|[w2 g2] l].
    + replace (i ++ w ++ squashed []) with (i ++ text_of [(w, [])]) by (unfold squashed, text_of; cbn; now rewrite !app_nil_r).
      rewrite C54_lemma; [|apply spaces_blank|constructor; [exact Hw|constructor]]. cbn [squash_result]. unfold str, char in *. rewrite Ri. unfold text_of, squashed. cbn [map List.concat fst snd one_space].
      match goal with |- context [if ?x then _ else _] => destruct x end; now rewrite !app_nil_r.
    + assert (Hw2 : word w2) by (inversion Ht; assumption).
      replace (i ++ w ++ squashed ((w2, g2) :: l)) with (i ++ text_of ((w ++ w2, one_space g2) :: spaced_out l)) by (unfold squashed, text_of, spaced_out; cbn; now rewrite <- !app_assoc).
      assert (Hl2 : word_list ((w ++ w2, one_space g2) :: spaced_out l)).
      { assert (W : word (w ++ w2)).
        { destruct Hw as [A B], Hw2 as [C D]. split; [destruct w; [contradiction|discriminate]|]. apply Forall_app. auto. }
        pose proof (spaced_out_words _ Ht) as H. cbn [spaced_out map fst snd] in H. fold (spaced_out l) in H. destruct (spaced_out l) as [|p t]; constructor; auto using one_space_blank; inversion H; auto. }
      rewrite C54_lemma; [|apply spaces_blank|exact Hl2]. cbn [squash_result]. unfold str, char in *. rewrite Ri.
      assert (L2 : Nat.eqb (length (w ++ w2)) 1 = false).
      { destruct Hw as [A _], Hw2 as [C _]. apply Nat.eqb_neq. rewrite app_length. destruct w, w2; try contradiction; cbn; lia. }
      rewrite L2. cbn [andb]. rewrite one_space_again, squashed_again. unfold text_of. cbn [map List.concat fst snd]. rewrite <- !app_assoc. reflexivity.
  - replace (i ++ w ++ one_space g ++ squashed l) with (i ++ text_of (spaced_out ((w, g) :: l))) by (unfold squashed, text_of, spaced_out; cbn; now rewrite <- !app_assoc).
    rewrite C54_lemma; [|apply spaces_blank|now apply spaced_out_words]. cbn [spaced_out map fst snd squash_result]. fold (spaced_out l). unfold str, char in *. rewrite Ri.
    assert (E2 : Nat.eqb (length w) 1 && Nat.ltb (length i) 2 = false).
    { rewrite Li. destruct (Nat.eqb (length w) 1); [|reflexivity]. cbn [andb] in *. apply Nat.ltb_ge in E. apply Nat.ltb_ge. lia. }
    rewrite E2, one_space_again, squashed_again. unfold text_of. cbn [map List.concat fst snd]. rewrite <- !app_assoc. reflexivity.
Qed.
Lemma squash_inner_again line : squashHorizontalWhitespace (squashHorizontalWhitespace line false) false = squashHorizontalWhitespace line false.
Proof.
  destruct (decompose line) as (ind & l & Hi & Hl & ->). rewrite (C54_inner ind l) by assumption. rewrite squashed_text.
  rewrite C54_inner; [|apply one_space_blank|now apply spaced_out_words]. now rewrite one_space_again, squashed_again.
Qed.

(** *** Quoted strings *)
(** Does a quoted string end in this text?  [esc]: the next character is taken
    by a backslash. *)
Fixpoint ends_quote (esc : bool) (s : str) : bool :=
  match s with
  | [] => false
  | c :: t => if esc then ends_quote false t else if ceq c DQ then true else if ceq c BSL then ends_quote true t else ends_quote false t
  end.
Lemma ends_quote_body s : ends_quote false s = true <-> exists b r, qbody b /\ s = b ++ DQ :: r.
Proof.
  split.
  - assert (G : forall n s, length s <= n -> ends_quote false s = true -> exists b r, qbody b /\ s = b ++ DQ :: r).
    { induction n as [|n IH]; intros [|c t] Hn; cbn [ends_quote]; try discriminate; [cbn in Hn; lia|]. cbn in Hn.
      destruct (ceq c DQ) eqn:E1; [apply ceq_true in E1; subst; intros _; exists [], t; split; [constructor|reflexivity]|].
      apply ceq_false in E1. destruct (ceq c BSL) eqn:E2.
      - apply ceq_true in E2. subst c. destruct t as [|d t]; [discriminate|]. cbn [ends_quote]. intros H. cbn in Hn.
        destruct (IH t ltac:(lia) H) as (b & r & Hb & ->). exists (BSL :: d :: b), r. split; [now constructor|reflexivity].
      - apply ceq_false in E2. intros H. destruct (IH t ltac:(lia) H) as (b & r & Hb & ->). exists (c :: b), r. split; [now constructor|reflexivity]. }
    intros H. exact (G _ s (le_n _) H).
  - intros (b & r & Hb & ->). induction Hb as [|c b H1 H2 _ IH|c b _ IH]; cbn [app ends_quote].
    + reflexivity.
    + destruct (ceq c DQ) eqn:E1; [reflexivity|]. destruct (ceq c BSL) eqn:E2; [apply ceq_true in E2; contradiction|exact IH].
    + exact IH.
Qed.
Lemma no_quoted_iff s : (forall a q b, s = a ++ q ++ b -> ~ quoted q) <-> (forall a t, s = a ++ DQ :: t -> ends_quote false t = false).
Proof.
  split.
  - intros H a t E. destruct (ends_quote false t) eqn:Et; [|reflexivity]. exfalso. apply ends_quote_body in Et as (b & r & Hb & ->).
    apply (H a (DQ :: b ++ [DQ]) r); [rewrite E; cbn; now rewrite <- app_assoc|]. exists b. auto.
  - intros H a q b E (x & Hx & ->). assert (X : ends_quote false (x ++ DQ :: b) = true) by (apply ends_quote_body; eauto).
    rewrite (H a (x ++ DQ :: b)) in X; [discriminate|]. rewrite E. cbn. now rewrite <- app_assoc.
Qed.
(** Text before a quoted string holds no quote. *)
Lemma ends_quote_app a b : ends_quote false b = true -> forall esc, ends_quote esc (a ++ DQ :: b) = true.
Proof.
  intros Hb. induction a as [|c t IH]; intros esc; cbn [app ends_quote].
  - destruct esc; [exact Hb|reflexivity].
  - destruct esc; [apply IH|]. destruct (ceq c DQ); [reflexivity|]. destruct (ceq c BSL); apply IH.
Qed.
Lemma piece_plain p q r : quoted q -> (forall a q' b, p ++ q ++ r = a ++ q' ++ b -> length a < length p -> ~ quoted q') -> ~ In DQ p.
Proof.
  intros (b & Hb & ->) H Hin. apply in_split in Hin as (u & v & ->).
  assert (X : ends_quote false (v ++ DQ :: b ++ DQ :: r) = true) by (apply ends_quote_app, ends_quote_body; eauto).
  apply ends_quote_body in X as (b' & r' & Hb' & E). apply (H u (DQ :: b' ++ [DQ]) r').
  - rewrite <- !app_assoc. cbn [app]. f_equal. f_equal. rewrite <- !app_assoc. cbn [app]. exact E.
  - rewrite app_length. cbn. unfold str, char in *. lia.
  - exists b'. auto.
Qed.

(** *** Squashing, as what is put out *)
Fixpoint put_out (st : hs_state) (s : str) : str :=
  match s with
  | [] => []
  | c :: t =>
      match st with
      | HStop => if is_whitespace c then put_out HStop t else c :: put_out HJustOne t
      | HJustOne => if is_whitespace c then SP :: put_out HStop t else c :: put_out HJustOne t
      | HStart => if is_whitespace c then SP :: put_out HSecond t else c :: put_out HStop t
      | HSecond => if is_whitespace c then SP :: put_out HStop t else c :: put_out HStop t
      end
  end.
Lemma loop_put_out s : forall st js out, fst (squash_loop s st js out) = out ++ put_out st s.
Proof.
  induction s as [|c t IH]; intros st js out; cbn [squash_loop put_out fst]; [now rewrite app_nil_r|].
  destruct st; destruct (is_whitespace c); rewrite IH, ?app_comm_cons, <- ?app_assoc; reflexivity.
Qed.
Lemma squash_put_out s b : squashHorizontalWhitespace s b = [] \/ squashHorizontalWhitespace s b = put_out (if b then HStart else HJustOne) s.
Proof.
  unfold squashHorizontalWhitespace. pose proof (loop_put_out s (if b then HStart else HJustOne) true []) as H.
  destruct (squash_loop _ _ _ _) as [o j]. cbn [fst app] in H. destruct (b && j); [now left|now right].
Qed.
Lemma put_out_in s : forall st c, In c (put_out st s) -> c = SP \/ In c s.
Proof.
  induction s as [|d t IH]; intros st c; cbn [put_out]; [intros []|].
  destruct st; destruct (is_whitespace d); cbn [In]; intros H; try destruct H as [<-|H]; auto; apply IH in H; tauto.
Qed.
Lemma squash_in s b c : In c (squashHorizontalWhitespace s b) -> c = SP \/ In c s.
Proof. destruct (squash_put_out s b) as [-> | ->]; [intros []|apply put_out_in]. Qed.
Lemma ws_not c : is_whitespace c = true -> ceq c DQ = false /\ ceq c BSL = false.
Proof.
  unfold is_whitespace. rewrite !orb_true_iff, !ceq_true. split; apply ceq_false; intuition subst; discriminate.
Qed.
Lemma put_out_ends s : forall st esc, st = HJustOne \/ (st = HStop /\ esc = false) -> ends_quote esc (put_out st s) = ends_quote esc s.
Proof.
  induction s as [|c t IH]; intros st esc H; [reflexivity|]. cbn [put_out].
  destruct (is_whitespace c) eqn:Ew.
  - destruct (ws_not _ Ew) as [N1 N2]. destruct H as [->|[-> ->]]; cbn [ends_quote]; rewrite ?N1, ?N2.
    + change (ceq SP DQ) with false. change (ceq SP BSL) with false. destruct esc; apply IH; right; auto.
    + apply IH. right. auto.
  - assert (E : ends_quote esc (c :: put_out HJustOne t) = ends_quote esc (c :: t)).
    { cbn [ends_quote]. destruct esc; [apply IH; now left|]. destruct (ceq c DQ); [reflexivity|]. destruct (ceq c BSL); apply IH; now left. }
    destruct H as [->|[-> ->]]; exact E.
Qed.
Lemma put_out_dq s : forall st a t, put_out st s = a ++ DQ :: t -> exists a' t' st', s = a' ++ DQ :: t' /\ t = put_out st' t' /\ (st' = HJustOne \/ st' = HStop).
Proof.
  induction s as [|c u IH]; intros st a t; cbn [put_out]; [destruct a; discriminate|].
  assert (Skip : forall st', put_out st' u = a ++ DQ :: t -> exists a' t' st', c :: u = a' ++ DQ :: t' /\ t = put_out st' t' /\ (st' = HJustOne \/ st' = HStop)).
  { intros st' H. destruct (IH _ _ _ H) as (a' & t' & s' & -> & H2 & H3). exists (c :: a'), t', s'. auto. }
  assert (Step : forall d st', (d = c /\ (st' = HJustOne \/ st' = HStop)) \/ d = SP -> d :: put_out st' u = a ++ DQ :: t ->
     exists a' t' st', c :: u = a' ++ DQ :: t' /\ t = put_out st' t' /\ (st' = HJustOne \/ st' = HStop)).
  { intros d st' Hd. destruct a as [|x a]; cbn [app]; intros [= -> E].
    - subst t. destruct Hd as [[<- Hd]|Hd]; [exists [], u, st'; auto|discriminate].
    - destruct (IH _ _ _ E) as (a' & t' & s' & -> & H2 & H3). exists (c :: a'), t', s'. auto. }
  destruct st; destruct (is_whitespace c); try (apply Step; auto; fail); apply Skip.
Qed.
Lemma squash_no_quoted s b : (forall x q y, s = x ++ q ++ y -> ~ quoted q) -> forall x q y, squashHorizontalWhitespace s b = x ++ q ++ y -> ~ quoted q.
Proof.
  intros H. rewrite no_quoted_iff in H. apply no_quoted_iff. intros a t E.
  destruct (squash_put_out s b) as [X|X]; rewrite X in E; [destruct a; discriminate|].
  apply put_out_dq in E as (a' & t' & st & -> & -> & Hst). rewrite put_out_ends by (destruct Hst; auto). exact (H _ _ eq_refl).
Qed.
Lemma squash_split line l last : quote_split line l last ->
  quote_split (List.concat (map (fun p => squashHorizontalWhitespace (fst p) true ++ snd p) l) ++ squashHorizontalWhitespace last true)
    (map (fun p => (squashHorizontalWhitespace (fst p) true, snd p)) l) (squashHorizontalWhitespace last true).
Proof.
  induction 1 as [line H|p q r l last Hq Hl _ IH]; cbn [map List.concat fst snd app].
  - constructor. now apply squash_no_quoted.
  - rewrite <- !app_assoc. constructor; [exact Hq| |exact IH]. pose proof (piece_plain _ _ _ Hq Hl) as Hp.
    intros a q' b E La (x & _ & ->). apply Hp.
    assert (X : In DQ (squashHorizontalWhitespace p true)).
    { revert La E. generalize (squashHorizontalWhitespace p true) as m. generalize (q ++ List.concat (map (fun p => squashHorizontalWhitespace (fst p) true ++ snd p) l) ++ squashHorizontalWhitespace last true) as rest.
      clear. induction a as [|c a IH]; intros rest [|d m] L E; cbn in *; try lia; injection E as -> E; [now left|right; eapply IH; [|exact E]; lia]. }
    apply squash_in in X as [X|X]; [discriminate|exact X].
Qed.
Lemma squash_quotes_again line b b' :
  squashHorizontalWhitespaceWithQuotes (squashHorizontalWhitespaceWithQuotes line b) b' = squashHorizontalWhitespaceWithQuotes line b.
Proof.
  destruct (C55_lemma line b) as (l & last & Hs & ->). pose proof (squash_split _ _ _ Hs) as H.
  set (m := List.concat _ ++ _) in *. destruct (C55_lemma m b') as (l' & last' & Hs' & ->).
  destruct (quote_split_unique _ _ _ H _ _ Hs') as [<- <-]. subst m. rewrite map_map. cbn [fst snd]. rewrite squash_start_again. f_equal. f_equal.
  apply map_ext. intros [p q]. cbn [fst snd]. now rewrite squash_start_again.
Qed.

(** White space between two quoted strings is dropped. *)
Lemma strings_joined a g b c : quoted a -> blank g -> quoted b -> squashHorizontalWhitespaceWithQuotes (a ++ g ++ b) c = a ++ b.
Proof.
  intros Ha Hg Hb. destruct (C55_lemma (a ++ g ++ b) c) as (l & last & Hs & ->).
  assert (H : quote_split ([] ++ a ++ g ++ b ++ []) [([], a); (g, b)] []).
  { constructor; [exact Ha|intros x q y _ L; cbn in L; lia|]. constructor; [exact Hb| |].
    - intros x q y E L (z & _ & ->). assert (X : In DQ g).
      { clear -E L. revert x E L. induction g as [|d g IH]; intros [|e x] E L; cbn in *; try lia; injection E as -> E; [now left|right; eapply IH; [exact E|lia]]. }
      unfold blank in Hg. rewrite Forall_forall in Hg. specialize (Hg _ X). discriminate.
    - constructor. intros x q y E Q. apply quoted_len in Q. apply (f_equal (@length _)) in E. rewrite !app_length in E. cbn in E. lia. }
  rewrite app_nil_r in H. cbn [app] in H. destruct (quote_split_unique _ _ _ Hs _ _ H) as [-> ->]. cbn [map List.concat fst snd].
  assert (G : squashHorizontalWhitespace g true = []).
  { pose proof (C54_lemma g [] Hg ltac:(constructor)) as X. cbn [text_of map List.concat] in X. rewrite app_nil_r in X. exact X. }
  rewrite G. change (squashHorizontalWhitespace [] true) with (@nil ascii). cbn [app]. now rewrite !app_nil_r.
Qed.

(** *** Tabs and labels *)
Lemma no_tabs_loop s : forall out e, ~ In TAB s -> expandTabs_loop s out e = out ++ s.
Proof.
  induction s as [|c t IH]; intros out e H; cbn [expandTabs_loop]; [now rewrite app_nil_r|].
  destruct (ceq c TAB) eqn:E; [apply ceq_true in E; subst; destruct H; now left|].
  rewrite IH by (intros X; apply H; now right). now rewrite <- app_assoc.
Qed.
Lemma no_tabs_expanded s : ~ In TAB s -> expandTabs s = s.
Proof. intros H. unfold expandTabs. now rewrite no_tabs_loop. Qed.
Lemma tabs_again s : expandTabs (expandTabs s) = expandTabs s.
Proof. apply no_tabs_expanded. eapply expanded_no_tab, C52_expanded. Qed.
Lemma ltrim_again s : ltrim (ltrim s) = ltrim s.
Proof.
  unfold ltrim. induction s as [|c t IH]; [reflexivity|]. cbn [drop_while]. destruct (is_space c) eqn:E; [exact IH|]. cbn [drop_while]. now rewrite E.
Qed.
Lemma label_indentation_again s : fixLabelIndentation (fixLabelIndentation s) = fixLabelIndentation s.
Proof.
  unfold fixLabelIndentation. destruct (is_probably_label s) eqn:E; [|now rewrite E]. rewrite ltrim_again. now destruct (is_probably_label (ltrim s)).
Qed.
