(** C56: comment stripping.  C57: first word stripping. *)
From Verif Require Export UtilSquash.
Local Open Scope nat_scope.

Definition comment_char (c : char) : bool := ceq c ";" || ceq c "#".
Definition no_comment (s : str) : Prop := Forall (fun c => comment_char c = false) s.

Lemma ws_not_comment c : is_whitespace c = true -> comment_char c = false.
Proof. unfold is_whitespace. rewrite orb_true_iff, !ceq_true. intros [->| ->]; reflexivity. Qed.
Lemma no_comment_app a b : no_comment (a ++ b) <-> no_comment a /\ no_comment b.
Proof. apply Forall_app. Qed.

Lemma g_blank_start g : blank g -> forall t i la,
  glwc_loop (g ++ t) i false true la = glwc_loop t (i + length g) false true la.
Proof.
  induction 1 as [|c g Hc Hg IH]; intros t i la; cbn [app length]; [now rewrite Nat.add_0_r|].
  cbn [glwc_loop]. pose proof (ws_not_comment _ Hc) as Hn. unfold comment_char in Hn. rewrite Hn, Hc. cbn [negb].
  rewrite IH. f_equal. lia.
Qed.
Lemma g_blank_on g : blank g -> forall t i la,
  glwc_loop (g ++ t) i true false la = glwc_loop t (i + length g) true false la.
Proof.
  induction 1 as [|c g Hc Hg IH]; intros t i la; cbn [app length]; [now rewrite Nat.add_0_r|].
  cbn [glwc_loop]. pose proof (ws_not_comment _ Hc) as Hn. unfold comment_char in Hn. rewrite Hn, Hc. cbn [negb].
  rewrite IH. f_equal. lia.
Qed.
Lemma g_blank g : blank g -> g <> [] -> forall t i la,
  glwc_loop (g ++ t) i false false la = glwc_loop t (i + length g) true false i.
Proof.
  intros H Hn t i la. destruct g as [|c g]; [congruence|]. inversion H as [|? ? Hc Hg]; subst.
  cbn [app length glwc_loop]. pose proof (ws_not_comment _ Hc) as Hcc. unfold comment_char in Hcc. rewrite Hcc, Hc.
  cbn [negb]. rewrite g_blank_on by assumption. f_equal. lia.
Qed.
Lemma g_word w : word w -> no_comment w -> forall t i sp st la, (sp = true -> st = false) ->
  glwc_loop (w ++ t) i sp st la = glwc_loop t (i + length w) false false la.
Proof.
  assert (H0 : forall w, Forall (fun c => is_whitespace c = false) w -> no_comment w -> forall t i la,
    glwc_loop (w ++ t) i false false la = glwc_loop t (i + length w) false false la).
  { induction 1 as [|c v Hc Hv IH]; intros Hn t i la; cbn [app length]; [now rewrite Nat.add_0_r|].
    inversion Hn as [|? ? Hcc Hn']; subst. cbn [glwc_loop]. unfold comment_char in Hcc. rewrite Hcc, Hc.
    rewrite IH by assumption. f_equal. lia. }
  intros [Hne Hw] Hn t i sp st la Hsp. destruct w as [|c v]; [congruence|].
  inversion Hw as [|? ? Hc Hv]; subst. inversion Hn as [|? ? Hcc Hn']; subst.
  cbn [app length glwc_loop]. unfold comment_char in Hcc. rewrite Hcc, Hc. cbn [negb].
  replace (if sp then glwc_loop (v ++ t) (S i) false st la else glwc_loop (v ++ t) (S i) sp false la)
    with (glwc_loop (v ++ t) (S i) false false la).
  - rewrite H0 by assumption. now rewrite Nat.add_succ_r.
  - destruct sp; [now rewrite Hsp|reflexivity].
Qed.

(** Words that all have white space after them. *)
Definition spaced (l : list (str * str)) : Prop := Forall (fun p => word (fst p) /\ blank (snd p) /\ snd p <> []) l.

Lemma text_of_cons w g l : text_of ((w, g) :: l) = w ++ g ++ text_of l.
Proof. unfold text_of. cbn. now rewrite <- app_assoc. Qed.
Lemma text_of_app a b : text_of (a ++ b) = text_of a ++ text_of b.
Proof. unfold text_of. now rewrite map_app, concat_app. Qed.

Lemma g_spaced l : spaced l -> no_comment (text_of l) -> forall t i sp st la, (sp = true -> st = false) ->
  exists sp' st' la', (sp' = true -> st' = false) /\
    glwc_loop (text_of l ++ t) i sp st la = glwc_loop t (i + length (text_of l)) sp' st' la'.
Proof.
  induction 1 as [|[w g] l (Hw & Hg & Hne) Hl IH]; intros Hn t i sp st la Hsp.
  - exists sp, st, la. split; [exact Hsp|]. cbn. now rewrite Nat.add_0_r.
  - cbn [fst snd] in *. rewrite text_of_cons in *. apply no_comment_app in Hn as [Hn1 Hn2].
    apply no_comment_app in Hn2 as [_ Hn3]. rewrite <- !app_assoc.
    rewrite g_word, g_blank by assumption.
    destruct (IH Hn3 t (i + length w + length g) true false (i + length w)) as (sp' & st' & la' & H1 & H2); [auto|].
    exists sp', st', la'. split; [exact H1|]. rewrite H2, !app_length. f_equal. lia.
Qed.

(** After an indentation and words followed by white space. *)
Lemma g_front ind l : blank ind -> spaced l -> no_comment (text_of l) -> forall t la,
  exists sp st la', (sp = true -> st = false) /\
    glwc_loop (ind ++ text_of l ++ t) 0 false true la = glwc_loop t (length (ind ++ text_of l)) sp st la'.
Proof.
  intros Hi Hl Hn t la. rewrite g_blank_start by assumption.
  destruct (g_spaced l Hl Hn t (0 + length ind) false true la) as (sp & st & la' & H1 & H2); [discriminate|].
  exists sp, st, la'. split; [exact H1|]. rewrite H2, app_length. f_equal.
Qed.

Lemma firstn_app_pre {A} (a b : list A) n : n = length a -> firstn n (a ++ b) = a.
Proof. intros ->. apply firstn_len_app. Qed.

Definition comment_tail (t : str) : Prop := match t with [] => False | c :: _ => comment_char c = true end.

Lemma g_comment t i sp st la : comment_tail t -> glwc_loop t i sp st la = if negb sp then i else la.
Proof. destruct t as [|c t]; cbn; [tauto|]. unfold comment_char. intros ->. reflexivity. Qed.

(** A line with no words before a comment or the end: all of it. *)
Lemma C56_blank ind t : blank ind -> t = [] \/ comment_tail t -> getLineWithoutComment (ind ++ t) = ind.
Proof.
  intros Hi Ht. unfold getLineWithoutComment. rewrite g_blank_start by assumption.
  apply firstn_app_pre. destruct Ht as [->|Ht].
  - cbn. rewrite app_nil_r. reflexivity.
  - now rewrite g_comment.
Qed.
(** With a comment: the line up to the comment, less the white space before it. *)
Lemma C56_comment ind l w g t : blank ind -> spaced l -> word w -> blank g ->
  no_comment (text_of l ++ w) -> comment_tail t ->
  getLineWithoutComment (ind ++ text_of l ++ w ++ g ++ t) = ind ++ text_of l ++ w.
Proof.
  intros Hi Hl Hw Hg Hn Ht. apply no_comment_app in Hn as [Hn1 Hn2]. unfold getLineWithoutComment.
  destruct (g_front ind l Hi Hl Hn1 (w ++ g ++ t) (length (ind ++ text_of l ++ w ++ g ++ t))) as (sp & st & la & Hsp & ->).
  rewrite g_word by assumption.
  replace (ind ++ text_of l ++ w ++ g ++ t) with ((ind ++ text_of l ++ w) ++ g ++ t) by (now rewrite <- !app_assoc).
  apply firstn_app_pre. destruct g as [|c g].
  - cbn [app]. rewrite g_comment by assumption. cbn [negb]. rewrite !app_length. lia.
  - rewrite g_blank by (assumption || discriminate). rewrite g_comment by assumption. cbn [negb].
    rewrite !app_length. lia.
Qed.
(** Without a comment but with white space at the end: less that white space. *)
Lemma C56_trailing ind l w g : blank ind -> spaced l -> word w -> blank g -> g <> [] -> no_comment (text_of l ++ w) ->
  getLineWithoutComment (ind ++ text_of l ++ w ++ g) = ind ++ text_of l ++ w.
Proof.
  intros Hi Hl Hw Hg Hne Hn. apply no_comment_app in Hn as [Hn1 Hn2]. unfold getLineWithoutComment.
  destruct (g_front ind l Hi Hl Hn1 (w ++ g) (length (ind ++ text_of l ++ w ++ g))) as (sp & st & la & Hsp & ->).
  rewrite g_word by assumption.
  replace (ind ++ text_of l ++ w ++ g) with ((ind ++ text_of l ++ w) ++ g ++ []) by (now rewrite <- !app_assoc, app_nil_r).
  apply firstn_app_pre. rewrite <- (app_nil_r g) at 1. rewrite g_blank by assumption. cbn [glwc_loop].
  rewrite !app_length. lia.
Qed.
(** Without a comment and without trailing white space: one word stays... *)
Lemma C56_one ind w : blank ind -> word w -> no_comment w -> getLineWithoutComment (ind ++ w) = ind ++ w.
Proof.
  intros Hi Hw Hn. unfold getLineWithoutComment. rewrite g_blank_start by assumption.
  rewrite <- (app_nil_r w) at 1. rewrite g_word by (assumption || discriminate). cbn [glwc_loop]. apply firstn_all.
Qed.
(** ... of several, the last is lost. *)
Lemma C56_lost ind l w g v : blank ind -> spaced l -> word w -> blank g -> g <> [] -> word v ->
  no_comment (text_of l ++ w ++ v) ->
  getLineWithoutComment (ind ++ text_of l ++ w ++ g ++ v) = ind ++ text_of l ++ w.
Proof.
  intros Hi Hl Hw Hg Hne Hv Hn. apply no_comment_app in Hn as [Hn1 Hn2]. apply no_comment_app in Hn2 as [Hn2 Hn3].
  unfold getLineWithoutComment.
  destruct (g_front ind l Hi Hl Hn1 (w ++ g ++ v) (length (ind ++ text_of l ++ w ++ g ++ v))) as (sp & st & la & Hsp & ->).
  rewrite g_word, g_blank by assumption.
  replace (ind ++ text_of l ++ w ++ g ++ v) with ((ind ++ text_of l ++ w) ++ g ++ v) by (now rewrite <- !app_assoc).
  apply firstn_app_pre. rewrite <- (app_nil_r v) at 1. rewrite g_word by (assumption || auto). cbn [glwc_loop].
  rewrite !app_length. lia.
Qed.

(** Always a prefix without comment characters. *)
Lemma g_bound s : forall i sp st la n, la = n \/ la <= i -> (sp = true -> la <= i) -> n = i + length s ->
  glwc_loop s i sp st la <= n /\ no_comment (firstn (glwc_loop s i sp st la - i) s).
Proof.
  induction s as [|c s IH]; intros i sp st la n Hla Hsp Hn; cbn [length] in Hn.
  - cbn [glwc_loop]. split; [lia|]. rewrite firstn_nil. constructor.
  - assert (Hstep : forall sp' st' la', la' = n \/ la' <= S i -> (sp' = true -> la' <= S i) -> comment_char c = false ->
      glwc_loop s (S i) sp' st' la' <= n /\ no_comment (firstn (glwc_loop s (S i) sp' st' la' - i) (c :: s))).
    { intros sp' st' la' H1 H2 H3. destruct (IH (S i) sp' st' la' n H1 H2 ltac:(lia)) as [H4 H5].
      split; [exact H4|]. set (r := glwc_loop _ _ _ _ _) in *.
      destruct (r - i) as [|k] eqn:E; [constructor|]. cbn [firstn]. constructor; [exact H3|].
      replace k with (r - S i) by lia. exact H5. }
    cbn [glwc_loop]. fold (comment_char c). destruct (comment_char c) eqn:Ec.
    + destruct sp; cbn [negb].
      * specialize (Hsp eq_refl). split; [lia|]. replace (la - i) with 0 by lia. constructor.
      * split; [lia|]. rewrite Nat.sub_diag. constructor.
    + destruct sp; [specialize (Hsp eq_refl); destruct (negb (is_whitespace c)); apply Hstep; auto; try (intros; lia); lia|].
      destruct (is_whitespace c); [destruct (negb st)|]; apply Hstep; auto; try (intros; lia); try discriminate; lia.
Qed.
Lemma C56_prefix line : exists rest, line = getLineWithoutComment line ++ rest /\ no_comment (getLineWithoutComment line).
Proof.
  unfold getLineWithoutComment. set (r := glwc_loop _ _ _ _ _).
  exists (skipn r line). split; [symmetry; apply firstn_skipn|].
  destruct (g_bound line 0 false true (length line) (length line)) as [_ H]; auto. discriminate.
  fold r in H. rewrite Nat.sub_0_r in H. exact H.
Qed.

(** *** First word stripping *)
Lemma strip_bound n s : forall i ws we sp af la, i + length s = n -> af <= i -> af <= la <= n -> (we = false -> la = n) ->
  let r := strip_loop n s i ws we sp af la in fst r <= snd r <= n.
Proof.
  induction s as [|c s IH]; intros i ws we sp af la Hn Haf Hla Hwe; cbn [length] in Hn; cbn [strip_loop].
  - cbn. lia.
  - assert (Hs : forall ws we sp af la, af <= S i -> af <= la <= n -> (we = false -> la = n) ->
      let r := strip_loop n s (S i) ws we sp af la in fst r <= snd r <= n).
    { intros. apply IH; auto; lia. }
    destruct (ceq c ";" || ceq c "#").
    + destruct (match s with [] => true | d :: _ => ceq d SP || ceq d TAB end).
      * cbn. destruct (negb sp); lia.
      * apply Hs; auto.
    + destruct (negb ws && (in_range "a" "z" c || in_range "A" "Z" c)); [apply Hs; auto|].
      destruct (ws && negb we && is_whitespace c) eqn:E1.
      * apply andb_true_iff in E1 as [E1 _]. apply andb_true_iff in E1 as [_ E1]. apply negb_true_iff in E1.
        specialize (Hwe E1). apply Hs; [lia|lia|discriminate].
      * destruct we.
        -- destruct sp; [destruct (negb (is_whitespace c))|destruct (is_whitespace c)]; apply Hs; try lia; try discriminate.
        -- apply Hs; auto.
Qed.

Lemma C57_lemma line : exists pre post, line = pre ++ getLineWithoutCommentAndStripFirstWord line ++ post /\
  strip_offsets line = (length pre, length (pre ++ getLineWithoutCommentAndStripFirstWord line)).
Proof.
  unfold getLineWithoutCommentAndStripFirstWord, strip_offsets.
  pose proof (strip_bound (length line) line 0 false false false 0 (length line)) as H. cbv zeta in H.
  destruct (strip_loop _ _ _ _ _ _ _ _) as [a b]. cbn [fst snd] in H.
  specialize (H eq_refl ltac:(lia) ltac:(lia) ltac:(reflexivity)).
  exists (firstn a line), (skipn b line). split.
  - rewrite firstn_skipn_slice. replace (a + (b - a)) with b by lia.
    rewrite app_assoc. rewrite <- (firstn_skipn b line) at 1. f_equal.
    rewrite <- (firstn_skipn a (firstn b line)) at 1. f_equal.
    rewrite firstn_firstn. f_equal. lia.
  - rewrite app_length, !firstn_length, skipn_length. f_equal; lia.
Qed.

(** *** Exact result on ordinary lines *)
Definition letter (c : char) : bool := in_range "a" "z" c || in_range "A" "Z" c.
(** No letter, white space allowed: what may precede the first word. *)
Definition no_letter (s : str) : Prop := Forall (fun c => letter c = false) s.
(** The end of the line, or a comment: a comment character at the end of the
    line or before white space. *)
Definition ends_here (t : str) : Prop :=
  match t with
  | [] => True
  | c :: t' => comment_char c = true /\ match t' with [] => True | d :: _ => is_whitespace d = true end
  end.

Lemma s_pre n s : no_comment s -> no_letter s -> forall t i sp af la,
  strip_loop n (s ++ t) i false false sp af la = strip_loop n t (i + length s) false false sp af la.
Proof.
  induction s as [|c s IH]; intros Hn Hl t i sp af la; cbn [app length]; [now rewrite Nat.add_0_r|].
  inversion Hn as [|? ? Hc Hn']; subst. inversion Hl as [|? ? Hc' Hl']; subst.
  cbn [strip_loop]. fold (comment_char c) (letter c). rewrite Hc, Hc'. cbn [negb andb].
  rewrite IH by assumption. f_equal. lia.
Qed.
Lemma s_word n s : Forall (fun c => is_whitespace c = false) s -> no_comment s -> forall t i sp af la,
  strip_loop n (s ++ t) i true false sp af la = strip_loop n t (i + length s) true false sp af la.
Proof.
  induction 1 as [|c s Hw Hs IH]; intros Hn t i sp af la; cbn [app length]; [now rewrite Nat.add_0_r|].
  inversion Hn as [|? ? Hc Hn']; subst.
  cbn [strip_loop]. fold (comment_char c). rewrite Hc, Hw. cbn [negb andb].
  rewrite IH by assumption. f_equal. lia.
Qed.
Lemma s_blank n s : blank s -> forall t i af la,
  strip_loop n (s ++ t) i true true true af la = strip_loop n t (i + length s) true true true af la.
Proof.
  induction 1 as [|c s Hc Hs IH]; intros t i af la; cbn [app length]; [now rewrite Nat.add_0_r|].
  cbn [strip_loop]. fold (comment_char c). rewrite (ws_not_comment _ Hc), Hc. cbn [negb andb].
  rewrite IH. f_equal. lia.
Qed.
(** Any text without comment characters, ending in a character that is not white space. *)
Lemma s_body n s : no_comment s -> forall t i sp af la, exists sp' la',
  strip_loop n (s ++ t) i true true sp af la = strip_loop n t (i + length s) true true sp' af la' /\
  (sp = false -> la = n -> sp' = false -> la' = n) /\ (sp' = false -> la = n \/ sp = true -> la' = n).
Proof.
  induction s as [|c s IH]; intros Hn t i sp af la; cbn [app length].
  - exists sp, la. rewrite Nat.add_0_r. split; [reflexivity|]. split; [auto|]. intros -> [H|H]; [exact H|discriminate].
  - inversion Hn as [|? ? Hc Hn']; subst. cbn [strip_loop]. fold (comment_char c). rewrite Hc. cbn [negb andb].
    assert (Hs : forall sp1 la1, exists sp' la',
      strip_loop n (s ++ t) (S i) true true sp1 af la1 = strip_loop n t (i + S (length s)) true true sp' af la' /\
      (sp' = false -> la1 = n \/ sp1 = true -> la' = n)).
    { intros sp1 la1. destruct (IH Hn' t (S i) sp1 af la1) as (sp' & la' & E & _ & H).
      exists sp', la'. split; [rewrite E; f_equal; lia|exact H]. }
    destruct sp.
    + destruct (negb (is_whitespace c)).
      * destruct (Hs false n) as (sp' & la' & E & H). exists sp', la'. split; [exact E|]. split; auto.
      * destruct (Hs true la) as (sp' & la' & E & H). exists sp', la'. split; [exact E|]. split; auto.
    + destruct (is_whitespace c).
      * destruct (Hs true i) as (sp' & la' & E & H). exists sp', la'. split; [exact E|]. split; auto.
      * destruct (Hs false la) as (sp' & la' & E & H). exists sp', la'. split; [exact E|]. split; auto.
Qed.
Lemma s_end n t i af la sp : ends_here t -> strip_loop n t i true true sp af la =
  (af, match t with [] => la | _ => if negb sp then i else la end).
Proof.
  destruct t as [|c t]; [reflexivity|]. intros [Hc Ht]. cbn [strip_loop]. fold (comment_char c). rewrite Hc.
  destruct t as [|d t]; [reflexivity|]. change (ceq d SP || ceq d TAB) with (is_whitespace d). now rewrite Ht.
Qed.

(** indentation, first word, a white space character, operands, white space, comment *)
Lemma C57_exact pre w sp body c g t :
  no_comment pre -> no_letter pre ->
  match w with [] => False | d :: _ => letter d = true end -> word w -> no_comment w ->
  is_whitespace sp = true -> no_comment (body ++ [c]) -> is_whitespace c = false -> blank g -> ends_here t ->
  strip_offsets (pre ++ w ++ sp :: body ++ [c] ++ g ++ t) =
  (length (pre ++ w), length (pre ++ w ++ sp :: body ++ [c])).
Proof.
  intros Hp1 Hp2 Hw1 [Hw2 Hw3] Hw4 Hsp Hb Hc Hg Ht. unfold strip_offsets. set (n := length (pre ++ _)).
  rewrite s_pre by assumption.
  destruct w as [|d w]; [destruct Hw1|]. inversion Hw3 as [|? ? Hd1 Hw5]; subst. inversion Hw4 as [|? ? Hd2 Hw6]; subst.
  cbn [app strip_loop]. fold (comment_char d) (letter d). rewrite Hd2, Hw1. cbn [negb andb].
  rewrite s_word by assumption.
  cbn [strip_loop]. fold (comment_char sp). rewrite (ws_not_comment _ Hsp), Hsp.
  assert (Hl : letter sp = false).
  { unfold is_whitespace in Hsp. apply orb_true_iff in Hsp as [H|H]; apply ceq_true in H; subst; reflexivity. }
  cbn [negb andb].
  apply no_comment_app in Hb as [Hb1 Hb2]. inversion Hb2 as [|? ? Hc2 _]; subst.
  change ([c] ++ g ++ t) with (c :: g ++ t).
  match goal with |- strip_loop n (body ++ c :: g ++ t) ?X true true false ?Y n = _ =>
    set (af := Y) end.
  assert (Haf0 : af = @length ascii pre + S (@length ascii w)) by (unfold af; now rewrite Nat.add_succ_r).
  clearbody af.
  destruct (s_body n body Hb1 (c :: g ++ t) (S af) false af n) as (sp' & la' & E & _ & Hla).
  rewrite E. clear E. cbn [app strip_loop]. fold (comment_char c). rewrite Hc2, Hc. cbn [negb andb].
  set (j := S af + length body).
  replace (if sp' then strip_loop n (g ++ t) (S j) true true false af n
           else strip_loop n (g ++ t) (S j) true true sp' af la') with (strip_loop n (g ++ t) (S j) true true false af n)
    by (destruct sp'; [reflexivity|]; now rewrite Hla by auto).
  clear Hla Hp1 Hp2 Hw1 Hw2 Hw3 Hw4 Hsp Hb1 Hb2 Hc Hd1 Hw5 Hd2 Hw6 Hl Hc2.
  assert (Hn : n = S j + length g + length t).
  { unfold n, j. repeat (rewrite app_length; cbn [length app]). unfold char in *. lia. }
  assert (Haf : af = length (pre ++ d :: w)) by (rewrite app_length; exact Haf0).
  assert (Hj : S j = length (pre ++ d :: w ++ sp :: body ++ [c])).
  { unfold j. repeat (rewrite app_length; cbn [length app]). unfold char in *. lia. }
  rewrite <- Haf, <- Hj.
  destruct g as [|x g].
  - cbn [app]. rewrite s_end by assumption. cbn [negb]. destruct t; [|reflexivity].
    cbn [length] in Hn. f_equal. lia.
  - inversion Hg as [|? ? Hx Hg']; subst. cbn [app strip_loop]. fold (comment_char x).
    rewrite (ws_not_comment _ Hx), Hx. cbn [negb andb]. rewrite s_blank by assumption. rewrite s_end by assumption.
    cbn [negb]. destruct t; reflexivity.
Qed.
Lemma C57_result pre w sp body c g t :
  no_comment pre -> no_letter pre ->
  match w with [] => False | d :: _ => letter d = true end -> word w -> no_comment w ->
  is_whitespace sp = true -> no_comment (body ++ [c]) -> is_whitespace c = false -> blank g -> ends_here t ->
  getLineWithoutCommentAndStripFirstWord (pre ++ w ++ sp :: body ++ [c] ++ g ++ t) = sp :: body ++ [c].
Proof.
  intros. unfold getLineWithoutCommentAndStripFirstWord. rewrite C57_exact by assumption.
  replace (pre ++ w ++ sp :: body ++ [c] ++ g ++ t) with ((pre ++ w) ++ (sp :: body ++ [c]) ++ g ++ t)
    by (rewrite <- !app_assoc; cbn; rewrite <- !app_assoc; reflexivity).
  rewrite skipn_len_app. apply firstn_app_pre. rewrite app_assoc, app_length with (l := pre ++ w). lia.
Qed.
