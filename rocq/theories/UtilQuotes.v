(** C55: quoted strings survive squashing. *)
From Verif Require Export UtilSquash RegexRun.
Local Open Scope nat_scope.

(** The inside of a quoted string: no bare quote, a backslash takes the next
    character with it. *)
Inductive qbody : str -> Prop :=
| qb_nil : qbody []
| qb_char : forall c b, c <> DQ -> c <> BSL -> qbody b -> qbody (c :: b)
| qb_esc : forall c b, qbody b -> qbody (BSL :: c :: b).
Definition quoted (q : str) : Prop := exists b, qbody b /\ q = DQ :: b ++ [DQ].

(** A line cut at its quoted strings, leftmost first: pieces of other text each
    followed by a quoted string, and the text after the last one. *)
Inductive quote_split : str -> list (str * str) -> str -> Prop :=
| qs_none : forall line, (forall a q b, line = a ++ q ++ b -> ~ quoted q) -> quote_split line [] line
| qs_some : forall p q r l last, quoted q ->
    (forall a q' b, p ++ q ++ r = a ++ q' ++ b -> length a < length p -> ~ quoted q') ->
    quote_split r l last -> quote_split (p ++ q ++ r) ((p, q) :: l) last.

Definition q_star : re := Star true (Alt (Cls (fun c => negb (ceq c DQ) && negb (ceq c BSL))) (Seq (Chr BSL) AnyChar)).
Definition q_re : re := Seqs [Chr DQ; q_star; Chr DQ].

Lemma q_star_den pre u post : den q_star pre u post <-> qbody u.
Proof.
  split.
  - unfold q_star. intros H. remember (Star true _) as r eqn:E. revert E.
    induction H; intros E; try discriminate; [constructor|].
    injection E as -> ->. specialize (IHden2 eq_refl). apply den_alt_iff in H as [H|H].
    + apply den_cls_iff in H as (c & -> & Hc). apply andb_true_iff in Hc as [H1 H2].
      apply negb_true_iff, ceq_false in H1. apply negb_true_iff, ceq_false in H2. now constructor.
    + apply den_seq_iff in H as (x & y & -> & Hx & Hy). apply den_chr_iff in Hx. apply den_any_iff in Hy as (c & ->).
      subst. now constructor.
  - intros H. revert pre. induction H; intros pre; [constructor| |].
    + change (c :: b) with ([c] ++ b). apply den_star_cons; [|apply IHqbody].
      apply den_alt_l. constructor. apply andb_true_iff. split; apply negb_true_iff; now apply ceq_false.
    + change (BSL :: c :: b) with (([BSL] ++ [c]) ++ b). apply den_star_cons; [|apply IHqbody].
      apply den_alt_r. apply den_seq; [now apply den_chr_iff|apply den_any_iff; eauto].
Qed.
Lemma q_re_den pre u post : den q_re pre u post <-> quoted u.
Proof.
  unfold q_re. cbn [Seqs]. split.
  - intros H. apply den_seq_iff in H as (x & y & -> & Hx & Hy). apply den_chr_iff in Hx.
    apply den_seq_iff in Hy as (z & w & -> & Hz & Hw). apply q_star_den in Hz. apply den_chr_iff in Hw. subst.
    exists z. auto.
  - intros (b & Hb & ->). change (DQ :: b ++ [DQ]) with ([DQ] ++ b ++ [DQ]).
    apply den_seq; [now apply den_chr_iff|]. apply den_seq; [now apply q_star_den|now apply den_chr_iff].
Qed.

Lemma search_quotes_none line : re_search findQuotes line = None -> forall a q b, line = a ++ q ++ b -> ~ quoted q.
Proof.
  intros H a q b -> Hq.
  assert (E : is_some (re_search findQuotes (a ++ q ++ b)) = true); [|rewrite H in E; discriminate].
  apply re_search_den. exists [], (a ++ q ++ b), []. rewrite app_nil_r. split; [reflexivity|].
  unfold findQuotes. cbn [Seqs]. apply den_seq; [apply den_grp; apply den_star_cls_iff; now apply Forall_forall|].
  apply den_seq; [|apply den_grp, den_anystar_iff; exact I].
  apply den_grp. apply q_re_den. exact Hq.
Qed.

Lemma search_quotes_nil : re_search findQuotes [] = None.
Proof. reflexivity. Qed.

Lemma search_quotes_some line st : re_search findQuotes line = Some st ->
  line = cap 1 st ++ cap 2 st ++ cap 3 st /\ quoted (cap 2 st) /\
  forall a q b, line = a ++ q ++ b -> length a < length (cap 1 st) -> ~ quoted q.
Proof.
  intros H. destruct (re_search_some findQuotes line st H) as (a0 & u & Hs & Hp & Hd & (lr & Hm) & Hleft).
  (* a match anywhere gives one at the very start *)
  assert (Ha0 : a0 = []).
  { destruct a0 as [|c a0]; [reflexivity|]. exfalso. apply (Hleft [] ((c :: a0) ++ u) (m_rest st)).
    - rewrite app_nil_l, <- app_assoc. exact Hs.
    - cbn. lia.
    - unfold findQuotes in Hd |- *. cbn [Seqs] in Hd |- *.
      apply den_seq_iff in Hd as (x & y & -> & _ & Hy). rewrite app_assoc.
      apply den_seq.
      + apply den_grp, den_star_cls_iff. now apply Forall_forall.
      + exact Hy. }
  subst a0. cbn [app length] in *.
  rewrite <- Hs in Hm. clear Hleft Hd Hp.
  unfold findQuotes in Hm. cbn [Seqs] in Hm.
  change (flat_map (m (Seq (Grp 2 q_re) (Grp 3 AnyStar))) (m (Grp 1 (Star false AnyChar)) (mkM 0 line [])) = st :: lr) in Hm.
  apply flat_map_head in Hm as (l1 & mid1 & l2 & r1 & Hl & Hbefore & Hm).
  change (flat_map (m (Grp 3 AnyStar)) (m (Grp 2 q_re) mid1) = st :: r1) in Hm.
  apply flat_map_head in Hm as (l3 & mid2 & l4 & r2 & Hl' & _ & Hm).
  assert (Hmid2 : In mid2 (m (Grp 2 q_re) mid1)) by (rewrite Hl'; apply in_elt).
  change (map (close_group 1 (mkM 0 line [])) (m (Star false AnyChar) (mkM 0 line [])) = l1 ++ mid1 :: l2) in Hl.
  unfold AnyChar in Hl. rewrite m_star_cls in Hl. cbv zeta in Hl.
  rewrite map_map in Hl.
  (* the shortest prefix *)
  apply map_eq_app in Hl as (s1 & s2 & Hseq & Hl1 & Hl2).
  apply map_eq_cons in Hl2 as (k & s3 & -> & Hmid1 & _).
  assert (Hk : s1 = seq 0 k /\ k <= length line).
  { assert (Hrun : span (fun _ => true) (m_rest (mkM 0 line [])) = length line)
      by (apply span_all; now apply Forall_forall).
    rewrite Hrun in Hseq. clear -Hseq.
    assert (Hk : length s1 = k).
    { apply (f_equal (fun l => nth_error l (length s1))) in Hseq.
      rewrite nth_error_app2, Nat.sub_diag in Hseq by lia. change (nth_error (k :: s3) 0) with (Some k) in Hseq.
      pose proof (nth_error_Some (seq 0 (S (length line))) (length s1)) as [Hx _].
      rewrite Hseq in Hx. specialize (Hx ltac:(discriminate)). rewrite seq_length in Hx.
      apply nth_error_nth with (d := 0) in Hseq. rewrite seq_nth in Hseq by exact Hx. lia. }
    assert (Hlen : length s1 < S (length line)).
    { apply (f_equal (@length _)) in Hseq. rewrite seq_length, app_length in Hseq. cbn in Hseq. lia. }
    subst k. split; [|lia].
    apply (f_equal (firstn (length s1))) in Hseq. rewrite firstn_len_app in Hseq. rewrite <- Hseq at 1.
    replace (S (length line)) with (length s1 + (S (length line) - length s1)) by lia.
    rewrite seq_app. rewrite firstn_app_le by (rewrite seq_length; lia).
    rewrite firstn_all2 by (rewrite seq_length; lia). reflexivity. }
  destruct Hk as [-> Hk].
  subst mid1. change (map (close_group 2 ?s) (m q_re ?s)) with (m (Grp 2 q_re) s) in Hmid2.
  set (mid1 := close_group 1 _ _) in *.
  assert (Hmid1p : m_pos mid1 = k) by reflexivity.
  assert (Hmid1r : m_rest mid1 = skipn k line) by reflexivity.
  assert (Hmid1c : m_caps mid1 = [(1, (0, firstn k line))])
    by (unfold mid1, close_group, advance; cbn; now rewrite Nat.sub_0_r).
  clearbody mid1.
  (* the quoted string *)
  change (In mid2 (map (close_group 2 mid1) (m q_re mid1))) in Hmid2.
  apply in_map_iff in Hmid2 as (mid2' & <- & Hmid2).
  destruct (m_sound q_re mid1 mid2' (firstn k line)) as (q & [Hq1 Hq2] & Hq);
    [rewrite firstn_length; lia|exact Hmid2|]. apply q_re_den in Hq.
  assert (Hmid2c : m_caps mid2' = m_caps mid1).
  { destruct (m_caps_sound q_re mid1 mid2' (firstn k line)) as (new & E & F); [rewrite firstn_length; lia|exact Hmid2|].
    destruct new as [|e new]; [exact E|]. exfalso. inversion F as [|? ? (aa & pp & qq & Hin & _) _]; subst. destruct Hin. }
  (* the rest *)
  change (map (close_group 3 (close_group 2 mid1 mid2')) (m AnyStar (close_group 2 mid1 mid2')) = st :: r2) in Hm.
  unfold AnyStar, AnyChar in Hm.
  destruct (m_star_greedy (fun _ => true) (close_group 2 mid1 mid2')) as (ls & Hls & _). rewrite Hls in Hm.
  cbn [map] in Hm. injection Hm as Hst _.
  assert (Hr3 : span (fun _ => true) (m_rest (close_group 2 mid1 mid2')) = length (m_rest mid2'))
    by (apply span_all; now apply Forall_forall).
  change (m_rest mid2') with (m_rest (close_group 2 mid1 mid2')) in Hr3.
  set (n3 := span _ _) in Hst. assert (Hn3 : n3 = length (m_rest mid2')) by exact Hr3. clearbody n3. subst n3.
  assert (Hc1 : cap 1 st = firstn k line).
  { rewrite <- Hst. unfold cap, get_group. cbn. rewrite Hmid2c, Hmid1c. reflexivity. }
  assert (Hc2 : cap 2 st = q).
  { rewrite <- Hst. unfold cap, get_group. cbn. rewrite Hq1.
    replace (m_pos mid2' - m_pos mid1) with (length q) by lia. apply firstn_len_app. }
  assert (Hc3 : cap 3 st = m_rest mid2').
  { rewrite <- Hst. unfold cap, get_group. cbn.
    replace (m_pos mid2' + length (m_rest mid2') - m_pos mid2') with (length (m_rest mid2')) by lia. apply firstn_all. }
  rewrite Hc1, Hc2, Hc3. split; [rewrite <- Hq1, Hmid1r; symmetry; apply firstn_skipn|]. split; [exact Hq|].
  intros a q' b -> Hla Hq'. rewrite firstn_length in Hla.
  assert (Hin : In (close_group 1 (mkM 0 (a ++ q' ++ b) []) (advance (mkM 0 (a ++ q' ++ b) []) (length a))) l1).
  { rewrite <- Hl1. apply in_map_iff. exists (length a). split; [reflexivity|]. apply in_seq. lia. }
  specialize (Hbefore _ Hin). set (s0 := close_group 1 _ _) in Hbefore.
  destruct (m_complete (Seq (Grp 2 q_re) (Grp 3 AnyStar)) s0 a (q' ++ b) []) as (z & Hz & _).
  - reflexivity.
  - rewrite app_nil_r. unfold s0, close_group, advance. cbn. apply skipn_len_app.
  - apply den_seq; [apply den_grp; now apply q_re_den|apply den_grp; now apply den_anystar_iff].
  - rewrite Hbefore in Hz. destruct Hz.
Qed.

Lemma quoted_len q : quoted q -> 2 <= length q.
Proof. intros (b & _ & ->). cbn. rewrite app_length. cbn. lia. Qed.

Lemma squash_quotes_plain fuel p b : (forall a q c, p = a ++ q ++ c -> ~ quoted q) ->
  squash_quotes fuel p b = squashHorizontalWhitespace p true.
Proof.
  intros H. destruct fuel; [reflexivity|]. cbn [squash_quotes]. destruct (re_search findQuotes p) as [st|] eqn:E; [|reflexivity].
  exfalso. apply search_quotes_some in E as (Hs & Hq & _). exact (H _ _ _ Hs Hq).
Qed.

Lemma squash_quotes_split fuel : forall line b, length line <= fuel ->
  exists l last, quote_split line l last /\
    squash_quotes fuel line b =
    List.concat (map (fun p => squashHorizontalWhitespace (fst p) true ++ snd p) l) ++ squashHorizontalWhitespace last true.
Proof.
  induction fuel as [|k IH]; intros line b Hl.
  - destruct line; [|cbn in Hl; lia]. exists [], []. split; [|reflexivity].
    constructor. intros a q c E Hq. apply quoted_len in Hq. apply (f_equal (@length _)) in E.
    rewrite !app_length in E. cbn in E. lia.
  - cbn [squash_quotes]. destruct (re_search findQuotes line) as [st|] eqn:E.
    + destruct (search_quotes_some line st E) as (Hs & Hq & Hleft).
      pose proof (quoted_len _ Hq) as Hql.
      assert (Hlen : length (cap 3 st) <= k).
      { rewrite Hs in Hl. rewrite !app_length in Hl. lia. }
      destruct (IH (cap 3 st) false Hlen) as (l & last & Hsp & Hr).
      exists ((cap 1 st, cap 2 st) :: l), last. split.
      * rewrite Hs. constructor; [exact Hq| |exact Hsp]. rewrite <- Hs. exact Hleft.
      * rewrite Hr. rewrite squash_quotes_plain.
        -- cbn [map List.concat fst snd]. rewrite <- !app_assoc. reflexivity.
        -- intros a q c Hc Hq'. apply (Hleft a q (c ++ cap 2 st ++ cap 3 st)); [|rewrite Hc, !app_length|exact Hq'].
           ++ rewrite Hs, Hc, <- !app_assoc. reflexivity.
           ++ apply quoted_len in Hq'. lia.
    + exists [], line. split; [constructor; now apply search_quotes_none|reflexivity].
Qed.

Lemma C55_lemma line b : exists l last, quote_split line l last /\
  squashHorizontalWhitespaceWithQuotes line b =
  List.concat (map (fun p => squashHorizontalWhitespace (fst p) true ++ snd p) l) ++ squashHorizontalWhitespace last true.
Proof. apply squash_quotes_split. lia. Qed.

Lemma app_inj_len {A} (a : list A) : forall b c d, a ++ b = c ++ d -> length a = length c -> a = c /\ b = d.
Proof.
  induction a as [|x a IH]; intros b [|y c] d E Hl; cbn in *; try discriminate; [auto|].
  injection E as -> E. destruct (IH b c d E) as [-> ->]; [lia|auto].
Qed.

(** The cut is unique. *)
Lemma qbody_unique b : qbody b -> forall b' r r', qbody b' -> b ++ DQ :: r = b' ++ DQ :: r' -> b = b'.
Proof.
  induction 1 as [|c b Hc1 Hc2 Hb IH|c b Hb IH]; intros b' r r' Hb' E; destruct Hb' as [|c' b' H1' H2' Hb'|c' b' Hb'];
    cbn in E; try reflexivity; try (injection E; congruence).
  - injection E as -> E. f_equal. eauto.
  - injection E as -> E. f_equal. f_equal. eauto.
Qed.
Lemma quote_split_unique line l last : quote_split line l last -> forall l' last', quote_split line l' last' -> l = l' /\ last = last'.
Proof.
  induction 1 as [line Hno|p q r l last Hq Hleft Hr IH]; intros l' last' H'.
  - inversion H' as [|p' q' r' l'' last'' Hq' _ _ E]; subst; [auto|]. exfalso. eapply Hno; [reflexivity|exact Hq'].
  - inversion H' as [line' Hno E|p' q' r' l'' last'' Hq' Hleft' Hr' E]; subst.
    + exfalso. eapply Hno; [reflexivity|exact Hq].
    + assert (Hlen : length p = length p').
      { destruct (Nat.lt_trichotomy (length p) (length p')) as [H|[H|H]]; [|exact H|].
        - exfalso. apply (Hleft' p q r); [exact E|exact H|exact Hq].
        - exfalso. apply (Hleft p' q' r'); [symmetry; exact E|exact H|exact Hq']. }
      apply app_inj_len in E as [-> E]; [|now symmetry].
      destruct Hq as (b & Hb & ->), Hq' as (b' & Hb' & ->). cbn in E. injection E as E.
      rewrite <- !app_assoc in E. cbn in E.
      assert (b' = b) by (eapply qbody_unique; eassumption). subst b'. apply app_inv_head in E. injection E as ->.
      destruct (IH _ _ Hr') as [-> ->]. auto.
Qed.
