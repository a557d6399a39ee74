(** C58, C59: labels used in a line. *)
From Verif Require Export RegexRun UtilComment ObjRefs.
Local Open Scope nat_scope.

Definition tok_start (c : char) : bool := ceq c "." || ceq c "@" || ceq c "_" || is_alpha c.
Definition tok_char (c : char) : bool := ceq c "." || ceq c "_" || is_alpha c || is_digit c.
Definition sigil (c : char) : bool := ceq c "$" || ceq c "%".

(** The sigil directly before a token. *)
Definition sigil_of (gap : list ascii) : str :=
  match rev gap with c :: _ => if sigil c then [c] else [] | [] => [] end.

(** [tokens off s l]: [l] lists the identifier-like tokens of [s] from left to
    right, each with its sigil and its offset ([off] is the offset of [s]). *)
Inductive tokens : nat -> str -> list (str * nat * str) -> Prop :=
| tk_nil : forall off s, Forall (fun c => tok_start c = false) s -> tokens off s []
| tk_cons : forall off (gap : list ascii) (c : ascii) (name rest : list ascii) l,
    Forall (fun c => tok_start c = false) gap -> tok_start c = true ->
    Forall (fun c => tok_char c = true) name ->
    match rest with [] => True | d :: _ => tok_char d = false end ->
    tokens (off + length gap + S (length name)) rest l ->
    tokens off (gap ++ (c :: name) ++ rest) ((sigil_of gap, off + length gap, c :: name) :: l).

(** What is reported for a token: the name with its columns, and once more with its sigil. *)
Definition token_labels (mblen : str -> Z) (diff : Z) (tk : str * nat * str) : list asm_label :=
  let '(sg, off, name) := tk in
  let a := u16 (Z.of_nat off + diff) in
  let b := u16 (Z.of_nat off + diff + ustrlen mblen name) in
  mkLabel name (mkRange a b) ::
  match sg with [] => [] | _ => [mkLabel (sg ++ name) (mkRange (u16 (a - 1)) b)] end.

Lemma tok_start_eq c : (idstart c || ceq c "@")%bool = tok_start c.
Proof.
  unfold idstart, tok_start, one_of. cbn [lit list_ascii_of_string existsb].
  destruct (ceq c "."), (ceq c "@"), (ceq c "_"), (is_alpha c); reflexivity.
Qed.
Lemma tok_char_eq c : (ceq c "." || is_word c)%bool = tok_char c.
Proof.
  unfold tok_char, is_word. destruct (ceq c "."), (ceq c "_"), (is_alpha c), (is_digit c); reflexivity.
Qed.
Lemma sigil_eq c : one_of "$%" c = sigil c.
Proof. unfold one_of, sigil. cbn [lit list_ascii_of_string existsb]. now rewrite orb_false_r. Qed.
Lemma sigil_not_start c : sigil c = true -> tok_start c = false.
Proof. unfold sigil. rewrite orb_true_iff, !ceq_true. intros [->| ->]; reflexivity. Qed.

Lemma take_while_ext {A} (p q : A -> bool) s : (forall c, p c = q c) -> take_while p s = take_while q s.
Proof. intros H. induction s as [|c s IH]; cbn; [reflexivity|]. now rewrite H, IH. Qed.
Lemma span_ext p q s : (forall c, p c = q c) -> span p s = span q s.
Proof. intros H. unfold span. now rewrite (take_while_ext p q). Qed.

Definition g2 : re := Grp 2 (Seq (Cls (fun c => idstart c || ceq c "@")) (Star true (Cls (fun c => ceq c "." || is_word c)))).

Lemma g2_none st : match m_rest st with [] => True | c :: _ => tok_start c = false end -> m g2 st = [].
Proof.
  intros H. unfold g2. cbn [m]. destruct (m_rest st) as [|c t]; [reflexivity|].
  rewrite tok_start_eq, H. reflexivity.
Qed.
Lemma g2_some st (c : ascii) (t : list ascii) : m_rest st = c :: t -> tok_start c = true ->
  exists l, m g2 st = mkM (m_pos st + S (span tok_char t)) (skipn (span tok_char t) t)
                        ((2, (m_pos st, c :: firstn (span tok_char t) t)) :: m_caps st) :: l.
Proof.
  intros Hr Hc. unfold g2.
  change (m (Grp 2 ?r) st) with (map (close_group 2 st) (m r st)).
  change (m (Seq ?a ?b) st) with (flat_map (m b) (m a st)).
  cbn [m]. rewrite Hr, tok_start_eq, Hc. cbn [flat_map m_rest]. rewrite app_nil_r.
  destruct (m_star_greedy (fun c => ceq c "." || is_word c)%bool (mkM (S (m_pos st)) t (m_caps st))) as (l & E & _).
  cbn [m m_rest] in E. rewrite E. cbn [map]. eexists. f_equal.
  rewrite (span_ext _ tok_char) by apply tok_char_eq.
  unfold close_group, advance. cbn [m_pos m_rest m_caps]. rewrite Hr.
  f_equal; [lia|]. f_equal. f_equal. f_equal.
  replace (S (m_pos st) + span tok_char t - m_pos st) with (S (span tok_char t)) by lia. reflexivity.
Qed.

Lemma used_at st : m usedLabelRe st = flat_map (m g2) (map (close_group 1 st) (m (Cls (one_of "$%")) st ++ [st])).
Proof. reflexivity. Qed.

(** What the pattern does at one place. *)
Lemma used_none pos (s : list ascii) : match s with
   | [] => True
   | c :: t => tok_start c = false /\ (sigil c = true -> match t with [] => True | d :: _ => tok_start d = false end)
   end -> m usedLabelRe (mkM pos s []) = [].
Proof.
  intros H. rewrite used_at. destruct s as [|c t]; [reflexivity|]. destruct H as [H1 H2].
  cbn [m m_rest m_pos m_caps]. rewrite sigil_eq. destruct (sigil c) eqn:E.
  - cbn [app map flat_map]. rewrite g2_none by exact (H2 eq_refl). rewrite g2_none by exact H1. reflexivity.
  - cbn [app map flat_map]. rewrite g2_none; [reflexivity|exact H1].
Qed.
Lemma used_start pos (c : ascii) (t : list ascii) : tok_start c = true ->
  exists l, m usedLabelRe (mkM pos (c :: t) []) =
    mkM (pos + S (span tok_char t)) (skipn (span tok_char t) t)
        [(2, (pos, c :: firstn (span tok_char t) t)); (1, (pos, []))] :: l.
Proof.
  intros Hc. rewrite used_at. cbn [m m_rest m_pos m_caps]. rewrite sigil_eq.
  destruct (sigil c) eqn:E; [apply sigil_not_start in E; congruence|]. cbn [app map flat_map].
  destruct (g2_some (close_group 1 (mkM pos (c :: t) []) (mkM pos (c :: t) [])) c t eq_refl Hc) as (l & El).
  rewrite El. eexists. cbn [app]. f_equal. unfold close_group. cbn [m_pos m_rest m_caps].
  now rewrite Nat.sub_diag.
Qed.
Lemma used_sigil pos (x c : ascii) (t : list ascii) : sigil x = true -> tok_start c = true ->
  exists l, m usedLabelRe (mkM pos (x :: c :: t) []) =
    mkM (S pos + S (span tok_char t)) (skipn (span tok_char t) t)
        [(2, (S pos, c :: firstn (span tok_char t) t)); (1, (pos, [x]))] :: l.
Proof.
  intros Hx Hc. rewrite used_at. cbn [m m_rest m_pos m_caps]. rewrite sigil_eq, Hx. cbn [app map flat_map].
  destruct (g2_some (close_group 1 (mkM pos (x :: c :: t) []) (mkM (S pos) (c :: t) [])) c t eq_refl Hc) as (l & El).
  rewrite El. eexists. cbn [app]. f_equal. unfold close_group. cbn [m_pos m_rest m_caps].
  replace (S pos - pos) with 1 by lia. reflexivity.
Qed.

Lemma sigil_of_cons x gap : gap <> [] -> sigil_of (x :: gap) = sigil_of gap.
Proof.
  intros H. unfold sigil_of. cbn [rev]. destruct (rev gap) as [|y r] eqn:E; [|reflexivity].
  apply (f_equal (@rev _)) in E. rewrite rev_involutive in E. cbn in E. congruence.
Qed.

Lemma search_from_step r pos (c : ascii) (t : list ascii) : search_from r pos (c :: t) =
  match m r (mkM pos (c :: t) []) with st :: _ => Some (pos, st) | [] => search_from r (S pos) t end.
Proof. reflexivity. Qed.

Lemma search_used (s : list ascii) : forall pos,
  match search_from usedLabelRe pos s with
  | None => Forall (fun c => tok_start c = false) s
  | Some (_, st) => exists gap c t, s = gap ++ c :: t /\ Forall (fun c => tok_start c = false) gap /\
      tok_start c = true /\ cap 2 st = c :: firstn (span tok_char t) t /\ cap 1 st = sigil_of gap /\
      m_rest st = skipn (span tok_char t) t /\ m_pos st = pos + length gap + S (span tok_char t)
  end.
Proof.
  induction s as [|x s IH]; intros pos.
  - cbn. constructor.
  - destruct (tok_start x) eqn:Ex.
    + destruct (used_start pos x s Ex) as (l & El). rewrite search_from_step. rewrite El.
      exists [], x, s. cbn [app length]. repeat split; auto. cbn. lia.
    + destruct (sigil x) eqn:Es; [destruct s as [|c t]; [|destruct (tok_start c) eqn:Ec]|].
      * rewrite search_from_step. rewrite (used_none pos [x]) by (split; auto). cbn. constructor; [exact Ex|constructor].
      * destruct (used_sigil pos x c t Es Ec) as (l & El). rewrite search_from_step. rewrite El.
        exists [x], c, t. cbn [app length]. repeat split; auto; [unfold sigil_of; cbn; now rewrite Es|cbn; lia].
      * assert (E0 : m usedLabelRe (mkM pos (x :: c :: t) []) = []) by (apply used_none; auto).
        specialize (IH (S pos)). rewrite search_from_step, E0. destruct (search_from usedLabelRe (S pos) (c :: t)) as [[i st]|].
        -- destruct IH as (gap & c' & t' & E & Hg & Hc & H2 & H1 & Hr & Hp).
           exists (x :: gap), c', t'. rewrite E. repeat split; auto.
           ++ rewrite sigil_of_cons; [exact H1|]. intros ->. cbn in E. injection E as -> _. congruence.
           ++ cbn [length]. lia.
        -- constructor; assumption.
      * assert (E0 : m usedLabelRe (mkM pos (x :: s) []) = []) by (apply used_none; split; [exact Ex|congruence]).
        specialize (IH (S pos)). rewrite search_from_step, E0. destruct (search_from usedLabelRe (S pos) s) as [[i st]|].
        -- destruct IH as (gap & c' & t' & E & Hg & Hc & H2 & H1 & Hr & Hp).
           exists (x :: gap), c', t'. rewrite E. repeat split; auto.
           ++ destruct gap as [|y gap]; [|rewrite sigil_of_cons; [exact H1|discriminate]].
              rewrite H1. unfold sigil_of. cbn. now rewrite Es.
           ++ cbn [length]. lia.
        -- constructor; assumption.
Qed.

Lemma find_from_gap (name gap rest : list ascii) : forall i,
  match name with [] => False | c :: _ => tok_start c = true end ->
  Forall (fun c => tok_start c = false) gap ->
  find_sub_from name (gap ++ name ++ rest) i = Some (i + length gap).
Proof.
  induction gap as [|x gap IH]; intros i Hn Hg.
  - cbn [app length]. rewrite Nat.add_0_r. destruct name as [|c name]; [destruct Hn|].
    cbn [app find_sub_from]. replace (starts_with (c :: name) (c :: name ++ rest)) with true; [reflexivity|].
    symmetry. apply starts_with_spec. now exists rest.
  - inversion Hg as [|? ? Hx Hg']; subst. destruct name as [|c name]; [destruct Hn|].
    cbn [app find_sub_from starts_with]. replace (ceq c x) with false by (symmetry; apply ceq_false; congruence).
    cbn [andb]. change (c :: name ++ rest) with ((c :: name) ++ rest). rewrite IH by assumption. f_equal. cbn. lia.
Qed.
Lemma find_sub_gap (name done gap rest : list ascii) :
  match name with [] => False | c :: _ => tok_start c = true end ->
  Forall (fun c => tok_start c = false) gap ->
  find_sub name (done ++ gap ++ name ++ rest) (Z.of_nat (length done)) = Some (length done + length gap).
Proof.
  intros Hn Hg. unfold find_sub.
  replace (Z.of_nat (length (done ++ gap ++ name ++ rest)) <? Z.of_nat (length done))%Z with false
    by (symmetry; apply Z.ltb_ge; rewrite app_length; lia).
  rewrite Nat2Z.id, skipn_len_app. now apply find_from_gap.
Qed.

Lemma used_loop mb (filtered : list ascii) diff fuel : forall (done s : list ascii) pos,
  filtered = done ++ s -> length s <= fuel -> (Z.of_nat (length filtered) < 2 ^ 64)%Z ->
  exists l, tokens (length done) s l /\
    used_labels_loop mb filtered diff fuel pos s (Z.of_nat (length done)) = flat_map (token_labels mb diff) l.
Proof.
  induction fuel as [|k IH]; intros done s pos Hs Hl Hb.
  - destruct s; [|cbn in Hl; lia]. exists []. split; [constructor; constructor|reflexivity].
  - cbn [used_labels_loop]. pose proof (search_used s pos) as HS.
    destruct (search_from usedLabelRe pos s) as [[i st]|]; [|exists []; split; [now constructor|reflexivity]].
    destruct HS as (gap & c & t & Es & Hg & Hc & H2 & H1 & Hr & Hp).
    set (n := span tok_char t) in *.
    assert (Et : t = firstn n t ++ skipn n t) by (symmetry; apply firstn_skipn).
    rewrite H2, H1, Hr.
    set (name := firstn n t) in *. set (rest := skipn n t) in *.
    assert (Ef : filtered = done ++ gap ++ (c :: name) ++ rest).
    { rewrite Hs, Es. cbn [app]. now rewrite <- Et. }
    assert (Hfind : find_sub (c :: name) filtered (Z.of_nat (length done)) = Some (length done + length gap)).
    { rewrite Ef. apply find_sub_gap; [exact Hc|exact Hg]. }
    rewrite Hfind.
    assert (Hlen : length filtered = length done + length gap + S (length name) + length rest).
    { rewrite Ef, !app_length. cbn [length]. lia. }
    set (done' := done ++ gap ++ c :: name).
    assert (Hidx : wrap_u 64 (Z.of_nat (length done) + (Z.of_nat (length done + length gap) - Z.of_nat (length done)) +
              Z.of_nat (length (c :: name))) = Z.of_nat (length done')).
    { unfold wrap_u, done'. rewrite !app_length. cbn [length]. rewrite Z.mod_small; lia. }
    rewrite Hidx.
    destruct (IH done' rest (m_pos st)) as (l & Htok & El).
    + unfold done'. rewrite Ef, <- !app_assoc. reflexivity.
    + apply (f_equal (@length _)) in Es. rewrite app_length in Es. cbn [length] in Es.
      unfold rest. rewrite skipn_length. lia.
    + exact Hb.
    + exists ((sigil_of gap, length done + length gap, c :: name) :: l). split.
      * rewrite Es. rewrite Et. change (c :: name ++ rest) with ((c :: name) ++ rest). constructor.
        -- exact Hg.
        -- exact Hc.
        -- apply span_prefix.
        -- destruct rest as [|d r] eqn:Er; [exact I|]. exact (span_stop tok_char t d r Er).
        -- unfold done' in Htok. rewrite !app_length in Htok. cbn [length] in Htok.
           rewrite Nat.add_assoc in Htok. exact Htok.
      * rewrite El. cbn [flat_map token_labels lb_range r_start r_end]. unfold token_labels.
        destruct (sigil_of gap) as [|y r]; reflexivity.
Qed.

Lemma C58_lemma mb line : (Z.of_nat (length line) < 2 ^ 64)%Z ->
  let operands := getLineWithoutCommentAndStripFirstWord line in
  (In DQ operands -> getUsedLabelsInLine mb line = []) /\
  (~ In DQ operands -> exists l, tokens 0 operands l /\
     getUsedLabelsInLine mb line =
     flat_map (token_labels mb (Z.of_nat (length line) - Z.of_nat (length operands) + 1)) l).
Proof.
  intros Hb operands. unfold getUsedLabelsInLine. fold operands. split; intros Hq.
  - apply has_char_In in Hq. now rewrite Hq.
  - destruct (has_char DQ operands) eqn:E; [apply has_char_In in E; congruence|].
    apply (used_loop mb operands _ (length operands) [] operands 0); [reflexivity|lia|].
    destruct (C57_lemma line) as (pre & post & El & _). fold operands in El.
    rewrite El, !app_length in Hb. lia.
Qed.

(** The columns, for any line: right of the name's place by what was cut off the end. *)
Lemma tokens_sound off s l : tokens off s l -> forall sg o name, In (sg, o, name) l ->
  exists a b, s = a ++ name ++ b /\ o = off + length a /\ name <> [] /\
    Forall (fun c => tok_start c = true \/ tok_char c = true) name /\
    (sg = [] \/ exists a' x, a = a' ++ [x] /\ sg = [x]).
Proof.
  induction 1 as [|off gap c nm rest l Hg Hc Hn Hr Ht IH]; intros sg o name Hin; [destruct Hin|].
  destruct Hin as [E|Hin].
  - injection E as <- <- <-. exists gap, rest. repeat split; [discriminate| |].
    + constructor; [now left|]. eapply Forall_impl; [|exact Hn]. cbn. auto.
    + unfold sigil_of. destruct (rev gap) as [|x r] eqn:E; [now left|]. destruct (sigil x); [right|now left].
      exists (rev r), x. split; [|reflexivity]. apply (f_equal (@rev _)) in E. now rewrite rev_involutive in E.
  - destruct (IH sg o name Hin) as (a & b & -> & -> & H1 & H2 & H3).
    exists (gap ++ (c :: nm) ++ a), b. repeat split; auto.
    + now rewrite <- !app_assoc.
    + rewrite !app_length. cbn [length]. lia.
    + destruct H3 as [H3|(a' & x & -> & ->)]; [now left|right]. exists (gap ++ (c :: nm) ++ a'), x.
      now rewrite <- !app_assoc.
Qed.

Lemma tok_ascii c : tok_start c = true \/ tok_char c = true -> (0 < code c < 128)%Z.
Proof.
  assert (HA : is_alpha c = true -> (0 < code c < 128)%Z).
  { unfold is_alpha, is_lower, is_upper, in_range. intros H.
    change (code "a") with 97%Z in H. change (code "z") with 122%Z in H.
    change (code "A") with 65%Z in H. change (code "Z") with 90%Z in H. lia. }
  assert (HD : is_digit c = true -> (0 < code c < 128)%Z).
  { unfold is_digit, in_range. change (code "0") with 48%Z. change (code "9") with 57%Z. lia. }
  assert (HC : forall d, ceq c d = true -> (0 < code d < 128)%Z -> (0 < code c < 128)%Z).
  { intros d H. apply ceq_true in H. now subst. }
  unfold tok_start, tok_char. rewrite !orb_true_iff.
  intros [[[[H|H]|H]|H]|[[[H|H]|H]|H]]; auto;
    first [apply (HC "."%char H); cbv; split; reflexivity | apply (HC "@"%char H); cbv; split; reflexivity
          |apply (HC "_"%char H); cbv; split; reflexivity].
Qed.

(** The text between 1-based columns a (inclusive) and b (exclusive). *)
Definition columns (line : str) (a b : Z) : str := firstn (Z.to_nat b - Z.to_nat a) (skipn (Z.to_nat a - 1) line).

Lemma C58_columns mb line pre operands post lbl :
  ascii_compatible mb -> (Z.of_nat (length line) < 65535)%Z ->
  line = pre ++ operands ++ post -> operands = getLineWithoutCommentAndStripFirstWord line ->
  In lbl (getUsedLabelsInLine mb line) ->
  exists a b, operands = a ++ lb_name lbl ++ b /\
    r_start (lb_range lbl) = (Z.of_nat (length (pre ++ a) + length post) + 1)%Z /\
    r_end (lb_range lbl) = (Z.of_nat (length (pre ++ a ++ lb_name lbl) + length post) + 1)%Z.
Proof.
  intros Hmb Hlen Hline Hop Hin.
  destruct (C58_lemma mb line) as [Hq1 Hq2]; [lia|]. rewrite <- Hop in Hq1, Hq2.
  destruct (in_dec ascii_dec DQ operands) as [Hd|Hd]; [rewrite Hq1 in Hin by exact Hd; destruct Hin|].
  destruct (Hq2 Hd) as (l & Htok & El). rewrite El in Hin. apply in_flat_map in Hin as ([[sg o] name] & Hl & Hin).
  destruct (tokens_sound _ _ _ Htok _ _ _ Hl) as (a & b & Hop' & Ho & Hne & Hascii & Hsg).
  assert (Hu : ustrlen mb name = Z.of_nat (length name)).
  { apply ustrlen_ascii; [exact Hmb|]. eapply Forall_impl; [|exact Hascii]. apply tok_ascii. }
  assert (HL : Z.of_nat (length line) = (Z.of_nat (length pre) + Z.of_nat (length operands) + Z.of_nat (length post))%Z).
  { rewrite Hline, !app_length. lia. }
  assert (HO : length operands = length a + length name + length b).
  { rewrite Hop', !app_length. lia. }
  unfold token_labels in Hin. rewrite Hu in Hin. rewrite !u16_small in Hin by lia.
  destruct Hin as [<-|Hin].
  - exists a, b. cbn [lb_name lb_range r_start r_end]. split; [exact Hop'|]. rewrite !app_length. lia.
  - destruct Hsg as [->|(a' & x & -> & ->)]; [destruct Hin|]. destruct Hin as [<-|[]].
    cbn [lb_name lb_range r_start r_end]. exists a', b. rewrite Hop', <- app_assoc. split; [reflexivity|].
    rewrite app_length in HO, Ho. cbn [length] in HO, Ho. rewrite !app_length. cbn [length]. lia.
Qed.

Lemma C58_select mb line pre lbl : ascii_compatible mb -> (Z.of_nat (length line) < 65535)%Z ->
  line = pre ++ getLineWithoutCommentAndStripFirstWord line -> In lbl (getUsedLabelsInLine mb line) ->
  columns line (r_start (lb_range lbl)) (r_end (lb_range lbl)) = lb_name lbl.
Proof.
  intros Hmb Hlen Hline Hin.
  destruct (C58_columns mb line pre (getLineWithoutCommentAndStripFirstWord line) [] lbl Hmb Hlen) as (a & b & E & H1 & H2);
    [now rewrite app_nil_r|reflexivity|exact Hin|].
  rewrite H1, H2. unfold columns. rewrite Hline, E. cbn [length]. rewrite !Nat.add_0_r.
  replace (Z.to_nat (Z.of_nat (length (pre ++ a)) + 1) - 1) with (length (pre ++ a)) by lia.
  replace (pre ++ a ++ lb_name lbl ++ b) with ((pre ++ a) ++ lb_name lbl ++ b) by (now rewrite <- !app_assoc).
  rewrite skipn_len_app. apply firstn_app_pre. rewrite !app_length. lia.
Qed.
