(** The text parser: the lines that name labels, in terms of plain text (C67-C69). *)
From Verif Require Export Recog.

(** *** Tools *)
Lemma m_nil r pos pre t caps : pos = length pre -> (forall u v, t = u ++ v -> ~ den r pre u v) -> m r (mkM pos t caps) = [].
Proof.
  intros -> H. destruct (m r (mkM (length pre) t caps)) as [|st l] eqn:E; [reflexivity|exfalso].
  destruct (m_sound r (mkM (length pre) t caps) st pre eq_refl) as (u & [Hr _] & Hd); [rewrite E; now left|].
  cbn in Hr. exact (H _ _ Hr Hd).
Qed.
Lemma heads_alt_l a b st st' : heads a st st' -> heads (Alt a b) st st'.
Proof. intros [l H]. unfold heads. cbn [m]. rewrite H. cbn. eauto. Qed.
Lemma heads_alt_r a b st st' : m a st = [] -> heads b st st' -> heads (Alt a b) st st'.
Proof. intros E [l H]. unfold heads. cbn [m]. rewrite E. cbn. eauto. Qed.
Lemma heads_den r pre t st' : heads r (mkM (length pre) t []) st' -> exists u, t = u ++ m_rest st' /\ den r pre u (m_rest st').
Proof.
  intros [l H]. destruct (m_sound r (mkM (length pre) t []) st' pre eq_refl) as (u & [Hr _] & Hd); [rewrite H; now left|].
  exists u. split; [exact Hr|exact Hd].
Qed.
(** The leftmost place where the pattern fits. *)
Lemma search_first r s a t st' : s = a ++ t -> heads r (mkM (length a) t []) st' ->
  (forall a' v w, s = a' ++ v ++ w -> (length a' < length a)%nat -> ~ den r a' v w) -> re_search r s = Some st'.
Proof.
  intros E H Hmin. destruct (heads_den _ _ _ _ H) as (u & Et & Hd).
  destruct (re_search r s) as [st|] eqn:Es.
  2:{ exfalso. assert (X : is_some (re_search r s) = true) by (apply re_search_den; exists a, u, (m_rest st'); split; [now rewrite <- Et|exact Hd]).
      rewrite Es in X. discriminate. }
  destruct (re_search_some r s st Es) as (b & v & Eb & _ & Hdb & (l & Hl) & Hm).
  assert (L1 : ~ (length a < length b)%nat).
  { intros X. apply (Hm a u (m_rest st')); [now rewrite <- Et|exact X|exact Hd]. }
  assert (L2 : ~ (length b < length a)%nat) by (intros X; exact (Hmin _ _ _ Eb X Hdb)).
  assert (EE : a = b /\ t = v ++ m_rest st).
  { rewrite E in Eb. assert (LE : length a = length b) by lia. clear - Eb LE. revert b Eb LE.
    induction a as [|x a IH]; intros [|y b] Eb LE; cbn in *; try discriminate; [auto|].
    injection Eb as -> Eb. destruct (IH b Eb) as [-> ->]; [lia|]. auto. }
  destruct EE as [-> ->]. destruct H as [k H]. rewrite Hl in H. congruence.
Qed.
(** From "matches only lines of this form" and "on such a line reads that" to an equivalence. *)
Lemma reads_iff {A} (r : re) (f : mstate -> A) (P : A -> Prop) s :
  (forall n, P n -> exists st, re_search r s = Some st /\ f st = n) ->
  (is_some (re_search r s) = true -> exists n, P n) ->
  forall n, option_map f (re_search r s) = Some n <-> P n.
Proof.
  intros H1 H2 n. split.
  - intros E. destruct (re_search r s) as [st|] eqn:Es; [|discriminate]. destruct (H2 eq_refl) as (k & Hk).
    destruct (H1 k Hk) as (st' & E' & F). injection E' as <-. cbn in E. injection E as <-. now rewrite F.
  - intros H. destruct (H1 n H) as (st & -> & <-). reflexivity.
Qed.
Lemma matches_iff {A} (r : re) (f : mstate -> A) (P : A -> Prop) s :
  (forall n, P n -> exists st, re_match r s = Some st /\ f st = n) ->
  (is_some (re_match r s) = true -> exists n, P n) ->
  forall n, option_map f (re_match r s) = Some n <-> P n.
Proof.
  intros H1 H2 n. split.
  - intros E. destruct (re_match r s) as [st|] eqn:Es; [|discriminate]. destruct (H2 eq_refl) as (k & Hk).
    destruct (H1 k Hk) as (st' & E' & F). injection E' as <-. cbn in E. injection E as <-. now rewrite F.
  - intros H. destruct (H1 n H) as (st & -> & <-). reflexivity.
Qed.
Definition stops (p : char -> bool) (t : str) : Prop := match t with c :: _ => p c = false | [] => True end.
(** Any text is a run of the class and a rest that does not begin with one. *)
Lemma run_split (p : char -> bool) t : exists u v, t = u ++ v /\ Forall (fun c => p c = true) u /\ stops p v.
Proof.
  induction t as [|c t (u & v & -> & Hu & Hv)]; [now exists [], []|].
  destruct (p c) eqn:E; [exists (c :: u), v|exists [], (c :: u ++ v)]; cbn; auto.
Qed.

(** *** Characters *)
Definition letter (c : char) : Prop := 65 <= code c <= 90 \/ 97 <= code c <= 122.
Definition word_char (c : char) : Prop := letter c \/ digit c \/ c = "_"%char.
Lemma letter_iff c : is_alpha c = true <-> letter c.
Proof.
  unfold is_alpha, is_lower, is_upper, in_range, letter. rewrite orb_true_iff, !andb_true_iff, !Z.leb_le.
  change (code "a") with 97. change (code "z") with 122. change (code "A") with 65. change (code "Z") with 90. tauto.
Qed.
Lemma word_iff c : is_word c = true <-> word_char c.
Proof. unfold is_word, word_char. rewrite !orb_true_iff, letter_iff, digit_iff, ceq_true. tauto. Qed.
Definition among (s : string) (c : char) : Prop := In c (lit s).
Lemma one_of_iff s c : one_of s c = true <-> among s c.
Proof.
  unfold one_of, among. rewrite existsb_exists. split.
  - intros (d & Hd & E). apply ceq_true in E. now subst.
  - intros H. exists c. split; [exact H|now apply ceq_true].
Qed.
Definition label_char (c : char) : Prop := word_char c \/ among "$.@" c.
Lemma labelchar_iff c : labelchar c = true <-> label_char c.
Proof. unfold labelchar, label_char. now rewrite orb_true_iff, word_iff, one_of_iff. Qed.
Lemma Forall_iff_b (p : char -> bool) (P : char -> Prop) u : (forall c, p c = true <-> P c) -> (Forall (fun c => p c = true) u <-> Forall P u).
Proof. intros H. split; apply Forall_impl; intros c; apply H. Qed.
Lemma not_b (p : char -> bool) (P : char -> Prop) c : (forall c, p c = true <-> P c) -> (p c = false <-> ~ P c).
Proof. intros H. rewrite <- H. destruct (p c); split; congruence. Qed.

(** *** C67: label lines *)
Definition proc_mark (p : str) : Prop := p = [] \/ exists c g, p = c :: lit "proc" ++ g /\ gap g.
Definition label_line (l n : str) : Prop := exists p r, l = p ++ n ++ ":"%char :: r /\ proc_mark p /\ n <> [] /\ Forall label_char n.
Lemma label_head pos n r caps : n <> [] -> Forall label_char n ->
  heads (Seq (Grp 1 (Plus (Cls labelchar))) (Chr ":")) (mkM pos (n ++ ":"%char :: r) caps)
        (mkM (S (pos + length n)) r ((1%nat, (pos, n)) :: caps)).
Proof.
  intros Hn Hf. apply (Forall_iff_b _ _ n labelchar_iff) in Hf.
  eapply heads_seq; [apply heads_grp, heads_plus; [assumption|assumption|reflexivity]|]. now apply heads_cls.
Qed.
Lemma before_after (n w : str) d b r t : n ++ d :: r = w ++ b :: t -> In b n \/ b = d \/ In d w.
Proof.
  revert w. induction n as [|x n IH]; intros [|y w] E; cbn in E; injection E as E1 E2; subst; cbn; auto.
  destruct (IH w E2) as [H|[H|H]]; auto.
Qed.
Lemma label_iff l n : getLabel l = Some n <-> label_line l n.
Proof.
  unfold getLabel. revert n. apply reads_iff.
  - intros n (p & r & -> & Hp & Hn & Hf). destruct Hp as [-> |(c & g & -> & Hg)]; (eexists; split; [apply heads_search; unfold labelDef; hseq; [apply heads_bol|]|]).
    + cbn [app]. hseq; [apply heads_opt_none|now apply label_head].
      apply (m_nil _ 0 []); [reflexivity|]. intros u v E Hd. cbn [Seqs] in Hd.
      rewrite den_seq_iff in Hd. destruct Hd as (x & y & -> & Hx & Hd). apply den_any_iff in Hx as (c & ->).
      rewrite den_seq_iff in Hd. destruct Hd as (x & z & -> & Hx & Hd). rewrite den_L_iff in Hx. subst x.
      rewrite den_hp_iff in Hd. destruct Hd as [Hz0 Hz]. destruct z as [|b z]; [congruence|]. inversion Hz; subst.
      assert (In b n \/ b = ":"%char \/ In ":"%char (c :: lit "proc")).
      { apply (before_after n (c :: lit "proc") ":" b r (z ++ v)). rewrite E. cbn. reflexivity. }
      apply (Forall_iff_b _ _ n labelchar_iff) in Hf. rewrite Forall_forall in Hf.
      destruct H as [H|[-> |H]]; [|discriminate|].
      * apply Hf in H. apply blank_iff in H1. destruct H1 as [-> | ->]; discriminate.
      * cbn in H. destruct H as [-> |H]; [|repeat (destruct H as [H|H]; [discriminate H|]); destruct H].
        destruct n as [|d n]; [congruence|]. cbn in E. injection E as -> _. specialize (Hf ":"%char (or_introl eq_refl)). discriminate.
    + reflexivity.
    + cbn [app]. rewrite <- app_assoc. hseq.
      { apply heads_opt. hseq; [now apply heads_cls|]. hseq; [apply heads_L|]. apply heads_gap; [assumption|].
      destruct n as [|d n]; [congruence|]. inversion Hf; subst. cbn. destruct (is_hspace d) eqn:E; [|reflexivity].
      apply labelchar_iff in H1. apply blank_iff in E. destruct E as [-> | ->]; discriminate. }
      now apply label_head.
    + reflexivity.
  - intros H. apply re_search_den in H as (a & u & b & -> & H). unfold labelDef in H. cbn [Seqs] in H.
    rewrite den_bol_seq in H. destruct H as [-> H]. rewrite den_seq_iff in H. destruct H as (p & y & -> & Hp & H).
    rewrite den_seq_iff in H. destruct H as (n & z & -> & Hn & H). rewrite den_chr_iff in H. subst z.
    rewrite den_grp_iff, den_plus_iff in Hn. destruct Hn as [Hn Hf]. exists n, p, b. cbn [app]. rewrite <- !app_assoc.
    split; [reflexivity|]. split; [|split; [exact Hn|now apply (Forall_iff_b _ _ n labelchar_iff)]].
    rewrite den_opt_iff in Hp. destruct Hp as [-> |Hp]; [now left|right].
    rewrite den_seq_iff in Hp. destruct Hp as (x & q & -> & Hx & Hp). apply den_any_iff in Hx as (c & ->).
    rewrite den_seq_iff in Hp. destruct Hp as (x & g & -> & Hx & Hp). rewrite den_L_iff in Hx. subst x.
    rewrite den_hp_iff in Hp. destruct Hp as [Hg0 Hg]. exists c, g. split; [reflexivity|]. split; [exact Hg0|now apply blanks_iff].
Qed.

(** [name = …] at the start of a line *)
Definition assigned_line (l n : str) : Prop := exists c k g r, l = n ++ g ++ "="%char :: r /\ n = c :: k /\
  (word_char c \/ among ".$" c) /\ Forall word_char k /\ gap g.
Lemma word_digit_iff c : is_word c || is_digit c = true <-> word_char c.
Proof. rewrite orb_true_iff, word_iff, digit_iff. unfold word_char. tauto. Qed.
Lemma word_no_blank c : blank c -> is_word c = false.
Proof. intros [-> | ->]; reflexivity. Qed.
Lemma gap_stops_word g t : gap g -> stops (fun c => is_word c || is_digit c) (g ++ t).
Proof. intros [H0 H]. destruct g as [|c g]; [congruence|]. inversion H as [|? ? Hc]; subst. destruct Hc as [-> | ->]; reflexivity. Qed.
Lemma heads_first (q p : char -> bool) n pos c k t caps : q c = true -> Forall (fun c => p c = true) k -> stops p t ->
  heads (Grp n (Seq (Cls q) (Star true (Cls p)))) (mkM pos ((c :: k) ++ t) caps)
        (mkM (pos + length (c :: k))%nat t ((n, (pos, c :: k)) :: caps)).
Proof.
  intros Hc Hk Ht. apply heads_grp. cbn [app]. eapply heads_seq; [now apply heads_cls|].
  cbn [length]. rewrite Nat.add_succ_r. now apply (heads_star p (S pos)).
Qed.
Lemma assigned_iff l n : getLabelAssignment l = Some n <-> assigned_line l n.
Proof.
  unfold getLabelAssignment. revert n. apply reads_iff.
  - intros n (c & k & g & r & -> & -> & Hc & Hk & Hg). eexists. split; [apply heads_search; unfold labelAssignmentDef|].
    + hseq; [apply heads_bol|]. hseq.
      { apply heads_first; [|now apply (Forall_iff_b _ _ k word_digit_iff)|now apply gap_stops_word].
        apply orb_true_iff. rewrite one_of_iff, word_iff. tauto. }
      hseq; [apply heads_gap; [assumption|reflexivity]|]. now apply heads_cls.
    + reflexivity.
  - intros H. apply re_search_den in H as (a & u & b & -> & H). unfold labelAssignmentDef in H. cbn [Seqs] in H.
    rewrite den_bol_seq in H. destruct H as [-> H]. rewrite den_seq_iff in H. destruct H as (n & y & -> & Hn & H).
    rewrite den_seq_iff in H. destruct H as (g & z & -> & Hg & H). rewrite den_chr_iff in H. subst z.
    rewrite den_hp_iff in Hg. destruct Hg as [Hg0 Hg].
    rewrite den_grp_iff, den_seq_iff in Hn. destruct Hn as (x & k & -> & Hx & Hk). apply den_cls_iff in Hx as (c & -> & Hc).
    rewrite den_star_cls_iff in Hk. exists (c :: k), c, k, g, b. cbn [app]. rewrite <- !app_assoc.
    split; [reflexivity|]. split; [reflexivity|]. rewrite orb_true_iff, one_of_iff, word_iff in Hc. split; [tauto|].
    split; [now apply (Forall_iff_b _ _ k word_digit_iff)|]. split; [exact Hg0|now apply blanks_iff].
Qed.

(** *** C68: directives that name a symbol *)
Definition name_start (c : char) : Prop := letter c \/ c = "."%char \/ c = "_"%char.
Definition name_char (c : char) : Prop := word_char c \/ among "$." c.
Definition symbol (n : str) : Prop := exists c k, n = c :: k /\ name_start c /\ Forall name_char k.
Definition symbol_ends (r : str) : Prop := match r with c :: _ => ~ name_char c | [] => True end.
Lemma idstart_iff c : idstart c = true <-> name_start c.
Proof. unfold idstart, name_start. rewrite !orb_true_iff, one_of_iff, letter_iff, ceq_true. unfold among. cbn. intuition. Qed.
Lemma idchar_iff c : idchar c = true <-> name_char c.
Proof. unfold idchar, name_char. now rewrite orb_true_iff, word_iff, one_of_iff. Qed.
Lemma symbol_stop r : symbol_ends r -> stops idchar r.
Proof. destruct r as [|c r]; [trivial|]. cbn. apply (not_b _ _ c idchar_iff). Qed.
Lemma stop_symbol r : stops idchar r -> symbol_ends r.
Proof. destruct r as [|c r]; [trivial|]. cbn. apply (not_b _ _ c idchar_iff). Qed.
Lemma name_start_no_blank c : name_start c -> is_hspace c = false.
Proof.
  intros H. destruct (is_hspace c) eqn:E; [|reflexivity]. apply idstart_iff in H. apply blank_iff in E. destruct E as [-> | ->]; discriminate.
Qed.
(** [.word name]: the name may follow directly. *)
Definition names_symbol (w : string) (l n : str) : Prop := exists u v r, l = u ++ lit w ++ v ++ n ++ r /\ blanks u /\ blanks v /\
  symbol n /\ symbol_ends r.
Definition NAME : re := Grp 1 (Seq (Cls idstart) (Star true (Cls idchar))).
Lemma name_head pos v n r caps : blanks v -> symbol n -> symbol_ends r ->
  heads (Seq HS NAME) (mkM pos (v ++ n ++ r) caps)
        (mkM (pos + length v + length n)%nat r ((1%nat, ((pos + length v)%nat, n)) :: caps)).
Proof.
  intros Hv (c & k & -> & Hc & Hk) Hr. eapply heads_seq; [apply heads_blanks; [assumption|now apply name_start_no_blank]|].
  apply heads_first; [now apply idstart_iff|now apply (Forall_iff_b _ _ k idchar_iff)|now apply symbol_stop].
Qed.
(** What is read by the pattern, extended to the whole name. *)
Lemma name_den pre t b post : t ++ b = post -> den (Seq HS NAME) pre t b ->
  exists v n r, post = v ++ n ++ r /\ blanks v /\ symbol n /\ symbol_ends r.
Proof.
  intros <- H. rewrite den_seq_iff in H. destruct H as (v & y & -> & Hv & H). rewrite den_hs_iff in Hv.
  unfold NAME in H. rewrite den_grp_iff, den_seq_iff in H. destruct H as (x & k & -> & Hx & Hk). apply den_cls_iff in Hx as (c & -> & Hc).
  rewrite den_star_cls_iff in Hk. destruct (run_split idchar (k ++ b)) as (k' & r & E & Hk' & Hr).
  exists v, (c :: k'), r. split; [|split; [now apply blanks_iff|split; [|now apply stop_symbol]]].
  - rewrite <- app_assoc. f_equal. cbn. now rewrite E.
  - exists c, k'. split; [reflexivity|]. split; [now apply idstart_iff|now apply (Forall_iff_b _ _ k' idchar_iff)].
Qed.
Definition global_words : list string := [".globl"; ".global"; ".GLB"; ".export"]%string.
Lemma global_iff l n : getGlobalDefinedLabel l = Some n <-> exists w, In w global_words /\ names_symbol w l n.
Proof.
  unfold getGlobalDefinedLabel. revert n. apply reads_iff.
  - intros n (w & Hw & u & v & r & -> & Hu & Hv & Hn & Hr). cbn [In global_words] in Hw.
      assert (E : exists k, lit w = "."%char :: k /\ forall pos t caps,
         heads (Alt (Seq (L "glob") (Seq (Opt (Chr "a")) (Chr "l"))) (Alt (L "GLB") (L "export"))) (mkM pos (k ++ t) caps) (mkM (pos + length k)%nat t caps)).
      { destruct Hw as [<-|[<-|[<-|[<-|[]]]]]; eexists; (split; [reflexivity|]); intros pos t caps.
        - apply heads_alt_l. change (lit "globl" ++ t) with (lit "glob" ++ "l"%char :: t).
          unfold heads. cbn. rewrite !Nat.add_succ_r, Nat.add_0_r. eauto.
        - apply heads_alt_l. unfold heads. cbn. rewrite !Nat.add_succ_r, Nat.add_0_r. eauto.
        - apply heads_alt_r; [reflexivity|]. apply heads_alt_l. apply (heads_L "GLB").
        - apply heads_alt_r; [reflexivity|]. apply heads_alt_r; [reflexivity|]. apply (heads_L "export"). }
    destruct E as (k & -> & E). eexists. split; [apply heads_search; unfold definesGlobal; cbn [Seqs Alts]; eapply heads_seq; [apply heads_bol|]|].
    + eapply heads_seq; [apply heads_blanks; [assumption|reflexivity]|]. cbn [app]. eapply heads_seq; [now apply heads_cls|]. eapply heads_seq; [apply E|]. now apply name_head.
    + reflexivity.
  - intros H. apply re_search_den in H as (a & u & b & -> & H). unfold definesGlobal in H. cbn [Seqs Alts] in H.
    rewrite den_bol_seq in H. destruct H as [-> H]. rewrite den_seq_iff in H. destruct H as (s & y & -> & Hs & H).
    rewrite den_hs_iff in Hs. rewrite den_seq_iff in H. destruct H as (x & z & -> & Hx & H). rewrite den_chr_iff in Hx. subst x.
    rewrite den_seq_iff in H. destruct H as (w & t & -> & Hw & H).
    destruct (name_den _ t b (t ++ b) eq_refl H) as (v & n & r & E & Hv & Hn & Hr).
    assert (G : exists k, In (String "." k) global_words /\ w = lit k).
    { rewrite !den_alt_iff, !den_L_iff in Hw. destruct Hw as [Hw|[-> | ->]].
      - rewrite den_seq_iff in Hw. destruct Hw as (x1 & x2 & -> & H1 & Hw). rewrite den_L_iff in H1. subst x1.
        rewrite den_seq_iff in Hw. destruct Hw as (x3 & x4 & -> & H1 & Hw). rewrite den_chr_iff in Hw. subst x4.
        rewrite den_opt_iff, den_chr_iff in H1. destruct H1 as [-> | ->]; [exists "globl"%string|exists "global"%string]; cbn; tauto.
      - exists "GLB"%string; cbn; tauto.
      - exists "export"%string; cbn; tauto. }
    destruct G as (k & Hk & ->). exists n, (String "." k). split; [exact Hk|]. exists s, v, r. split; [cbn [app]; rewrite <- !app_assoc; cbn [app]; rewrite <- !app_assoc; unfold str, char in *; rewrite E; reflexivity|]. split; [now apply blanks_iff|]. auto.
Qed.
Lemma names_unique w l n n' : lit w <> [] -> match lit w with c :: _ => is_hspace c = false | [] => True end ->
  names_symbol w l n -> names_symbol w l n' -> n = n'.
Proof.
  intros Hw0 Hw (u & v & r & -> & Hu & Hv & Hn & Hr) (u' & v' & r' & E & Hu' & Hv' & Hn' & Hr').
  apply blanks_iff in Hu, Hv, Hu', Hv'. assert (Hs : forall t, stops is_hspace (lit w ++ t)) by (intros t; destruct (lit w); [congruence|exact Hw]).
  apply run_unique with (p := is_hspace) in E; [|assumption|assumption|apply Hs|apply Hs]. destruct E as [_ E]. apply app_inv_head in E.
  destruct Hn as (c & k & -> & Hc & Hk), Hn' as (c' & k' & -> & Hc' & Hk').
  apply run_unique with (p := is_hspace) in E; [|assumption|assumption|now apply name_start_no_blank|now apply name_start_no_blank].
  destruct E as [_ E]. cbn in E. injection E as -> E. f_equal.
  apply (Forall_iff_b _ _ k idchar_iff) in Hk. apply (Forall_iff_b _ _ k' idchar_iff) in Hk'.
  apply run_unique with (p := idchar) in E; [tauto|assumption|assumption|now apply symbol_stop|now apply symbol_stop].
Qed.
Lemma word_names w r l : (forall pre u post, den r pre u post -> u = lit w) ->
  is_some (re_search (Seqs [Bol; HS; Chr "."; r; HS; NAME]) l) = true -> exists n, names_symbol (String "." w) l n.
Proof.
  intros Hr H. apply re_search_den in H as (a & u & b & -> & H). cbn [Seqs] in H.
  rewrite den_bol_seq in H. destruct H as [-> H]. rewrite den_seq_iff in H. destruct H as (s & y & -> & Hs & H).
  rewrite den_hs_iff in Hs. rewrite den_seq_iff in H. destruct H as (x & z & -> & Hx & H). rewrite den_chr_iff in Hx. subst x.
  rewrite den_seq_iff in H. destruct H as (x & t & -> & Hx & H). apply Hr in Hx. subst x.
  destruct (name_den _ t b (t ++ b) eq_refl H) as (v & n & r' & E & Hv & Hn & Hr').
  exists n, s, v, r'. split; [cbn [app]; rewrite <- !app_assoc; cbn [app]; rewrite <- !app_assoc; unfold str, char in *; rewrite E; reflexivity|]. split; [now apply blanks_iff|]. auto.
Qed.
(** [.weakext] is preferred, but [.weak] is tried when no name follows. *)
Lemma weak_iff l n : getWeakDefinedLabel l = Some n <->
  names_symbol ".weakext" l n \/ names_symbol ".weak" l n /\ forall k, ~ names_symbol ".weakext" l k.
Proof.
  unfold getWeakDefinedLabel. revert n. apply reads_iff.
  - intros n [(u & v & r & -> & Hu & Hv & Hn & Hr)|((u & v & r & -> & Hu & Hv & Hn & Hr) & Hno)].
    + eexists. split; [apply heads_search; unfold definesWeak; cbn [Seqs Alts]; eapply heads_seq; [apply heads_bol|]|].
      * eapply heads_seq; [apply heads_blanks; [assumption|reflexivity]|].
        change (lit ".weakext" ++ v ++ n ++ r) with ("."%char :: lit "weakext" ++ v ++ n ++ r).
        eapply heads_seq; [now apply heads_cls|]. eapply heads_seq; [apply heads_alt_l, heads_L|]. now apply name_head.
      * reflexivity.
    + eexists. split; [apply heads_search; unfold definesWeak; cbn [Seqs Alts]; eapply heads_seq; [apply heads_bol|]|].
      * eapply heads_seq; [apply heads_blanks; [assumption|reflexivity]|].
        change (lit ".weak" ++ v ++ n ++ r) with ("."%char :: lit "weak" ++ v ++ n ++ r).
        eapply heads_seq; [now apply heads_cls|].
        assert (E : forall a b c st, m (Seq (Alt a b) c) st = m (Seq a c) st ++ m (Seq b c) st).
        { intros a b c st. cbn [m]. apply flat_map_app. }
        assert (N : m (Seq (L "weakext") (Seq HS NAME)) (mkM (S (0 + length u)) (lit "weak" ++ v ++ n ++ r) []) = []).
        { apply (m_nil _ _ (u ++ ["."%char])); [rewrite app_length; cbn; lia|]. intros x y Exy Hd.
          rewrite den_seq_iff in Hd. destruct Hd as (x1 & x2 & -> & H1 & Hd). rewrite den_L_iff in H1. subst x1.
          destruct (name_den _ x2 y (x2 ++ y) eq_refl Hd) as (v' & n' & r' & E2 & Hv' & Hn' & Hr').
          apply (Hno n'). exists u, v', r'. split; [|auto]. f_equal. change (lit ".weak" ++ v ++ n ++ r) with ("."%char :: lit "weak" ++ v ++ n ++ r).
          rewrite Exy, <- app_assoc, E2. reflexivity. }
        destruct (name_head (S (0 + length u) + 4) v n r [] Hv Hn Hr) as [l' Hl].
        destruct (heads_L "weak" (S (0 + length u)) (v ++ n ++ r) []) as [l2 Hl2].
        unfold heads. fold NAME. rewrite E, N. cbn [app]. change (m (Seq (L "weak") (Seq HS NAME)) ?s) with (flat_map (m (Seq HS NAME)) (m (L "weak") s)).
        rewrite Hl2. cbn [flat_map]. change (length (lit "weak")) with 4%nat. rewrite Hl. cbn [app]. eexists. reflexivity.
      * reflexivity.
  - intros H. destruct (is_some (re_search (Seqs [Bol; HS; Chr "."; L "weakext"; HS; NAME]) l)) eqn:E.
    + destruct (word_names "weakext" (L "weakext") l) as (n & Hn); [intros pre u post; apply den_L_iff|exact E|]. eauto.
    + assert (N : forall k, ~ names_symbol ".weakext" l k).
      { intros k (u & v & r & -> & Hu & Hv & Hn & Hr). rewrite <- not_true_iff_false in E. apply E.
        assert (Hs : exists st, re_search (Seqs [Bol; HS; Chr "."; L "weakext"; HS; NAME]) (u ++ lit ".weakext" ++ v ++ k ++ r) = Some st).
        { eexists. apply heads_search. cbn [Seqs]. eapply heads_seq; [apply heads_bol|].
          eapply heads_seq; [apply heads_blanks; [assumption|reflexivity]|].
          change (lit ".weakext" ++ v ++ k ++ r) with ("."%char :: lit "weakext" ++ v ++ k ++ r).
          eapply heads_seq; [now apply heads_cls|]. eapply heads_seq; [apply heads_L|]. now apply name_head. }
        destruct Hs as (st & ->). reflexivity. }
      destruct (word_names "weak" (L "weak") l) as (n & Hn); [intros pre u post; apply den_L_iff| |exists n; right; auto].
      apply re_search_den in H as (a & u & b & -> & H). apply re_search_den. exists a, u, b. split; [reflexivity|].
      unfold definesWeak in H. cbn [Seqs Alts] in *.
      rewrite den_bol_seq in H. destruct H as [-> H]. rewrite den_seq_iff in H. destruct H as (s & y & -> & Hs & H).
      rewrite den_seq_iff in H. destruct H as (x & z & -> & Hx & H).
      rewrite den_seq_iff in H. destruct H as (w & t & -> & Hw & H). rewrite den_alt_iff in Hw.
      apply den_bol_seq. split; [reflexivity|]. apply den_seq; [exact Hs|]. apply den_seq; [exact Hx|].
      apply den_seq; [|exact H]. destruct Hw as [Hw|Hw]; [exfalso|exact Hw].
      rewrite den_L_iff in Hw. subst w. rewrite den_chr_iff in Hx. subst x. rewrite den_hs_iff in Hs.
      destruct (name_den _ t b (t ++ b) eq_refl H) as (v & n & r' & E' & Hv & Hn & Hr').
      apply (N n). exists s, v, r'. split; [cbn [app]; rewrite <- !app_assoc; cbn [app]; rewrite <- !app_assoc; unfold str, char in *; rewrite E'; reflexivity|]. split; [now apply blanks_iff|]. auto.
Qed.
