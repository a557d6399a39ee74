(** The text parser: symbol types, sections, other location directives, instructions (C68-C71). *)
From Verif Require Export Recog2.

(** *** Symbol types *)
Definition type_words : list string := ["function"; "object"; "proc"]%string.
Definition type_at (a l n : str) : Prop := exists v w q k r, l = a ++ lit ".type" ++ v ++ n ++ lit "," ++ w ++ q ++ lit k ++ r /\
  blanks v /\ Forall word_char n /\ blanks w /\ (q = [] \/ q = lit "@") /\ In k type_words.
Lemma type_head pos v n w q k r : blanks v -> Forall word_char n -> blanks w -> q = [] \/ q = lit "@" -> In k type_words ->
  exists st, heads definesFunctionOrObject (mkM pos (lit ".type" ++ v ++ n ++ lit "," ++ w ++ q ++ lit k ++ r) []) st /\ cap 1 st = n.
Proof.
  intros Hv Hn Hw Hq Hk. unfold definesFunctionOrObject. cbn [Seqs Alts].
  assert (S1 : stops is_hspace (n ++ lit "," ++ w ++ q ++ lit k ++ r)).
  { destruct n as [|c n]; [reflexivity|]. inversion Hn; subst. cbn. destruct (is_hspace c) eqn:E; [|reflexivity].
    apply blank_iff, word_no_blank in E. apply word_iff in H1. congruence. }
  assert (S2 : stops is_hspace (q ++ lit k ++ r)).
  { destruct Hq as [-> | ->]; [|reflexivity]. cbn [In type_words] in Hk. destruct Hk as [<-|[<-|[<-|[]]]]; reflexivity. }
  assert (O : forall p caps, heads (Opt (Chr "@")) (mkM p (q ++ lit k ++ r) caps) (mkM (p + length q)%nat (lit k ++ r) caps)).
  { intros p caps. destruct Hq as [-> | ->].
    - cbn [app length]. rewrite Nat.add_0_r. apply heads_opt_none. cbn [In type_words] in Hk. destruct Hk as [<-|[<-|[<-|[]]]]; reflexivity.
    - cbn [app length lit list_ascii_of_string]. rewrite Nat.add_1_r. apply heads_opt. now apply heads_cls. }
  assert (K : forall p caps, heads (Alt (L "function") (Alt (L "object") (L "proc"))) (mkM p (lit k ++ r) caps) (mkM (p + length (lit k))%nat r caps)).
  { intros p caps. cbn [In type_words] in Hk. destruct Hk as [<-|[<-|[<-|[]]]].
    - apply heads_alt_l, heads_L.
    - apply heads_alt_r; [reflexivity|]. apply heads_alt_l, heads_L.
    - apply heads_alt_r; [reflexivity|]. apply heads_alt_r; [reflexivity|]. apply heads_L. }
  eexists. split.
  - eapply heads_seq; [apply heads_L|]. eapply heads_seq; [apply heads_blanks; assumption|].
    eapply heads_seq; [apply heads_grp, heads_star; [now apply (Forall_iff_b _ _ n word_iff)|reflexivity]|].
    eapply heads_seq; [now apply heads_cls|]. eapply heads_seq; [apply heads_blanks; assumption|].
    eapply heads_seq; [apply O|]. apply heads_grp, K.
  - reflexivity.
Qed.
Lemma type_den a u b : den definesFunctionOrObject a u b -> exists n, type_at a (a ++ u ++ b) n.
Proof.
  unfold definesFunctionOrObject. cbn [Seqs Alts]. intros H.
  rewrite den_seq_iff in H. destruct H as (x & y & -> & Hx & H). rewrite den_L_iff in Hx. subst x.
  rewrite den_seq_iff in H. destruct H as (v & z & -> & Hv & H). rewrite den_hs_iff in Hv.
  rewrite den_seq_iff in H. destruct H as (n & y & -> & Hn & H). rewrite den_grp_iff, den_star_cls_iff in Hn.
  rewrite den_seq_iff in H. destruct H as (x & z & -> & Hx & H). rewrite den_chr_iff in Hx. subst x.
  rewrite den_seq_iff in H. destruct H as (w & y & -> & Hw & H). rewrite den_hs_iff in Hw.
  rewrite den_seq_iff in H. destruct H as (q & k & -> & Hq & H). rewrite den_opt_iff, den_chr_iff in Hq.
  rewrite den_grp_iff, !den_alt_iff, !den_L_iff in H.
  assert (E : exists k', In k' type_words /\ k = lit k').
  { destruct H as [-> |[-> | ->]]; eexists; (split; [|reflexivity]); cbn; tauto. }
  destruct E as (k' & Hk & ->). exists n, v, w, q, k', b. rewrite <- !app_assoc. split; [reflexivity|].
  split; [now apply blanks_iff|]. split; [now apply (Forall_iff_b _ _ n word_iff)|]. split; [now apply blanks_iff|]. auto.
Qed.
Lemma type_back a l n : type_at a l n -> exists u b, l = a ++ u ++ b /\ den definesFunctionOrObject a u b.
Proof.
  intros (v & w & q & k & r & -> & Hv & Hn & Hw & Hq & Hk). destruct (type_head (length a) v n w q k r) as (st & H & _); try assumption.
  apply heads_den in H as (u & E & H). exists u, (m_rest st). split; [f_equal; exact E|exact H].
Qed.
(** Leftmost place. *)
Lemma type_iff l n : getFunctionTypeDefinedLabel l = Some n <->
  exists a, type_at a l n /\ forall a' n', type_at a' l n' -> (length a <= length a')%nat.
Proof.
  unfold getFunctionTypeDefinedLabel. revert n. apply reads_iff.
  - intros n (a & H & Hmin). destruct H as (v & w & q & k & r & E & Hv & Hn & Hw & Hq & Hk).
    destruct (type_head (length a) v n w q k r) as (st & H & C); try assumption. exists st. split; [|exact C].
    apply (search_first _ l a _ st E H). intros a' u b E' Hlt Hd. apply type_den in Hd as (n' & Hd). rewrite <- E' in Hd.
    apply Hmin in Hd. lia.
  - intros H. destruct (re_search _ l) as [st|] eqn:E; [|discriminate]. clear H.
    destruct (re_search_some _ _ _ E) as (a & u & El & _ & Hd & _ & Hmin). apply type_den in Hd as (n & Hn). rewrite <- El in Hn.
    exists n, a. split; [exact Hn|]. intros a' n' H'. apply type_back in H' as (u' & b' & E' & Hd').
    destruct (Nat.le_gt_cases (length a) (length a')) as [X|X]; [exact X|exfalso]. exact (Hmin _ _ _ E' X Hd').
Qed.

(** *** C69: sections *)
Definition section_words : list string := [".data"; ".text"; ".section"]%string.
Definition section_char (c : char) : Prop := letter c \/ digit c \/ among ".-" c.
(** What follows [.section]: an optional quote and a run of name characters. *)
Definition section_name (t n : str) : Prop := exists v q r, t = v ++ q ++ n ++ r /\ blanks v /\ Forall section_char n /\
  match r with c :: _ => ~ section_char c | [] => True end /\
  (q = [DQ] \/ q = [] /\ match n ++ r with c :: _ => ~ blank c /\ c <> DQ | [] => True end).
Definition first_section (a : str) (w : string) (t l : str) : Prop := l = a ++ lit w ++ t /\ In w section_words /\
  forall a' w' t', l = a' ++ lit w' ++ t' -> In w' section_words -> (length a <= length a')%nat.
Definition sect_b (c : char) : bool := one_of ".-" c || is_alpha c || is_digit c.
Lemma sect_iff c : sect_b c = true <-> section_char c.
Proof. unfold sect_b, section_char. rewrite !orb_true_iff, one_of_iff, letter_iff, digit_iff. tauto. Qed.
Definition SECT : re := Seqs [HS; Opt (Chr DQ); Grp 2 (Star true (Cls sect_b)); Opt (Chr DQ)].
Lemma chr_no d pos c t caps : c <> d -> m (Chr d) (mkM pos (c :: t) caps) = [].
Proof. intros H. apply (m_nil _ pos (repeat SP pos)); [now rewrite repeat_length|]. intros u v E Hd. rewrite den_chr_iff in Hd. subst u. cbn in E. injection E as -> _. congruence. Qed.
Lemma opt_dq pos t caps : exists st, heads (Opt (Chr DQ)) (mkM pos t caps) st /\ m_caps st = caps.
Proof.
  destruct t as [|c t]; [eexists; split; [apply heads_opt_none; reflexivity|reflexivity]|]. destruct (ceq c DQ) eqn:E.
  - eexists. split; [apply heads_opt, heads_cls; exact E|reflexivity].
  - eexists. split; [apply heads_opt_none|reflexivity]. apply chr_no. intros ->. now rewrite ceq_same in E.
Qed.
Lemma sect_head pos t n caps : section_name t n -> exists st p, heads SECT (mkM pos t caps) st /\ m_caps st = (2%nat, (p, n)) :: caps.
Proof.
  intros (v & q & r & -> & Hv & Hn & Hr & Hq). unfold SECT. cbn [Seqs].
  assert (S1 : stops is_hspace (q ++ n ++ r)).
  { destruct Hq as [-> |[-> Hq]]; [reflexivity|]. cbn [app]. destruct (n ++ r) as [|c t]; [exact I|].
    apply (not_b _ _ c blank_iff). tauto. }
  assert (O : forall p caps, heads (Opt (Chr DQ)) (mkM p (q ++ n ++ r) caps) (mkM (p + length q)%nat (n ++ r) caps)).
  { intros p c2. destruct Hq as [-> |[-> Hq]].
    - cbn [app length]. rewrite Nat.add_1_r. apply heads_opt. now apply heads_cls.
    - cbn [app length]. rewrite Nat.add_0_r. apply heads_opt_none. destruct (n ++ r) as [|c t]; [reflexivity|]. now apply chr_no. }
  destruct (opt_dq (pos + length v + length q + length n) r ((2%nat, ((pos + length v + length q)%nat, n)) :: caps)) as (st & Hst & C).
  exists st. eexists. split; [|exact C].
  eapply heads_seq; [apply heads_blanks; assumption|]. eapply heads_seq; [apply O|]. eapply heads_seq; [|exact Hst].
  apply heads_grp, heads_star; [now apply (Forall_iff_b _ _ n sect_iff)|]. destruct r as [|c r]; [exact I|]. now apply (not_b _ _ c sect_iff).
Qed.
Lemma sect_total t : exists n, section_name t n.
Proof.
  destruct (run_split is_hspace t) as (v & t1 & -> & Hv & S1).
  assert (Q : exists q t2, t1 = q ++ t2 /\ (q = [DQ] \/ q = [] /\ match t2 with c :: _ => ~ blank c /\ c <> DQ | [] => True end)).
  { destruct t1 as [|c t1]; [exists [], []; auto|]. destruct (ceq c DQ) eqn:E.
    - apply ceq_true in E. subst. exists [DQ], t1. auto.
    - exists [], (c :: t1). split; [reflexivity|right; split; [reflexivity|]]. cbn in S1. split; [now apply (not_b _ _ c blank_iff)|].
      intros ->. discriminate. }
  destruct Q as (q & t2 & -> & Hq). destruct (run_split sect_b t2) as (n & r & -> & Hn & Hr).
  exists n, v, q, r. split; [reflexivity|]. split; [now apply blanks_iff|]. split; [now apply (Forall_iff_b _ _ n sect_iff)|].
  split; [|exact Hq]. destruct r as [|c r]; [exact I|]. now apply (not_b _ _ c sect_iff).
Qed.
Lemma section_head (a : str) w t n : In w section_words -> section_name t n -> exists st,
  heads sectionDef (mkM (length a) (lit w ++ t) []) st /\ lit w = "."%char :: cap 1 st /\ cap 2 st = n.
Proof.
  intros Hw Hn. unfold sectionDef.
  assert (E : exists k, lit w = "."%char :: lit k /\ forall p caps, heads (Alt (L "data") (Alt (L "text") (L "section"))) (mkM p (lit k ++ t) caps) (mkM (p + length (lit k))%nat t caps)).
  { cbn [In section_words] in Hw. destruct Hw as [<-|[<-|[<-|[]]]]; [exists "data"%string|exists "text"%string|exists "section"%string];
      (split; [reflexivity|]); intros p caps.
    - apply heads_alt_l, heads_L.
    - apply heads_alt_r; [reflexivity|]. apply heads_alt_l, heads_L.
    - apply heads_alt_r; [reflexivity|]. apply heads_alt_r; [reflexivity|]. apply heads_L. }
  destruct E as (k & E & K).
  destruct (sect_head (S (length a) + length (lit k)) t n [(1%nat, (S (length a), lit k))] Hn) as (st & p & H & C).
  exists st. split; [|].
  - rewrite E. cbn [app]. hseq; [now apply heads_cls|]. hseq; [apply heads_grp, K|]. exact H.
  - rewrite E. unfold cap, get_group. rewrite C. split; reflexivity.
Qed.
Lemma section_den a u b : den sectionDef a u b -> exists w t, In w section_words /\ u ++ b = lit w ++ t.
Proof.
  unfold sectionDef. cbn [Seqs Alts]. intros H. rewrite den_seq_iff in H. destruct H as (x & y & -> & Hx & H). rewrite den_chr_iff in Hx. subst x.
  rewrite den_seq_iff in H. destruct H as (k & z & -> & Hk & _). rewrite den_grp_iff, !den_alt_iff, !den_L_iff in Hk.
  destruct Hk as [-> |[-> | ->]]; [exists ".data"%string|exists ".text"%string|exists ".section"%string]; exists (z ++ b);
    (split; [cbn; tauto|]); now rewrite <- !app_assoc.
Qed.
Lemma section_back (a : str) w t : In w section_words -> exists u b, lit w ++ t = u ++ b /\ den sectionDef a u b.
Proof.
  intros Hw. destruct (sect_total t) as (n & Hn). destruct (section_head a w t n Hw Hn) as (st & H & _).
  apply heads_den in H as (u & E & H). exists u, (m_rest st). split; [exact E|exact H].
Qed.
Definition section_reads (l n : str) : Prop := exists a w t, first_section a w t l /\
  (w = ".data"%string /\ n = lit "data" \/ w = ".text"%string /\ n = lit "text" \/ w = ".section"%string /\ section_name t n).
Lemma section_iff l n : getSectionNameDef l = Some n <-> section_reads l n.
Proof.
  unfold getSectionNameDef. revert n. apply reads_iff.
  - intros n (a & w & t & (El & Hw & Hmin) & Hn).
    assert (HN : exists n2, section_name t n2 /\ (w = ".section"%string -> n2 = n)).
    { destruct Hn as [[-> _]|[[-> _]|[-> H]]]; [destruct (sect_total t) as (k & Hk)..|]; eexists; (split; [eassumption|]);
        try reflexivity; discriminate. }
    destruct HN as (n2 & HN & HE). destruct (section_head a w t n2 Hw HN) as (st & H & C1 & C2). exists st. split.
    + apply (search_first _ l a _ st El H). intros a' u b E' Hlt Hd. apply section_den in Hd as (w' & t' & Hw' & Ed).
      rewrite Ed in E'. specialize (Hmin _ _ _ E' Hw'). lia.
    + destruct Hn as [[-> ->]|[[-> ->]|[-> Hn]]]; cbn in C1; injection C1 as C1; rewrite <- C1; [reflexivity|reflexivity|].
      cbn. rewrite C2. now apply HE.
  - intros H. destruct (re_search _ l) as [st|] eqn:E; [|discriminate]. clear H.
    destruct (re_search_some _ _ _ E) as (a & u & El & _ & Hd & _ & Hmin). apply section_den in Hd as (w & t & Hw & Ed).
    rewrite Ed in El.
    assert (F : first_section a w t l).
    { split; [exact El|]. split; [exact Hw|]. intros a' w' t' E' Hw'. destruct (section_back a' w' t' Hw') as (u' & b' & Eu & Hd').
      destruct (Nat.le_gt_cases (length a) (length a')) as [X|X]; [exact X|exfalso]. rewrite Eu in E'. exact (Hmin _ _ _ E' X Hd'). }
    destruct (sect_total t) as (n & Hn). pose proof Hw as Hw2. cbn [In section_words] in Hw2.
    destruct Hw2 as [<-|[<-|[<-|[]]]]; [exists (lit "data")|exists (lit "text")|exists n]; exists a; eexists; exists t; (split; [exact F|]); tauto.
Qed.
