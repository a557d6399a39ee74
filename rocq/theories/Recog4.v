(** The text parser: location directives other than .file and .loc, and instructions (C70, C71). *)
From Verif Require Export Recog3.

(** *** C70 *)
Lemma comma_ends t : ends_number (lit "," ++ t).
Proof. unfold ends_number, digit. cbn. change (code ",") with 44. lia. Qed.
Lemma comma0_ends t : ends_number (lit ",0," ++ t).
Proof. unfold ends_number, digit. cbn. change (code ",") with 44. lia. Qed.
Definition stab_line (l a b : str) : Prop := exists u g r, l = u ++ lit ".stabn" ++ g ++ a ++ lit ",0," ++ b ++ lit "," ++ r /\
  blanks u /\ gap g /\ numeral a /\ numeral b.
Lemma stab_iff l x : getSourceInfoFromStabs l = Some x <->
  exists a b, stab_line l a b /\ x = mkStabn (number a) (if number a =? 68 then number b else 0).
Proof.
  assert (E : getSourceInfoFromStabs l = option_map (fun mt => mkStabn (number (cap 1 mt)) (if number (cap 1 mt) =? 68 then number (cap 2 mt) else 0)) (re_search sourceStab l)).
  { unfold getSourceInfoFromStabs. destruct (re_search sourceStab l) as [st|]; [|reflexivity]. cbn [option_map].
    change (to_number (cap 1 st)) with (number (cap 1 st)). now destruct (number (cap 1 st) =? 68). }
  rewrite E. clear E. revert x. apply reads_iff.
  - intros x (a & b & (u & g & r & -> & Hu & Hg & Ha & Hb) & ->). eexists. split; [apply heads_search; unfold sourceStab|].
    + hseq; [apply heads_bol|]. hseq; [apply heads_blanks; [assumption|reflexivity]|]. hseq; [apply heads_L|].
      hseq; [apply heads_gap; [assumption|now apply numeral_stop]|].
      hseq; [apply heads_digits; [assumption|apply comma0_ends]|]. hseq; [apply heads_L|].
      hseq; [apply heads_digits; [assumption|apply comma_ends]|]. hseq; [now apply heads_cls|]. apply heads_any.
    + reflexivity.
  - intros H. apply re_search_den in H as (p & s & q & -> & H). unfold sourceStab in H. cbn [Seqs] in H.
    rewrite den_bol_seq in H. destruct H as [-> H].
    rewrite den_seq_iff in H. destruct H as (u & y1 & -> & Hu & H). rewrite den_hs_iff in Hu.
    rewrite den_seq_iff in H. destruct H as (x & y2 & -> & Hx & H). rewrite den_L_iff in Hx. subst x.
    rewrite den_seq_iff in H. destruct H as (g & y3 & -> & Hg & H). rewrite den_hp_iff in Hg. destruct Hg as [Hg0 Hg].
    rewrite den_seq_iff in H. destruct H as (a & y4 & -> & Ha & H). rewrite den_grp_iff, den_plus_iff in Ha. destruct Ha as [Ha0 Ha].
    rewrite den_seq_iff in H. destruct H as (x & y5 & -> & Hx & H). rewrite den_L_iff in Hx. subst x.
    rewrite den_seq_iff in H. destruct H as (b & y6 & -> & Hb & H). rewrite den_grp_iff, den_plus_iff in Hb. destruct Hb as [Hb0 Hb].
    rewrite den_seq_iff in H. destruct H as (x & r & -> & Hx & _). rewrite den_chr_iff in Hx. subst x.
    eexists. exists a, b. split; [|reflexivity]. exists u, g, (r ++ q). split; [cbn [app]; rewrite <- !app_assoc; reflexivity|].
    split; [now apply blanks_iff|]. split; [split; [exact Hg0|now apply blanks_iff]|].
    split; (split; [assumption|now apply digits_iff]).
Qed.

Definition dbg_line (l f n : str) : Prop := exists u g v w, l = u ++ lit ".dbg" ++ g ++ lit "line," ++ v ++ quoted f ++ lit "," ++ w ++ n /\
  blanks u /\ gap g /\ blanks v /\ file_name f /\ blanks w /\ numeral n.
Definition dbg_other (l : str) : Prop := exists u g r, l = u ++ lit ".dbg" ++ g ++ lit "line" ++ r /\ blanks u /\ gap g.
Lemma not_dq_in s : Forall (fun c => not_dq c = true) s -> ~ In DQ s.
Proof. rewrite Forall_forall. intros H X. apply H in X. discriminate. Qed.
Lemma dbg_match l x : option_map (fun mt => (cap 1 mt, to_number (cap 2 mt))) (re_match source6502Dbg l) = Some x <->
  exists f n, dbg_line l f n /\ x = (f, number n).
Proof.
  revert x. apply matches_iff.
  - intros x (f & n & (u & g & v & w & -> & Hu & Hg & Hv & Hf & Hw & Hn) & ->). eexists. split; [apply heads_whole; unfold source6502Dbg|].
    + hseq; [apply heads_bol|]. hseq; [apply heads_blanks; [assumption|reflexivity]|]. hseq; [apply heads_L|].
      hseq; [apply heads_gap; [assumption|reflexivity]|]. hseq; [apply heads_L|].
      hseq; [apply heads_blanks; [assumption|reflexivity]|]. rewrite quoted_app. hseq; [now apply heads_cls|].
      hseq; [now apply heads_name|]. hseq; [now apply heads_cls|]. hseq; [now apply heads_cls|].
      rewrite <- (app_nil_r n) at 1. hseq; [apply heads_blanks; [assumption|now apply numeral_stop]|].
      apply heads_digits; [assumption|exact I].
    + reflexivity.
  - intros H. apply re_match_den in H. unfold source6502Dbg in H. cbn [Seqs] in H.
    rewrite den_bol_seq in H. destruct H as [_ H].
    rewrite den_seq_iff in H. destruct H as (u & y1 & -> & Hu & H). rewrite den_hs_iff in Hu.
    rewrite den_seq_iff in H. destruct H as (x & y2 & -> & Hx & H). rewrite den_L_iff in Hx. subst x.
    rewrite den_seq_iff in H. destruct H as (g & y3 & -> & Hg & H). rewrite den_hp_iff in Hg. destruct Hg as [Hg0 Hg].
    rewrite den_seq_iff in H. destruct H as (x & y4 & -> & Hx & H). rewrite den_L_iff in Hx. subst x.
    rewrite den_seq_iff in H. destruct H as (v & y5 & -> & Hv & H). rewrite den_hs_iff in Hv.
    rewrite den_seq_iff in H. destruct H as (x & y6 & -> & Hx & H). rewrite den_chr_iff in Hx. subst x.
    rewrite den_seq_iff in H. destruct H as (f & y7 & -> & Hf & H). rewrite den_grp_iff, den_plus_iff in Hf. destruct Hf as [Hf0 Hf].
    rewrite den_seq_iff in H. destruct H as (x & y8 & -> & Hx & H). rewrite den_chr_iff in Hx. subst x.
    rewrite den_seq_iff in H. destruct H as (x & y9 & -> & Hx & H). rewrite den_chr_iff in Hx. subst x.
    rewrite den_seq_iff in H. destruct H as (w & n & -> & Hw & H). rewrite den_hs_iff in Hw.
    rewrite den_grp_iff, den_plus_iff in H. destruct H as [Hn0 Hn].
    eexists. exists f, n. split; [|reflexivity]. exists u, g, v, w. rewrite quoted_app. split; [reflexivity|].
    split; [now apply blanks_iff|]. split; [split; [exact Hg0|now apply blanks_iff]|]. split; [now apply blanks_iff|].
    split; [split; [exact Hf0|now apply not_dq_in]|]. split; [now apply blanks_iff|]. split; [exact Hn0|now apply digits_iff].
Qed.
Lemma dbg_end_iff l : is_some (re_search source6502DbgEnd l) = true <-> dbg_other l.
Proof.
  unfold source6502DbgEnd. cbn [Seqs]. rewrite search_start. split.
  - intros (u & t & q & -> & Hu & H).
    rewrite den_seq_iff in H. destruct H as (x & y2 & -> & Hx & H). rewrite den_L_iff in Hx. subst x.
    rewrite den_seq_iff in H. destruct H as (g & y3 & -> & Hg & H). rewrite den_hp_iff in Hg. destruct Hg as [Hg0 Hg].
    rewrite den_L_iff in H. subst y3. exists u, g, q. rewrite <- !app_assoc. split; [reflexivity|]. split; [exact Hu|].
    split; [exact Hg0|now apply blanks_iff].
  - intros (u & g & r & -> & Hu & Hg0 & Hg). exists u, (lit ".dbg" ++ g ++ lit "line"), r. rewrite <- !app_assoc.
    split; [reflexivity|]. split; [exact Hu|]. apply den_seq; [now apply den_L_iff|]. apply den_seq; [|now apply den_L_iff].
    apply den_hp_iff. split; [exact Hg0|now apply blanks_iff].
Qed.
Lemma dbg_iff l x : get6502DbgInfo l = Some x <->
  (exists f n, dbg_line l f n /\ x = (f, number n, false)) \/
  (dbg_other l /\ (forall f n, ~ dbg_line l f n) /\ x = ([], 0, true)).
Proof.
  unfold get6502DbgInfo. pose proof (dbg_match l) as M. destruct (re_match source6502Dbg l) as [st|]; cbn [option_map] in M.
  - destruct (proj1 (M _) eq_refl) as (f & n & Hl & E). pose proof E as E0. injection E as E1 E2. rewrite E1, E2 in *. split.
    + intros X. injection X as <-. left. eauto.
    + intros [(f' & n' & Hl' & ->)|(_ & Hno & _)]; [|exfalso; exact (Hno _ _ Hl)].
      assert (X : Some (f, number n) = Some (f', number n')) by (apply M; eauto). now injection X as -> ->.
  - assert (N : forall f n, ~ dbg_line l f n).
    { intros f n H. assert (X : None = Some (f, number n)) by (apply M; eauto). discriminate. }
    destruct (is_some (re_search source6502DbgEnd l)) eqn:E.
    + apply dbg_end_iff in E. split; [intros X; injection X as <-; auto|].
      intros [(f & n & H & _)|(_ & _ & ->)]; [now apply N in H|reflexivity].
    + split; [discriminate|]. intros [(f & n & H & _)|(H & _)]; [now apply N in H|].
      apply dbg_end_iff in H. congruence.
Qed.

Definition d2line (l a : str) : Prop := exists u g r, l = u ++ lit ".d2line" ++ g ++ a ++ r /\ blanks u /\ gap g /\ numeral a /\ ends_number r.
Lemma d2tail_heads pos r caps : exists st, heads (Seqs [Opt (Chr ","); HS; Grp 2 (Star true (Cls is_digit)); AnyStar]) (mkM pos r caps) st /\
  m_rest st = [] /\ exists p t, m_caps st = (2%nat, (p, t)) :: caps.
Proof.
  assert (T : forall pos r caps, exists st, heads (Seqs [HS; Grp 2 (Star true (Cls is_digit)); AnyStar]) (mkM pos r caps) st /\
    m_rest st = [] /\ exists p t, m_caps st = (2%nat, (p, t)) :: caps).
  { clear. intros pos r caps. destruct (run_split is_hspace r) as (v & r1 & -> & Hv & S1).
    destruct (run_split is_digit r1) as (n & r2 & -> & Hn & S2). eexists. split; [|split].
    - cbn [Seqs]. eapply heads_seq; [apply heads_star; assumption|]. eapply heads_seq; [apply heads_grp, heads_star; assumption|]. apply heads_any.
    - reflexivity.
    - cbn. eauto. }
  destruct r as [|c r].
  - destruct (T pos [] caps) as (st & H & H1 & H2). exists st. split; [|auto]. hseq; [apply heads_opt_none; reflexivity|exact H].
  - destruct (ceq c ",") eqn:E.
    + apply ceq_true in E. subst c. destruct (T (S pos) r caps) as (st & H & H1 & H2). exists st. split; [|auto].
      hseq; [apply heads_opt; now apply heads_cls|exact H].
    + destruct (T pos (c :: r) caps) as (st & H & H1 & H2). exists st. split; [|auto].
      hseq; [apply heads_opt_none, chr_no; intros ->; discriminate|exact H].
Qed.
Lemma d2line_iff l x : getD2LineInfo l = Some x <-> exists a, d2line l a /\ x = number a.
Proof.
  unfold getD2LineInfo. revert x. apply matches_iff.
  - intros x (a & (u & g & r & -> & Hu & Hg & Ha & Hr) & ->).
    destruct (d2tail_heads (0 + length u + length (lit ".d2line") + length g + length a) r
      [(1%nat, ((0 + length u + length (lit ".d2line") + length g)%nat, a))]) as (st & H & H1 & p & t & C).
    exists st. split; [apply heads_match; [|exact H1]|].
    + unfold sourceD2Tag. hseq; [apply heads_bol|]. hseq; [apply heads_blanks; [assumption|reflexivity]|]. hseq; [apply heads_L|].
      hseq; [apply heads_gap; [assumption|now apply numeral_stop]|]. hseq; [now apply heads_digits|]. exact H.
    + unfold cap, get_group. rewrite C. reflexivity.
  - intros H. apply re_match_den in H. unfold sourceD2Tag in H. cbn [Seqs] in H. rewrite den_bol_seq in H. destruct H as [_ H].
    rewrite den_seq_iff in H. destruct H as (u & y1 & -> & Hu & H). rewrite den_hs_iff in Hu.
    rewrite den_seq_iff in H. destruct H as (x & y2 & -> & Hx & H). rewrite den_L_iff in Hx. subst x.
    rewrite den_seq_iff in H. destruct H as (g & y3 & -> & Hg & H). rewrite den_hp_iff in Hg. destruct Hg as [Hg0 Hg].
    rewrite den_seq_iff in H. destruct H as (a & y4 & -> & Ha & _). rewrite den_grp_iff, den_plus_iff in Ha. destruct Ha as [Ha0 Ha].
    destruct (run_split is_digit y4) as (k & r & -> & Hk & Hr).
    exists (number (a ++ k)), (a ++ k). split; [|reflexivity]. exists u, g, r. rewrite <- !app_assoc. split; [reflexivity|].
    split; [now apply blanks_iff|]. split; [split; [exact Hg0|now apply blanks_iff]|].
    split; [split; [destruct a; [congruence|discriminate]|apply digits_iff, Forall_app; auto]|].
    destruct r as [|c r]; [exact I|]. now apply (not_b _ _ c digit_iff).
Qed.
Definition d2file (l f : str) : Prop := exists u g, l = u ++ lit ".d2file" ++ g ++ quoted f /\ blanks u /\ gap g.
Lemma d2file_unique l f f' : d2file l f -> d2file l f' -> f = f'.
Proof.
  intros (u & g & -> & Hu & Hg0 & Hg) (u' & g' & E & Hu' & Hg0' & Hg'). apply blanks_iff in Hu, Hg, Hu', Hg'.
  apply run_unique with (p := is_hspace) in E; [|assumption|assumption|reflexivity|reflexivity]. destruct E as [_ E]. apply app_inv_head in E.
  apply run_unique with (p := is_hspace) in E; [|assumption|assumption|reflexivity|reflexivity]. destruct E as [_ E].
  unfold quoted in E. injection E as E. now apply app_inj_tail in E as [-> _].
Qed.
Lemma seq_in a b st0 st : In st (m (Seq a b) st0) -> exists mid, In mid (m a st0) /\ In st (m b mid).
Proof. cbn [m]. apply in_flat_map. Qed.
Lemma d2file_den l st : re_match sourceD2File l = Some st -> d2file l (cap 1 st).
Proof.
  intros E. unfold re_match in E. apply find_some in E as [E Er]. unfold sourceD2File in E. cbn [Seqs] in E.
  destruct (m_rest st) as [|? ?] eqn:R; [clear Er|discriminate].
  apply seq_in in E as (s0 & H0 & E). cbn in H0. destruct H0 as [<-|[]].
  apply seq_in in E as (s1 & H1 & E). destruct (m_sound HS (mkM 0 l []) s1 [] eq_refl H1) as (u & [R1 P1] & D1). cbn in R1, P1.
  apply seq_in in E as (s2 & H2 & E). destruct (m_sound (L ".d2file") s1 s2 u P1 H2) as (x & [R2 P2] & D2).
  apply seq_in in E as (s3 & H3 & E). destruct (m_sound HP s2 s3 (u ++ x) ltac:(rewrite app_length; lia) H3) as (g & [R3 P3] & D3).
  apply seq_in in E as (s4 & H4 & E). destruct (m_sound (Chr DQ) s3 s4 (u ++ x ++ g) ltac:(rewrite !app_length; lia) H4) as (y & [R4 P4] & D4).
  apply seq_in in E as (s5 & H5 & E). cbn [m] in H5. apply in_map_iff in H5 as (s6 & <- & H5).
  destruct (m_sound AnyStar s4 s6 (u ++ x ++ g ++ y) ltac:(rewrite !app_length; lia) H5) as (f & [R5 P5] & _).
  cbn [m Chr m_rest close_group] in E. destruct (m_rest s6) as [|c t] eqn:R6; [destruct E|].
  destruct (ceq DQ c) eqn:Ec; [|destruct E]. apply ceq_true in Ec. subst c. destruct E as [<-|[]]. cbn in R. subst t.
  rewrite den_L_iff in D2. rewrite den_chr_iff in D4. rewrite den_hs_iff in D1. rewrite den_hp_iff in D3. destruct D3 as [G0 G]. subst x y.
  exists u, g. split; [|split; [now apply blanks_iff|split; [exact G0|now apply blanks_iff]]].
  unfold cap, get_group. cbn [m_caps close_group find fst snd Nat.eqb option_map].
  replace (m_pos s6 - m_pos s4)%nat with (length f) by lia. rewrite R5, firstn_len_app. rewrite R1, R2, R3, R4, R5. reflexivity.
Qed.
Lemma d2file_iff l f : getD2FileInfo l = Some f <-> d2file l f.
Proof.
  unfold getD2FileInfo. split.
  - destruct (re_match sourceD2File l) as [st|] eqn:E; [|discriminate]. cbn. intros X. injection X as <-. now apply d2file_den.
  - intros H. assert (M : is_some (re_match sourceD2File l) = true).
    { apply re_match_den. destruct H as (u & g & -> & Hu & Hg0 & Hg). unfold sourceD2File. cbn [Seqs]. apply den_bol_seq. split; [reflexivity|].
      apply den_seq; [apply den_hs_iff; now apply blanks_iff|]. apply den_seq; [now apply den_L_iff|].
      apply den_seq; [apply den_hp_iff; split; [exact Hg0|now apply blanks_iff]|]. unfold quoted. change (DQ :: f ++ [DQ]) with ([DQ] ++ f ++ [DQ]).
      apply den_seq; [now apply den_chr_iff|]. apply den_seq; [apply den_grp; now apply den_anystar_iff|now apply den_chr_iff]. }
    destruct (re_match sourceD2File l) as [st|] eqn:E; [|discriminate]. cbn. f_equal. apply d2file_den in E. now apply (d2file_unique l).
Qed.

(** *** C71 *)
Definition assignment (t n : str) : Prop := exists u v c k, t = u ++ n ++ v ++ lit "=" /\ blanks u /\ blanks v /\
  n = c :: k /\ (name_start c \/ c = "$"%char) /\ k <> [] /\ Forall name_char k.
Lemma idstartD_iff c : idstartD c = true <-> name_start c \/ c = "$"%char.
Proof. unfold idstartD. now rewrite orb_true_iff, idstart_iff, ceq_true. Qed.
Lemma assignment_iff t n : getAssignmentDef t = Some n <-> assignment t n.
Proof.
  unfold getAssignmentDef. revert n. apply matches_iff.
  - intros n (u & v & c & k & -> & Hu & Hv & -> & Hc & Hk0 & Hk). eexists. split; [apply heads_whole; unfold assignmentDef|].
    + hseq; [apply heads_bol|]. hseq; [apply heads_blanks; [assumption|]|].
      { cbn. destruct (is_hspace c) eqn:E; [|reflexivity]. apply idstartD_iff in Hc. apply blank_iff in E. destruct E as [-> | ->]; discriminate. }
      hseq.
      { apply heads_grp. cbn [app]. eapply heads_seq; [apply heads_cls; now apply idstartD_iff|]. cbn [length]. rewrite Nat.add_succ_r.
        apply (heads_plus idchar (S _)); [exact Hk0|now apply (Forall_iff_b _ _ k idchar_iff)|].
        destruct v as [|d v]; [reflexivity|]. inversion Hv as [|? ? Hd]; subst. destruct Hd as [-> | ->]; reflexivity. }
      hseq; [apply heads_blanks; [assumption|reflexivity]|]. now apply heads_cls.
    + reflexivity.
  - intros H. apply re_match_den in H. unfold assignmentDef in H. cbn [Seqs] in H. rewrite den_bol_seq in H. destruct H as [_ H].
    rewrite den_seq_iff in H. destruct H as (u & y1 & -> & Hu & H). rewrite den_hs_iff in Hu.
    rewrite den_seq_iff in H. destruct H as (n & y2 & -> & Hn & H).
    rewrite den_seq_iff in H. destruct H as (v & x & -> & Hv & H). rewrite den_hs_iff in Hv. rewrite den_chr_iff in H. subst x.
    rewrite den_grp_iff, den_seq_iff in Hn. destruct Hn as (x & k & -> & Hx & Hk). apply den_cls_iff in Hx as (c & -> & Hc).
    rewrite den_plus_iff in Hk. destruct Hk as [Hk0 Hk].
    exists (c :: k), u, v, c, k. split; [reflexivity|]. split; [now apply blanks_iff|]. split; [now apply blanks_iff|]. split; [reflexivity|].
    split; [now apply idstartD_iff|]. split; [exact Hk0|now apply (Forall_iff_b _ _ k idchar_iff)].
Qed.
Lemma opcode_iff l : hasOpcode l false = true <-> let t := getLineWithoutComment l in
  occurs ".inst" t \/ (forall n, ~ assignment t n) /\ exists u c r, t = u ++ c :: r /\ blanks u /\ letter c.
Proof.
  unfold hasOpcode. cbv zeta. set (t := getLineWithoutComment l). pose proof (inst_iff t) as I1. unfold isInstOpcode in I1.
  pose proof (assignment_iff t) as A. unfold getAssignmentDef in A.
  assert (S : is_some (re_search hasOpcodeRe t) = true <-> exists u c r, t = u ++ c :: r /\ blanks u /\ letter c).
  { unfold hasOpcodeRe. cbn [Seqs]. rewrite search_start. split.
    - intros (u & x & r & E & Hu & H). apply den_cls_iff in H as (c & -> & Hc). exists u, c, r. split; [exact E|]. split; [exact Hu|now apply letter_iff].
    - intros (u & c & r & E & Hu & Hc). exists u, [c], r. split; [exact E|]. split; [exact Hu|]. apply den_cls_iff. exists c. split; [reflexivity|now apply letter_iff]. }
  destruct (is_some (re_search instOpcodeRe t)); [tauto|].
  assert (I2 : ~ occurs ".inst" t) by (intros X; apply I1 in X; discriminate).
  destruct (re_match assignmentDef t) as [st|]; cbn [is_some option_map] in *.
  - split; [discriminate|]. intros [X|[X _]]; [now apply I2 in X|]. exfalso. apply (X (cap 1 st)). now apply A.
  - rewrite S. assert (N : forall n, ~ assignment t n) by (intros n X; apply A in X; discriminate). tauto.
Qed.
Lemma nvcc_opcode_iff l : hasOpcode l true = true <-> let t := getLineWithoutComment l in
  occurs ".inst" t \/ exists u c, t = u ++ [c] /\ blanks u /\ (letter c \/ among "@|" c).
Proof.
  unfold hasOpcode. cbv zeta. set (t := getLineWithoutComment l). pose proof (inst_iff t) as I1. unfold isInstOpcode in I1.
  pose proof (assignment_iff t) as A. unfold getAssignmentDef in A.
  assert (S : is_some (re_match hasNvccOpcodeRe t) = true <-> exists u c, t = u ++ [c] /\ blanks u /\ (letter c \/ among "@|" c)).
  { unfold hasNvccOpcodeRe. cbn [Seqs]. rewrite match_start. split.
    - intros (u & x & E & Hu & H). apply den_cls_iff in H as (c & -> & Hc). exists u, c. split; [exact E|]. split; [exact Hu|].
      now rewrite orb_true_iff, letter_iff, one_of_iff in Hc.
    - intros (u & c & E & Hu & Hc). exists u, [c]. split; [exact E|]. split; [exact Hu|]. apply den_cls_iff. exists c. split; [reflexivity|].
      now rewrite orb_true_iff, letter_iff, one_of_iff. }
  destruct (is_some (re_search instOpcodeRe t)); [tauto|].
  assert (I2 : ~ occurs ".inst" t) by (intros X; apply I1 in X; discriminate).
  destruct (re_match assignmentDef t) as [st|]; cbn [is_some option_map] in *.
  - split; [discriminate|]. intros [X|X]; [now apply I2 in X|]. exfalso.
    destruct (proj1 (A _) eq_refl) as (u & v & c & k & E & Hu & Hv & En & Hc & Hk0 & Hk). destruct X as (u' & d & E' & Hu' & Hd).
    rewrite E in E'. rewrite !app_assoc in E'. apply app_inj_tail in E' as [_ <-].
    destruct Hd as [Hd|Hd]; [apply letter_iff in Hd; discriminate|]. cbn in Hd. destruct Hd as [Hd|[Hd|[]]]; discriminate.
  - rewrite S. tauto.
Qed.
