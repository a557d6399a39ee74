(** Lines read by getFileDef (src/utils/regexwrappers.cpp:29-45), all of them. *)
From Verif Require Export Recog4.

(** The line starts with ".file", a number and a quoted name; [r] is what follows. *)
Definition file_head (l a f r : str) : Prop := exists u v w, l = u ++ lit ".file" ++ v ++ a ++ w ++ quoted f ++ r /\
  blanks u /\ gap v /\ numeral a /\ gap w /\ file_name f.
(** [r] goes on with blanks and a second quoted name. *)
Definition second_name (r g : str) : Prop := exists x q, r = x ++ quoted g ++ q /\ gap x /\ file_name g.
Definition SECOND : re := Seqs [HP; Chr DQ; Grp 4 (Plus (Cls not_dq)); Chr DQ].

Lemma second_den pre u post : den (Grp 3 SECOND) pre u post -> exists g, second_name (u ++ post) g.
Proof.
  unfold SECOND. cbn [Seqs]. rewrite den_grp_iff. intros H.
  rewrite den_seq_iff in H. destruct H as (x & y1 & -> & Hx & H). rewrite den_hp_iff in Hx. destruct Hx as [Hx0 Hx].
  rewrite den_seq_iff in H. destruct H as (y & y2 & -> & Hy & H). rewrite den_chr_iff in Hy. subst y.
  rewrite den_seq_iff in H. destruct H as (g & y & -> & Hg & H). rewrite den_chr_iff in H. subst y.
  rewrite den_grp_iff, den_plus_iff in Hg. destruct Hg as [Hg0 Hg].
  exists g, x, post. unfold quoted. rewrite <- !app_assoc. cbn [app]. rewrite <- !app_assoc.
  split; [reflexivity|]. split; [split; [exact Hx0|now apply blanks_iff]|]. split; [exact Hg0|now apply not_dq_in].
Qed.
Lemma second_dec r : (exists g, second_name r g) \/ (forall g, ~ second_name r g).
Proof.
  destruct (m (Grp 3 SECOND) (mkM 0 r [])) as [|st k] eqn:E.
  - right. intros g (x & q & -> & Hx & Hg). assert (X : exists st, heads (Grp 3 SECOND) (mkM 0 (x ++ quoted g ++ q) []) st).
    { rewrite quoted_app. eexists.
      replace (x ++ DQ :: g ++ DQ :: q) with ((x ++ DQ :: g ++ [DQ]) ++ q) by (rewrite <- !app_assoc; cbn; rewrite <- app_assoc; reflexivity).
      apply heads_grp. rewrite <- !app_assoc. cbn [app]. rewrite <- app_assoc. cbn [app]. unfold SECOND.
      hseq; [apply heads_gap; [assumption|reflexivity]|]. hseq; [apply heads_cls; reflexivity|]. hseq; [now apply heads_name|].
      match goal with |- heads _ (mkM ?p _ ?c) (mkM ?q _ _) => replace q with (S p); [apply heads_cls; reflexivity|] end.
      rewrite !app_length. cbn [length]. rewrite app_length. cbn [length]. lia. }
    destruct X as (st & k & X). rewrite X in E. discriminate.
  - left. destruct (m_sound (Grp 3 SECOND) (mkM 0 r []) st [] eq_refl) as (u & [Hr _] & Hd); [rewrite E; now left|].
    cbn in Hr. rewrite Hr. eapply second_den, Hd.
Qed.
Lemma file_only l a f r : file_head l a f r -> (forall g, ~ second_name r g) -> getFileDef l = Some (number a, f).
Proof.
  intros (u & v & w & -> & Hu & Hv & Ha & Hw & Hf) Hr. unfold getFileDef. rewrite quoted_app.
  assert (E : exists st, re_match fileFind (u ++ lit ".file" ++ v ++ a ++ w ++ DQ :: f ++ DQ :: r) = Some st /\ cap 1 st = a /\ cap 2 st = f /\ cap 4 st = []).
  { eexists. split; [|split; [|split]].
    - apply heads_whole. unfold fileFind.
      hseq; [apply heads_bol|]. hseq; [apply heads_blanks; [assumption|reflexivity]|]. hseq; [apply heads_L|].
      hseq; [apply heads_gap; [assumption|now apply numeral_stop]|].
      hseq; [apply heads_digits; [assumption|now apply gap_ends]|].
      hseq; [apply heads_gap; [assumption|reflexivity]|].
      hseq; [apply heads_cls; reflexivity|]. hseq; [now apply heads_name|]. hseq; [apply heads_cls; reflexivity|].
      hseq; [apply heads_opt_none|apply heads_any].
      match goal with |- m _ (mkM ?p _ _) = [] => apply (m_nil _ p (repeat SP p)); [now rewrite repeat_length|] end.
      intros x y -> Hd. apply second_den in Hd as (g & Hg). exact (Hr _ Hg).
    - reflexivity.
    - reflexivity.
    - reflexivity. }
  destruct E as (st & -> & -> & -> & ->). reflexivity.
Qed.
Lemma file_some l : getFileDef l <> None -> exists a f r, file_head l a f r.
Proof.
  unfold getFileDef. intros H. assert (M : is_some (re_match fileFind l) = true) by (destruct (re_match fileFind l); [reflexivity|now elim H]).
  clear H. apply re_match_den in M. unfold fileFind in M. cbn [Seqs] in M. rename M into H. rewrite den_bol_seq in H. destruct H as [_ H].
  rewrite den_seq_iff in H. destruct H as (u & y1 & -> & Hu & H). rewrite den_hs_iff in Hu.
  rewrite den_seq_iff in H. destruct H as (x & y2 & -> & Hx & H). rewrite den_L_iff in Hx. subst x.
  rewrite den_seq_iff in H. destruct H as (v & y3 & -> & Hv & H). rewrite den_hp_iff in Hv. destruct Hv as [Hv0 Hv].
  rewrite den_seq_iff in H. destruct H as (a & y4 & -> & Ha & H). rewrite den_grp_iff, den_plus_iff in Ha. destruct Ha as [Ha0 Ha].
  rewrite den_seq_iff in H. destruct H as (w & y5 & -> & Hw & H). rewrite den_hp_iff in Hw. destruct Hw as [Hw0 Hw].
  rewrite den_seq_iff in H. destruct H as (x & y6 & -> & Hx & H). rewrite den_chr_iff in Hx. subst x.
  rewrite den_seq_iff in H. destruct H as (f & y7 & -> & Hf & H). rewrite den_grp_iff, den_plus_iff in Hf. destruct Hf as [Hf0 Hf].
  rewrite den_seq_iff in H. destruct H as (x & r & -> & Hx & _). rewrite den_chr_iff in Hx. subst x.
  exists a, f, r, u, v, w. rewrite quoted_app. split; [cbn [app]; rewrite <- ?app_assoc; reflexivity|].
  split; [now apply blanks_iff|]. split; [split; [exact Hv0|now apply blanks_iff]|]. split; [split; [exact Ha0|now apply digits_iff]|].
  split; [split; [exact Hw0|now apply blanks_iff]|]. split; [exact Hf0|now apply not_dq_in].
Qed.
Lemma file_both l a f r g : file_head l a f r -> second_name r g -> getFileDef l = Some (number a, f ++ lit "/" ++ g).
Proof.
  intros (u & v & w & -> & Hu & Hv & Ha & Hw & Hf) (x & q & -> & Hx & Hg). now apply file_two.
Qed.
Lemma file_iff l x : getFileDef l = Some x <-> exists a f r, file_head l a f r /\
  ((exists g, second_name r g /\ x = (number a, f ++ lit "/" ++ g)) \/ (forall g, ~ second_name r g) /\ x = (number a, f)).
Proof.
  split.
  - intros H. destruct (file_some l) as (a & f & r & Hh); [congruence|]. exists a, f, r. split; [exact Hh|].
    destruct (second_dec r) as [(g & Hg)|Hn].
    + left. exists g. split; [exact Hg|]. rewrite (file_both _ _ _ _ _ Hh Hg) in H. now injection H as <-.
    + right. split; [exact Hn|]. rewrite (file_only _ _ _ _ Hh Hn) in H. now injection H as <-.
  - intros (a & f & r & Hh & [(g & Hg & ->)|[Hn ->]]); [eapply file_both|eapply file_only]; eassumption.
Qed.
