(** C10, C11 for output lines; C06 existence; C12 converse. *)
From Verif Require Export ObjListingThm.

Record tracked (a : option Z) (s0 s : ostate) : Prop := {
  tk_addr : o_inAddress s = false;
  tk_label : o_inLabel s = false;
  tk_line : l_address (o_currentLine s) = a;
  tk_lines : o_lines s = o_lines s0;
  tk_stop : o_stopParsing s = false }.
Lemma tracked_trans mb flt a s0 s c s' : trans mb flt s c s' -> tracked a s0 s -> tracked a s0 s'.
Proof.
  intros H [H1 H2 H3 H4 H5]. destruct H; try congruence; constructor; osimp_goal; auto.
Qed.
Lemma tracked_feed mb flt a s0 t : ~ In LF t -> forall s s', tracked a s0 s -> feed mb flt s t = Ok s' -> tracked a s0 s'.
Proof.
  induction t as [|c t IH]; intros Hn s s' Ht H; cbn [feed] in H; [injection H as <-; exact Ht|]. cbn [In] in Hn.
  apply obind_Ok in H as (s1 & H1 & H). apply IH in H; [exact H|tauto|]. eapply tracked_trans; [|exact Ht].
  apply (step_trans mb flt s c); [intros ->; apply Hn; now left|exact H1].
Qed.
Lemma tracked_eol mb flt a s0 s s' : tracked a s0 s -> step mb flt s LF = Ok s' -> Z.of_nat (length (o_lines s0)) < 5000 ->
  o_lines s' = o_lines s0 \/ exists l, o_lines s' = o_lines s0 ++ [l] /\ l_address l = a.
Proof.
  intros [H1 H2 H3 H4 H5] H Hlen. apply step_LF in H as [[? _]|(_ & x & Hx & ->)]; [congruence|]. rewrite next_line_lines.
  destruct Hx; try congruence; osimp_goal; auto.
  right. unfold push_line. rewrite H4, (proj2 (Z.ltb_lt _ _) Hlen). osimp_goal. eexists. split; [reflexivity|].
  unfold finish_line. cbn zeta. match goal with |- context [if ?b then _ else _] => destruct b end; exact H3.
Qed.

Lemma C11_shown mb flt pre s b h v rest s' : line_start mb flt pre s -> o_ignoreUntilNextLabel s = false ->
  Z.of_nat (length (o_lines s)) < 5000 -> Forall blank b -> hex_value h = Some v -> Z.of_nat (length h) <= 64 -> ~ In LF rest ->
  v < 4294967296 ->
  run mb flt (pre ++ b ++ h ++ [":"%char] ++ rest ++ [LF]) = Ok s' ->
  o_lines s' = o_lines s \/
  exists l, o_lines s' = o_lines s ++ [l] /\ l_address l = Some (if v <? 2147483648 then v else v - 4294967296).
Proof.
  intros Hl Hig Hlen Hb Hv Hh Hn Hlt H.
  rewrite (run_more mb flt pre s) in H by apply Hl.
  replace (b ++ h ++ [":"%char] ++ rest ++ [LF]) with ((b ++ h ++ [":"%char]) ++ rest ++ [LF]) in H by now rewrite <- !app_assoc.
  rewrite feed_app in H. pose proof (line_start_clean _ _ _ _ Hl) as Hc.
  rewrite (feed_address mb flt s b h v) in H; [|apply clean_start; [exact Hc|apply Hl]|exact Hig|exact Hb|exact Hv|exact Hh].
  rewrite (proj2 (Z.ltb_lt _ _) Hlt) in H. cbn [obind] in H. rewrite feed_snoc in H. apply obind_Ok in H as (s1 & H1 & H2).
  apply (tracked_feed mb flt (Some (as_int v)) s) in H1; [|exact Hn|].
  - eapply tracked_eol in H2; [|exact H1|exact Hlen]. exact H2.
  - constructor; osimp_goal; auto; try apply Hc; apply Hl.
Qed.
Lemma C11_ub mb flt pre s b h v rest : line_start mb flt pre s -> o_ignoreUntilNextLabel s = false ->
  Forall blank b -> hex_value h = Some v -> Z.of_nat (length h) <= 64 -> 4294967296 <= v ->
  run mb flt (pre ++ b ++ h ++ [":"%char] ++ rest) = UB ShiftRange.
Proof.
  intros Hl Hig Hb Hv Hh Hlt. rewrite (run_more mb flt pre s) by apply Hl.
  replace (b ++ h ++ [":"%char] ++ rest) with ((b ++ h ++ [":"%char]) ++ rest) by now rewrite <- !app_assoc.
  rewrite feed_app. pose proof (line_start_clean _ _ _ _ Hl) as Hc.
  rewrite (feed_address mb flt s b h v); [|apply clean_start; [exact Hc|apply Hl]|exact Hig|exact Hb|exact Hv|exact Hh].
  rewrite (proj2 (Z.ltb_ge _ _) Hlt). reflexivity.
Qed.
Lemma C10_lemma mb flt pre s b h v rest s' : line_start mb flt pre s -> o_ignoreUntilNextLabel s = false ->
  Z.of_nat (length (o_lines s)) < 5000 -> Forall blank b -> hex_value h = Some v -> Z.of_nat (length h) <= 64 -> ~ In LF rest ->
  v < 2147483648 ->
  run mb flt (pre ++ b ++ h ++ [":"%char] ++ rest ++ [LF]) = Ok s' ->
  o_lines s' = o_lines s \/ exists l, o_lines s' = o_lines s ++ [l] /\ l_address l = Some v.
Proof.
  intros Hl Hig Hlen Hb Hv Hh Hn Hlt H. apply (C11_shown mb flt pre s b h v rest s') in H; auto; [|lia].
  rewrite (proj2 (Z.ltb_lt _ _) Hlt) in H. exact H.
Qed.

(** C06: both kinds of overflow happen. *)
Definition overflow (n : nat) (last : list item) : list item := repeat (nop (lit "0")) n ++ last.
Lemma good_zero : good_addr (lit "0").
Proof. exists 0. repeat split; vm_compute; congruence. Qed.
Lemma overflow_run mb flt n last : Z.of_nat n = 5000 -> ascii_compatible mb -> Forall wf_item last -> length last = 1%nat ->
  exists s pre, run mb flt (render (overflow n last)) = Ok s /\ Z.of_nat (length pre) = 5000 /\ label_table 1 pre = []
    /\ abs s = denote_item flt (mkL [] source0 false false pre []) (hd (IBlank []) last).
Proof.
  intros Hn Hmb Hw Hl. destruct last as [|i [|? ?]]; try discriminate. cbn [hd].
  assert (Hwf : Forall wf_item (overflow n [i])).
  { apply Forall_app. split; [|exact Hw]. apply Forall_forall. intros x Hx. apply repeat_spec in Hx. subst. apply nop_wf, good_zero. }
  destruct (listing_feed mb flt Hmb _ _ clean_fresh (Idx_start _ Idx0) Hwf) as (s & E & _ & _ & Ha).
  unfold overflow in Ha. rewrite fold_left_app in Ha. cbn [fold_left] in Ha.
  change (abs (set_o_inAddress true (set_o_total_lines 0 ostate0))) with lstate0 in Ha.
  destruct (nops_denote flt n lstate0 eq_refl eq_refl) as (H1 & H2 & H3 & H4 & x & H5 & H6); [cbn [a_lines lstate0 length]; lia|].
  set (a := fold_left _ _ lstate0) in *.
  assert (Hk : a_section a = [] /\ a_source a = source0).
  { subst a. clear. assert (HH : forall k b, a_section b = [] /\ a_source b = source0 ->
       let c := fold_left (denote_item flt) (repeat (nop (lit "0")) k) b in a_section c = [] /\ a_source c = source0).
    { induction k as [|k IH]; intros b Hb; [exact Hb|]. cbn [repeat fold_left]. apply IH. unfold denote_item, nop.
      destruct (a_stopped b); [exact Hb|]. destruct (a_ignoring b); [exact Hb|].
      unfold emit. destruct (_ <? _); exact Hb. }
    apply HH. now split. }
  cbn [a_lines lstate0 app] in H5.
  exists s, (a_lines a). split; [exact E|]. split; [rewrite H4; cbn [a_lines lstate0 length]; lia|]. split.
  - rewrite H5. clear -H6. generalize 1. induction H6 as [|l x Hx _ IH]; intros k; [reflexivity|]. cbn [label_table]. rewrite Hx. apply IH.
  - rewrite Ha. clearbody a. destruct a as [p1 p2 p3 p4 p5 p6]. cbn in H1, H2, H3, Hk |- *. destruct Hk. now subst.
Qed.
Lemma C06_both mb flt : ascii_compatible mb -> f_library_functions flt = false ->
  (exists input s, run mb flt input = Ok s /\ o_stopParsing s = true /\ o_labels s = [(lit "f", 5001)] /\ label_table 1 (o_lines s) = [])
  /\ (exists input s, run mb flt input = Ok s /\ o_stopParsing s = true /\ o_labels s = []).
Proof.
  intros Hmb Hf.
  assert (HN : exists n, Z.of_nat n = 5000) by (exists (Z.to_nat 5000); lia). destruct HN as [n HN].
  assert (HT : forall k pre, label_table k (pre ++ [marker]) = label_table k pre).
  { intros k pre. revert k. induction pre as [|l pre IH]; intros k; [reflexivity|]. cbn [app label_table]. now rewrite !IH. }
  split.
  - destruct (overflow_run mb flt n [ILabel (lit "0") (lit "f")] HN Hmb) as (s & pre & E & Hlen & Hlt & Ha).
    { constructor; [|constructor]. split; [exact good_zero|]. repeat constructor; discriminate. }
    { reflexivity. }
    cbn [hd] in Ha. unfold denote_item in Ha. cbn [a_stopped] in Ha. rewrite Hf in Ha. cbn [a_lines a_labels] in Ha. cbn zeta in Ha.
    assert (Hi : shouldIgnoreFunction (lit "f") flt = false) by (unfold shouldIgnoreFunction; destruct (f_plt flt); vm_compute; reflexivity).
    rewrite Hi in Ha. unfold emit in Ha. cbn [a_lines] in Ha. rewrite (proj2 (Z.ltb_ge _ _)) in Ha by lia. cbn in Ha.
    unfold abs in Ha. injection Ha as R1 R2 R3 R4 R5 R6. exists (render (overflow n [ILabel (lit "0") (lit "f")])), s.
    split; [exact E|]. split; [exact R4|]. split; [rewrite R6, Hlen; reflexivity|]. now rewrite R5, HT.
  - destruct (overflow_run mb flt n [nop (lit "0")] HN Hmb) as (s & pre & E & Hlen & Hlt & Ha).
    { constructor; [apply nop_wf, good_zero|constructor]. }
    { reflexivity. }
    cbn [hd] in Ha. unfold denote_item, nop in Ha. cbn [a_stopped a_ignoring] in Ha.
    unfold emit in Ha. cbn [a_lines] in Ha. rewrite (proj2 (Z.ltb_ge _ _)) in Ha by lia. cbn in Ha.
    unfold abs in Ha. injection Ha as R1 R2 R3 R4 R5 R6. exists (render (overflow n [nop (lit "0")])), s. auto.
Qed.
