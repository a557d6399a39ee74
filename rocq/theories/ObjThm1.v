(** The objdump properties C01-C07, C22, C24, assembled from the invariants. *)
From Verif Require Export ObjMore.

Lemma C01_lemma mb flt s input : fromStream mb flt s (drop_cr input) = fromStream mb flt s input.
Proof. apply feed_drop_cr. Qed.

Lemma C02_lemma mb flt s input tail s2 :
  ~ In LF tail -> fromStream mb flt s (input ++ tail) = Ok s2 ->
  exists s1, fromStream mb flt s input = Ok s1 /\ same_output s1 s2 /\ o_total_lines s1 = o_total_lines s2
    /\ outputText s1 = outputText s2
    /\ (forall flt' fmt repro clock, outputJson flt' fmt repro clock s1 = outputJson flt' fmt repro clock s2).
Proof.
  intros Hn H. apply fromStream_app_Ok in H as (s1 & H1 & H2). exists s1.
  apply feed_tail in H2 as (A & B & C & _); [|exact Hn]. unfold same_output, outputText, outputJson.
  rewrite A, B, C. auto.
Qed.

Lemma C03_cap mb flt s : reachable mb flt s ->
  Z.of_nat (length (o_lines s)) <= 5001
  /\ (Z.of_nat (length (o_lines s)) = 5001 <-> o_stopParsing s = true)
  /\ (Z.of_nat (length (o_lines s)) = 5001 ->
        exists pre, o_lines s = pre ++ [set_l_text (lit "[truncated; too many lines]") line0]).
Proof.
  intros H. apply Cap_reachable in H as [[Hs Hl]|(Hs & pre & Hp & Hl)].
  - repeat split; intros; try lia; congruence.
  - rewrite Hp, app_length. cbn [length]. repeat split; intros; try lia; auto. now exists pre.
Qed.
Lemma C03_frozen mb flt s input s' : reachable mb flt s -> Z.of_nat (length (o_lines s)) = 5001 ->
  fromStream mb flt s input = Ok s' -> same_output s s'.
Proof.
  intros Hr Hl H. apply (C03_cap mb flt) in Hr as (_ & Hs & _). apply Hs in Hl.
  rewrite fromStream_stopped in H by exact Hl. injection H as <-. now split.
Qed.

Lemma C04_count mb flt input s : run mb flt input = Ok s ->
  (o_stopParsing s = false /\ o_total_lines s = count_lf input)
  \/ (exists a b s0, input = a ++ LF :: b /\ run mb flt a = Ok s0 /\ o_stopParsing s0 = false
        /\ run mb flt (a ++ [LF]) = Ok s /\ o_stopParsing s = true /\ o_total_lines s = count_lf (a ++ [LF])).
Proof.
  intros H. unfold run, fromStream in *. apply feed_split in H; [|reflexivity].
  destruct H as [[A B]|(a & b & s0 & A & B & C & D & E & F)].
  - left. split; [exact A|]. rewrite B. cbn. lia.
  - right. exists a, b, s0. repeat split; auto.
    + rewrite feed_app, B. cbn [obind feed]. now rewrite D.
    + rewrite F, count_lf_app. cbn. lia.
Qed.
Lemma C04_filtered mb flt input s : run mb flt input = Ok s -> count_lf input < 2 ^ 63 ->
  filteredCount (o_total_lines s) (Z.of_nat (length (o_lines s))) = o_total_lines s - Z.of_nat (length (o_lines s))
  /\ 0 <= o_total_lines s - Z.of_nat (length (o_lines s)).
Proof.
  intros H Hn. pose proof (total_ge _ _ _ _ H) as Hge.
  assert (Hle : o_total_lines s <= count_lf input).
  { apply C04_count in H as [[_ ->]|(a & b & s0 & -> & _ & _ & _ & _ & ->)]; [lia|].
    rewrite !count_lf_app. cbn [count_lf]. change (Ascii.eqb LF LF) with true. cbn iota.
    pose proof (count_lf_nonneg b). lia. }
  split; [|lia]. unfold filteredCount, wrap_s.
  change (2 ^ 64) with 18446744073709551616. change (2 ^ (64 - 1)) with 9223372036854775808.
  change (2 ^ 63) with 9223372036854775808 in Hn.
  rewrite Z.mod_small by lia.
  destruct (_ <? _) eqn:E; lia.
Qed.

Lemma C05_lemma mb flt input s : run mb flt input = Ok s -> o_stopParsing s = false ->
  o_labels s = label_table 1 (o_lines s)
  /\ Forall (fun l => l_is_label l = true -> l_text l = l_label l ++ [":"%char]) (o_lines s).
Proof. intros H Hs. apply Tab_run in H as [_ _ HL HX]. auto. Qed.

Lemma label_table_spec lines name n : forall k, k <= n ->
  (In (name, n) (label_table k lines) <->
   exists l, nth_error lines (Z.to_nat (n - k)) = Some l /\ l_is_label l = true /\ l_label l = name).
Proof.
  induction lines as [|l ls IH]; intros k Hk; cbn [label_table].
  - split; [intros []|]. intros (l & H & _). now destruct (Z.to_nat (n - k)).
  - destruct (Z.eq_dec n k) as [->|Hne].
    + replace (Z.to_nat (k - k)) with O by lia. cbn [nth_error]. split.
      * intros H. assert (~ In (name, k) (label_table (k + 1) ls)) by (intros HH; apply label_table_range in HH; lia).
        destruct (l_is_label l) eqn:E; [|contradiction]. destruct H as [[= <-]|?]; [|contradiction]. now exists l.
      * intros (l' & [= <-] & E & <-). rewrite E. now left.
    + replace (Z.to_nat (n - k)) with (S (Z.to_nat (n - (k + 1)))) by lia. cbn [nth_error].
      rewrite <- IH by lia. destruct (l_is_label l); cbn [In]; [|tauto]. split; [|tauto].
      intros [[= _ E]|H]; [lia|exact H].
Qed.
Lemma C05_nth mb flt input s name n : run mb flt input = Ok s -> o_stopParsing s = false ->
  (In (name, n) (o_labels s) <-> label_line_at (o_lines s) name n).
Proof.
  intros H Hs. destruct (C05_lemma _ _ _ _ H Hs) as [HT HX]. rewrite HT. unfold label_line_at. split.
  - intros HI. pose proof (label_table_range _ _ _ _ HI). split; [lia|].
    apply label_table_spec in HI as (l & A & B & C); [|lia]. exists l. repeat split; auto.
    rewrite Forall_forall in HX. rewrite <- C. apply HX; [|exact B]. eapply nth_error_In; eassumption.
  - intros (Hn & l & A & B & C & D). apply label_table_spec; [lia|]. eauto.
Qed.

Lemma C06_lemma mb flt input s : run mb flt input = Ok s -> o_stopParsing s = true ->
  exists a b s0, input = a ++ LF :: b /\ run mb flt a = Ok s0 /\ o_stopParsing s0 = false /\
    exists pre, o_lines s = pre ++ [truncated_line] /\ Z.of_nat (length pre) = 5000 /\
      ((o_inLabel s0 = false /\ o_labels s = label_table 1 pre)
       \/ (o_inLabel s0 = true /\ exists name, name = label_name (o_text s0)
             /\ o_labels s = label_table 1 pre ++ [(name, 5001)])).
Proof.
  intros H Hs. unfold run, fromStream in *. pose proof H as HX. apply feed_split in H; [|reflexivity].
  destruct H as [[A _]|(a & b & s0 & A & B & C & D & E & F)]; [congruence|].
  exists a, b, s0. repeat split; auto.
  assert (HT : Tab s0) by (eapply (Tab_run mb flt a); exact B).
  apply step_LF in D as [[? _]|(_ & x & Hx & ->)]; [congruence|].
  rewrite next_line_stop in Hs. rewrite next_line_lines, next_line_labels.
  pose proof (tab_labels _ HT C) as HL. pose proof (tab_cap _ HT) as HC. destruct HC as [[_ HC]|[? _]]; [|congruence].
  assert (Hpush : forall l y, o_stopParsing y = false -> o_stopParsing (push_line l y) = true ->
     o_lines (push_line l y) = o_lines y ++ [truncated_line] /\ 5000 <= Z.of_nat (length (o_lines y))).
  { intros l y Hy. unfold push_line. destruct (_ <? _) eqn:Ey; osimp; [congruence|]. split; [reflexivity|lia]. }
  destruct Hx as [ls lb _ _ _ Hrm|ls lb Hl _ _ Hrm Hn nm|ls lb n Hl _ _ Hrm Hn| | | |]; osimp; try congruence.
  - apply Hpush in Hs; [|exact C]. osimp. destruct Hs as [-> Hge].
    apply (Tab_rm _ _ _ _ HT C) in Hrm as (-> & _ & Hle).
    exists ls. repeat split; [lia|]. right. split; [exact Hl|]. exists nm. split; [reflexivity|].
    rewrite push_line_labels. osimp. rewrite i32_small by lia. do 3 f_equal. lia.
  - apply Hpush in Hs; [|exact C]. destruct Hs as [-> Hge]. exists (o_lines s0). repeat split; [lia|]. left.
    split; [assumption|]. now rewrite push_line_labels.
Qed.

Lemma C07_lemma mb flt s : reachable mb flt s ->
  (forall l, In l (o_lines s) -> l_is_label l = true -> shouldIgnoreFunction (l_label l) flt = false)
  /\ (forall l r, In l (o_lines s) -> In r (l_labels l) -> shouldIgnoreFunction (lb_name r) flt = false)
  /\ (forall name n, In (name, n) (o_labels s) -> shouldIgnoreFunction name flt = false).
Proof.
  intros H. apply NoIgn_reachable in H as [H1 H2 H3 _]. rewrite Forall_forall in H1, H3. repeat split.
  - intros l Hl. now apply H1.
  - intros l r Hl Hr. destruct (H1 l Hl) as [_ HF]. rewrite Forall_forall in HF. now apply HF.
  - intros nm n Hn. exact (H3 _ Hn).
Qed.

Lemma C22_breaks mb flt s l : reachable mb flt s -> In l (o_lines s) -> ~ In LF (l_text l) /\ ~ In CR (l_text l).
Proof.
  intros H Hl. apply no_break_reachable in H as [_ _ _ _ HL _]. rewrite Forall_forall in HL. apply HL in Hl as [Ht _ _ _ _ _].
  unfold allQ in Ht. rewrite Forall_forall in Ht. split; intros HH; apply Ht in HH as [? ?]; congruence.
Qed.
Lemma C22_lines mb flt s : reachable mb flt s -> text_lines (outputText s) = map l_text (o_lines s).
Proof. intros H. apply text_lines_output. now apply no_break_reachable in H as [_ _ _ _ HL _]. Qed.

Lemma C24_lemma mb flt input s t : run mb flt input = Ok s -> o_inAddress s = true -> o_text s <> "/"%char :: t.
Proof. intros H. apply Mode_no_slash. eapply Mode_run; eassumption. Qed.
