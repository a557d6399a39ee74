(** Proofs for the objdump properties C05-C08, C12, C21-C24: the invariants. *)
From Verif Require Export ObjBasic.

Ltac addr_cases := match goal with H : addr_trans _ _ |- _ => destruct H end.

(** ** Modes: which flags can be set together in one run of a fresh parser. *)
Record Mode (s : ostate) : Prop := {
  m_addr : o_inAddress s = true ->
    o_inLabel s = false /\ o_inOpcodes s = false /\ o_inRelocation s = false /\ o_inSectionStart s = false
    /\ o_inSectionName s = false
    /\ o_inSourceRef s = false /\ o_inSourceRefLineNumber s = false /\ o_skipRestOfTheLine s = false
    /\ o_inComment s = false /\ ~ In "/"%char (o_text s) /\ o_currentLine s = line0;
  m_label : o_inLabel s = true -> o_inSourceRefLineNumber s = false;
  m_refs : l_labels (o_currentLine s) <> [] ->
    o_inAddress s = false /\ o_inLabel s = false /\ o_inOpcodes s = false /\ o_inRelocation s = false
    /\ o_inSectionStart s = false /\ o_inSourceRef s = false /\ o_skipRestOfTheLine s = false;
  m_isl : l_is_label (o_currentLine s) = false;
  m_opc : o_inOpcodes s = true -> o_inLabel s = false ->
     Forall (fun c => is_hex c = true \/ c = SP \/ c = TAB) (o_text s)
}.

Lemma ws_cases c : is_whitespace c = true -> c = SP \/ c = TAB.
Proof. unfold is_whitespace. rewrite orb_true_iff, !ceq_true. tauto. Qed.
Lemma In_snoc {A} (x : A) l y : In x (l ++ [y]) <-> In x l \/ x = y.
Proof. rewrite in_app_iff. cbn. intuition. Qed.

(** ** C24 *)
Lemma Mode_no_slash s t : Mode s -> o_inAddress s = true -> o_text s <> "/"%char :: t.
Proof.
  intros [HA _ _ _ _] Hi E. specialize (HA Hi). decompose [and] HA. rewrite E in *. cbn in *. tauto.
Qed.


Lemma Mode_trans mb flt s c s' : c <> LF -> Mode s -> trans mb flt s c s' -> Mode s'.
Proof.
  intros Hc HM H. destruct H; try addr_cases; try exact HM.
  all: try solve [exfalso; eapply Mode_no_slash; eassumption].
  all: destruct HM as [HA HL HR HI HO]; destruct s; osimp; subst; 
    try (specialize (HA eq_refl); decompose [and] HA; subst; clear HA HL HR HO).
  all: try solve [constructor; osimp_goal; cbn [add_ops add_refs line0 l_labels l_is_label set_l_address set_l_opcodes set_l_labels];
       intros; rewrite ?In_snoc; try discriminate; repeat split; auto; try (intros [?|?]; congruence); try apply Forall_nil; try congruence; try apply HL; try tauto].
  - constructor; osimp_goal; intros; try discriminate; auto.
    apply Forall_app. split; [now apply HO|]. constructor; [|constructor].
    match goal with H : _ \/ _ |- _ => destruct H as [(Hw & _)|[_ Hh]] end; [right; now apply ws_cases|now left].
  - constructor; osimp_goal; intros; try discriminate; auto. specialize (HR ltac:(assumption)).
    decompose [and] HR; discriminate.
Qed.

Lemma Mode_next x : Mode (next_line x).
Proof. constructor; unfold next_line, commonReset; osimp; cbn; intuition congruence. Qed.
Lemma Mode_start : Mode (set_o_inAddress true ostate0).
Proof. constructor; cbn; intuition congruence. Qed.
Lemma Mode_run mb flt input s : run mb flt input = Ok s -> Mode s.
Proof. apply run_inv; [apply Mode_start|apply Mode_trans|intros; apply Mode_next]. Qed.

(** ** C05, C06 *)
Lemma label_table_app n a b : label_table n (a ++ b) = label_table n a ++ label_table (n + Z.of_nat (length a)) b.
Proof.
  revert n; induction a as [|l a IH]; intros n.
  - cbn [app length label_table]. now rewrite Z.add_0_r.
  - cbn [app length label_table]. rewrite IH. replace (n + 1 + Z.of_nat (length a)) with (n + Z.of_nat (S (length a))) by lia.
    destruct (l_is_label l); reflexivity.
Qed.

Lemma label_table_range n a nm k : In (nm, k) (label_table n a) -> n <= k < n + Z.of_nat (length a).
Proof.
  revert n; induction a as [|l a IH]; intros n; cbn [label_table length In]; [tauto|].
  destruct (l_is_label l); cbn [In]; [intros [[= <- <-]|H]|intros H]; try apply IH in H; lia.
Qed.

(** Cutting a line list before its last label line removes the last table entry. *)
Lemma label_table_cut a before nm k :
  label_table 1 a = before ++ [(nm, k)] -> label_table 1 (firstn (Z.to_nat (k - 1)) a) = before.
Proof.
  intros H.
  assert (Hk : 1 <= k < 1 + Z.of_nat (length a)).
  { apply (label_table_range 1 a nm). rewrite H. apply in_or_app. right. now left. }
  rewrite <- (firstn_skipn (Z.to_nat (k - 1)) a) in H. rewrite label_table_app in H.
  set (t1 := label_table 1 (firstn _ a)) in *.
  replace (1 + Z.of_nat (length (firstn (Z.to_nat (k - 1)) a))) with k in H by (rewrite firstn_length; lia).
  destruct (skipn (Z.to_nat (k - 1)) a) as [|l rest] eqn:Er.
  { assert (length (skipn (Z.to_nat (k - 1)) a) = 0%nat) by now rewrite Er. rewrite skipn_length in *. lia. }
  cbn [label_table] in H.
  assert (Hlt : forall x, In x t1 -> snd x < k).
  { intros [x y] Hx. apply label_table_range in Hx. rewrite firstn_length in Hx. cbn. lia. }
  assert (Hgt : forall x, In x (label_table (k + 1) rest) -> k < snd x).
  { intros [x y] Hx. apply label_table_range in Hx. cbn. lia. }
  destruct (label_table (k + 1) rest) as [|e es _] eqn:Et using rev_ind.
  - destruct (l_is_label l); [apply app_inj_tail in H; tauto|].
    rewrite app_nil_r in H. specialize (Hlt (nm, k)). cbn in Hlt. rewrite H in Hlt.
    exfalso. enough (k < k) by lia. apply Hlt. apply in_or_app. right. now left.
  - exfalso. specialize (Hgt e). enough (e = (nm, k)).
    { subst e. cbn in Hgt. enough (k < k) by lia. apply Hgt. apply in_or_app. right. now left. }
    destruct (l_is_label l).
    + change ((l_label l, k) :: es ++ [e]) with (((l_label l, k) :: es) ++ [e]) in H. rewrite app_assoc in H.
      apply app_inj_tail in H. tauto.
    + rewrite app_assoc in H. apply app_inj_tail in H. tauto.
Qed.

Record Tab (s : ostate) : Prop := {
  tab_mode : Mode s;
  tab_cap : Cap s;
  tab_labels : o_stopParsing s = false -> o_labels s = label_table 1 (o_lines s);
  tab_text : Forall (fun l => l_is_label l = true -> l_text l = l_label l ++ [":"%char]) (o_lines s)
}.

Lemma Forall_firstn {A} (P : A -> Prop) n l : Forall P l -> Forall P (firstn n l).
Proof. intros H. rewrite <- (firstn_skipn n l) in H. now apply Forall_app in H. Qed.

Lemma Tab_rm flt s ls lb : Tab s -> o_stopParsing s = false -> rm flt s = Ok (ls, lb) ->
  lb = label_table 1 ls /\ Forall (fun l => l_is_label l = true -> l_text l = l_label l ++ [":"%char]) ls
  /\ Z.of_nat (length ls) <= 5000.
Proof.
  intros [_ HC HT HX] Hs H. specialize (HT Hs). destruct HC as [[_ HC]|[? _]]; [|congruence].
  pose proof (rm_length _ _ _ _ H) as Hl.
  apply rm_Ok in H as [[-> ->]|(_ & nm & n & b & H1 & H2 & _ & -> & ->)]; [repeat split; auto; lia|].
  repeat split.
  - symmetry. eapply label_table_cut. rewrite <- HT. eassumption.
  - now apply Forall_firstn.
  - lia.
Qed.

Lemma push_line_stop_false l s : o_stopParsing (push_line l s) = false -> o_lines (push_line l s) = o_lines s ++ [l].
Proof. unfold push_line. destruct (_ <? _); osimp; [reflexivity|discriminate]. Qed.
Lemma push_line_Forall (P : asm_line -> Prop) l s : Forall P (o_lines s) -> P l -> P truncated_line -> Forall P (o_lines (push_line l s)).
Proof. unfold push_line. destruct (_ <? _); osimp; intros; apply Forall_app; auto. Qed.
Lemma push_line_labels l s : o_labels (push_line l s) = o_labels s.
Proof. unfold push_line. destruct (_ <? _); reflexivity. Qed.

Lemma Tab_eol flt s x : Tab s -> o_stopParsing s = false -> eol_trans flt s x -> Tab (next_line x).
Proof.
  intros HT Hs H. pose proof HT as [HM HC HL HX]. constructor; [apply Mode_next|eapply Cap_eol; eauto| |].
  - rewrite next_line_stop, next_line_labels, next_line_lines. intros Hs'. specialize (HL Hs).
    destruct H as [ls lb _ _ _ Hrm|ls lb Hl _ _ Hrm Hn nm|ls lb n Hl _ _ Hrm Hn| | | |]; auto.
    + apply (Tab_rm _ _ _ _ HT Hs) in Hrm as (-> & _ & _). reflexivity.
    + apply (Tab_rm _ _ _ _ HT Hs) in Hrm as (-> & _ & Hle). rewrite push_line_labels, push_line_stop_false by exact Hs'.
      osimp. rewrite label_table_app, i32_small by lia. cbn [label_table]. lsimp.
      do 3 f_equal. lia.
    + destruct HM as [_ HM _ _ _]. specialize (HM Hl). congruence.
    + rewrite push_line_labels, push_line_stop_false by exact Hs'. rewrite HL, label_table_app. cbn [label_table].
      unfold finish_line. destruct HM as [_ _ _ HM _]. cbn [l_is_label set_l_section set_l_text]. rewrite HM. lsimp. rewrite HM.
      now rewrite app_nil_r.
  - rewrite next_line_lines.
    destruct H as [ls lb _ _ _ Hrm|ls lb Hl _ _ Hrm Hn nm|ls lb n Hl _ _ Hrm Hn| | | |]; auto;
      try apply (Tab_rm _ _ _ _ HT Hs) in Hrm as (_ & ? & _); auto.
    + apply push_line_Forall; auto. discriminate.
    + apply push_line_Forall; auto; [|discriminate]. unfold finish_line. destruct HM as [_ _ _ HM _].
      cbn [l_is_label set_l_section set_l_text]. rewrite HM. lsimp. congruence.
Qed.
Lemma Tab_trans mb flt s c s' : c <> LF -> Tab s -> trans mb flt s c s' -> Tab s'.
Proof.
  intros Hc [HM HC HL HX] H. constructor.
  - eapply Mode_trans; eauto.
  - eapply Cap_trans; eauto.
  - apply trans_out in H as (H1 & H2 & _ & H4 & _); [|exact Hc]. rewrite H1, H2, H4. exact HL.
  - apply trans_out in H as (H1 & H2 & _ & H4 & _); [|exact Hc]. rewrite H1. exact HX.
Qed.
Lemma Tab_start : Tab (set_o_inAddress true ostate0).
Proof. constructor; [apply Mode_start| |reflexivity|constructor]. left. cbn. split; [reflexivity|lia]. Qed.
Lemma Tab_run mb flt input s : run mb flt input = Ok s -> Tab s.
Proof. apply run_inv; [apply Tab_start|apply Tab_trans|apply Tab_eol]. Qed.
