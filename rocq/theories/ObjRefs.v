(** Proofs for C08, C23. *)
From Verif Require Export ObjMore.

(** ** C08: label references *)
Definition ref_ok (mb : str -> Z) (t : str) (r : asm_label) : Prop :=
  exists t1 t2, t = t1 ++ t2 /\ 0 <= r_start (lb_range r) < 65536
    /\ substr_from t1 (r_start (lb_range r)) = Some (lb_name r)
    /\ r_end (lb_range r) = u16 (ustrlen mb t1).

Lemma ref_ok_app mb t u r : ref_ok mb t r -> ref_ok mb (t ++ u) r.
Proof. intros (t1 & t2 & -> & H). exists t1, (t2 ++ u). rewrite <- app_assoc. auto. Qed.
Lemma refs_ok_app_text mb t c rs : Forall (ref_ok mb t) rs -> Forall (ref_ok mb (app_text c t)) rs.
Proof.
  intros H. unfold app_text. destruct (_ && _); [exact H|]. eapply Forall_impl; [|exact H]. intros r. apply ref_ok_app.
Qed.

Definition line_refs (mb : str -> Z) (l : asm_line) : Prop :=
  l_labels l = [] \/
  exists t rs, l_text l = SP :: t /\ l_labels l = map shift_label rs /\ Forall (ref_ok mb t) rs.

Record Refs (mb : str -> Z) (s : ostate) : Prop := {
  rf_mode : Mode s;
  rf_cur : Forall (ref_ok mb (o_text s)) (l_labels (o_currentLine s));
  rf_start : 0 <= r_start (lb_range (o_currentLabelReference s)) < 65536;
  rf_lines : Forall (line_refs mb) (o_lines s) }.

Lemma Refs_trans mb flt s c s' : c <> LF -> Refs mb s -> trans mb flt s c s' -> Refs mb s'.
Proof.
  intros Hc HR H. pose proof HR as [HM HC HS HL]. pose proof (Mode_trans _ _ _ _ _ Hc HM H) as HM'.
  constructor; [exact HM'| | |].
  - destruct (l_labels (o_currentLine s')) as [|r0 rs0] eqn:El; [constructor|].
    assert (Hne : l_labels (o_currentLine s') <> []) by (rewrite El; discriminate).
    rewrite <- El. clear El. destruct HM as [_ _ HR0 _ _].
    destruct H; try addr_cases; osimp; try exact HC; try (apply refs_ok_app_text; exact HC);
      try solve [specialize (HR0 Hne); decompose [and] HR0; congruence].
    unfold add_refs. lsimp. apply Forall_app. split; [now apply refs_ok_app_text|].
    unfold new_ref. destruct (o_ignoreUntilNextLabel s); [constructor|].
    destruct (substr_from _ _) as [nm|] eqn:Es; [|constructor].
    destruct (shouldIgnoreFunction _ _); constructor; [|constructor].
    exists (o_text s). unfold app_text. destruct (is_whitespace c && is_nil (o_text s)).
    + exists []. rewrite app_nil_r. cbn [lb_range lb_name r_start r_end]. tauto.
    + exists [c]. cbn [lb_range lb_name r_start r_end]. tauto.
  - destruct H; try addr_cases; osimp; try exact HS; cbn [r_start lb_range label0 range0]; try lia. apply u16_range.
  - apply trans_out in H as (-> & _); [exact HL|exact Hc].
Qed.

Lemma line_refs_trunc mb : line_refs mb truncated_line.
Proof. now left. Qed.
Lemma Refs_eol mb flt s x : Refs mb s -> eol_trans flt s x -> Refs mb (next_line x).
Proof.
  intros [HM HC HS HL] H. constructor; [apply Mode_next| | |].
  - constructor.
  - replace (o_currentLabelReference (next_line x)) with (o_currentLabelReference s); [exact HS|].
    unfold next_line, commonReset; osimp. destruct H; osimp; try reflexivity; unfold push_line; destruct (_ <? _); reflexivity.
  - rewrite next_line_lines.
    assert (Hrm : forall ls lb, rm flt s = Ok (ls, lb) -> Forall (line_refs mb) ls).
    { intros ls lb HH. apply rm_Ok in HH as [[-> ->]|(_ & nm & n & b & E1 & _ & _ & -> & ->)]; [auto|]. now apply Forall_firstn. }
    destruct H as [ls lb Hi _ Hg Hr|ls lb Hi _ Hg Hr Hn nm|ls lb n Hi _ Hg Hr Hn nm| | | |]; auto;
      try (apply Hrm in Hr); osimp; auto.
    + apply push_line_Forall; auto using line_refs_trunc. left. lsimp.
      destruct (l_labels (o_currentLine s)) eqn:El; [reflexivity|]. exfalso.
      destruct HM as [_ _ HM _ _]. assert (HH : l_labels (o_currentLine s) <> []) by (rewrite El; discriminate).
      apply HM in HH. decompose [and] HH; congruence.
    + apply push_line_Forall; auto using line_refs_trunc. right. unfold finish_line.
      cbn [l_is_label set_l_section set_l_text]. rewrite (m_isl _ HM). lsimp. eauto.
Qed.
Lemma Refs_run mb flt input s : run mb flt input = Ok s -> Refs mb s.
Proof.
  apply run_inv.
  - constructor; [apply Mode_start|constructor|cbn; lia|constructor].
  - apply Refs_trans.
  - intros; eapply Refs_eol; eauto.
Qed.

Lemma ustrlen_loop_ascii mb t : ascii_compatible mb -> ascii_text t -> forall fuel, (length t <= fuel)%nat ->
  ustrlen_loop mb fuel t = Z.of_nat (length t).
Proof.
  intros Hm. induction t as [|c t IH]; intros Ha fuel Hf.
  - now destruct fuel.
  - inversion Ha; subst. destruct fuel as [|k]; [cbn in Hf; lia|]. cbn [ustrlen_loop].
    rewrite Hm by assumption. change (1 <? 1) with false. cbn iota.
    change (skipn (Z.to_nat 1) (c :: t)) with t. cbn [length] in *.
    destruct (1 <? Z.of_nat (S (length t))) eqn:E; [rewrite IH by (assumption || lia); lia|].
    destruct t; cbn [length] in *; lia.
Qed.
Lemma ustrlen_ascii mb t : ascii_compatible mb -> ascii_text t -> ustrlen mb t = Z.of_nat (length t).
Proof. intros. now apply ustrlen_loop_ascii. Qed.

Lemma C08_lemma mb flt input s l r : ascii_compatible mb -> run mb flt input = Ok s ->
  In l (o_lines s) -> In r (l_labels l) -> ascii_text (l_text l) -> Z.of_nat (length (l_text l)) < 65535 ->
  2 <= r_start (lb_range r) <= r_end (lb_range r) /\ r_end (lb_range r) <= Z.of_nat (length (l_text l)) + 1 /\
  columns (r_start (lb_range r)) (r_end (lb_range r)) (l_text l) = lb_name r.
Proof.
  intros Hm H Hl Hr Ha Hlen. apply Refs_run in H as [_ _ _ HL]. rewrite Forall_forall in HL.
  apply HL in Hl as [E|(t & rs & Et & Er & HF)]; [rewrite E in Hr; destruct Hr|].
  rewrite Er in Hr. apply in_map_iff in Hr as (r0 & <- & Hr0). rewrite Forall_forall in HF.
  apply HF in Hr0 as (t1 & t2 & E1 & E2 & E3 & E4). rewrite Et, E1 in *.
  inversion Ha as [|? ? _ Ha']; subst. apply Forall_app in Ha' as [Ha1 _].
  rewrite ustrlen_ascii in E4 by assumption.
  unfold substr_from in E3. destruct (_ <? _) eqn:Elt; [discriminate|]. injection E3 as E3.
  cbn [length] in Hlen. rewrite app_length in Hlen.
  rewrite u16_small in E4 by lia.
  unfold shift_label. cbn [lb_range lb_name r_start r_end]. rewrite E4, !u16_small by lia.
  rewrite <- E3. cbn [length]. rewrite app_length. repeat split; try lia.
  unfold columns. replace (Z.to_nat (r_start (lb_range r0) + 2 - 1)) with (S (Z.to_nat (r_start (lb_range r0)))) by lia.
  cbn [skipn]. rewrite skipn_app_le by lia. rewrite firstn_app_le by (rewrite skipn_length; lia).
  apply firstn_all2. rewrite skipn_length. lia.
Qed.

(** ** C23: opcode groups *)
Definition clean_group (g : str) : Prop := g <> [] /\ Forall (fun c => is_hex c = true \/ c = TAB) g.
Lemma split_clean t : forall acc, Forall (fun c => is_hex c = true \/ c = TAB) acc ->
  Forall (fun c => is_hex c = true \/ c = SP \/ c = TAB) t -> Forall clean_group (split_opcodes t acc).
Proof.
  induction t as [|c t IH]; intros acc Ha Ht; cbn [split_opcodes]; [constructor|]. inversion Ht as [|? ? Hc Ht']; subst.
  destruct (ceq c SP) eqn:E; cnv; cbn [negb].
  - destruct acc as [|a acc]; cbn [is_nil negb]; [now apply IH|]. constructor; [now split|now apply IH].
  - apply IH; [|assumption]. apply Forall_app. split; [assumption|]. constructor; [|constructor]. tauto.
Qed.
Lemma split_no_tab t : forall acc, ~ In TAB acc -> ~ In TAB t -> Forall (fun g => ~ In TAB g) (split_opcodes t acc).
Proof.
  induction t as [|c t IH]; intros acc Ha Ht; cbn [split_opcodes]; [constructor|]. cbn [In] in Ht.
  destruct (ceq c SP) eqn:E; cnv; cbn [negb].
  - destruct acc as [|a acc]; cbn [is_nil negb]; [apply IH; tauto|]. constructor; [assumption|apply IH; tauto].
  - apply IH; [|tauto]. rewrite In_snoc. intuition.
Qed.

Record Ops (s : ostate) : Prop := {
  op_mode : Mode s;
  op_cur : Forall clean_group (l_opcodes (o_currentLine s));
  op_lines : Forall (fun l => Forall clean_group (l_opcodes l)) (o_lines s) }.
Lemma Ops_trans mb flt s c s' : c <> LF -> Ops s -> trans mb flt s c s' -> Ops s'.
Proof.
  intros Hc [HM HC HL] H. constructor; [eapply Mode_trans; eauto| |].
  - destruct H; try addr_cases; osimp; try exact HC.
    unfold add_ops, new_ops. lsimp. apply Forall_app. split; [exact HC|].
    destruct (o_ignoreUntilNextLabel s); [constructor|]. apply split_clean; [constructor|]. now apply (m_opc _ HM).
  - apply trans_out in H as (-> & _); [exact HL|exact Hc].
Qed.
Lemma finish_opcodes s : l_opcodes (finish_line s) = l_opcodes (o_currentLine s).
Proof. unfold finish_line. cbn [l_is_label set_l_section set_l_text]. destruct (l_is_label _); reflexivity. Qed.
Lemma Ops_eol flt s x : Ops s -> eol_trans flt s x -> Ops (next_line x).
Proof.
  intros [HM HC HL] H. constructor; [apply Mode_next|constructor|]. rewrite next_line_lines.
  assert (Hrm : forall ls lb, rm flt s = Ok (ls, lb) -> Forall (fun l => Forall clean_group (l_opcodes l)) ls).
  { intros ls lb HH. apply rm_Ok in HH as [[-> ->]|(_ & nm & n & b & E1 & _ & _ & -> & ->)]; [auto|]. now apply Forall_firstn. }
  destruct H as [ls lb Hi _ Hg Hr|ls lb Hi _ Hg Hr Hn nm|ls lb n Hi _ Hg Hr Hn nm| | | |]; auto;
      try (apply Hrm in Hr); osimp; auto.
  - apply push_line_Forall; auto. constructor.
  - apply push_line_Forall; auto; [|constructor]. now rewrite finish_opcodes.
Qed.
Lemma Ops_run mb flt input s : run mb flt input = Ok s -> Ops s.
Proof.
  apply run_inv; [constructor; [apply Mode_start|constructor|constructor]|apply Ops_trans|intros; eapply Ops_eol; eauto].
Qed.
Lemma C23_lemma mb flt input s l g : run mb flt input = Ok s -> In l (o_lines s) -> In g (l_opcodes l) ->
  g <> [] /\ (forall c, In c g -> hex_digit c <> None \/ c = TAB).
Proof.
  intros H Hl Hg. apply Ops_run in H as [_ _ HL]. rewrite Forall_forall in HL. apply HL in Hl.
  rewrite Forall_forall in Hl. apply Hl in Hg as [Hne Hg]. split; [exact Hne|]. intros c Hc.
  rewrite Forall_forall in Hg. apply Hg in Hc as [Hc|Hc]; [left|now right].
  destruct c as [[] [] [] [] [] [] [] []]; cbn in Hc; try discriminate.
Qed.

