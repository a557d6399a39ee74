(** From the writer to the two parsers' documents. *)
From Verif Require Export ObjRefs JsonGroup AsmText.

Lemma jvalue_text s v : jvalue s v -> json_text s v.
Proof. intros H. exists [], s, []. rewrite app_nil_r. repeat split; auto; constructor. Qed.
Lemma escape_injective s t : escape s = escape t -> s = t.
Proof. intros H. apply (f_equal unescape) in H. now rewrite !unescape_escape in H. Qed.
Lemma dec_Z_injective a b : dec_Z a = dec_Z b -> a = b.
Proof.
  intros H. pose proof (jvalue_text _ _ (dec_Z_value a)) as Ha. rewrite H in Ha.
  pose proof (json_unique _ _ _ Ha (jvalue_text _ _ (dec_Z_value b))) as E. now injection E.
Qed.

(** *** The clock *)
Lemma write_reproducible fmt flt lines labels count c1 c2 :
  write fmt flt lines labels count true c1 = write fmt flt lines labels count true c2.
Proof. reflexivity. Qed.
Lemma write_clock flt lines labels count c1 c2 :
  write dec_Z flt lines labels count false c1 = write dec_Z flt lines labels count false c2 -> c1 = c2.
Proof.
  unfold write. cbn [negb]. intros H. unfold writeKvInt in H. rewrite <- !app_assoc in H.
  do 6 (apply app_inv_head in H).
  do 2 (apply app_inv_head in H). apply app_inv_tail in H. now apply dec_Z_injective.
Qed.

(** *** Objdump documents *)
Definition text_char (c : char) : Prop := 32 <= code c \/ c = TAB.
Lemma text_reachable mb flt input s : Forall (fun c => text_char c \/ c = LF \/ c = CR) input ->
  ObjDump.run mb flt input = Ok s -> stateQ text_char s.
Proof.
  intros Hi H. unfold ObjDump.run, ObjDump.fromStream in H. eapply (stateQ_feed text_char); [| | |apply stateQ_start, stateQ0| |exact H].
  - left. reflexivity || (vm_compute; discriminate).
  - left. vm_compute. discriminate.
  - apply Forall_forall. intros c Hc. left. revert c Hc. apply Forall_forall. repeat (constructor; [vm_compute; discriminate|]). constructor.
  - eapply Forall_impl; [|exact Hi]. cbn. tauto.
Qed.

Lemma hex_code c : is_hex c = true -> 48 <= code c /\ c <> JQ /\ c <> JB.
Proof. destruct c as [[] [] [] [] [] [] [] []]; cbn; intros H; try discriminate; (split; [lia|split; discriminate]). Qed.

Lemma run_opcodes_unquoted mb flt input s : ObjDump.run mb flt input = Ok s ->
  Forall (fun l => Forall unquoted (lv_opcodes l)) (map line_v_of_line (o_lines s)).
Proof.
  intros H. apply Ops_run in H as [_ _ HL]. rewrite Forall_map. eapply Forall_impl; [|exact HL]. intros l Hl. cbn.
  eapply Forall_impl; [|exact Hl]. intros g [_ Hg]. eapply Forall_impl; [|exact Hg]. cbn. intros c [Hc|Hc].
  - apply hex_code in Hc. tauto.
  - subst. split; discriminate.
Qed.
Lemma run_opcodes_visible mb flt input s : ObjDump.run mb flt input = Ok s ->
  (forall l g, In l (o_lines s) -> In g (l_opcodes l) -> ~ In TAB g) ->
  Forall (fun l => Forall visible (l_opcodes l)) (o_lines s).
Proof.
  intros H Ht. apply Ops_run in H as [_ _ HL]. rewrite Forall_forall in HL |- *. intros l Hl. specialize (HL l Hl).
  rewrite Forall_forall in HL |- *. intros g Hg. specialize (HL g Hg) as [_ HL]. unfold visible. rewrite Forall_forall in HL |- *.
  intros c Hc. specialize (HL c Hc) as [H1|H1]; [apply hex_code in H1; lia|]. subst. now elim (Ht l g Hl Hg).
Qed.

Lemma file_value_printable flt f g : file_value flt f = JStr g -> printable f -> printable g.
Proof.
  unfold file_value. destruct (is_nil f); [discriminate|]. destruct (_ && _); [discriminate|]. intros E.
  assert (E' : g = if starts_with (J "/app/") f then skipn 5 f else f) by congruence. rewrite E'. clear E E'.
  destruct (starts_with (J "/app/") f); [|auto]. intros H. rewrite <- (firstn_skipn 5 f) in H. now apply Forall_app in H.
Qed.
Lemma line_text_printable flt l : lineQ text_char l -> Forall visible (l_opcodes l) -> line_printable flt (line_v_of_line l).
Proof.
  intros [H1 H2 H3 H4 H5 H6] Hv. unfold line_printable. cbn [lv_labels lv_opcodes lv_section lv_text line_v_of_line v_str].
  repeat split; auto.
  - rewrite Forall_map. exact H3.
  - unfold source_printable. cbn. destruct (file_value _ _) eqn:E; auto. intros _. eapply file_value_printable; eauto.
Qed.

(** Without control characters in the input, only a tab inside the byte columns spoils the document. *)
Lemma objdump_json_iff mb flt flt' input s reproducible clock :
  Forall (fun c => text_char c \/ c = LF \/ c = CR) input -> ObjDump.run mb flt input = Ok s ->
  (exists v, json_text (ObjDump.outputJson flt' dec_Z reproducible clock s) v) <->
  (forall l g, In l (o_lines s) -> In g (l_opcodes l) -> ~ In TAB g).
Proof.
  intros Hi H. pose proof (text_reachable _ _ _ _ Hi H) as HQ. unfold ObjDump.outputJson.
  rewrite doc_valid_iff; [|exact dec_Z_value|eapply run_opcodes_unquoted; eassumption]. split.
  - intros [HL _] l g Hl Hg Ht. rewrite Forall_map, Forall_forall in HL. specialize (HL l Hl) as (_ & Hv & _). cbn in Hv.
    rewrite Forall_forall in Hv. specialize (Hv g Hg). unfold visible in Hv. rewrite Forall_forall in Hv. specialize (Hv _ Ht).
    vm_compute in Hv. now apply Hv.
  - intros Ht. split.
    + rewrite Forall_map. pose proof (run_opcodes_visible _ _ _ _ H Ht) as Hv. pose proof (sq_lines _ _ HQ) as HL.
      rewrite Forall_forall in Hv, HL |- *. intros l Hl. apply line_text_printable; auto.
    + exact (sq_labels _ _ HQ).
Qed.
