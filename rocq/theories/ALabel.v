(** The functions of src/assembly/parser.cpp that deal with the labels of a line. *)
From Coq Require Import String List ZArith Ascii Bool Lia.
From Verif Require Import Bytes Types Utils AsmText CppSyntax SourceText SourceAst PropPatterns CppSem AStep AUtil AScan ALine ASquash AUsed AMap AObj ABack AHand.
Import ListNotations.
Local Open Scope string_scope.
Local Open Scope Z_scope.

(** m[k] = v where the values are integers, or views *)
Ltac int_assign M k v a :=
  assign_with ltac:(fun n m c X K V y q E => let H := fresh in
     assert (H : exec n m asm_tys isfn ismeth c (SExpr (EAsg "=" (EIdx X K) V)) (E (encMI M)) = Val Next (E (encMI (map_assign M k a))));
     [apply (exec_put_enc (VInt I32) (VInt I32 0) n m c X K V y q E k v a M) | cbv beta in H; rewrite H; clear H; go]) constr:(encMI M).
Ltac view_assign M k a :=
  assign_with ltac:(fun n m c X K V y q E => let H := fresh in
     assert (H : exec n m asm_tys isfn ismeth c (SExpr (EAsg "=" (EIdx X K) V)) (E (encMV M)) = Val Next (E (encMV (map_assign M k a))));
     [apply (exec_put_enc encV (VStr []) n m c X K V y q E k (encV a) a M); chk | cbv beta in H; rewrite H; clear H; go]) constr:(encMV M).

(** a loop by reference whose body also changes the variables around it *)
Lemma for_ref_step b x v l acc e v' e2 : b ((x, v) :: e) = Val Next ((x, v') :: e2) -> elen e2 = elen e -> for_ref x b (v :: l) acc e = for_ref x b l (acc ++ [v'])%list e2.
Proof.
  intros H1 H2. cbn [for_ref]. rewrite H1. cbn [rbind elen]. rewrite H2.
  assert (Hs : forall n, nsub n n = O) by (induction n; [reflexivity|assumption]). rewrite Hs. cbn [edrop lookup].
  rewrite String.eqb_refl. unfold leave. cbn [elen]. rewrite H2.
  assert (Hs' : forall n, nsub (S n) n = 1%nat) by (induction n; [reflexivity|assumption]). rewrite Hs'. reflexivity.
Qed.
(** [insert] in a part of an execution *)
Ltac insert' M k v :=
  match goal with |- context [exec ?n ?m asm_tys isfn ismeth ?c (SExpr (ECall (EMem (EIdx ?X ?K) "insert") [?V])) ?e] =>
    let p := ev (place X e) in
    let x := eval pattern (encMS M) in e in
    lazymatch constr:((p, x)) with (Some (?y, ?q), ?E _) =>
      let H := fresh in
      assert (H : exec n m asm_tys isfn ismeth c (SExpr (ECall (EMem (EIdx X K) "insert") [V])) e = Val Next (E (encMS (map_set_insert M k v))));
      [apply (exec_insert_enc n m c X K V y q E k v M); chk | rewrite H; clear H; cbv beta; gor]
    end
  end.

Section Functions.
Variables (N : nat) (mb : str -> Z) (order : val -> list val) (flt : Filter) (rep : bool) (vis : list str).
Notation A := (A N mb order).
Notation enc s := (enc flt rep s vis).
(** parser.cpp:246-271 *)
Lemma src_handleLabelAliasing d l s : A (S d) "handleLabelAliasing" (enc (on l s)) [] = CVal VUnit (enc (on l (handleLabelAliasing l s))).
Proof.
  unfold handleLabelAliasing. dsl l. dst s. plain. 
  cbn [lv_is_label lv_is_assignment lv_has_opcode lv_is_data t_previousLabelOnSameAddress v_str].
  enter. go. 
  destruct same as [|c0 t0]; cbn [is_nil negb].
  - destruct l_isl, l_asg; repeat go; reflexivity.
  - destruct l_asg, l_isl; cbn [negb andb]; repeat go.
    + reflexivity.
    + reflexivity.
    + view_assign alias (mkView l_label_o l_label) (mkView same_o (c0 :: t0)). reflexivity.
    + destruct l_op, l_data; cbn [orb]; go; reflexivity.
Qed.
(** parser.cpp:273-295 *)
Lemma src_handleLabelDefinition d l s : Z.of_nat (length (t_lines s)) < 2 ^ 62 ->
  A (S (S (S d))) "handleLabelDefinition" (enc (on l s)) [VStr (lv_text l)] =
  let '(l', s') := handleLabelDefinition l s in CVal VUnit (enc (on l' s')).
Proof.
  intros HL. unfold handleLabelDefinition. pose proof (src_getLabelFromLine N mb order flt rep vis d l s) as Gl.
  pose proof (src_isInternalLabel N mb order flt rep vis (S d)) as Il.
  assert (Hs : t_lines (snd (getLabelFromLine l s)) = t_lines s).
  { unfold getLabelFromLine. destruct (getLabel (lv_text l)); [reflexivity|]. destruct (getLabelAssignment (lv_text l)); [reflexivity|].
    destruct (getAssignmentDef (lv_text l)); [reflexivity|]. destruct (getCudaLabel (lv_text l)); reflexivity. }
  destruct (getLabelFromLine l s) as [[f l'] s'] eqn:Eg. cbn [snd] in Hs. rewrite <- Hs in HL. clear Hs Eg.
  revert Gl. generalize (lv_text l). intros tx Gl.
  assert (Go : A (S (S (S d))) "handleLabelDefinition" (enc (on l s)) [VStr tx] =
     CVal VUnit (match f with Some n => enc (on (set_lv_is_internal_label (isInternalLabel (v_str n)) (set_lv_is_label true (set_lv_label n l')))
        (let s := set_t_labels_defined (map_assign (t_labels_defined s') n (i32 (Z.of_nat (length (t_lines s')) + 1))) (set_t_previousLabel n s') in
         if negb (isInternalLabel (v_str n)) then set_t_previousParentLabel n s else s))
       | None => enc (on (set_lv_is_internal_label false (set_lv_is_label false l')) s') end)).
  2: { rewrite Go. destruct f; reflexivity. }
  dsl l. dst s. plain. enter. go.
  match type of Gl with AStep.A _ _ _ _ _ ?o _ = _ => as_state o end.
  rewrite Gl. clear - HL Il. dsl l'. dst s'. 
  destruct f as [[n_o n]|]; unplain; cbn [option_map encV v_str]; unfold encV; cbn [v_str].
  - go.
    match goal with |- context [AStep.A _ _ _ _ "isInternalLabel" ?o [?a]] => 
      change o with (enc (on (mkLineV l_id l_text (mkView l_section_o l_section) l_labels l_opcodes l_parent true l_isi (mkView n_o n)
         (mkSourceV (mkView l_file_o l_file) l_idx l_line l_column l_end l_user l_proc) l_addr l_u1 l_u2 l_u3 l_data l_inline l_op l_dir l_asg)
        (mkT f_stop f_markers f_block f_may f_keep (mkSourceV (mkView w_file_o w_file) w_idx w_line w_column w_end w_user w_proc) f_def f_code custom
  (mkSourceV (mkView s_file_o s_file) s_idx s_line s_column s_end s_user s_proc) (mkView prev_o prev) (mkView parent_o parent) (mkView same_o same) text (mkView fname_o fname) (mkView section_o section) (mkView sfile_o sfile)
  cur flines files lines ldef ucode used dused weak alias total nid))) end.
    rewrite Il. unplain. go. 
    int_assign ldef (mkView n_o n) (VInt I32 (i32 (Z.of_nat (length lines) + 1))) (i32 (Z.of_nat (length lines) + 1)).
    { intros b. reflexivity. }
    { reflexivity. }
    1,3,4,5: chk.
    { intros w. cbv beta. match goal with |- ?l = _ => let r := ev l in change l with r end. rewrite encLs_length. cbn [t_lines] in HL.
      change (norm U64 1) with 1. unfold wrap_u. rewrite Z.mod_small by (clear - HL; lia). reflexivity. }
    br; go; reflexivity.
  - go. reflexivity.
Qed.
Hypothesis mb_le : forall s, mb s <= Z.of_nat (length s).
Lemma encLbl_in l : encLbs (used_labels_in mb l) = map encLbl (getUsedLabelsInLine mb (lv_text l)).
Proof. unfold encLbs, used_labels_in. rewrite map_map. reflexivity. Qed.
Lemma fold_used R : forall s,
  fold_left (fun s r =>
     if negb (str_eqb (v_str (lbv_name r)) (v_str (t_previousParentLabel s))) then
       set_t_used_labels (map_set_insert (t_used_labels s) (lbv_name r) (t_previousParentLabel s)) s
     else s) R s =
  set_t_used_labels (fold_left (fun u r => if negb (str_eqb (v_str (lbv_name r)) (v_str (t_previousParentLabel s))) then map_set_insert u (lbv_name r) (t_previousParentLabel s) else u) R (t_used_labels s)) s.
Proof.
  induction R as [|r R IH]; intros s; cbn [fold_left]; [destruct s; reflexivity|]. rewrite IH. destruct (negb _); reflexivity.
Qed.
Lemma fold_data R : forall s,
  fold_left (fun s r =>
     let d := map_set_insert (t_data_used_labels s) (lbv_name r) (t_previousLabel s) in
     let d := if sv_inside_proc (t_currentSourceRef s)
              then map_set_insert d (lbv_name r) (t_previousParentLabel s) else d in
     set_t_data_used_labels d s) R s =
  set_t_data_used_labels (fold_left (fun u r =>
    let d := map_set_insert u (lbv_name r) (t_previousLabel s) in
    if sv_inside_proc (t_currentSourceRef s) then map_set_insert d (lbv_name r) (t_previousParentLabel s) else d) R (t_data_used_labels s)) s.
Proof.
  induction R as [|r R IH]; intros s; cbn [fold_left]; [destruct s; reflexivity|]. cbv zeta in *. rewrite IH. reflexivity.
Qed.
(** parser.cpp:220-229 *)
Lemma src_extractUsedLabelsFromOpcodeLine d l s : (length (lv_text l) < N)%nat -> Z.of_nat (length (lv_text l)) < 2 ^ 31 ->
  A (S (S (S (S d)))) "extractUsedLabelsFromOpcodeLine" (enc (on l s)) [VStr (lv_text l)] =
  let '(l', s') := extractUsedLabelsFromOpcodeLine mb l s in CVal VUnit (enc (on l' s')).
Proof.
  intros HN HL. unfold extractUsedLabelsFromOpcodeLine. pose proof (encLbl_in l) as El. pose proof (src_getUsedLabelsInLine N mb order mb_le) as Gl. cbv zeta.
  set (refs := used_labels_in mb l) in *. clearbody refs. revert HN HL El. generalize (lv_text l). intros tx HN HL El. rewrite fold_used.
  dsl l. dst s. cbn [t_used_labels t_previousParentLabel v_str]. plain. enter. go. rewrite Gl by assumption. rewrite <- El. clear Gl El. go.
  clear HN HL.
  match goal with |- context [for_ref ?x ?b ?l [] ?e] =>
    let y := eval pattern (encMS used) in e in
    match y with ?E _ =>
    assert (Loop : forall R used acc, for_ref x b (encLbs R) acc (E (encMS used)) = Val (Next, (acc ++ encLbs R)%list)
       (E (encMS (fold_left (fun u r => if negb (str_eqb (v_str (lbv_name r)) parent) then map_set_insert u (lbv_name r) (mkView parent_o parent) else u) R used))))
    end
  end.
  { cbv beta. clear. induction R as [|[[r_o r_n] [r_s r_e]] R IH]; intros used acc; cbn [encLbs map fold_left].
    - cbn [for_ref]. rewrite app_nil_r. reflexivity.
    - cbn [lbv_name v_str]. destruct (str_eqb r_n parent) eqn:En; cbn [negb].
      + erewrite for_ref_step; [|gor; rewrite En; gor; reflexivity|reflexivity]. change (map encLb R) with (encLbs R). rewrite IH. rewrite <- app_assoc. reflexivity.
      + erewrite for_ref_step; [|gor; rewrite En; cbn [negb]; gor; insert' used (mkView r_o r_n) (mkView parent_o parent); reflexivity|reflexivity].
        change (map encLb R) with (encLbs R). rewrite IH. rewrite <- app_assoc. reflexivity. }
  cbv beta in Loop. rewrite Loop. clear Loop. cbn [app]. go. reflexivity.
Qed.
(** parser.cpp:231-244 *)
Lemma src_extractUsedLabelsFromDataLine d l s : (length (lv_text l) < N)%nat -> Z.of_nat (length (lv_text l)) < 2 ^ 31 ->
  A (S (S (S (S d)))) "extractUsedLabelsFromDataLine" (enc (on l s)) [VStr (lv_text l)] =
  let '(l', s') := extractUsedLabelsFromDataLine mb l s in CVal VUnit (enc (on l' s')).
Proof.
  intros HN HL. unfold extractUsedLabelsFromDataLine. pose proof (encLbl_in l) as El. pose proof (src_getUsedLabelsInLine N mb order mb_le) as Gl. cbv zeta.
  set (refs := used_labels_in mb l) in *. clearbody refs. revert HN HL El. generalize (lv_text l). intros tx HN HL El. rewrite fold_data.
  dsl l. dst s. cbn [t_data_used_labels t_previousParentLabel t_previousLabel t_currentSourceRef sv_inside_proc v_str]. plain. enter. go. rewrite Gl by assumption. rewrite <- El. clear Gl El. go.
  clear HN HL.
  match goal with |- context [for_ref ?x ?b ?l [] ?e] =>
    let y := eval pattern (encMS dused) in e in
    match y with ?E _ =>
    assert (Loop : forall R dused acc, for_ref x b (encLbs R) acc (E (encMS dused)) = Val (Next, (acc ++ encLbs R)%list)
       (E (encMS (fold_left (fun u r => if s_proc then map_set_insert (map_set_insert u (lbv_name r) (mkView prev_o prev)) (lbv_name r) (mkView parent_o parent) else map_set_insert u (lbv_name r) (mkView prev_o prev)) R dused))))
    end
  end.
  { cbv beta. clear. induction R as [|[[r_o r_n] [r_s r_e]] R IH]; intros dused acc; cbn [encLbs map fold_left].
    - cbn [for_ref]. rewrite app_nil_r. reflexivity.
    - cbn [lbv_name v_str]. destruct s_proc.
      + erewrite for_ref_step; [|gor; insert' dused (mkView r_o r_n) (mkView prev_o prev); insert' (map_set_insert dused (mkView r_o r_n) (mkView prev_o prev)) (mkView r_o r_n) (mkView parent_o parent); reflexivity|reflexivity].
        change (map encLb R) with (encLbs R). rewrite IH. rewrite <- app_assoc. reflexivity.
      + erewrite for_ref_step; [|gor; insert' dused (mkView r_o r_n) (mkView prev_o prev); reflexivity|reflexivity].
        change (map encLb R) with (encLbs R). rewrite IH. rewrite <- app_assoc. reflexivity. }
  cbv beta in Loop. rewrite Loop. clear Loop. cbn [app]. go. reflexivity.
Qed.
End Functions.
