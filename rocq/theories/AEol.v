(** AssemblyTextParser::eol (parser.cpp:297-519): the statements of AEol1.v to AEol4.v, put together. *)
From Coq Require Import String List ZArith Ascii Bool Lia.
From Verif Require Import Bytes Types Utils AsmText AsmLemmas UtilQuotes CppSyntax SourceText SourceAst PropPatterns CppSem AStep AUtil AScan ALine ASquash AUsed AMap AObj ABack AHand ALabel AEol1 AEol2 AEol3 AEol4.
Import ListNotations.
Local Open Scope string_scope.
Local Open Scope Z_scope.

Fixpoint seq_from (n : nat) (s : stmt) : stmt :=
  match n with O => s | S k => match s with SSeq _ b => seq_from k b | _ => s end end.

(** ** Lengths *)
Lemma expand_len : forall s out x, (length (expandTabs_loop s out x) <= length out + 8 * length s)%nat.
Proof.
  induction s as [|c s IH]; intros out x; cbn [expandTabs_loop length]; [lia|]. destruct (ceq c TAB).
  - cbv zeta. eapply Nat.le_trans; [apply IH|]. rewrite app_length, skipn_length. change (length (lit "        ")) with 8%nat. lia.
  - eapply Nat.le_trans; [apply IH|]. rewrite app_length. cbn [length]. lia.
Qed.
Lemma expandTabs_len s : (length (expandTabs s) <= 8 * length s)%nat. Proof. apply expand_len. Qed.
Lemma drop_while_len {T} (f : T -> bool) l : (length (drop_while f l) <= length l)%nat.
Proof. induction l as [|x l IH]; cbn [drop_while length]; [lia|]. destruct (f x); cbn [length]; lia. Qed.
Lemma fixLabelIndentation_len s : (length (fixLabelIndentation s) <= length s)%nat.
Proof. unfold fixLabelIndentation, ltrim. destruct (is_probably_label s); [apply drop_while_len|apply le_n]. Qed.
Lemma squash_loop_len : forall s st j out, (length (fst (squash_loop s st j out)) <= length out + length s)%nat.
Proof.
  induction s as [|c s IH]; intros st j out; cbn [squash_loop fst length]; [lia|].
  destruct st; destruct (is_whitespace c); (eapply Nat.le_trans; [apply IH|]); rewrite ?app_length; cbn [length]; lia.
Qed.
Lemma squash_len s b : (length (squashHorizontalWhitespace s b) <= length s)%nat.
Proof.
  unfold squashHorizontalWhitespace. pose proof (squash_loop_len s (if b then HStart else HJustOne) true []) as H. destruct (squash_loop _ _ _ _) as [o j]. cbn [fst length] in H.
  destruct (_ && _); cbn [length]; lia.
Qed.
Lemma squash_quotes_len : forall k s b, (length (squash_quotes k s b) <= length s)%nat.
Proof.
  induction k as [|k IH]; intros s b; cbn [squash_quotes]; [apply squash_len|].
  destruct (re_search findQuotes s) as [st|] eqn:Q; [|apply squash_len]. apply search_quotes_some in Q as (Hl & _ & _).
  assert (Hlen : (length s = length (cap 1 st) + (length (cap 2 st) + length (cap 3 st)))%nat) by (rewrite Hl at 1; now rewrite !app_length).
  rewrite !app_length. pose proof (IH (cap 1 st) b). pose proof (IH (cap 3 st) false). lia.
Qed.
Lemma filteredLine_len flt s : (length (filteredLine flt s) <= 8 * length (t_text s))%nat.
Proof.
  unfold filteredLine. set (x := if 0 <? _ then _ else _).
  assert (H : (length x <= length (t_text s))%nat) by (unfold x; destruct (0 <? _); [apply fixLabelIndentation_len|apply le_n]). clearbody x.
  pose proof (expandTabs_len x). destruct (f_whitespace flt); [|lia]. pose proof (squash_quotes_len (length (expandTabs x)) (expandTabs x) true). unfold squashHorizontalWhitespaceWithQuotes. lia.
Qed.

Section Eol.
Variables (N : nat) (mb : str -> Z) (order : val -> list val) (flt : Filter) (rep : bool) (vis : list str) (d : nat).
Hypothesis mb_le : forall s, mb s <= Z.of_nat (length s).
Notation D := (S (S (S (S d)))).
Notation A := (A N mb order).
Notation enc s := (enc flt rep s vis).
Notation from n e := (CppSem.exec N mb asm_tys isfn ismeth (A D) (seq_from n assembly_parser_eol) e).
Notation exec n e := (CppSem.exec N mb asm_tys isfn ismeth (A D) (seq_nth n assembly_parser_eol) e).

(** the object with which an execution ends *)
Definition ends (r : res ctl) (o : val) : Prop := fin [] (Some (Ty "void" [])) r = CVal VUnit o.
Lemma ends_next e o : residue [] e = o -> ends (Val Next e) o. Proof. intros <-. reflexivity. Qed.
Lemma ends_ret e o : residue [] e = o -> ends (Val (Returned VUnit) e) o. Proof. intros <-. reflexivity. Qed.
Ltac next n := change (seq_from n assembly_parser_eol) with (SSeq (seq_nth n assembly_parser_eol) (seq_from (S n) assembly_parser_eol)); rewrite exec_seq.

Lemma opcode_text l s : lv_text (fst (extractUsedLabelsFromOpcodeLine mb l s)) = lv_text l. Proof. reflexivity. Qed.
Lemma from_15 h t l s : (length (lv_text l) < N)%nat -> Z.of_nat (length (lv_text l)) < 2 ^ 31 ->
  ends (from 15 (E1 h t (enc (on l s)))) (enc (eol_keep mb l s)).
Proof.
  intros HN HL. unfold eol_keep.
  next 15%nat. rewrite eol_15, seqk_next. set (l1 := set_lv_is_inline_asm _ l).
  next 16%nat. rewrite (eol_16 N mb order flt rep vis d h t l1 s) by exact HN. rewrite seqk_next. set (l2 := set_lv_has_opcode _ l1).
  next 17%nat. rewrite eol_17, seqk_next. set (l3 := set_lv_labels [] l2).
  next 18%nat. rewrite (eol_18 N mb order flt rep vis d mb_le h t l3 s HN HL).
  assert (T : lv_text (fst (if negb (lv_is_label l3) && lv_has_opcode l3 then extractUsedLabelsFromOpcodeLine mb l3 s else (l3, s))) = lv_text l) by (destruct (_ && _); reflexivity).
  destruct (if negb (lv_is_label l3) && lv_has_opcode l3 then _ else _) as [l4 s4]. cbn [fst] in T. rewrite seqk_next.
  next 19%nat. rewrite (eol_19 N mb order flt rep vis d mb_le h t l4 s4) by (rewrite T; assumption).
  destruct (if negb (lv_is_label l4) && lv_is_data l4 then _ else _) as [l5 s5]. rewrite seqk_next.
  next 20%nat. rewrite eol_20, seqk_next. set (l6 := set_lv_closest_parent_label _ l5).
  next 21%nat. rewrite eol_21, seqk_next.
  next 22%nat. rewrite eol_22, seqk_next. set (l8 := set_lv_section _ _).
  next 23%nat. rewrite eol_23, seqk_next. 
  next 24%nat. rewrite eol_24, seqk_next.
  next 25%nat. rewrite eol_25, seqk_next by reflexivity.
  change (seq_from 26 assembly_parser_eol) with SSkip. rewrite exec_skip. apply ends_next. reflexivity.
Qed.
Lemma label_text l s : lv_text (fst (handleLabelDefinition l s)) = lv_text l.
Proof.
  unfold handleLabelDefinition, getLabelFromLine. destruct (getLabel _); [reflexivity|]. destruct (getLabelAssignment _); [reflexivity|].
  destruct (getAssignmentDef _); [reflexivity|]. destruct (getCudaLabel _); reflexivity.
Qed.
Lemma from_13 h t l s : (length (lv_text l) < N)%nat -> Z.of_nat (length (lv_text l)) < 2 ^ 31 -> Z.of_nat (length (t_lines s)) < 2 ^ 62 ->
  ends (from 13 (E1 h t (enc (on l s)))) (enc (eol_classify mb flt h l s)).
Proof.
  intros HN HL HS. unfold eol_classify.
  next 13%nat. rewrite (eol_13 N mb order flt rep vis d h t l s HS). fold (sort h l s).
  assert (T : lv_text (fst (sort h l s)) = lv_text l).
  { unfold sort. destruct h; [reflexivity|]. pose proof (label_text l s) as T. destruct (handleLabelDefinition l s). exact T. }
  destruct (sort h l s) as [l1 s1]. cbn [fst] in T. rewrite seqk_next.
  next 14%nat. rewrite eol_14. unfold direct. cbv zeta.
  assert (Hl : forall l', lv_text l' = lv_text l1 -> (length (lv_text l') < N)%nat /\ Z.of_nat (length (lv_text l')) < 2 ^ 31) by (intros l' ->; rewrite T; split; assumption).
  destruct (t_inNvccDef s1).
  { rewrite seqk_next. destruct (Hl l1 eq_refl). apply from_15; assumption. }
  destruct (_ && _); [|rewrite seqk_next; destruct (Hl l1 eq_refl); apply from_15; assumption].
  set (l2 := if negb h then _ else l1). assert (T2 : lv_text l2 = lv_text l1) by (unfold l2; destruct h; reflexivity). clearbody l2. destruct (Hl l2 T2).
  destruct (_ && _); [|rewrite seqk_next; apply from_15; assumption].
  destruct (f_directives flt); [|rewrite seqk_next; apply from_15; assumption].
  rewrite seqk_ret. apply ends_ret. reflexivity.
Qed.
Lemma from_9 l s : (length (t_lines s) < N)%nat -> Z.of_nat (length (t_lines s)) < 2 ^ 62 ->
  (length (lv_text l) < N)%nat -> Z.of_nat (length (lv_text l)) < 2 ^ 31 ->
  ends (from 9 (E1 false (t_text s) (enc (on l s)))) (enc (eol_directives mb flt l s)).
Proof.
  intros HN HS HT HL. pose proof (directives_step_quiet l s) as Hq. pose proof (q_text _ _ Hq) as Tx. rewrite eol_directives_eq. unfold directives_step in *. fold (sources l s) in *.
  next 9%nat. rewrite (eol_9 N mb order flt rep vis d (t_text s) l s HN HL). destruct (sources l s) as [h s1]. rewrite seqk_next. cbn [snd] in *.
  next 10%nat. rewrite eol_10, seqk_next. set (s2 := if negb h then _ else s1) in *. clearbody s2.
  apply q_lines in Hq. assert (HS2 : Z.of_nat (length (t_lines s2)) < 2 ^ 62) by (rewrite <- (same_lines_length _ _ Hq); exact HS). rewrite <- Tx. clear Tx Hq.
  next 11%nat. rewrite (eol_11 N mb order flt rep vis d h l s2 HS2).
  assert (Hs3 : t_text (snd (libraryFilter flt s2)) = t_text s2 /\ (length (t_lines (snd (libraryFilter flt s2))) <= length (t_lines s2))%nat).
  { unfold libraryFilter. destruct (_ && _); [|split; [reflexivity|apply le_n]]. destruct (last_cases (t_lines s2)) as [E|(u & x & E & E2)].
    - replace (rev (t_lines s2)) with (@nil asm_line_v) by (rewrite E; reflexivity). split; [reflexivity|apply le_n].
    - rewrite E2. cbn [snd]. destruct (t_mayRemovePreviousLabel s2); [|split; [reflexivity|apply le_n]].
      destruct (is_nil _); [split; [reflexivity|apply le_n]|]. destruct (lv_is_label x); (split; [reflexivity|]); cbn; [|apply le_n]. rewrite rev_length. rewrite E, app_length.
      cbn. try (rewrite rev_length). lia. }
  destruct (libraryFilter flt s2) as [dr s3]. cbn [snd] in Hs3. destruct Hs3 as [T3 L3]. destruct dr.
  { rewrite seqk_ret. apply ends_ret. reflexivity. }
  rewrite seqk_next, <- T3.
  next 12%nat. rewrite eol_12. destruct (justComment flt s3).
  { rewrite seqk_ret. apply ends_ret. reflexivity. }
  rewrite seqk_next. apply from_13; try assumption. lia.
Qed.
Lemma src_eol s :
  0 <= t_total_lines s < 2 ^ 62 -> - 2 ^ 30 < t_inCustomAssembly s < 2 ^ 30 - 1 ->
  (length (t_lines s) < N)%nat -> Z.of_nat (length (t_lines s)) < 2 ^ 62 ->
  (8 * length (t_text s) < N)%nat -> (8 * length (t_text s) <= S d)%nat -> 8 * Z.of_nat (length (t_text s)) < 2 ^ 31 ->
  A (S D) "eol" (enc s) [] = CVal VUnit (enc (eol mb flt s)).
Proof.
  intros HT HC HN HS HX Hd HZ. set (o := enc s). rewrite A_S by reflexivity.
  match goal with |- context [find_fn asm_fns ?f] => let r := ev (find_fn asm_fns f) in change (find_fn asm_fns f) with r end.
  cbv beta iota delta [fn_body fn_ret fn_params fn_dflt]. rewrite run_fn_fin.
  match goal with |- context [bind_params ?t ?p ?a ?e] => let r := ev (bind_params t p a e) in change (bind_params t p a e) with r; cbv beta iota end.
  unfold o. clear o. match goal with |- fin _ _ (CppSem.exec _ _ _ _ _ _ _ ?e) = _ => change (ends (from 0 [("this", enc s)]) (enc (eol mb flt s))) end.
  unfold eol, new_line. set (s0 := set_t_total_lines _ s).
  next 0%nat. rewrite (eol_0 N mb order flt rep vis d s HT), seqk_next. fold s0.
  next 1%nat. rewrite eol_1, seqk_next. set (l0 := line_v0 (t_next_id s0)).
  set (s1 := set_t_currentLine _ _). change (enc (on l0 s0)) with (enc (on l0 s1)).
  assert (T1 : t_text s1 = t_text s) by reflexivity. assert (L1 : t_lines s1 = t_lines s) by reflexivity. assert (C1 : t_inCustomAssembly s1 = t_inCustomAssembly s) by reflexivity.
  clearbody s1. clearbody l0. clear s0.
  next 2%nat. rewrite eol_2, seqk_next.
  next 3%nat. rewrite eol_3. rewrite block_eq. destruct (fst _).
  { rewrite seqk_ret. apply ends_ret. reflexivity. }
  rewrite seqk_next. change (t_text s1) with (t_text (set_t_hasStartedCommentBlock (snd (block_of flt (t_text s1) (t_hasStartedCommentBlock s1))) s1)) at 1.
  set (s2 := set_t_hasStartedCommentBlock _ s1). change (t_text s2) with (t_text s1).
  assert (T2 : t_text s2 = t_text s) by exact T1. assert (L2 : t_lines s2 = t_lines s) by exact L1. assert (C2 : t_inCustomAssembly s2 = t_inCustomAssembly s) by exact C1.
  rewrite T1. rewrite <- T2. clear T1 L1 C1. clearbody s2. clear s1.
  next 4%nat. rewrite (eol_4 N mb order flt rep vis d (t_text s2) l0 s2) by (rewrite L2; exact HS). destruct (isEmptyOrJustWhitespace (t_text s2)).
  { rewrite seqk_ret. apply ends_ret. reflexivity. }
  rewrite seqk_next.
  next 5%nat. rewrite (eol_5 N mb order flt rep vis d l0 s2) by lia. rewrite seqk_next.
  pose proof (quiet_custom s2) as Q3. set (s3 := customAssembly s2) in *. clearbody s3.
  pose proof (q_text _ _ Q3) as T3. apply q_lines in Q3. apply same_lines_length in Q3. rewrite <- T3.
  pose proof (filteredLine_len flt s3) as FL.
  next 6%nat. rewrite (eol_6 N mb order flt rep vis d l0 s3).
  2:{ rewrite T3, T2. lia. }
  2:{ pose proof (fixLabelIndentation_len (t_text s3)). destruct (0 <? _); rewrite T3, T2 in *; lia. }
  2:{ pose proof (fixLabelIndentation_len (t_text s3)). set (x := if 0 <? _ then _ else _).
      assert (length x <= length (t_text s3))%nat by (unfold x; destruct (0 <? _); lia). pose proof (expandTabs_len x). rewrite T3, T2 in *. lia. }
  rewrite seqk_next. set (l := set_lv_text (filteredLine flt s3) l0).
  change (filteredLine flt s3) with (lv_text l) in FL. rewrite T3, T2 in FL. clearbody l. clear l0.
  assert (HL : forall s4, quiet s3 s4 -> ends (from 8 (E0 (t_text s3) (enc (on l s4)))) (enc (eol_directives mb flt l s4))).
  { intros s4 Q. rewrite <- (q_text _ _ Q). apply q_lines in Q. apply same_lines_length in Q. next 8%nat. rewrite eol_8, seqk_next. apply from_9; rewrite <- ?Q, <- ?Q3, ?L2; lia. }
  next 7%nat. rewrite eol_7 by lia. destruct (_ && _); [|rewrite seqk_next; apply HL, quiet_refl].
  destruct (f_directives flt); [|rewrite seqk_next; apply HL, quiet_proc].
  rewrite seqk_ret. apply ends_ret. reflexivity.
Qed.
End Eol.
