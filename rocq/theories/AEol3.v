(** AssemblyTextParser::eol (parser.cpp:367-485), one statement after the other. *)
From Coq Require Import String List ZArith Ascii Bool Lia.
From Verif Require Import Bytes Types Utils AsmText CppSyntax SourceText SourceAst PropPatterns CppSem AStep AUtil AScan ALine ASquash AUsed AMap AObj ABack AHand ALabel AEol1.
Import ListNotations.
Local Open Scope string_scope.
Local Open Scope Z_scope.

Lemma last_of_lines u x : last_of (encLs (u ++ [x])) = Some (encL x).
Proof. rewrite encLs_app. unfold last_of. rewrite rev_app_distr. reflexivity. Qed.
Lemma without_last_lines u x : without_last (encLs (u ++ [x])) = encLs u.
Proof. rewrite encLs_app. unfold without_last. rewrite rev_app_distr. cbn [encLs map rev app tl]. apply rev_involutive. Qed.

Ltac openon l s := let S' := eval cbv beta delta [on set_t_currentLine] in (on l s) in change (on l s) with S'.

Section Eol.
Variables (N : nat) (mb : str -> Z) (order : val -> list val) (flt : Filter) (rep : bool) (vis : list str) (d : nat).
Notation D := (S (S (S (S d)))).
Notation A := (A N mb order).
Notation enc s := (enc flt rep s vis).
Notation exec n e := (exec N mb asm_tys isfn ismeth (A D) (seq_nth n assembly_parser_eol) e).
Ltac dsf := destruct flt as [g1 g2 g3 g4 g5 g6 g7 g8 g9 g10]; fcbn.
(** library code *)
Lemma eol_11 h l s : Z.of_nat (length (t_lines s)) < 2 ^ 62 -> exec 11 (E1 h (t_text s) (enc (on l s))) =
  let '(drop, s') := libraryFilter flt s in
  if drop then Val (Returned VUnit) (E1 h (t_text s) (enc (on l (set_t_text [] s')))) else Val Next (E1 h (t_text s) (enc (on l s'))).
Proof.
  intros HL. unfold libraryFilter, E1. stmt. destruct (last_cases (t_lines s)) as [El|(u & x & El & E2)].
  - rewrite El. cbn [rev]. dst s. dsl l. norms. subst lines. unplain. dsf. gof.
    destruct g3; gor; [|reflexivity]. cbn [andb]. destruct (w_line =? 0) eqn:Ew; cbn [negb]; [|gor; reflexivity]. gor.
    destruct fname; cbn [is_nil]; gor; [|reflexivity]. destruct f_may; gor; destruct f_keep; gor; reflexivity.
  - rewrite E2. dst s. dsl l. norms. subst lines. clear E2. unplain. dsf. gof.
    destruct g3; gor; [|reflexivity]. cbn [andb]. destruct (w_line =? 0) eqn:Ew; cbn [negb]; [|gor; reflexivity]. gor.
    destruct fname; cbn [is_nil]; gor; [|reflexivity]. destruct f_may; gor; [|destruct f_keep; gor; reflexivity].
    replace (norm U64 0 <? Z.of_nat (length (encLs (rev u ++ [x])))) with true by (change (norm U64 0) with 0; rewrite encLs_length, app_length; cbn [length]; lia).
    gor. rewrite vec_last by exact HL. dsx x. norms. gor.
    destruct x_text; cbn [is_nil]; gor; [reflexivity|]. rewrite vec_last by exact HL. destruct x_isl; gor; [|reflexivity].
    rewrite last_of_lines. gor. rewrite without_last_lines.
    reflexivity.
Qed.

(** a line of comments *)
Lemma eol_12 h l s : exec 12 (E1 h (t_text s) (enc (on l s))) =
  if justComment flt s then Val (Returned VUnit) (E1 h (t_text s) (enc (on l (set_t_text [] s)))) else Val Next (E1 h (t_text s) (enc (on l s))).
Proof.
  pose proof (src_isJustComments N mb order (S (S (S d))) (t_text s)) as H1. pose proof (src_isJustNvccComments N mb order (S (S (S d))) (t_text s)) as H2.
  unfold justComment, E1. stmt. dst s. dsl l. norms. unplain. dsf. gof. destruct g5; cbn [andb]; gor; [|reflexivity].
  rewrite H1. gor. destruct (isJustComments text); cbn [andb orb]; gor.
  - destruct f_code; cbn [negb orb]; gor; [|reflexivity]. rewrite H2. gor. destruct (isJustNvccComments text); gor; reflexivity.
  - rewrite H2. gor. destruct (isJustNvccComments text); cbn [andb]; gor; [|reflexivity]. destruct f_code; gor; reflexivity.
Qed.
(** what sort of line it is *)
Definition sort (h : bool) (l : asm_line_v) (s : tstate) : asm_line_v * tstate :=
  if h then (set_lv_is_internal_label false (set_lv_is_label false (set_lv_is_directive true (set_lv_is_data false l))), s)
  else let '(l, s) := handleLabelDefinition l s in (set_lv_is_directive false (set_lv_is_data (isDataDefn (lv_text l)) l), s).
Definition c13a := Eval cbv in match seq_nth 13 assembly_parser_eol with SIf _ _ (SBlock (SSeq a _)) => a | s => s end.
Definition c13b := Eval cbv in match seq_nth 13 assembly_parser_eol with SIf _ _ (SBlock (SSeq _ b)) => b | s => s end.
Lemma eol_13b h t l s : CppSem.exec N mb asm_tys isfn ismeth (A D) c13b (E1 h t (enc (on l s))) =
  Val Next (E1 h t (enc (on (set_lv_is_directive false (set_lv_is_data (isDataDefn (lv_text l)) l)) s))).
Proof.
  pose proof (src_isDataDefn N mb order (S (S (S d))) (lv_text l)) as H. unfold c13b, E1. dst s. dsl l. norms. unplain. gor. rewrite H. gor. reflexivity.
Qed.
Lemma eol_13a h t l s : Z.of_nat (length (t_lines s)) < 2 ^ 62 -> CppSem.exec N mb asm_tys isfn ismeth (A D) c13a (E1 h t (enc (on l s))) =
  let '(l', s') := handleLabelDefinition l s in Val Next (E1 h t (enc (on l' s'))).
Proof.
  intros HL. pose proof (src_handleLabelDefinition N mb order flt rep vis (S d) l s HL) as H. clear HL.
  destruct (handleLabelDefinition l s) as [l' s'] eqn:El. clear El. unfold c13a, E1. dst s. dsl l. norms. unplain. gor. meth H. reflexivity.
Qed.
Lemma eol_13 h t l s : Z.of_nat (length (t_lines s)) < 2 ^ 62 -> exec 13 (E1 h t (enc (on l s))) =
  let '(l', s') := sort h l s in Val Next (E1 h t (enc (on l' s'))).
Proof.
  intros HL. unfold sort. destruct h.
  - unfold E1. stmt. dst s. dsl l. norms. unplain. gor. reflexivity.
  - change (seq_nth 13 assembly_parser_eol) with (SIf (EId "handledSourceDirective") (match seq_nth 13 assembly_parser_eol with SIf _ a _ => a | _ => SSkip end) (SBlock (SSeq c13a c13b))).
    assert (C : eval mb asm_tys isfn ismeth (A D) (EId "handledSourceDirective") (E1 false t (enc (on l s))) = Val (VBool false) (E1 false t (enc (on l s)))).
    { unfold E1. dst s. dsl l. unplain. gor. reflexivity. }
    rewrite exec_if, C, ifk_bool, exec_block, exec_seq, (eol_13a false t l s HL). destruct (handleLabelDefinition l s) as [l' s']. rewrite seqk_next, eol_13b. reflexivity.
Qed.
(** directives *)
Definition direct (h : bool) (l : asm_line_v) (s : tstate) : tstate + asm_line_v * tstate :=
  if t_inNvccDef s then inr (l, if isCudaEndDef (lv_text l) then set_t_inNvccDef false s else s)
  else if negb (lv_is_label l) && negb (lv_is_data l) then
    let l := if negb h then set_lv_is_directive (isDirective (lv_text l)) l else l in
    if lv_is_directive l && negb (isInstOpcode (lv_text l)) then
      let s := extractUsedLabelsFromDirective l s in
      if f_directives flt then inl (set_t_text [] (set_t_currentLine None (set_t_filteredlines (t_filteredlines s ++ [l]) s))) else inr (l, s)
    else inr (l, s)
  else inr (l, s).
Definition c14 := Eval cbv in match seq_nth 14 assembly_parser_eol with SIf _ _ (SIf _ (SBlock (SSeq _ (SSeq a _))) _) => a | s => s end.
Lemma eol_14b h t l s : CppSem.exec N mb asm_tys isfn ismeth (A D) c14 (E1 h t (enc (on l s))) =
  if lv_is_directive l && negb (isInstOpcode (lv_text l)) then
    let s := extractUsedLabelsFromDirective l s in
    if f_directives flt then Val (Returned VUnit) (E1 h t (enc (set_t_text [] (set_t_currentLine None (set_t_filteredlines (t_filteredlines s ++ [l]) s)))))
    else Val Next (E1 h t (enc (on l s)))
  else Val Next (E1 h t (enc (on l s))).
Proof.
  pose proof (src_isInstOpcode N mb order (S (S (S d))) (lv_text l)) as H1. pose proof (src_extractUsedLabelsFromDirective N mb order flt rep vis (S (S d)) l s) as H2.
  set (s' := extractUsedLabelsFromDirective l s) in *. clearbody s'. unfold E1. dst s. dsl l. norms. unplain. destruct l_dir; cbn [andb]; gor; [|reflexivity].
  rewrite H1. gor. destruct (isInstOpcode l_text); cbn [negb]; gor; [reflexivity|]. meth H2. clear H1 H2.
  match goal with |- context [on ?l s'] => openon l s' end. dsf. gof. destruct g4; gor; [|reflexivity].
  snocl (mkLineV l_id l_text (mkView l_section_o l_section) l_labels l_opcodes l_parent l_isl l_isi (mkView l_label_o l_label)
         (mkSourceV (mkView l_file_o l_file) l_idx l_line l_column l_end l_user l_proc) l_addr l_u1 l_u2 l_u3 l_data l_inline l_op true l_asg). reflexivity.
Qed.
Lemma eol_14 h t l s : exec 14 (E1 h t (enc (on l s))) =
  match direct h l s with inl s' => Val (Returned VUnit) (E1 h t (enc s')) | inr (l', s') => Val Next (E1 h t (enc (on l' s'))) end.
Proof.
  unfold direct. 
  change (seq_nth 14 assembly_parser_eol) with (SIf (EMem (EMem (EId "this") "state") "inNvccDef") 
    (match seq_nth 14 assembly_parser_eol with SIf _ a _ => a | _ => SSkip end)
    (SIf (EBin "&&" (EUn "!" (EMem (EMem (EMem (EId "this") "state") "currentLine") "is_label")) (EUn "!" (EMem (EMem (EMem (EId "this") "state") "currentLine") "is_data")))
       (SBlock (SSeq (match seq_nth 14 assembly_parser_eol with SIf _ _ (SIf _ (SBlock (SSeq a _)) _) => a | _ => SSkip end) (SSeq c14 SSkip))) SSkip)).
  assert (C : eval mb asm_tys isfn ismeth (A D) (EMem (EMem (EId "this") "state") "inNvccDef") (E1 h t (enc (on l s))) = Val (VBool (t_inNvccDef s)) (E1 h t (enc (on l s)))).
  { unfold E1. dst s. dsl l. unplain. gor. reflexivity. }
  rewrite exec_if, C, ifk_bool. clear C. destruct (t_inNvccDef s) eqn:Ed.
  - pose proof (src_isCudaEndDef N mb order (S (S (S d))) (lv_text l)) as H1. unfold E1. stmt. cbv iota. dst s. dsl l. norms. unplain. gor. rewrite H1. gor.
    destruct (isCudaEndDef l_text); gor; [reflexivity|]. subst. reflexivity.
  - assert (C : eval mb asm_tys isfn ismeth (A D) (EBin "&&" (EUn "!" (EMem (EMem (EMem (EId "this") "state") "currentLine") "is_label")) (EUn "!" (EMem (EMem (EMem (EId "this") "state") "currentLine") "is_data")))
        (E1 h t (enc (on l s))) = Val (VBool (negb (lv_is_label l) && negb (lv_is_data l))) (E1 h t (enc (on l s)))).
    { unfold E1. dst s. dsl l. norms. unplain. destruct l_isl; gor; [reflexivity|]. destruct l_data; gor; reflexivity. }
    rewrite exec_if, C, ifk_bool. clear C. destruct (negb (lv_is_label l) && negb (lv_is_data l)); [|reflexivity].
    rewrite exec_block, exec_seq.
    assert (C : CppSem.exec N mb asm_tys isfn ismeth (A D) (match seq_nth 14 assembly_parser_eol with SIf _ _ (SIf _ (SBlock (SSeq a _)) _) => a | _ => SSkip end) (E1 h t (enc (on l s))) =
       Val Next (E1 h t (enc (on (if negb h then set_lv_is_directive (isDirective (lv_text l)) l else l) s)))).
    { stmt. cbv iota. pose proof (src_isDirective N mb order (S (S (S d))) (lv_text l)) as H1. unfold E1. dst s. dsl l. norms. unplain. destruct h; cbn [negb]; gor; [reflexivity|].
      rewrite H1. gor. reflexivity. }
    rewrite C, seqk_next, exec_seq, eol_14b. clear C. set (l' := if negb h then _ else l). cbv zeta. destruct (lv_is_directive l' && negb (isInstOpcode (lv_text l'))).
    + destruct (f_directives flt); reflexivity.
    + reflexivity.
Qed.
End Eol.
