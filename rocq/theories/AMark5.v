(** The removal of unused lines (src/assembly/parser.cpp:709-805). *)
From Coq Require Import String List ZArith Ascii Bool Lia.
From Verif Require Lemmas.
From Verif Require Import Bytes Types Utils AsmText CppSyntax SourceText SourceAst CppSem AStep AUtil AMap AMark1 AMark2 AMark3 AObj ABack AEol1.
Import ListNotations.
Local Open Scope string_scope.
Local Open Scope Z_scope.

Definition remove_body : stmt := ltac:(let x := eval cbv delta [assembly_parser_removeUnused] in assembly_parser_removeUnused in
  match x with SSeq _ (SSeq _ (SSeq _ (SSeq _ (SSeq _ (SSeq (SFor _ _ _ (SBlock ?b)) _))))) => exact b end).

Lemma set_same {T} (x : T) : forall l n, nth_error l n = Some x -> set_nth n x l = l.
Proof. induction l as [|y l IH]; intros [|n] H; cbn in *; try discriminate; [now injection H as ->|]. now rewrite IH. Qed.
Ltac same G := match goal with |- context [set_nth ?n ?x (encLs ?l)] => replace (set_nth n x (encLs l)) with (encLs l) by (symmetry; exact (set_same _ _ _ G)) end.
Definition encFs (l : asm_line_v) : list (string * val) := match encL l with VRec f => f | _ => [] end.
Lemma move_mid K (l : asm_line_v) R : set_nth (length K) VNone (encLs (K ++ l :: R)) = (encLs K ++ VNone :: encLs R)%list.
Proof. unfold encLs. induction K as [|x K IH]; [reflexivity|]. cbn [app map length set_nth]. now rewrite IH. Qed.
Lemma erase_mid K x R : (firstn (length K) (encLs K ++ x :: encLs R) ++ skipn (S (length K)) (encLs K ++ x :: encLs R))%list = encLs (K ++ R).
Proof. unfold encLs. induction K as [|y K IH]; [reflexivity|]. cbn [app map length firstn skipn]. cbn [app]. f_equal. exact IH. Qed.
Section Loop.
Variables (N : nat) (mb : str -> Z) (order : val -> list val) (d : nat).
Notation A := (A N mb order).
Notation D := (S (S d)).
Variables (g1 g2 g3 g4 g5 g6 g7 g8 g9 g10 rep : bool) (s : tstate).
Variables (y1 y2 y3 y4 y5 y6 y7 y8 y9 y10 y11 y12 y13 y14 y15 y16 y17 y18 y19 z1 z2 z3 z4 z5 z6 z7 : val).
Notation flt := (mkFilter g1 g2 g3 g4 g5 g6 g7 g8 g9 g10).
(** the parser object, as far as the loop looks at it *)
Definition Obj (files : list (val * val)) (used : list (val * val)) (L F : list asm_line_v) : val :=
  VRec [("filter", VRec [("binary", VBool g1); ("unused_labels", VBool g2); ("library_functions", VBool g3);
        ("directives", VBool g4); ("comment_only", VBool g5); ("whitespace", VBool g6);
        ("plt", VBool g7); ("dont_mask_filenames", VBool g8); ("compatmode", VBool g9); ("code_only", VBool g10)]);
    ("state", VRec [("stopParsing", y1); ("hasProcMarkers", y2); ("hasStartedCommentBlock", y3); ("mayRemovePreviousLabel", y4); ("keepInlineCode", y5);
        ("lastOwnSource", y6); ("inNvccDef", y7); ("inNvccCode", y8); ("inCustomAssembly", y9); ("currentLabelReference", y10); ("currentSourceRef", y11);
        ("previousLabel", y12); ("previousParentLabel", y13); ("previousLabelOnSameAddress", y14); ("text", y15); ("currentFilename", y16);
        ("currentSection", y17); ("currentSourceFile", y18); ("currentLine", y19); ("filteredlines", VVec VNone (encLs F))]);
    ("files", VMap (VStr []) files); ("lines", VVec VNone (encLs L)); ("labels_defined", z1); ("usercode_labels", z2); ("used_labels", VMap (VSet []) used);
    ("data_used_labels", z3); ("weakly_used_labels", z4); ("aliased_labels", z5); ("reproducible", VBool rep); ("total_lines", z6); ("visited", z7)].
Variables (files : list (Z * str)) (used : list (view * list view)).
Hypothesis files_eq : t_files s = files.
Hypothesis used_eq : t_used_labels s = used.
Notation O L F := (Obj (encFiles files) (encMS used) L F).
Hypothesis filterOut : forall L F l, (length (lv_labels l) < N)%nat ->
  A D "filterOutReferedLabelsThatArentDefined" (O L F) [encL l] = CVal VUnit (VBrace [O L F; encL (filterOutReferedLabelsThatArentDefined s l)]).
Definition E (n i : Z) (r : rstate) (only : bool) (o : val) : env :=
  [("line", VRef "this" [Fld "lines"; At i]); ("it", VVit "this" [Fld "lines"] n i); ("isDataUsedThroughAlias", VBool (r_dataalias r)); ("isUsedThroughAlias", VBool (r_alias r));
   ("isUsed", VBool (r_isUsed r)); ("removeOnlyThis", VBool only); ("remove", VBool (r_remove r)); ("this", o)].
Notation exec b e := (exec N mb asm_tys isfn ismeth (A D) b e).
Notation eval x e := (eval mb asm_tys isfn ismeth (A D) x e).
Definition st (n : nat) : stmt := seq_nth n remove_body.

(** parser.cpp:722-765 *)
Lemma remove_2 n i r L F l : nth_error (encLs L) (Z.to_nat i) = Some (encL l) ->
  exec (st 2) (E n i r false (O L F)) = let '(only, r') := remove_label flt s r l in Val Next (E n i r' only (O L F)).
Proof.
  intros G. unfold st. match goal with |- context [seq_nth ?n ?b] => let x := eval cbv in (seq_nth n b) in change (seq_nth n b) with x end.
  unfold remove_label. rewrite used_eq. destruct r as [rm iu ia id]. dsx l. unfold E, Obj.
  cbn [lv_is_label lv_is_used lv_is_used_through_alias lv_is_used_data_through_alias lv_is_internal_label lv_is_inline_asm lv_closest_parent_label r_remove r_isUsed r_alias r_dataalias f_unused_labels].
  gor. repeat (rewrite G; gor).
  destruct x_isl; gor; [|reflexivity]. repeat (rewrite G; gor).
  destruct g2; gor; [|reflexivity]. repeat (rewrite G; gor).
  Local Ltac on b G := destruct b; cbn [negb andb]; gor; repeat (rewrite G; gor).
  destruct rm; cbn [negb andb].
  - on x_u1 G; reflexivity.
  - on x_u1 G; [reflexivity|]. on x_u2 G; [reflexivity|]. on x_u3 G; [reflexivity|]. on x_isi G; [reflexivity|]. on x_inline G; [reflexivity|].
    same G. destruct (is_nil x_parent); cbn [negb]; gor; repeat (rewrite G; gor); [reflexivity|].
    change (encMS used) with (encM encT used). rewrite (map_get_enc encT). unfold map_contains. destruct (map_find used x_parent); cbn [option_map is_some negb andb]; gor; repeat (rewrite G; gor); reflexivity.
Qed.
(** parser.cpp:767-769 *)
Definition cond : expr := ltac:(let x := eval cbv in (st 3) in match x with SIf ?c _ _ => exact c end).
Definition yes : stmt := ltac:(let x := eval cbv in (st 3) in match x with SIf _ ?c _ => exact c end).
Definition no : stmt := ltac:(let x := eval cbv in (st 3) in match x with SIf _ _ ?c => exact c end).
Lemma remove_cond n i r only L F l : nth_error (encLs L) (Z.to_nat i) = Some (encL l) ->
  eval cond (E n i r only (O L F)) = Val (VBool (removed flt r only l)) (E n i r only (O L F)).
Proof.
  intros G. unfold removed, cond. destruct r as [rm iu ia id]. dsx l. unfold E, Obj.
  cbn [lv_is_data lv_source sv_inside_proc r_remove r_isUsed r_alias r_dataalias f_compatmode f_directives].
  gor. repeat (rewrite G; gor). Local Ltac onb b G := destruct b; cbn [negb andb orb]; gor; repeat (rewrite G; gor); try reflexivity.
  onb rm G. onb only G. onb iu G. onb ia G. onb id G. onb g9 G. onb g4 G. onb x_data G.
Qed.
Lemma remove_yes n i r only K R F l : n = Z.of_nat (length (K ++ l :: R)) -> i = Z.of_nat (length K) ->
  exec yes (E n i r only (O (K ++ l :: R) F)) =
  Val Next (match E (n - 1) i r only (O (K ++ R) (F ++ [l])) with x :: e => ("line", VRef "this" [Fld "lines"; At i]) :: e | e => e end).
Proof.
  intros Hn Hi. assert (Hi2 : Z.to_nat i = length K) by lia.
  assert (G : nth_error (encLs (K ++ l :: R)) (Z.to_nat i) = Some (encL l)) by (rewrite Hi2; apply nth_mid).
  assert (HM : set_nth (Z.to_nat i) VNone (encLs (K ++ l :: R)) = (encLs K ++ VNone :: encLs R)%list) by (rewrite Hi2; apply move_mid).
  assert (HB : (0 <=? i) && (i <? Z.of_nat (length (encLs K ++ VNone :: encLs R))) = true) by (rewrite app_length; cbn [length]; rewrite !encLs_length; lia).
  assert (HN : Z.of_nat (length (encLs K ++ VNone :: encLs R)) - 1 = n - 1) by (rewrite Hn, !app_length; cbn [length]; rewrite !encLs_length; lia).
  assert (HF : (encLs F ++ [VRec (encFs l)])%list = encLs (F ++ [l])) by (symmetry; apply encLs_app).
  unfold yes, E, Obj. destruct r as [rm iu ia id]. cbn [r_remove r_isUsed r_alias r_dataalias]. change (encL l) with (VRec (encFs l)) in G. set (fl := encFs l) in *. clearbody fl.
  gor. repeat (rewrite G; gor). rewrite HM. gor. rewrite HB. gor. rewrite HN, Hi2, erase_mid, HF. reflexivity.
Qed.
(** parser.cpp:776-803 *)
Definition nth_no (n : nat) : stmt := match no with SBlock b => seq_nth n b | b => b end.
Local Ltac part := match goal with |- context [nth_no ?n] => let x := eval cbv in (nth_no n) in change (nth_no n) with x end.
Lemma no_0 n i r only K R F l : (length (lv_labels l) < N)%nat -> i = Z.of_nat (length K) ->
  exec (nth_no 0) (E n i r only (O (K ++ l :: R) F)) = Val Next (E n i r only (O (K ++ filterOutReferedLabelsThatArentDefined s l :: R) F)).
Proof.
  intros Hl Hi. assert (Hi2 : Z.to_nat i = length K) by lia.
  assert (G : nth_error (encLs (K ++ l :: R)) (Z.to_nat i) = Some (VRec (encFs l))) by (rewrite Hi2; apply nth_mid).
  pose proof (filterOut (K ++ l :: R) F l Hl) as HO.
  assert (HS : set_nth (Z.to_nat i) (encL (filterOutReferedLabelsThatArentDefined s l)) (encLs (K ++ l :: R)) = encLs (K ++ filterOutReferedLabelsThatArentDefined s l :: R)) by (rewrite Hi2; apply set_mid).
  change (encL l) with (VRec (encFs l)) in HO. change (encL (filterOutReferedLabelsThatArentDefined s l)) with (VRec (encFs (filterOutReferedLabelsThatArentDefined s l))) in *.
  set (fl := encFs l) in *. clearbody fl. set (fm := encFs (filterOutReferedLabelsThatArentDefined s l)) in *. clearbody fm. 
  part. unfold E, Obj in *. gor. repeat (rewrite G; gor). rewrite HO. gor. rewrite G. gor. rewrite HS. reflexivity.
Qed.
Lemma no_1 n i r only K R F l : i = Z.of_nat (length K) ->
  exec (nth_no 1) (E n i r only (O (K ++ l :: R) F)) = Val Next (E n i r only (O (K ++ resolve_file s l :: R) F)).
Proof.
  intros Hi. assert (Hi2 : Z.to_nat i = length K) by lia.
  unfold resolve_file. rewrite files_eq. part. dsx l. unfold E, Obj. cbn [lv_source sv_file_idx]. gor. repeat (rewrite Hi2, nth_mid; gor).
  destruct (x_idx =? 0); cbn [negb]; gor; [reflexivity|]. repeat (rewrite ?Hi2, nth_mid; gor).
  rewrite files_get_enc. destruct (files_at files x_idx) as [f|]; cbn [option_map]; gor.
  Local Ltac at_mid Hi2 := repeat (rewrite ?Hi2, nth_mid; gor).
  - use (src_isExampleOrStdin N mb order (S d) f). gor. destruct (isExampleOrStdin f); gor; at_mid Hi2; rewrite ?Hi2.
    + setm (mkLineV x_id x_text (mkView x_section_o x_section) x_labels x_opcodes x_parent x_isl x_isi (mkView x_label_o x_label)
         (mkSourceV (mkView x_file_o x_file) x_idx x_line x_column x_end true x_proc) x_addr x_u1 x_u2 x_u3 x_data x_inline x_op x_dir x_asg). gor. at_mid Hi2. rewrite ?Hi2.
      setm (mkLineV x_id x_text (mkView x_section_o x_section) x_labels x_opcodes x_parent x_isl x_isi (mkView x_label_o x_label)
         (mkSourceV (mkView (OFile x_idx) f) x_idx x_line x_column x_end true x_proc) x_addr x_u1 x_u2 x_u3 x_data x_inline x_op x_dir x_asg). gor. reflexivity.
    + setm (mkLineV x_id x_text (mkView x_section_o x_section) x_labels x_opcodes x_parent x_isl x_isi (mkView x_label_o x_label)
         (mkSourceV (mkView (OFile x_idx) f) x_idx x_line x_column x_end x_user x_proc) x_addr x_u1 x_u2 x_u3 x_data x_inline x_op x_dir x_asg). gor. reflexivity.
  - at_mid Hi2. rewrite ?Hi2. setm (mkLineV x_id x_text (mkView x_section_o x_section) x_labels x_opcodes x_parent x_isl x_isi (mkView x_label_o x_label)
         source_v0 x_addr x_u1 x_u2 x_u3 x_data x_inline x_op x_dir x_asg). gor. reflexivity.
Qed.
Lemma no_2 n i r only o : in_bounds n (i + 1) = true ->
  exec (nth_no 2) (E n i r only o) = Val Next (match E n (i + 1) r only o with x :: e => ("line", VRef "this" [Fld "lines"; At i]) :: e | e => e end).
Proof. intros H. part. unfold E. gor. rewrite H. gor. reflexivity. Qed.
Lemma remove_no n i r only K R F l : (length (lv_labels l) < N)%nat -> i = Z.of_nat (length K) -> n = Z.of_nat (length (K ++ l :: R)) ->
  exec no (E n i r only (O (K ++ l :: R) F)) =
  Val Next (match E n (i + 1) r only (O (K ++ resolve_file s (filterOutReferedLabelsThatArentDefined s l) :: R) F) with x :: e => ("line", VRef "this" [Fld "lines"; At i]) :: e | e => e end).
Proof.
  intros Hl Hi Hn. assert (HB : in_bounds n (i + 1) = true) by (rewrite app_length in Hn; cbn [length] in Hn; unfold in_bounds; lia).
  change no with (SBlock (SSeq (nth_no 0) (SSeq (nth_no 1) (SSeq (nth_no 2) SSkip)))). rewrite exec_block, !exec_seq. rewrite no_0 by assumption. rewrite seqk_next, exec_seq, no_1 by assumption.
  rewrite seqk_next, exec_seq, no_2 by assumption. rewrite seqk_next, exec_skip. reflexivity.
Qed.

Definition E0 (n i : Z) (r : rstate) (only : bool) (o : val) : env := match E n i r only o with _ :: e => e | e => e end.
Lemma remove_turn n i r only K R F l : (length (lv_labels l) < N)%nat -> i = Z.of_nat (length K) -> n = Z.of_nat (length (K ++ l :: R)) ->
  exec (SBlock remove_body) (E0 n i r only (O (K ++ l :: R) F)) =
  let '(only', r') := remove_label flt s r l in
  Val Next (if removed flt r' only' l then E0 (n - 1) i r' only' (O (K ++ R) (F ++ [l]))
            else E0 n (i + 1) r' only' (O (K ++ resolve_file s (filterOutReferedLabelsThatArentDefined s l) :: R) F)).
Proof.
  intros Hl Hi Hn. change remove_body with (SSeq (st 0) (SSeq (st 1) (SSeq (st 2) (SSeq (SIf cond yes no) SSkip)))). rewrite exec_block, !exec_seq.
  assert (G : nth_error (encLs (K ++ l :: R)) (Z.to_nat i) = Some (encL l)) by (replace (Z.to_nat i) with (length K) by lia; apply nth_mid).
  assert (H0 : exec (st 0) (E0 n i r only (O (K ++ l :: R) F)) = Val Next (E n i r only (O (K ++ l :: R) F))).
  { unfold st. match goal with |- context [seq_nth ?n ?b] => let x := eval cbv in (seq_nth n b) in change (seq_nth n b) with x end. unfold E0, E, Obj. change (encL l) with (VRec (encFs l)) in G. set (fl := encFs l) in *. clearbody fl.
    assert (VA : forall e, vec_at (encLs (K ++ l :: R)) i e = Val (VRec fl) e) by (intros; unfold vec_at; replace (i <? 0) with false by lia; rewrite G; reflexivity).
    gor. try (rewrite VA; gor). try (rewrite G; gor). reflexivity. }
  rewrite H0, seqk_next, exec_seq.
  assert (H1 : exec (st 1) (E n i r only (O (K ++ l :: R) F)) = Val Next (E n i r false (O (K ++ l :: R) F))).
  { unfold st. match goal with |- context [seq_nth ?n ?b] => let x := eval cbv in (seq_nth n b) in change (seq_nth n b) with x end. unfold E. set (o := O _ F). clearbody o. gor. reflexivity. }
  rewrite H1, seqk_next, exec_seq. rewrite (remove_2 n i r _ F l G). destruct (remove_label flt s r l) as [only' r']. rewrite seqk_next, exec_seq, exec_if.
  rewrite (remove_cond n i r' only' _ F l G), ifk_bool. destruct (removed flt r' only' l).
  - rewrite remove_yes by assumption. rewrite seqk_next, exec_skip. reflexivity.
  - rewrite remove_no by assumption. rewrite seqk_next, exec_skip. reflexivity.
Qed.
Definition again : expr := ltac:(let x := eval cbv delta [assembly_parser_removeUnused] in assembly_parser_removeUnused in
  match x with SSeq _ (SSeq _ (SSeq _ (SSeq _ (SSeq _ (SSeq (SFor _ ?c _ _) _))))) => exact c end).
Lemma remove_all : forall R K F r only k n i, (length R < k)%nat -> n = Z.of_nat (length (K ++ R)) -> i = Z.of_nat (length K) -> Forall (fun l => (length (lv_labels l) < N)%nat) R ->
  exists n' i' r' only', while_loop k (CppSem.eval mb asm_tys isfn ismeth (A D) again) (CppSem.exec N mb asm_tys isfn ismeth (A D) (SBlock remove_body)) (fun e9 : env => @Val val VUnit e9) (E0 n i r only (O (K ++ R) F)) =
    Val Next (E0 n' i' r' only' (O (K ++ fst (remove_loop flt s r R)) (F ++ snd (remove_loop flt s r R)))).
Proof.
  induction R as [|l R IH]; intros K F r only [|k] n i Hk Hn Hi HR; try (cbn in Hk; lia).
  - exists n, i, r, only. cbn [remove_loop fst snd]. rewrite !app_nil_r in *. eapply (while_end _ _ _ _ _ (VBool false)); [|reflexivity]. unfold again, E0, E, Obj. gor.
    replace (i =? Z.of_nat (length (encLs K))) with true by (rewrite encLs_length; lia). reflexivity.
  - pose proof (Forall_inv HR) as Hl. pose proof (Forall_inv_tail HR) as HR'. cbv beta in Hl. subst n i. cbn [length] in Hk. cbn [remove_loop].
    pose proof (remove_turn _ _ r only K R F l Hl eq_refl eq_refl) as HT. destruct (remove_label flt s r l) as [only' r']. cbv beta iota in HT.
    assert (HC : eval again (E0 (Z.of_nat (length (K ++ l :: R))) (Z.of_nat (length K)) r only (O (K ++ l :: R) F)) = Val (VBool true) (E0 (Z.of_nat (length (K ++ l :: R))) (Z.of_nat (length K)) r only (O (K ++ l :: R) F))).
    { unfold again, E0, E, Obj. gor. replace (_ =? _) with false by (rewrite encLs_length, app_length; cbn [length]; lia). reflexivity. }
    destruct (removed flt r' only' l); cbv beta iota in HT.
    + edestruct (IH K (F ++ [l])%list r' only' k (Z.of_nat (length (K ++ l :: R)) - 1) (Z.of_nat (length K))) as (n' & i' & r2 & o2 & H); [lia|rewrite !app_length; cbn [length]; lia|reflexivity|exact HR'|].
      exists n', i', r2, o2. rewrite (while_next _ _ (fun e9 : env => @Val val VUnit e9) _ _ _ _ _ _ _ _ HC eq_refl HT (or_introl eq_refl) eq_refl). rewrite H.
      destruct (remove_loop flt s r' R) as [kept out]. cbn [fst snd]. rewrite <- app_assoc. reflexivity.
    + edestruct (IH (K ++ [resolve_file s (filterOutReferedLabelsThatArentDefined s l)])%list F r' only' k (Z.of_nat (length (K ++ l :: R))) (Z.of_nat (length K) + 1)) as (n' & i' & r2 & o2 & H);
        [lia|rewrite !app_length; cbn [length]; lia|rewrite app_length; cbn [length]; lia|exact HR'|].
      exists n', i', r2, o2. rewrite (while_next _ _ (fun e9 : env => @Val val VUnit e9) _ _ _ _ _ _ _ _ HC eq_refl HT (or_introl eq_refl) eq_refl). rewrite <- !app_assoc in H. cbn [app] in H. rewrite H.
      destruct (remove_loop flt s r' R) as [kept out]. cbn [fst snd]. reflexivity.
Qed.
Lemma remove_object L F : (length L < N)%nat -> Forall (fun l => (length (lv_labels l) < N)%nat) L ->
  let '(kept, out) := remove_loop flt s (mkR false false false false) L in
  A (S D) "removeUnused" (O L F) [] = CVal VUnit (O kept (F ++ out)).
Proof.
  intros HL HF. destruct (remove_all L [] F (mkR false false false false) false N (Z.of_nat (length L)) 0 HL eq_refl eq_refl HF) as (n' & i' & r' & o' & H).
  destruct (remove_loop flt s _ L) as [kept out]. cbn [fst snd app] in H. unfold E0, E, Obj in *. cbn [r_remove r_isUsed r_alias r_dataalias] in H. rewrite <- (encLs_length L) in H.
  enter. go. unfold again, remove_body in H. rewrite H. go. reflexivity.
Qed.
End Loop.
(** parser.cpp:709-805 *)
Lemma src_removeUnused N mb order flt rep d s v : (length (t_lines s) < N)%nat -> Forall (fun l => (length (lv_labels l) < N)%nat) (t_lines s) ->
  A N mb order (S (S (S d))) "removeUnused" (enc flt rep s v) [] = CVal VUnit (enc flt rep (removeUnused flt s) v).
Proof.
  intros HL HF. pose proof (fun L F => src_filterOut N mb order flt rep (set_t_filteredlines F (set_t_lines L s)) v (S d)) as HO. unfold removeUnused.
  destruct flt as [g1 g2 g3 g4 g5 g6 g7 g8 g9 g10].
  pose proof (remove_object N mb order d g1 g2 g3 g4 g5 g6 g7 g8 g9 g10 rep s
    (VBool (t_stopParsing s)) (VBool (t_hasProcMarkers s)) (VBool (t_hasStartedCommentBlock s)) (VBool (t_mayRemovePreviousLabel s)) (VBool (t_keepInlineCode s)) (encSrc (t_lastOwnSource s))
    (VBool (t_inNvccDef s)) (VBool (t_inNvccCode s)) (VInt I32 (t_inCustomAssembly s)) pLabel (encSrc (t_currentSourceRef s)) (encV (t_previousLabel s)) (encV (t_previousParentLabel s))
    (encV (t_previousLabelOnSameAddress s)) (VStr (t_text s)) (encV (t_currentFilename s)) (encV (t_currentSection s)) (encV (t_currentSourceFile s)) (encOL (t_currentLine s))
    (VMap (VInt I32 0) (encMI (t_labels_defined s))) (VSet (encVs (t_usercode_labels s))) (VMap (VSet []) (encMS (t_data_used_labels s))) (VMap (VSet []) (encMS (t_weakly_used_labels s)))
    (VMap (VStr []) (encMV (t_aliased_labels s))) (VInt U64 (t_total_lines s)) (VSet (encStrs (rev v))) (t_files s) (t_used_labels s) eq_refl eq_refl HO (t_lines s) (t_filteredlines s) HL HF) as H.
  destruct (remove_loop _ _ _ _) as [kept out]. exact H.
Qed.

