(** The labels a line uses: getUsedLabelsInLine (regexwrappers.cpp:209-249). *)
From Coq Require Import String List ZArith Ascii Bool Lia.
From Verif Require UtilLabels Lemmas.
From Verif Require Import Bytes Types Utils Regex RegexSyntax RegexNorm AsmText CppSyntax SourceText SourceAst PropPatterns CppSem AStep AUtil AScan ALine.
Import ListNotations.
Local Open Scope string_scope.
Local Open Scope Z_scope.

Definition encLbl (l : asm_label) : val := VRec [("name", VStr (lb_name l)); ("range", encR (lb_range l))].
Lemma find_char_from (c : ascii) (s : str) : forall i, match find_sub_from [c] s i with Some k => (i <= k < i + length s)%nat | None => True end /\
  is_some (find_sub_from [c] s i) = has_char c s.
Proof.
  induction s as [|x s IH]; intros i; cbn [find_sub_from starts_with has_char existsb].
  - split; [exact I|reflexivity].
  - rewrite andb_true_r. change (Ascii.eqb c x) with (ceq c x). destruct (ceq c x) eqn:E.
    + cbn [length orb is_some]. split; [lia|reflexivity].
    + destruct (IH (S i)) as (H1 & H2). cbn [orb]. change (existsb (ceq c) s) with (has_char c s). cbn [length]. rewrite H2. split; [|reflexivity].
      destruct (find_sub_from [c] s (S i)); [lia|exact I].
Qed.
Lemma find_char c s : Z.of_nat (length s) < 2 ^ 31 ->
  (match find_sub [c] s 0 with Some i => Z.of_nat i | None => npos end =? npos) = negb (has_char c s).
Proof.
  intros H. unfold find_sub. replace (Z.of_nat (length s) <? 0) with false by lia. change (Z.to_nat 0) with O. rewrite skipn_O.
  destruct (find_char_from c s 0) as (H1 & H2). rewrite <- H2. destruct (find_sub_from [c] s 0) as [k|]; cbn [is_some negb]; unfold npos; lia.
Qed.
Definition us_env (D : Z) (f l : str) (i : Z) (acc : list val) : env :=
  [("startidx", VInt U64 i); ("diffLen", VInt U64 D); ("filteredLine", VStr f); ("labelsInLine", VVec pLabel acc); ("line", VStr l)].
Definition us_loc (f : str) (i : Z) (m : mstate) : Z := match find_sub (cap 2 m) f i with Some k => Z.of_nat k | None => npos end.
Definition us_next (f : str) (i : Z) (m : mstate) : Z := wrap_u 64 (i + (us_loc f i m - i) + Z.of_nat (length (cap 2 m))).
Definition us_here (mb : str -> Z) (f : str) (D i : Z) (m : mstate) : list asm_label :=
  let lbl := mkLabel (cap 2 m) (mkRange (u16 (us_loc f i m + D)) (u16 (us_loc f i m + D + ustrlen mb (cap 2 m)))) in
  if negb (is_nil (cap 1 m)) then
    [lbl; mkLabel (cap 1 m ++ cap 2 m)%list (mkRange (u16 (r_start (lb_range lbl) - 1)) (r_end (lb_range lbl)))]
  else [lbl].
Lemma u16_of_wrap z : norm U16 (wrap_u 64 z) = u16 z.
Proof.
  unfold norm, u16, wrap_u. rewrite <- (Znumtheory.Zmod_div_mod (2 ^ 16) (2 ^ 64)); [reflexivity|lia|lia|]. exists (2 ^ 48). reflexivity.
Qed.
Section Functions.
Variables (N : nat) (mb : str -> Z) (order : val -> list val).
Notation A := (A N mb order).
Hypothesis mb_le : forall s, mb s <= Z.of_nat (length s).

Lemma src_getUsedLabelsInLine d l : (length l < N)%nat -> Z.of_nat (length l) < 2 ^ 31 ->
  A (S (S (S d))) "getUsedLabelsInLine" VUnit [VStr l] = CVal (VVec pLabel (map encLbl (getUsedLabelsInLine mb l))) VUnit.
Proof.
  intros HL HB. enter. go. rewrite src_getLineWithoutCommentAndStripFirstWord by exact HL. go.
  assert (HF : (length (getLineWithoutCommentAndStripFirstWord l) <= length l)%nat).
  { unfold getLineWithoutCommentAndStripFirstWord. destruct (strip_offsets l) as [a k]. rewrite firstn_length, skipn_length. lia. }
  unfold getUsedLabelsInLine. change DQ with """"%char.
  generalize dependent (getLineWithoutCommentAndStripFirstWord l). intros f HF.
  rewrite find_char by lia. br; go; [reflexivity|].
  match goal with |- context [matches_from ?x _ _ _] =>
    assert (HR : exists r, x = r /\ alike r usedLabelRe) end.
  { destruct (reads_alike "([$%]?)([.@A-Z_a-z][.\dA-Z_a-z]*)" usedLabelRe) as (r & ER & HR); [vm_compute; reflexivity|].
    exists r. split; [|exact HR]. injection ER as <-. reflexivity. }
  destruct HR as (r & -> & HR).
  set (D := Z.of_nat (length l) - Z.of_nat (length f) + 1).
  assert (ED : wrap_u 64 (wrap_u 64 (Z.of_nat (length l) - Z.of_nat (length f)) + norm U64 1) = D).
  { rewrite (wrap64 (Z.of_nat (length l) - Z.of_nat (length f))) by lia. change (norm U64 1) with 1. apply wrap64. lia. }
  rewrite ED. clear ED.
  match goal with |- context [for_in _ ?b _ ?e] =>
    change e with (us_env D f l 0 []);
    assert (Body : forall m i acc, (length (cap 2 m) <= length f)%nat ->
      scope (us_env D f l i acc) (b (("match", VMatch (Some m)) :: us_env D f l i acc)) =
      Val Next (us_env D f l (us_next f i m) (acc ++ map encLbl (us_here mb f D i m))%list))
  end.
  { clear HR r. intros m i acc Hm. unfold us_env, us_next, us_here.
    gor. rewrite (src_ustrlen N mb order mb_le) by lia. gor. fold (us_loc f i m).
    assert (W1 : wrap_u 64 (i + wrap_u 64 (wrap_u 64 (us_loc f i m - i) + Z.of_nat (length (cap 2 m)))) =
                 wrap_u 64 (i + (us_loc f i m - i) + Z.of_nat (length (cap 2 m)))).
    { unfold wrap_u. rewrite Zplus_mod_idemp_l, Zplus_mod_idemp_r. f_equal. lia. }
    assert (W2 : norm U16 (wrap_u 64 (us_loc f i m + D)) = u16 (us_loc f i m + D)) by apply u16_of_wrap.
    assert (W3 : norm U16 (wrap_u 64 (wrap_u 64 (us_loc f i m + D) + ustrlen mb (cap 2 m))) = u16 (us_loc f i m + D + ustrlen mb (cap 2 m))).
    { replace (wrap_u 64 (wrap_u 64 (us_loc f i m + D) + ustrlen mb (cap 2 m))) with (wrap_u 64 (us_loc f i m + D + ustrlen mb (cap 2 m)))
        by (unfold wrap_u; now rewrite Zplus_mod_idemp_l). apply u16_of_wrap. }
    rewrite W1, W2, W3.
    destruct (is_nil (cap 1 m)) eqn:E1; cbn [negb]; gor; [reflexivity|].
    assert (U := Lemmas.u16_range (us_loc f i m + D)).
    assert (F1 : u16 (u16 (us_loc f i m + D)) = u16 (us_loc f i m + D)) by (apply Lemmas.u16_small; exact U).
    assert (F2 : fits I32 (u16 (us_loc f i m + D) - 1) = true) by (unfold fits, INT_MIN, INT_MAX; lia).
    rewrite F1, F2. gor. rewrite Nat2Z.id, firstn_all, <- app_assoc. reflexivity. }
  match goal with |- context [for_in "match" ?b _ _] => set (body := b) in * end. clearbody body.
  assert (Loop : forall k pos rest i acc, (length rest <= length f)%nat ->
    exists i', for_in "match" body (map (fun m => VMatch (Some m)) (matches_from r k pos rest)) (us_env D f l i acc) =
      Val Next (us_env D f l i' (acc ++ map encLbl (used_labels_loop mb f D k pos rest i))%list)).
  { clear HL HB HF. induction k as [|k IH]; intros pos rest i acc Hr.
    - exists i. cbn [matches_from used_labels_loop map]. rewrite app_nil_r. reflexivity.
    - cbn [matches_from used_labels_loop]. rewrite (alike_search_from _ _ HR).
      assert (S1 := UtilLabels.search_used rest pos).
      destruct (search_from usedLabelRe pos rest) as [[x st]|]; [|exists i; cbn [map]; rewrite app_nil_r; reflexivity].
      destruct S1 as (gap & c & t & E1 & _ & _ & E2 & _ & E3 & _).
      assert (HL1 : (length (cap 2 st) <= length f)%nat).
      { rewrite E2. cbn [length]. rewrite firstn_length. apply (f_equal (@length ascii)) in E1. rewrite app_length in E1. cbn [length] in E1. unfold str, char in *. lia. }
      assert (HL2 : (length (m_rest st) <= length f)%nat).
      { rewrite E3. rewrite skipn_length. apply (f_equal (@length ascii)) in E1. rewrite app_length in E1. cbn [length] in E1. unfold str, char in *. lia. }
      destruct (IH (m_pos st) (m_rest st) (us_next f i st) (acc ++ map encLbl (us_here mb f D i st))%list HL2) as (i' & HI).
      exists i'. cbn [map]. rewrite (for_in_next _ _ _ _ _ _ _ (Body st i acc HL1) (or_introl eq_refl)). rewrite HI.
      cbv zeta. rewrite map_app, app_assoc. reflexivity. }
  destruct (Loop (length f) 0%nat f 0 [] (le_n _)) as (i' & ->). unfold us_env. go. reflexivity.
Qed.
End Functions.
