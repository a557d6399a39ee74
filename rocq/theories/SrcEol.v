(** labelref and eol of src/objdump/parser.cpp. *)
From Coq Require Import String List ZArith Ascii Bool Lia.
From Verif Require Import Bytes Types Utils ObjDump CppSyntax SourceText SourceAst PropPatterns CppSem SrcStep SrcUtil SrcObj SrcAddr SrcScan SrcLabel.
Import ListNotations.
Local Open Scope string_scope.
Local Open Scope Z_scope.

Lemma fits_u16 a : fits I32 (u16 a + 2) = true.
Proof. assert (H := Z.mod_pos_bound a (2 ^ 16) eq_refl). unfold fits, INT_MIN, INT_MAX, u16, wrap_u. lia. Qed.
Lemma u16_again a : norm U16 (u16 a + 2) = u16 (a + 2).
Proof. unfold norm, u16, wrap_u. now rewrite Zplus_mod_idemp_l. Qed.
Lemma encLs_snoc l a : (encLs l ++ [encL a])%list = encLs (l ++ [a]).
Proof. rewrite encLs_app. reflexivity. Qed.
Lemma encLbs_snoc l a b c : (encLbs l ++ [VRec [("name", VStr a); ("range", VRec [("start_col", VInt U16 b); ("end_col", VInt U16 c)])]])%list = encLbs (l ++ [mkLabel a (mkRange b c)]).
Proof. rewrite encLbs_app. reflexivity. Qed.

Section Functions.
Variables (N : nat) (mb : str -> Z) (flt : Filter) (rep : bool).
Notation P := (P N mb).
Notation out := (out flt rep).
Hypothesis mb_le : forall s, mb s <= Z.of_nat (length s).
Hypothesis HN : 5010 < Z.of_nat N.
Ltac refoldF := match goal with |- context [SrcStep.P _ _ _ "shouldIgnoreFunction" VUnit [_; VRec ?l]] => change (VRec l) with (encF flt) end.

(** parser.cpp:153-175 *)
Lemma src_labelref d s : Z.of_nat (length (o_text s)) < 2 ^ 32 -> Z.of_nat (length (o_text s)) < Z.of_nat N ->
  P (S (S d)) "labelref" (enc flt rep s) [] = out (Ok (labelref mb flt s)).
Proof.
  dst s. cbn [o_text]. intros HL HT. enter. unfold labelref. cbn [o_text o_ignoreUntilNextLabel o_currentLabelReference lb_range r_start]. go. br; go; [reflexivity|].
  rewrite src_ustrlen by (first [exact mb_le | exact HL | clear - HT; lia]). go.
  destruct (substr_from text lr_start) as [name|] eqn:E; go; [|reflexivity].
  refoldF. rewrite src_shouldIgnoreFunction. go. br; go; [reflexivity|].
  rewrite encLbs_snoc. reflexivity.
Qed.

(** parser.cpp:70-75 *)
Lemma shift_step c b x e l acc : b ((x, encLb l) :: e) = Val c ((x, encLb (shift_label l)) :: e) -> c = Next ->
  forall r, for_ref x b (encLb l :: r) acc e = for_ref x b r (acc ++ [encLb (shift_label l)])%list e.
Proof. intros H -> r. eapply for_ref_next. exact H. Qed.

Definition eol_tail (s : ostate) : outcome ostate :=
  if o_ignoreUntilNextLabel s then Ok (commonReset s)
  else if o_inSourceRefLineNumber s then obind (updateSourceRefLineNumber s) (fun s => Ok (commonReset s))
  else if negb (is_nil (o_text s)) then Ok (commonReset (push_line (finish_line s) s))
  else Ok (commonReset s).
Definition rest2 (s : stmt) : stmt := match s with SSeq _ (SSeq _ r) => r | _ => SSkip end.
Definition eol_stmt : stmt := rest2 objdump_parser_eol.
Ltac refoldS := match goal with |- context [SrcStep.P _ _ _ "commonReset" (VRec ?l) _] =>
    let H := fresh in
    eassert (H : VRec l = encS (mkO _ _ _ _ _ _ _ _ _ _ _ _ _ _ _ (mkLabel _ (mkRange _ _)) (mkSource _ _ _ _ _ _) _ _ _ _
       (mkLine _ _ _ _ _ _ _ _ (mkSource _ _ _ _ _ _) _ _ _ _ _ _ _ _ _) [] [] 0)) by reflexivity;
    rewrite H; clear H
  end.
Ltac snoc_line := match goal with |- _ = SrcObj.out _ _ (Ok (commonReset ?X)) =>
  match X with context [(?ls ++ [?L])%list] => match goal with |- context [(encLs ls ++ [?v])%list] => change v with (encL L); rewrite encLs_snoc end end end.
Lemma eol_rest d s :
  fin (Some (Ty "void" [])) (exec N mb obj_tys isfn ismeth (P (S (S d))) eol_stmt [("this", enc flt rep s)]) = out (eol_tail s).
Proof.
  match goal with |- context [eol_stmt] => let r := eval vm_compute in eol_stmt in change eol_stmt with r end.
  dst s. unfold eol_tail. cbn [o_ignoreUntilNextLabel o_inSourceRefLineNumber o_text]. go. br; go.
  { refoldS. rewrite src_commonReset. go. reflexivity. }
  br; go.
  { refold. rewrite src_updateSourceRefLineNumber. match goal with |- context [updateSourceRefLineNumber ?X] => destruct (updateSourceRefLineNumber X) as [s'|u| |] end;
    cbn [SrcObj.out obind]; [|go; reflexivity|reflexivity|reflexivity]. dst2 s'. go. refoldS. rewrite src_commonReset. go. reflexivity. }
  br; go.
  { refoldS. rewrite src_commonReset. go. reflexivity. }
  unfold push_line. cbn [o_lines].
  br; go.
  { rewrite encLs_length. change (norm U64 5000) with 5000. destruct (Z.of_nat (length lines) <? 5000) eqn:E; go.
    - refoldS. rewrite src_commonReset. go. snoc_line. reflexivity.
    - refoldS. rewrite src_commonReset. go. snoc_line. reflexivity. }
  match goal with |- context [for_ref "label" ?b (encLbs l_labels) [] ?e] =>
    assert (Loop : forall l acc, for_ref "label" b (encLbs l) acc e = Val (Next, (acc ++ encLbs (map shift_label l))%list) e) end.
  { induction l as [|[nm [a b]] l IH]; intros acc; [cbn; now rewrite app_nil_r|].
    cbn [encLbs map]. erewrite for_ref_next; [rewrite IH, <- app_assoc; reflexivity|].
    gor. rewrite fits_u16. gor. rewrite fits_u16. gor. rewrite !u16_again. reflexivity. }
  rewrite Loop. clear Loop. cbn [app]. go.
  { rewrite encLs_length. change (norm U64 5000) with 5000. destruct (Z.of_nat (length lines) <? 5000) eqn:E; go.
    - refoldS. rewrite src_commonReset. go. snoc_line. reflexivity.
    - refoldS. rewrite src_commonReset. go. snoc_line. reflexivity. }
Qed.

(** parser.cpp:42-94 *)
Lemma src_eol d s : tidy s -> 0 <= o_total_lines s < 2 ^ 64 - 1 ->
  P (S (S (S d))) "eol" (enc flt rep s) [] = out (eol flt s).
Proof.
  intros HT HC. assert (W : wrap_u 64 (o_total_lines s + norm U64 1) = o_total_lines s + 1) by (apply wrap64; exact (conj (proj1 HC) (proj2 HC)) || (change (norm U64 1) with 1; lia)).
  clear HC. assert (HT' : tidy (set_o_total_lines (o_total_lines s + 1) s)) by (revert HT; clear; now destruct s). revert HT HT' W.
  dst s. intros HT HT' W. change (o_total_lines _) with total in W. enter. go.
  br; go; rewrite W.
  - refold. rewrite src_label by (first [exact HN | exact HT']).
    match goal with |- context [SrcObj.out _ _ (label flt ?X)] =>
    match goal with |- _ = ?rhs =>
      change rhs with (out (obind (label flt X) eol_tail)); destruct (label flt X) as [s'|u| |] end end;
      cbn [SrcObj.out obind]; [|go; reflexivity|reflexivity|reflexivity].
    match goal with |- fin ?ret (seqk ?n ?m ?c ?r ?y) = ?rhs => change (fin ret (exec n m obj_tys isfn ismeth c y [("this", enc flt rep s')]) = rhs) end.
    apply (eol_rest d s').
  - match goal with |- _ = SrcObj.out _ _ (eol flt ?X) => exact (eol_rest d (set_o_total_lines (total + 1) X)) end.
Qed.
End Functions.
