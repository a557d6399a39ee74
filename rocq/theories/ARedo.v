(** The label definitions of the finished text parser (src/assembly/parser.cpp:840-857). *)
From Coq Require Import String List ZArith Ascii Bool Lia.
From Verif Require Import Bytes Types Utils AsmText CppSyntax SourceText SourceAst CppSem AStep AUtil AMap AObj ABack AEol1 AMark5.
Import ListNotations.
Local Open Scope string_scope.
Local Open Scope Z_scope.

Definition encP (e : str * Z) : val := VRec [("first", VStr (fst e)); ("second", VInt I32 (snd e))].
Definition encPs (l : list (str * Z)) : val := VVec (VRec [("first", VStr []); ("second", VInt I32 0)]) (map encP l).
Definition redo_body : stmt := ltac:(let x := eval cbv delta [assembly_parser_redetermineLabels] in assembly_parser_redetermineLabels in
  match x with SSeq _ (SSeq _ (SSeq _ (SSeq (SForIn _ _ _ ?b) _))) => exact b end).
Section Functions.
Variables (N : nat) (mb : str -> Z) (order : val -> list val) (d : nat).
Notation A := (A N mb order).
Notation exec b e := (CppSem.exec N mb asm_tys isfn ismeth (A d) b e).
Definition E (n : Z) (acc : list (str * Z)) (o : val) : env := [("line_number", VInt I32 n); ("labels", encPs acc); ("this", o)].
Lemma redo_step l n acc f : - 2 ^ 31 <= n < 2 ^ 31 - 1 ->
  exec redo_body (("line", encL l) :: E n acc (VRec f)) =
  Val Next (("line", encL l) :: E (n + 1) (acc ++ (if lv_is_label l then [(v_str (lv_label l), n)] else []))%list (VRec f)).
Proof.
  intros H. assert (HF : fits I32 (n + 1) = true) by (unfold fits, INT_MIN, INT_MAX; apply andb_true_iff; split; apply Z.leb_le; lia).
  unfold redo_body, E, encPs. rewrite map_app. generalize (map encP acc). intros M. dsx l. cbn [lv_is_label lv_label v_str]. gor.
  destruct x_isl; gor; rewrite HF; gor; [reflexivity|]. cbn [map]. rewrite app_nil_r. reflexivity.
Qed.
Lemma redo_loop f L : forall n acc done, 0 <= n -> n + Z.of_nat (length L) < 2 ^ 31 ->
  for_ref "line" (CppSem.exec N mb asm_tys isfn ismeth (A d) redo_body) (encLs L) done (E n acc (VRec f)) =
  Val (Next, done ++ encLs L)%list (E (n + Z.of_nat (length L)) (acc ++ labels_from n L)%list (VRec f)).
Proof.
  induction L as [|l L IH]; intros n acc done H1 H2; cbn [length labels_from] in *.
  - cbn [encLs map for_ref]. rewrite !app_nil_r, Z.add_0_r. reflexivity.
  - cbn [encLs map for_ref]. rewrite redo_step by lia. cbn [rbind elen edrop nsub lookup leave E].
    change (leave _ _) with (E (n + 1) (acc ++ (if lv_is_label l then [(v_str (lv_label l), n)] else [])) (VRec f)).
    change (String.eqb "line" "line") with true. cbv iota.
    fold (encLs L). rewrite IH by lia. rewrite <- !app_assoc. replace (n + 1 + Z.of_nat (length L)) with (n + Z.of_nat (S (length L))) by lia. reflexivity.
Qed.
(** parser.cpp:840-857 *)
Lemma src_redetermineLabels flt rep s v : Z.of_nat (length (t_lines s)) < 2 ^ 31 - 1 ->
  A (S d) "redetermineLabels" (enc flt rep s v) [] = CVal (encPs (redetermineLabels s)) (enc flt rep s v).
Proof.
  intros H. unfold redetermineLabels.
  assert (HL := fun f => redo_loop f (t_lines s) 1 [] [] ltac:(lia) ltac:(lia)). cbn [app] in HL.
  unfold AStep.enc. revert HL. generalize (encF flt) (encS s) (VMap (VStr []) (encFiles (t_files s))) (VMap (VInt I32 0) (encMI (t_labels_defined s))) (VSet (encVs (t_usercode_labels s)))
    (VMap (VSet []) (encMS (t_used_labels s))) (VMap (VSet []) (encMS (t_data_used_labels s))) (VMap (VSet []) (encMS (t_weakly_used_labels s))) (VMap (VStr []) (encMV (t_aliased_labels s)))
    (VSet (encStrs (rev v))) (VInt U64 (t_total_lines s)).
  unfold encPs. generalize (labels_from 1 (t_lines s)) (encLs (t_lines s)) (1 + Z.of_nat (length (t_lines s))). intros P L n x1 x2 x3 x4 x5 x6 x7 x8 x9 x10 x11 HL. unfold E, encPs in HL. revert HL. generalize (map encP P). intros Q HL.
  enter. go. unfold redo_body in HL. cbn [map] in HL. rewrite HL. go. reflexivity.
Qed.
End Functions.
