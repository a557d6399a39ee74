(** C123: the label definitions of the JSON output are what the text of the parser's
    source says (src/assembly/parser.cpp:840-857).

    The program and [object s v] are those of PropTextSource.v and C120; the method
    redetermineLabels is run by the interpreter of CppSem.v.  The vector it returns is
    described here by its elements alone: name and 1-based line number of every line that
    is a label, in the order of the lines. *)
From Coq Require Import String List ZArith Ascii Bool Lia Sorted.
From Verif Require Import Bytes Types Utils AsmText CppSyntax SourceText SourceAst CppSem AStep AUtil AMap AObj ARedo PropTextSource PropTextMark.
Import ListNotations.
Local Open Scope string_scope.
Local Open Scope Z_scope.

Lemma labels_from_in ls : forall n k i, In (k, i) (labels_from n ls) <->
  exists l, n <= i /\ nth_error ls (Z.to_nat (i - n)) = Some l /\ lv_is_label l = true /\ v_str (lv_label l) = k.
Proof.
  induction ls as [|x t IH]; intros n k i; cbn [labels_from].
  - split; [contradiction|]. intros (l & _ & H & _). now destruct (Z.to_nat (i - n)).
  - rewrite in_app_iff, IH. split.
    + intros [H|(l & H1 & H2 & H3)].
      * destruct (lv_is_label x) eqn:E; [|contradiction]. destruct H as [[= <- <-]|[]]. exists x. rewrite Z.sub_diag. split; [lia|auto].
      * exists l. split; [lia|]. replace (Z.to_nat (i - n)) with (S (Z.to_nat (i - (n + 1)))) by lia. auto.
    + intros (l & H1 & H2 & H3 & H4). destruct (Z.eq_dec i n) as [->|Hn].
      * left. rewrite Z.sub_diag in H2. cbn in H2. injection H2 as ->. rewrite H3. left. now rewrite H4.
      * right. exists l. split; [lia|]. replace (Z.to_nat (i - n)) with (S (Z.to_nat (i - (n + 1)))) in H2 by lia. auto.
Qed.
Lemma labels_from_sorted ls : forall n, StronglySorted (fun a b => snd a < snd b) (labels_from n ls).
Proof.
  induction ls as [|x t IH]; intros n; cbn [labels_from]; [constructor|]. destruct (lv_is_label x); cbn [app]; [|apply IH].
  constructor; [apply IH|]. apply Forall_forall. intros [k i] H. apply labels_from_in in H as (l & H & _). cbn [snd]. lia.
Qed.

Theorem text_labels_are_their_source :
  forall N mb order flt rep,
  let object s v := enc flt rep s v in
  let pair e := VRec [("first", VStr (fst e)); ("second", VInt I32 (snd e))] in
  forall s v d, Z.of_nat (length (t_lines s)) < 2 ^ 31 - 1 ->
  exists ls,
  call_text text_sources N mb order (S d) "redetermineLabels" (object s v) [] = Some (CVal (VVec (pair ([], 0)) (map pair ls)) (object s v)) /\
  ls = redetermineLabels s /\
  StronglySorted (fun a b => snd a < snd b) ls /\
  (forall k i, In (k, i) ls <-> exists l, 1 <= i /\ nth_error (t_lines s) (Z.to_nat (i - 1)) = Some l /\ lv_is_label l = true /\ v_str (lv_label l) = k).
Proof.
  intros N mb order flt rep. cbv zeta. intros s v d H. exists (redetermineLabels s). split; [|split; [reflexivity|split]].
  - rewrite call_A. f_equal. now apply src_redetermineLabels.
  - apply labels_from_sorted.
  - intros k i. apply labels_from_in.
Qed.
Print Assumptions text_labels_are_their_source.

(** Three lines, the first and the last of them labels. *)
Definition ex_labels : tstate :=
  set_t_lines [set_lv_is_label true (set_lv_label (vw "g") (line_v0 0%N)); line_v0 1%N; set_lv_is_label true (set_lv_label (vw "a") (line_v0 2%N))] tstate0.
Example text_labels_run :
  match A 100 ascii_mb in_order 3 "redetermineLabels" (enc no_filter false ex_labels []) [] with CVal (VVec _ l) _ => l | _ => [] end =
  [VRec [("first", VStr (chars "g")); ("second", VInt I32 1)]; VRec [("first", VStr (chars "a")); ("second", VInt I32 3)]].
Proof. vm_compute. reflexivity. Qed.
