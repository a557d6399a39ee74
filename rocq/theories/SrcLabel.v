(** label and labelref of src/objdump/parser.cpp. *)
From Coq Require Import String List ZArith Ascii Bool Lia.
From Verif Require Import Bytes Types Utils ObjDump CppSyntax SourceText SourceAst PropPatterns CppSem SrcStep SrcUtil SrcObj SrcAddr SrcScan.
Import ListNotations.
Local Open Scope string_scope.
Local Open Scope Z_scope.

Lemma tidy_text t s : tidy s -> tidy (set_o_text t s). Proof. now destruct s. Qed.
Lemma remove_small s s' : tidy s -> maybe_remove_last_function s = Ok s' -> Z.of_nat (length (o_lines s')) <= 5001.
Proof.
  unfold tidy, maybe_remove_last_function. intros (HL & HT). destruct (rev (o_labels s)) as [|[nm k] before]; [injection 1 as <-; exact HL|].
  destruct (_ || _); [discriminate|]. cbv zeta. destruct (existsb _ _); injection 1 as <-; [exact HL|].
  destruct s; cbn in *. rewrite firstn_length. lia.
Qed.

Lemma encPs_snoc l a b : (encPs l ++ [VRec [("first", VStr a); ("second", VInt I32 b)]])%list = encPs (l ++ [(a, b)]).
Proof. rewrite encPs_app. reflexivity. Qed.
Lemma if_true (A : Type) (b : bool) (x y : A) : b = true -> (if b then x else y) = x. Proof. now intros ->. Qed.
Lemma if_false (A : Type) (b : bool) (x y : A) : b = false -> (if b then x else y) = y. Proof. now intros ->. Qed.
Section Functions.
Variables (N : nat) (mb : str -> Z) (flt : Filter) (rep : bool).
Notation P := (P N mb).
Notation out := (out flt rep).
Hypothesis HN : 5010 < Z.of_nat N.

Ltac lib F := repeat first [rewrite (if_true _ (f_library_functions flt) _ _ F) | rewrite (if_false _ (f_library_functions flt) _ _ F)].
Ltac refoldF := match goal with |- context [SrcStep.P _ _ _ "shouldIgnoreFunction" VUnit [_; VRec ?l]] => change (VRec l) with (encF flt) end.

(** parser.cpp:122-151 *)
Lemma src_label d s : tidy s -> P (S (S d)) "label" (enc flt rep s) [] = out (label flt s).
Proof.
  intros HT. assert (HX := fun t => tidy_text t s HT). assert (HS := fun t s' => remove_small (set_o_text t s) s' (HX t)). revert HT HX HS.
  dst s. intros HT HX HS. enter. go. unfold label. cbn [o_text]. br; go; [reflexivity|].
  rewrite src_getLabelFromObjdumpLabel.
  assert (K : forall n, Z.of_nat n <= 5001 -> norm I32 (wrap_u 64 (Z.of_nat n + norm U64 1)) = i32 (Z.of_nat n + 1)).
  { intros n Hn. change (norm U64 1) with 1. rewrite wrap64 by (clear - Hn; lia). reflexivity. }
  assert (F : f_library_functions flt = true \/ f_library_functions flt = false) by (destruct (f_library_functions flt); auto).
  destruct (getLabelFromObjdumpLabel text) as [l|]; cbn [option_map]; go; go;
  (destruct F as [F|F]; lib F; go;
   [ refold; rewrite src_maybe_remove_last_function by (first [exact HN | apply (HX l) | exact HT]);
     match goal with |- context [SrcObj.out _ _ (maybe_remove_last_function ?X)] =>
     match goal with |- _ = SrcObj.out _ _ (obind (maybe_remove_last_function ?Y) ?k) =>
       change Y with X; destruct (maybe_remove_last_function X) as [s'|u| |] eqn:EM end end; cbn [SrcObj.out obind]; [|go; reflexivity|reflexivity|reflexivity];
     first [apply (HS l) in EM | apply (HS text) in EM]; revert EM; dst2 s'; intros EM; go
   | cbn [obind set_o_text o_text] ];
   refoldF; rewrite src_shouldIgnoreFunction; go; br; go).
  all: try match goal with E : shouldIgnoreFunction ?t flt = _ |- _ => match goal with |- context [shouldIgnoreFunction ?u flt] => change u with t; rewrite E end end.
  all: cbv zeta; lib F; try go.
  all: try reflexivity.
  all: rewrite encLs_length, K, encPs_snoc by (first [exact EM | exact (proj1 HT)]); reflexivity.
Qed.
End Functions.
