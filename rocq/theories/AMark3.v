(** References to labels that are not defined are taken out of a line
    (src/assembly/parser.cpp:572-586). *)
From Coq Require Import String List ZArith Ascii Bool Lia.
From Verif Require Lemmas.
From Verif Require Import Bytes Types Utils AsmText CppSyntax SourceText SourceAst CppSem AStep AMap AMark1 AMark2 AObj ABack.
Import ListNotations.
Local Open Scope string_scope.
Local Open Scope Z_scope.

Lemma encLbs_length a : length (encLbs a) = length a. Proof. apply map_length. Qed.
Lemma nth_midb a l b : nth_error (encLbs (a ++ l :: b)) (length a) = Some (encLb l).
Proof. unfold encLbs. rewrite map_app. cbn [map]. rewrite nth_error_app2 by (rewrite map_length; lia). rewrite map_length, Nat.sub_diag. reflexivity. Qed.
Lemma del_mid {T} (g : T -> val) (a : list T) l b : (firstn (length a) (map g (a ++ l :: b)) ++ skipn (S (length a)) (map g (a ++ l :: b)))%list = map g (a ++ b)%list.
Proof.
  induction a as [|x a IH]; [reflexivity|]. cbn [length app map firstn skipn]. cbn [app]. f_equal. exact IH.
Qed.

Section Functions.
Variables (N : nat) (mb : str -> Z) (order : val -> list val) (flt : Filter) (rep : bool).
Notation A := (A N mb order).
Notation enc s v := (enc flt rep s v).
Lemma src_filterOut s v d l : (length (lv_labels l) < N)%nat ->
  A (S d) "filterOutReferedLabelsThatArentDefined" (enc s v) [encL l] = CVal VUnit (VBrace [enc s v; encL (filterOutReferedLabelsThatArentDefined s l)]).
Proof.
  intros HN. unfold filterOutReferedLabelsThatArentDefined. 
  set (keep := fun r => map_contains (t_labels_defined s) (v_str (lbv_name r))).
  unfold AStep.enc. generalize (encF flt), (encS s), (VMap (VStr []) (encFiles (t_files s))), (VVec VNone (encLs (t_lines s))),
    (VSet (encVs (t_usercode_labels s))), (VMap (VSet []) (encMS (t_used_labels s))), (VMap (VSet []) (encMS (t_data_used_labels s))), (VMap (VSet []) (encMS (t_weakly_used_labels s))),
    (VMap (VStr []) (encMV (t_aliased_labels s))), (VInt U64 (t_total_lines s)), (VSet (encStrs (rev v))). intros.
  set (xdef := t_labels_defined s) in *.
  dsx l. cbn [lv_labels] in *. enter. go.
  match goal with |- context [while_loop N ?c ?b ?st ?e] =>
    match e with _ :: ("line", ?l) :: ("this", ?o) :: [] =>
    let x := eval pattern (encLbs x_labels) in l in
    match x with ?L _ =>
    assert (Loop : forall R K k n i, (length R < k)%nat -> n = Z.of_nat (length K + length R) -> i = Z.of_nat (length K) ->
      exists n' i', while_loop k c b st [("it", VVit "line" [Fld "labels"] n i); ("line", L (encLbs (K ++ R))); ("this", o)] =
        Val Next [("it", VVit "line" [Fld "labels"] n' i'); ("line", L (encLbs (K ++ filter keep R))); ("this", o)])
    end end
  end.
  { cbv beta. induction R as [|x R IH]; intros K [|k] n i Hk Hn Hi; try (cbn in Hk; lia).
    - exists n, i. cbn [filter app]. rewrite app_nil_r. eapply (while_end _ _ _ _ _ (VBool false)); [|reflexivity]. gor.
      replace (i =? Z.of_nat (length (encLbs K))) with true by (rewrite encLbs_length; lia). reflexivity.
    - cbn [filter]. cbn [length] in Hk.
      assert (Hi2 : Z.to_nat i = length K) by lia.
      assert (Hlt : (i <? 0) = false) by lia.
      assert (Hc : (i =? Z.of_nat (length (encLbs (K ++ x :: R)))) = false) by (rewrite encLbs_length, app_length; cbn [length]; lia).
      assert (Hb : in_bounds n (i + 1) = true) by (unfold in_bounds; cbn [length] in Hn; lia).
      assert (He : (0 <=? i) && (i <? Z.of_nat (length (encLbs (K ++ x :: R)))) = true) by (rewrite encLbs_length, app_length; cbn [length]; lia).
      destruct (keep x) eqn:Ek.
      + edestruct (IH (K ++ [x])%list k n (i + 1)) as (n' & i' & H); [lia|rewrite app_length; cbn [length] in *; lia|rewrite app_length; cbn [length]; lia|].
        exists n', i'. rewrite <- !app_assoc in H. cbn [app] in H. rewrite <- H. clear H IH.
        eapply (while_next _ _ _ _ _ (VBool true)); [|reflexivity| |now left|].
        { gor. rewrite Hc. reflexivity. }
        { destruct x as [[xo xn] xr]. gor. unfold vec_at. rewrite Hlt, Hi2, nth_midb. gor. rewrite defined_get.
          unfold keep, map_contains in Ek. cbn [lbv_name v_str] in Ek. destruct (map_find xdef xn); [|discriminate]. cbn [option_map]. gor. cbn [negb]. gor. rewrite Hb. gor. reflexivity. }
        { reflexivity. }
      + edestruct (IH K k (n - 1) i) as (n' & i' & H); [lia|cbn [length] in *; lia|lia|].
        exists n', i'. rewrite <- H. clear H IH.
        eapply (while_next _ _ _ _ _ (VBool true)); [|reflexivity| |now left|].
        { gor. rewrite Hc. reflexivity. }
        { destruct x as [[xo xn] xr]. gor. unfold vec_at. rewrite Hlt, Hi2, nth_midb. gor. rewrite defined_get.
          unfold keep, map_contains in Ek. cbn [lbv_name v_str] in Ek. destruct (map_find xdef xn); [discriminate|]. cbn [option_map]. gor. cbn [negb]. gor. rewrite He. gor. rewrite Hi2. unfold encLbs at 2 3. rewrite del_mid.
          replace (Z.of_nat (length (encLbs _)) - 1) with (n - 1) by (rewrite encLbs_length, app_length; cbn [length] in *; lia). reflexivity. }
        { reflexivity. } }
  destruct (Loop x_labels [] N (Z.of_nat (length (encLbs x_labels))) 0) as (n' & i' & H); clear Loop; [exact HN|rewrite encLbs_length; reflexivity|reflexivity|].
  cbn [app] in H. cbv beta in H. rewrite H. clear H. go. reflexivity.
Qed.
End Functions.
