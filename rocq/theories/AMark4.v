(** The marking of the labels in use (src/assembly/parser.cpp:689-707). *)
From Coq Require Import String List ZArith Ascii Bool Lia.
From Verif Require Lemmas AsmDet.
From Verif Require Import Bytes Types Utils AsmText CppSyntax SourceText SourceAst CppSem AStep AMap AMark1 AMark2 AObj ABack.
Import ListNotations.
Local Open Scope string_scope.
Local Open Scope Z_scope.

Lemma nth_enc ls n l : nth_error ls n = Some l -> nth_error (encLs ls) n = Some (encL l).
Proof. intros H. unfold encLs. rewrite nth_error_map, H. reflexivity. Qed.
Lemma set_update f l l' : f l = l' -> forall ls n, nth_error ls n = Some l -> set_nth n (encL l') (encLs ls) = encLs (update_nth n f ls).
Proof.
  intros Hf. unfold encLs. induction ls as [|x ls IH]; intros [|n] H; cbn in H |- *; try discriminate.
  - injection H as ->. now rewrite Hf.
  - now rewrite IH.
Qed.
Lemma update_nth_length {T} (f : T -> T) : forall l n, length (update_nth n f l) = length l.
Proof. induction l as [|x l IH]; intros [|n]; cbn; auto. Qed.

Lemma data_more ord s n m k vis o : (n <= m)%nat -> isDataUsedThroughAlias ord s n k vis = Ok o -> isDataUsedThroughAlias ord s m k vis = Ok o.
Proof. intros Hn. unfold isDataUsedThroughAlias. apply AsmDet.any_ref_mono. intros r w q. now apply AsmDet.alias_more. Qed.
Ltac opaque flt s :=
  unfold AStep.enc in *;
  set (xF := encF flt) in *; set (xS := encS s) in *; set (xfiles := VMap (VStr []) (encFiles (t_files s))) in *;
  set (xlines := t_lines s) in *; set (xdef := t_labels_defined s) in *; set (xuc := VSet (encVs (t_usercode_labels s))) in *;
  set (xal := t_aliased_labels s) in *;
  set (xus := t_used_labels s) in *; set (xda := t_data_used_labels s) in *; set (xwe := t_weakly_used_labels s) in *;
  set (xtot := VInt U64 (t_total_lines s)) in *.

Section Functions.
Variables (N : nat) (mb : str -> Z) (order : val -> list val) (flt : Filter) (rep : bool) (ord_refs : list view -> list view) (ord_labels : list (view * Z) -> list (view * Z)).
Hypothesis order_refs : forall l, order (VSet (encVs l)) = encVs (ord_refs l).
Hypothesis order_labels : forall m, order (VMap (VInt I32 0) (encMI m)) = map pair_of (encMI (ord_labels m)).
Notation A := (A N mb order).
Notation enc s v := (enc flt rep s v).
Variables (d fuel : nat).
Hypothesis fuel_le : (fuel <= d)%nat.
Hypothesis d_le : Z.of_nat d + 3 < 2 ^ 31.
Notation D := (S (S d)).
Definition mark_body : stmt := ltac:(let x := eval cbv delta [assembly_parser_markLabelUsage] in assembly_parser_markLabelUsage in
  match x with SSeq (SForIn _ _ _ ?b) _ => exact b end).
Notation body e := (exec N mb asm_tys isfn ismeth (A D) mark_body e).

Lemma mark_one_length s i v s1 v1 : mark_one ord_refs s fuel i v = Ok (s1, v1) -> length (t_lines s1) = length (t_lines s).
Proof.
  unfold mark_one. destruct (_ || _); [discriminate|]. destruct (nth_error _ _); [|discriminate].
  destruct (isUsed _ _ _ _ _ _) as [[[] w]| | |]; cbn; try discriminate; [intros E; injection E as <- <-; cbn; apply update_nth_length|].
  destruct (isDataUsedThroughAlias _ _ _ _ _) as [[[] w2]| | |]; cbn; try discriminate; [intros E; injection E as <- <-; cbn; apply update_nth_length|].
  destruct (isUsedThroughAlias _ _ _ _ _) as [[[] w3]| | |]; cbn; try discriminate; intros E; injection E as <- <-; cbn; [apply update_nth_length|reflexivity].
Qed.
Lemma src_mark_one s i x v s1 v1 : Z.of_nat (length (t_lines s)) < 2 ^ 31 -> mark_one ord_refs s fuel i v = Ok (s1, v1) ->
  scope [("this", enc s v)] (body [("label", pair_of (encV x, VInt I32 i)); ("this", enc s v)]) = Val Next [("this", enc s1 v1)].
Proof.
  intros HL. unfold mark_one. destruct (_ || _) eqn:Er; [discriminate|]. apply orb_false_iff in Er as [E1 E2].
  destruct (nth_error (t_lines s) (Z.to_nat (i - 1))) as [l|] eqn:El; [|discriminate].
  assert (HU : forall w b w', isUsed ord_refs s fuel (v_str (lv_label l)) 1 w = Ok (b, w') -> A D "isUsed" (enc s w) [VStr (v_str (lv_label l)); VInt I32 1] = CVal (VBool b) (enc s w')).
  { intros w b w' H. rewrite (src_isUsed N mb order flt rep ord_refs order_refs) by lia. rewrite (AsmDet.isUsed_more _ _ fuel D _ _ _ _ ltac:(lia) H). reflexivity. }
  assert (HD : forall w b w', isDataUsedThroughAlias ord_refs s fuel (v_str (lv_label l)) w = Ok (b, w') -> A D "isDataUsedThroughAlias" (enc s w) [VStr (v_str (lv_label l))] = CVal (VBool b) (enc s w')).
  { intros w b w' H. rewrite (src_isDataUsedThroughAlias N mb order flt rep ord_refs order_refs) by lia. rewrite (data_more _ _ fuel d _ _ _ ltac:(lia) H). reflexivity. }
  assert (HA : forall w b w', isUsedThroughAlias ord_refs s fuel (v_str (lv_label l)) w = Ok (b, w') -> A D "isUsedThroughAlias" (enc s w) [VStr (v_str (lv_label l))] = CVal (VBool b) (enc s w')).
  { intros w b w' H. rewrite (src_isUsedThroughAlias N mb order flt rep ord_refs order_refs) by lia. rewrite (AsmDet.alias_more _ _ fuel (S d) _ _ _ ltac:(lia) H). reflexivity. }
  assert (F : fits I32 (i - 1) = true) by (clear - E1 E2 HL; unfold fits, INT_MIN, INT_MAX; lia).
  assert (Fi : (i - 1 <? 0) = false) by lia.
  pose proof (nth_enc _ _ _ El) as G1. pose proof (fun f l' H => set_update f l l' H _ _ El) as G2.
  assert (VA : forall e, vec_at (encLs (t_lines s)) (i - 1) e = Val (encL l) e) by (intros; unfold vec_at; rewrite Fi, G1; reflexivity).
  intros H. destruct (isUsed ord_refs s fuel (v_str (lv_label l)) 1 v) as [[b1 w1]| | |] eqn:EU; try discriminate H. specialize (HU v b1 w1 EU). clear EU.
  cbn [obind fst snd] in H. revert HU. dsx l. cbn [lv_label v_str] in *. set (xl := x_label) in *. intros HU. unfold mark_body.
  Local Ltac walk VA G1 F := gor; rewrite F; gor; rewrite VA; gor; repeat (rewrite G1; gor).
  Local Ltac store G2 f := match goal with |- context [set_nth ?n ?x (encLs ?ls)] => replace (set_nth n x (encLs ls)) with (encLs (update_nth n f ls)) by (symmetry; exact (G2 f _ eq_refl)) end; reflexivity.
  destruct b1.
  - injection H as <- <-. clear HD HA. set (R := Val Next [("this", enc (set_t_lines _ s) w1)]).
    opaque flt s. walk VA G1 F. rewrite HU. gor. repeat (rewrite G1; gor). store G2 (set_lv_is_used true).
  - destruct (isDataUsedThroughAlias ord_refs s fuel xl w1) as [[b2 w2]| | |] eqn:EU; try discriminate H. specialize (HD w1 b2 w2 EU). clear EU. cbn [obind fst snd] in H. destruct b2.
    { injection H as <- <-. clear HA. set (R := Val Next [("this", enc (set_t_lines _ s) w2)]).
      opaque flt s. walk VA G1 F. rewrite HU. gor. repeat (rewrite G1; gor). rewrite HD. gor. repeat (rewrite G1; gor). store G2 (set_lv_is_used_data_through_alias true). }
    destruct (isUsedThroughAlias ord_refs s fuel xl w2) as [[b3 w3]| | |] eqn:EU; try discriminate H. specialize (HA w2 b3 w3 EU). clear EU. cbn [obind fst snd] in H. destruct b3.
    { injection H as <- <-. set (R := Val Next [("this", enc (set_t_lines _ s) w3)]).
      opaque flt s. walk VA G1 F. rewrite HU. gor. repeat (rewrite G1; gor). rewrite HD. gor. repeat (rewrite G1; gor). rewrite HA. gor. repeat (rewrite G1; gor). store G2 (set_lv_is_used_through_alias true). }
    injection H as <- <-. 
    opaque flt s. walk VA G1 F. rewrite HU. gor. repeat (rewrite G1; gor). rewrite HD. gor. repeat (rewrite G1; gor). rewrite HA. gor. reflexivity.
Qed.
Lemma src_mark_loop l : forall s v s1 v1, Z.of_nat (length (t_lines s)) < 2 ^ 31 -> mark_loop ord_refs fuel l s v = Ok (s1, v1) ->
  for_in "label" (exec N mb asm_tys isfn ismeth (A D) mark_body) (map pair_of (encMI l)) [("this", enc s v)] = Val Next [("this", enc s1 v1)].
Proof.
  induction l as [|[x i] l IH]; intros s v s1 v1 HL; cbn [mark_loop]; [intros H; injection H as <- <-; reflexivity|]. cbn [snd].
  destruct (mark_one _ _ _ _ _) as [[s2 v2]| | |] eqn:E1; try discriminate. cbn [obind fst snd]. intros H.
  unfold encMI. cbn [map fst snd for_in]. rewrite (src_mark_one s i x v s2 v2 HL E1). cbn [rbind]. apply IH; [|exact H]. now rewrite (mark_one_length _ _ _ _ _ E1).
Qed.
(** parser.cpp:689-707 *)
Lemma src_markLabelUsage s v s1 v1 : Z.of_nat (length (t_lines s)) < 2 ^ 31 -> markLabelUsage ord_refs ord_labels fuel s v = Ok (s1, v1) ->
  A (S D) "markLabelUsage" (enc s v) [] = CVal VUnit (enc s1 v1).
Proof.
  intros HL H. pose proof (src_mark_loop _ _ _ _ _ HL H) as HF. clear H. pose proof (order_labels (t_labels_defined s)) as HO. set (R := CVal VUnit (enc s1 v1)). 
  set (E1 := [("this", enc s1 v1)]) in *. assert (HR : fin [] (Some (Ty "void" [])) (Val Next E1) = R) by reflexivity. clearbody E1 R.
  opaque flt s. enter. go. rewrite A_order, HO.
  match goal with |- context [unordk "label" ?b (CVal (VVec ?p ?l) ?o) ?e] => change (unordk "label" b (CVal (VVec p l) o) e) with (for_in "label" b l e) end.
  unfold mark_body in HF. rewrite HF. rewrite seqk_next, exec_skip. exact HR.
Qed.
End Functions.
