(** Inputs that show what the search for uses gets wrong. *)
From Coq Require Import Permutation.
From Verif Require Import AsmLemmas AsmRead AsmMark AsmTrace AsmThms AsmUse AsmSearch AsmComplete AsmDet Tests PropAsm1.
Arguments T _%string_scope.
Arguments ln _%string_scope.

(** A global function that jumps to a local label. *)
Definition two : str := lns ["~.globl~main"; "main:"; "~jmp~.L2"; ".L2:"; "~ret"]%string.
Lemma two_chains : forall k, k = T "main" \/ k = T ".L2" ->
  is_label_name mblen_ascii no_filter two k /\
  code_chain (lines_read mblen_ascii no_filter two) (lines_aside mblen_ascii no_filter two) k.
Proof.
  assert (E : lines_read mblen_ascii no_filter two = ltac:(let x := eval vm_compute in (lines_read mblen_ascii no_filter two) in exact x)) by now vm_compute.
  assert (Hm : code_chain (lines_read mblen_ascii no_filter two) (lines_aside mblen_ascii no_filter two) (T "main")).
  { apply CH_user. rewrite E. eexists. split; [left; reflexivity|]. repeat split; now vm_compute. }
  intros k [-> | ->]; (split; [unfold is_label_name; rewrite E|]).
  - eexists. split; [right; left; reflexivity|]. split; now vm_compute.
  - exact Hm.
  - eexists. split; [right; right; right; left; reflexivity|]. split; now vm_compute.
  - eapply CH_used; [|exact Hm]. rewrite E.
    match goal with |- code_use (?a :: ?b :: ?c :: ?d) _ _ => exists [a; b], c, d end.
    split; [reflexivity|]. split; [reflexivity|]. split; [reflexivity|]. split; [vm_compute; auto|]. split; [vm_compute; discriminate|reflexivity].
Qed.
Lemma two_labels : t_labels_defined (read mblen_ascii no_filter two) = [(mkView (OLine 1) (T "main"), 2); (mkView (OLine 3) (T ".L2"), 4)].
Proof. now vm_compute. Qed.
Lemma two_short : short (t_used_labels (read mblen_ascii no_filter two)) /\ short (t_data_used_labels (read mblen_ascii no_filter two)).
Proof. split; apply short_b_ok; now vm_compute. Qed.
Definition unmarked (s : tstate) : bool :=
  existsb (fun l => lv_is_label l && negb (lv_is_used l) && negb (lv_is_used_through_alias l) && negb (lv_is_used_data_through_alias l) &&
    (str_eqb (v_str (lv_label l)) (T "main") || str_eqb (v_str (lv_label l)) (T ".L2"))) (t_lines s).
Lemma two_unmarked oref olab : shuffles oref -> (forall m, Permutation (olab m) m) -> forall fuel s vis',
  AsmText.run mblen_ascii no_filter oref olab fuel two [] = Ok (s, vis') ->
  exists l, In l (t_lines s) /\ (v_str (lv_label l) = T "main" \/ v_str (lv_label l) = T ".L2") /\ lv_is_label l = true /\
    lv_is_used l = false /\ lv_is_used_through_alias l = false /\ lv_is_used_data_through_alias l = false.
Proof.
  intros Hr Hl fuel s vis' H. rewrite run_short in H by (exact Hr || apply two_short).
  assert (Hu : unmarked s = true).
  { destruct (run_pair mblen_ascii no_filter (fun l => l) olab fuel two [] _ _ Hl two_labels) as [E|E]; rewrite E in H; clear E;
      apply (run_check _ _ _ _ _ 50 _ _ _ _ unmarked H); now vm_compute. }
  apply existsb_exists in Hu as (l & A & B). exists l. split; [exact A|]. rewrite !andb_true_iff, orb_true_iff, !negb_true_iff, !str_eqb_eq in B. tauto.
Qed.

(** A table of functions, and a function that uses the table. *)
Definition tab : str := lns ["tbl:"; "~.quad~fn"; "fn:"; "~mov~rax, tbl"]%string.
Lemma tab_labels : t_labels_defined (read mblen_ascii no_filter tab) = [(mkView (OLine 0) (T "tbl"), 1); (mkView (OLine 2) (T "fn"), 3)].
Proof. now vm_compute. Qed.
Lemma tab_short : short (t_used_labels (read mblen_ascii no_filter tab)) /\ short (t_data_used_labels (read mblen_ascii no_filter tab)).
Proof. split; apply short_b_ok; now vm_compute. Qed.
Lemma tab_searches fuel : let s := read mblen_ascii no_filter tab in
  isUsed (fun l => l) s fuel (T "fn") 1 [] = Diverges /\
  (isUsed (fun l => l) s fuel (T "tbl") 1 [] = Diverges \/ isUsed (fun l => l) s fuel (T "tbl") 1 [] = Ok (false, [])).
Proof.
  cbv zeta. set (s := read mblen_ascii no_filter tab).
  assert (H1 : set_contains (t_usercode_labels s) (T "fn") = false /\ set_contains (t_usercode_labels s) (T "tbl") = false) by (split; now vm_compute).
  assert (H2 : t_weakly_used_labels s = []) by now vm_compute.
  assert (H3 : refs_of (fun l => l) (t_used_labels s) (T "fn") = []) by now vm_compute.
  assert (H4 : refs_of (fun l => l) (t_data_used_labels s) (T "fn") = [mkView (OLine 0) (T "tbl")]) by now vm_compute.
  assert (H5 : refs_of (fun l => l) (t_used_labels s) (T "tbl") = [mkView (OLine 2) (T "fn")]) by now vm_compute.
  assert (H6 : refs_of (fun l => l) (t_data_used_labels s) (T "tbl") = []) by now vm_compute.
  assert (H7 : T "fn" <> T "tbl") by (vm_compute; discriminate).
  assert (H8 : T "fn" <> []) by (vm_compute; discriminate).
  clearbody s. split.
  - eapply endless; try exact H1; try exact H2; try exact H3; try exact H4; try exact H5; try exact H6; auto.
  - eapply harmless; try exact H1; try exact H2; try exact H3; try exact H4; try exact H5; try exact H6; auto.
Qed.
Lemma tab_mark s fuel (a b : view) :
  isUsed (fun l => l) s fuel (T "fn") 1 [] = Diverges ->
  (isUsed (fun l => l) s fuel (T "tbl") 1 [] = Diverges \/ isUsed (fun l => l) s fuel (T "tbl") 1 [] = Ok (false, [])) ->
  option_map (fun l => v_str (lv_label l)) (nth_error (t_lines s) 0) = Some (T "tbl") ->
  option_map (fun l => v_str (lv_label l)) (nth_error (t_lines s) 2) = Some (T "fn") ->
  length (t_lines s) = 4%nat -> refs_of (fun l => l) (t_data_used_labels s) (T "tbl") = [] -> map_find (t_aliased_labels s) (T "tbl") = None ->
  mark_loop (fun l => l) fuel [(a, 1); (b, 3)] s [] = Diverges /\ mark_loop (fun l => l) fuel [(b, 3); (a, 1)] s [] = Diverges.
Proof.
  generalize (T "tbl") as tbl, (T "fn") as fn. intros tbl fn H1 H2 E1 E2 E3 E4 E5.
  destruct (nth_error (t_lines s) 0) as [l1|] eqn:A1; [|discriminate]. destruct (nth_error (t_lines s) 2) as [l2|] eqn:A2; [|discriminate].
  injection E1 as B1. injection E2 as B2.
  assert (Hone : mark_one (fun l => l) s fuel 3 [] = Diverges).
  { unfold mark_one. rewrite E3. change ((3 <? 1) || (Z.of_nat 4 <? 3)) with false. cbv iota. change (Z.to_nat (3 - 1)) with 2%nat. rewrite A2, B2, H1. reflexivity. }
  split; cbn [mark_loop snd].
  - unfold mark_one at 1. rewrite E3. change ((1 <? 1) || (Z.of_nat 4 <? 1)) with false. cbv iota. change (Z.to_nat (1 - 1)) with 0%nat. rewrite A1, B1.
    destruct H2 as [-> | ->]; [reflexivity|]. cbn [obind fst snd]. unfold isDataUsedThroughAlias. rewrite E4. cbn [any_ref obind fst snd].
    unfold isUsedThroughAlias. rewrite E5. cbn [obind fst snd]. rewrite Hone. reflexivity.
  - rewrite Hone. reflexivity.
Qed.
Lemma run_mark mblen flt ord ol fuel input vis : mark_loop ord fuel (ol (t_labels_defined (read mblen flt input))) (read mblen flt input) vis = Diverges ->
  AsmText.run mblen flt ord ol fuel input vis = Diverges.
Proof. intros H. unfold AsmText.run, fromStream, markLabelUsage. fold (read mblen flt input). rewrite H. reflexivity. Qed.
Lemma tab_endless oref olab : shuffles oref -> (forall m, Permutation (olab m) m) ->
  forall fuel, AsmText.run mblen_ascii no_filter oref olab fuel tab [] = Diverges.
Proof.
  intros Hr Hl fuel. rewrite run_short by (exact Hr || apply tab_short). destruct (tab_searches fuel) as [H1 H2].
  destruct (tab_mark (read mblen_ascii no_filter tab) fuel (mkView (OLine 0) (T "tbl")) (mkView (OLine 2) (T "fn")) H1 H2) as [M1 M2]; [now vm_compute..|].
  destruct (run_pair mblen_ascii no_filter (fun l => l) olab fuel tab [] _ _ Hl tab_labels) as [-> | ->]; apply run_mark; rewrite tab_labels; assumption.
Qed.
