(** The functions of src/assembly/parser.cpp that go back over the lines read so far,
    and those that call them. *)
From Coq Require Import String List ZArith Ascii Bool Lia.
From Verif Require Import Bytes Types Utils AsmText CppSyntax SourceText SourceAst PropPatterns CppSem AStep AUtil AScan ALine ASquash AUsed AMap AObj.
Import ListNotations.
Local Open Scope string_scope.
Local Open Scope Z_scope.

Lemma nth_mid a l b : nth_error (encLs (a ++ l :: b)) (length a) = Some (encL l).
Proof. unfold encLs. rewrite map_app. cbn [map]. rewrite nth_error_app2 by (rewrite map_length; lia). rewrite map_length, Nat.sub_diag. reflexivity. Qed.
Lemma set_mid a l l' b : set_nth (length a) (encL l') (encLs (a ++ l :: b)) = encLs (a ++ l' :: b).
Proof.
  unfold encLs. rewrite !map_app. cbn [map]. rewrite <- (map_length encL a). induction (map encL a) as [|x t IH]; [reflexivity|].
  cbn [app length set_nth]. now rewrite IH.
Qed.

Ltac dsx l := destruct l as [x_id x_text [x_section_o x_section] x_labels x_opcodes x_parent x_isl x_isi [x_label_o x_label]
  [[x_file_o x_file] x_idx x_line x_column x_end x_user x_proc] x_addr x_u1 x_u2 x_u3 x_data x_inline x_op x_dir x_asg].
      Ltac lens := match goal with |- context [?i =? Z.of_nat (length (encLs ?l))] => replace (i =? Z.of_nat (length (encLs l))) with false by (rewrite encLs_length, app_length, rev_length; cbn [length] in *; lia) end.
      Ltac mid := repeat match goal with H : Z.to_nat _ = length (rev _) |- _ => rewrite H end; rewrite ?nth_mid.
Ltac setm l' := match goal with |- context [set_nth (length ?a) (VRec ?f) (encLs (?a ++ ?l :: ?b))] =>
  change (VRec f) with (encL l'); rewrite (set_mid a l l' b) end.

Section Functions.
Variables (N : nat) (mb : str -> Z) (order : val -> list val) (flt : Filter) (rep : bool) (vis : list str).
Notation A := (A N mb order).
Notation enc s := (enc flt rep s vis).
(** parser.cpp:526-550 *)
Lemma src_amendPreviousLinesWith d src l s : (length (t_lines s) < N)%nat ->
  A (S d) "amendPreviousLinesWith" (enc (on l s)) [encSrc src] = CVal VUnit (enc (on l (amendPreviousLinesWith src s))).
Proof.
  intros HN. unfold amendPreviousLinesWith. dsl l. dst s. destruct src as [[b_file_o b_file] b_idx b_line b_column b_end b_user b_proc]. plain. enter. go.
  match goal with |- context [while_loop N ?c ?b ?st ?e] =>
    match e with _ :: ("source", ?so) :: ("this", ?o) :: [] =>
    let x := eval pattern (encLs lines) in o in
    match x with ?O _ =>
    assert (Loop : forall R Q k n i, (length R < k)%nat -> n = Z.of_nat (length R + length Q) -> i = Z.of_nat (length Q) ->
      exists i', while_loop k c b st [("it", VRit "this" [Fld "lines"] n i); ("source", so); ("this", O (encLs (rev R ++ Q)))] =
        Val Next [("it", VRit "this" [Fld "lines"] n i'); ("source", so); ("this", O (encLs (rev (amend_rev (mkSourceV (mkView b_file_o b_file) b_idx b_line b_column b_end b_user b_proc) R) ++ Q)))])
    end end
  end.
  { cbv beta. induction R as [|x R IH]; intros Q [|k] n i Hk Hn Hi; try (cbn in Hk; lia).
    - exists i. cbn [rev app amend_rev]. cbn [length Nat.add] in Hn. eapply (while_end _ _ _ _ _ (VBool false)); [|reflexivity]. gor.
      replace (i =? Z.of_nat (length (encLs Q))) with true by (rewrite encLs_length; lia). reflexivity.
    - cbn [rev]. rewrite <- app_assoc. cbn [app].
      assert (Hni : Z.to_nat (n - 1 - i) = length (rev R)) by (rewrite rev_length; subst n i; cbn [length]; lia).
      cbn [amend_rev]. dsx x. cbn [lv_is_label lv_is_internal_label sv_file sv_file_idx sv_line sv_column sv_is_usercode sv_inside_proc]. unfold set_lv_source. cbn [lv_id lv_text lv_section lv_labels lv_opcodes lv_closest_parent_label lv_is_label lv_is_internal_label lv_label lv_source lv_address lv_is_used lv_is_used_through_alias lv_is_used_data_through_alias lv_is_data lv_is_inline_asm lv_has_opcode lv_is_directive lv_is_assignment].
      destruct x_isl.
      + destruct x_isi; cbn [negb andb].
        * rewrite andb_false_r.
          edestruct (IH (mkLineV x_id x_text (mkView x_section_o x_section) x_labels x_opcodes x_parent true true (mkView x_label_o x_label)
               (mkSourceV (mkView b_file_o b_file) b_idx b_line b_column false false b_proc) x_addr x_u1 x_u2 x_u3 x_data x_inline x_op x_dir x_asg :: Q) k n (i + 1)) as (i' & H);
            [clear - Hk; cbn [length] in *; lia|clear - Hn; cbn [length] in *; lia|clear - Hi; cbn [length]; lia|].
          exists i'. cbn [rev]. rewrite <- app_assoc. cbn [app]. rewrite <- H. clear H IH.
          eapply (while_next _ _ _ _ _ (VBool true)); [|reflexivity| |now left|].
          { gor. lens. reflexivity. }
          { destruct b_user; repeat (gor; mid); gor; 
            setm (mkLineV x_id x_text (mkView x_section_o x_section) x_labels x_opcodes x_parent true true (mkView x_label_o x_label)
               (mkSourceV (mkView b_file_o b_file) b_idx b_line b_column false false b_proc) x_addr x_u1 x_u2 x_u3 x_data x_inline x_op x_dir x_asg); gor; repeat (gor; mid); reflexivity. }
          { gor. cbn [length] in *. rewrite rev_length in Hni. replace (in_bounds n (i + 1)) with true by (unfold in_bounds; lia). gor. reflexivity. }
        * exists i. rewrite andb_true_r. eapply (while_break _ _ _ _ _ (VBool true)); [| reflexivity|].
          { gor. lens. reflexivity. }
          destruct b_user; repeat (gor; mid).
          { setm (mkLineV x_id x_text (mkView x_section_o x_section) x_labels x_opcodes x_parent true false (mkView x_label_o x_label)
               (mkSourceV (mkView b_file_o b_file) b_idx b_line b_column false true b_proc) x_addr x_u1 x_u2 x_u3 x_data x_inline x_op x_dir x_asg). gor. repeat (gor; mid). cbn [rev]; rewrite <- app_assoc; reflexivity. }
          { setm (mkLineV x_id x_text (mkView x_section_o x_section) x_labels x_opcodes x_parent true false (mkView x_label_o x_label)
               (mkSourceV (mkView b_file_o b_file) b_idx b_line b_column false false b_proc) x_addr x_u1 x_u2 x_u3 x_data x_inline x_op x_dir x_asg). gor. repeat (gor; mid). cbn [rev]; rewrite <- app_assoc; reflexivity. }
      + exists i. eapply (while_break _ _ _ _ _ (VBool true)); [| reflexivity|].
        { gor. lens. reflexivity. }
        gor. mid. gor. mid. gor. cbn [rev]; rewrite <- app_assoc. reflexivity.
  }
  destruct (Loop (rev lines) [] N (Z.of_nat (length (encLs lines))) 0) as (i' & H); clear Loop.
  { rewrite rev_length. exact HN. }
  { rewrite encLs_length, rev_length. cbn [length]. f_equal. lia. }
  { reflexivity. }
  cbv beta in H. rewrite rev_involutive, app_nil_r in H. rewrite H. clear H. go. rewrite app_nil_r. reflexivity.
Qed.
End Functions.
