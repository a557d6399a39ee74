(** C121: the debug dump shows every table of the parser under its own name
    (src/assembly/parser.cpp:859-866, src/utils/jsonwriter.cpp:487-655). *)
From Coq Require Import Permutation.
From Verif Require Import Tests PropObj1 PropUtils JsonMore PropJson.
Arguments T _%string_scope.
Arguments ln _%string_scope.
Arguments J _%string_scope.

(** What the dump shows of a table of references and of the table of aliases. *)
Definition shown_refs (m : list (view * list view)) : list (str * json) :=
  map (fun e => (v_str (fst e), JArr (map (fun r => JStr (v_str r)) (snd e)))) m.
Definition shown_aliases (m : list (view * view)) : list (str * json) := map (fun e => (v_str (fst e), JStr (v_str (snd e)))) m.
(** No control character but the tab in any name or text shown. *)
Definition names_printable (m : list (view * list view)) : Prop :=
  Forall (fun e => printable (v_str (fst e)) /\ Forall (fun r => printable (v_str r)) (snd e)) m.
Definition state_printable (flt : Filter) (s : tstate) : Prop :=
  Forall (debug_line_printable flt) (t_lines s) /\ Forall (fun l => printable (v_str (lv_label l))) (t_lines s) /\
  names_printable (t_used_labels s) /\ names_printable (t_weakly_used_labels s) /\ names_printable (t_data_used_labels s) /\
  Forall (fun e => printable (v_str (fst e)) /\ printable (v_str (snd e))) (t_aliased_labels s).

Lemma labels_from_printable ls : forall n, Forall (fun l => printable (v_str (lv_label l))) ls -> Forall (fun e => printable (fst e)) (labels_from n ls).
Proof. induction ls as [|l ls IH]; intros n H; cbn [labels_from]; [constructor|]. inversion_clear H. apply Forall_app. split; [|auto]. destruct (lv_is_label l); constructor; auto. Qed.
Lemma refs_table_printable m m' : Permutation m' m -> names_printable m -> Forall refs_printable (refs_table m').
Proof.
  intros P H. unfold refs_table. apply Forall_map. eapply Permutation_Forall; [apply Permutation_sym; exact P|].
  eapply Forall_impl; [|exact H]. intros e [A B]. split; [exact A|]. cbn [snd]. now apply Forall_map.
Qed.

(** [om], [oa]: the orders in which the maps are gone through. *)
Theorem asm_dump_says : forall flt om oa s,
  (forall m, Permutation (om m) m) -> (forall m, Permutation (oa m) m) -> state_printable flt s ->
  forall v, json_text (AsmText.outputDebugJson flt dec_Z om oa s) v <->
  v = JObj [(J "asm", JArr (map (debug_line_value flt) (t_lines s)));
            (J "labelDefinitions", JObj (map (fun e => (fst e, JInt (snd e))) (redetermineLabels s)));
            (J "used_labels", JArr (map (fun e => JObj [e]) (shown_refs (om (t_used_labels s)))));
            (J "used_weak_labels", JObj (shown_refs (om (t_weakly_used_labels s))));
            (J "used_data_labels", JObj (shown_refs (om (t_data_used_labels s))));
            (J "aliased_labels", JObj (shown_aliases (oa (t_aliased_labels s))))].
Proof.
  intros flt om oa s Pm Pa (H1 & H2 & H3 & H4 & H5 & H6) v. unfold AsmText.outputDebugJson.
  destruct (json_debug_says flt (t_lines s) (redetermineLabels s) (refs_table (om (t_used_labels s))) (refs_table (om (t_weakly_used_labels s)))
    (refs_table (om (t_data_used_labels s))) (map (fun e => (v_str (fst e), v_str (snd e))) (oa (t_aliased_labels s)))) as [H _]; auto.
  - now apply labels_from_printable.
  - eapply refs_table_printable; [apply Pm|assumption].
  - eapply refs_table_printable; [apply Pm|assumption].
  - eapply refs_table_printable; [apply Pm|assumption].
  - apply Forall_map. eapply Permutation_Forall; [apply Permutation_sym, Pa|exact H6].
  - rewrite H. unfold debug_value, shown_refs, shown_aliases, refs_table. rewrite !map_map.
    assert (E : forall m : list (view * list view), map (fun e => refs_value (v_str (fst e), map v_str (snd e))) m =
      map (fun e => (v_str (fst e), JArr (map (fun r => JStr (v_str r)) (snd e)))) m).
    { intros m. apply map_ext. intros e. unfold refs_value. cbn [fst snd]. now rewrite map_map. }
    rewrite !E. unfold labels_value. cbn [fst snd].
    assert (E2 : forall m : list (view * list view), map (fun e => JObj [refs_value (v_str (fst e), map v_str (snd e))]) m =
      map (fun e => JObj [(v_str (fst e), JArr (map (fun r => JStr (v_str r)) (snd e)))]) m).
    { intros m. apply map_ext. intros e. unfold refs_value. cbn [fst snd]. now rewrite map_map. }
    rewrite E2. reflexivity.
Qed.
Print Assumptions asm_dump_says.

(** A text whose tables of references differ; the state it leads to is one of the theorem. *)
Definition dump_in : str := lns ["f:"; "~call~g"; "g:"; "~ret"; ".LC0:"; "~.long~f"]%string.
Definition dump_state : tstate := match AsmText.run mblen_ascii no_filter id id 10 dump_in [] with Ok (s, _) => s | _ => tstate0 end.
Example asm_dump_case :
  match parse_json (AsmText.outputDebugJson no_filter dec_Z id id dump_state) with
  | Some (JObj [_; _; u; w; d; a]) => Some [u; w; d; a]
  | _ => None
  end = Some [(J "used_labels", JArr [JObj [(J "g", JArr [JStr (J "f")])]]); (J "used_weak_labels", JObj []);
              (J "used_data_labels", JObj [(J "f", JArr [JStr (J ".LC0")])]); (J "aliased_labels", JObj [])].
Proof. vm_compute. reflexivity. Qed.
Example asm_dump_premise : state_printable no_filter dump_state.
Proof.
  unfold state_printable, names_printable, debug_line_printable, source_printable.
  let x := eval vm_compute in dump_state in change dump_state with x. cbn.
  repeat (constructor; try (left; vm_compute; discriminate); try (right; reflexivity)).
Qed.
