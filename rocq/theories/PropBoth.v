(** C122: the two outputs of the program agree: what -outputtext prints is the texts of
    the lines of the JSON document, one per line (src/main.cpp:113-153). *)
From Verif Require Import Tests PropObj1 PropUtils JsonMore JsonText PropJson Cli CliThm PropCli.
Arguments T _%string_scope.
Arguments ln _%string_scope.
Arguments J _%string_scope.

(** Reading a document: the member of an object, the texts of the lines. *)
Fixpoint member (k : str) (m : list (str * json)) : option json :=
  match m with [] => None | (x, v) :: t => if str_eqb x k then Some v else member k t end.
Definition text_of (v : json) : option str :=
  match v with JObj m => match member (J "text") m with Some (JStr t) => Some t | _ => None end | _ => None end.
Fixpoint texts_of (l : list json) : option str :=
  match l with
  | [] => Some []
  | v :: r => match text_of v, texts_of r with Some t, Some u => Some (t ++ LF :: u) | _, _ => None end
  end.
Definition document_text (v : json) : option str :=
  match v with JObj m => match member (J "asm") m with Some (JArr l) => texts_of l | _ => None end | _ => None end.

Lemma text_of_line flt l : text_of (line_value flt l) = Some (lv_text l).
Proof.
  unfold line_value, text_of. destruct (is_nil (lv_opcodes l)), (lv_address l) as [a|], (lv_is_label l && f_compatmode flt), (is_nil (v_str (lv_section l)) || f_compatmode flt); reflexivity.
Qed.
Lemma texts_of_lines flt ls : texts_of (map (line_value flt) ls) = Some (flat_map (fun l => lv_text l ++ [LF]) ls).
Proof. induction ls as [|l ls IH]; [reflexivity|]. cbn [map texts_of flat_map]. rewrite text_of_line, IH. now rewrite <- app_assoc. Qed.
Lemma document_text_write flt lines labels count rep clock v : Forall (fun l => Forall unquoted (lv_opcodes l)) lines ->
  json_text (write dec_Z flt lines labels count rep clock) v -> document_text v = Some (flat_map (fun l => lv_text l ++ [LF]) lines).
Proof.
  intros Hu Hv. destruct (proj1 (json_valid_iff flt lines labels count rep clock Hu) (ex_intro _ v Hv)) as [H1 H2].
  apply (json_document_says flt lines labels count rep clock H1 Hu H2) in Hv. subst v. unfold doc_value, document_text. cbn [member app].
  change (str_eqb (J "asm") (J "asm")) with true. cbv iota. apply texts_of_lines.
Qed.

Theorem text_output_is_json_text : forall mb flt flt' clock reproducible,
  (forall oref olab fuel input vis s vis' v, AsmText.run mb flt oref olab fuel input vis = Ok (s, vis') ->
     json_text (AsmText.outputJson flt' dec_Z reproducible clock s) v -> document_text v = Some (AsmText.outputText s)) /\
  (forall input s v, ObjDump.run mb flt input = Ok s ->
     json_text (ObjDump.outputJson flt' dec_Z reproducible clock s) v -> document_text v = Some (ObjDump.outputText s)).
Proof.
  intros mb flt flt' clock reproducible. split.
  - intros oref olab fuel input vis s vis' v H Hv. unfold AsmText.outputJson in Hv. unfold AsmText.outputText.
    assert (Hu : Forall (fun l => Forall unquoted (lv_opcodes l)) (t_lines s)).
    { eapply Forall_impl; [|exact (opcodes_none _ _ _ _ _ _ _ _ _ H)]. intros l E. cbv beta in E. rewrite E. constructor. }
    exact (document_text_write _ _ _ _ _ _ _ Hu Hv).
  - intros input s v H Hv. unfold ObjDump.outputJson in Hv. rewrite (document_text_write _ _ _ _ _ _ _ (run_opcodes_unquoted _ _ _ _ H) Hv). f_equal. unfold ObjDump.outputText. clear. induction (o_lines s) as [|l t IH]; [reflexivity|]. cbn [map flat_map]. now rewrite IH.
Qed.
Print Assumptions text_output_is_json_text.

Theorem cli_outputs_agree : forall mb file stdin clock oref olab om oa fuel args r v,
  ~ In (lit "-outputtext") args ->
  main true mb file stdin clock oref olab om oa fuel args = Ok r -> res_exit r = 0 -> json_text (res_stdout r) v ->
  exists t, main true mb file stdin clock oref olab om oa fuel (args ++ [lit "-outputtext"]) = Ok (mkResult 0 t (res_debugfile r)) /\
    document_text v = Some t.
Proof.
  intros mb file stdin clock oref olab om oa fuel args r v Ho H Hr Hv. rewrite <- has_arg_no in Ho. rewrite main_eq in *. cbn [negb] in *.
  unfold last_name in *. rewrite filter_app, existsb_app. cbn [filter existsb]. change (is_option (lit "-outputtext")) with true. cbn [negb orb]. rewrite app_nil_r, orb_false_r.
  unfold filter_of in *. rewrite !has_arg_snoc.
  repeat match goal with |- context [str_eqb (lit "-outputtext") ?x] => let b := eval vm_compute in (str_eqb (lit "-outputtext") x) in change (str_eqb (lit "-outputtext") x) with b end.
  rewrite !orb_false_r, !orb_true_r.
  destruct (has_arg "-stdin" args || _); cbn [negb] in *; [|injection H as <-; discriminate Hr]. cbv zeta in *. rewrite Ho in H.
  destruct (has_arg "-binary" args).
  - destruct (ObjDump.run _ _ _) as [s| | |] eqn:E; cbn [obind] in *; try discriminate. injection H as <-. cbn [res_stdout res_debugfile] in *.
    eexists. split; [reflexivity|]. exact (proj2 (text_output_is_json_text _ _ _ _ _) _ _ _ E Hv).
  - destruct (AsmText.run _ _ _ _ _ _ _) as [[s w]| | |] eqn:E; cbn [obind fst] in *; try discriminate. injection H as <-. cbn [res_stdout res_debugfile] in *.
    eexists. split; [reflexivity|]. exact (proj1 (text_output_is_json_text _ _ _ _ _) _ _ _ _ _ _ _ _ E Hv).
Qed.
Print Assumptions cli_outputs_agree.

(** The same run with and without -outputtext, in both modes. *)
Definition both_run (args : list string) (input : str) : option (option str * str) :=
  match main true mblen_ascii (fun _ => []) input 7 id id id id 10 (map lit args), main true mblen_ascii (fun _ => []) input 7 id id id id 10 (map lit args ++ [lit "-outputtext"]) with
  | Ok r, Ok r' => Some (match parse_json (res_stdout r) with Some v => document_text v | None => None end, res_stdout r')
  | _, _ => None
  end.
Example cli_outputs_case :
  both_run ["-stdin"]%string (lns ["main:"; "~ret ``\"]%string) = Some (Some (lns ["main:"; "        ret ``\"]%string), lns ["main:"; "        ret ``\"]%string) /\
  both_run ["-stdin"; "-binary"]%string (T "  401000:~c3 ~ret" ++ [LF]) <> None.
Proof. vm_compute. split; [reflexivity|discriminate]. Qed.
