(** The program as a whole (C72-C75) and the JSON of the text parser (C76). *)
From Coq Require Import Permutation.
From Verif Require Import Tests CliThm JsonText JsonMore PropAsm1.
Local Open Scope Z_scope.
Arguments T _%string_scope.
Arguments ln _%string_scope.

(** C72.  [a_name]: an argument that is none of the twelve options. *)
Theorem cli_exit : forall loc mb file stdin clock oref olab om oa fuel args r,
  main loc mb file stdin clock oref olab om oa fuel args = Ok r ->
  (res_exit r = 0 \/ res_exit r = 1) /\
  (res_exit r = 0 <-> loc = true /\ (In (lit "-stdin") args \/ exists a, In a args /\ a_name a)) /\
  (res_exit r = 1 -> res_debugfile r = None /\ res_stdout r = if loc then lit "Commandline arguments expected" ++ [LF] else []).
Proof. intros until r. apply main_exit. Qed.
Theorem cli_debug_file : forall loc mb file stdin clock oref olab om oa fuel args r,
  main loc mb file stdin clock oref olab om oa fuel args = Ok r ->
  ((exists d, res_debugfile r = Some d) <->
   loc = true /\ In (lit "-debugdump") args /\ ~ In (lit "-stdin") args /\ ~ In (lit "-binary") args /\ exists a, In a args /\ a_name a).
Proof. intros until r. apply main_debug. Qed.
Definition disk (n : str) : str := if str_eqb n (T "a.s") then lns ["f:"; "~ret"]%string else [].
Definition cli (args : list string) : outcome result :=
  main true mblen_ascii disk (lns ["g:"; "~nop"]%string) 7 id id id id 20 (map lit args).
Definition debugged (o : outcome result) : option (Z * bool) :=
  match o with Ok r => Some (res_exit r, match res_debugfile r with Some _ => true | None => false end) | _ => None end.
Example cli_exit_case :
  map debugged [cli ["a.s"; "-debugdump"]; cli ["-debugdump"]; cli ["-stdin"; "-debugdump"; "a.s"]; cli ["-binary"; "-debugdump"; "a.s"]; cli ["--help"]]%string
  = [Some (0, true); Some (1, false); Some (0, false); Some (0, false); Some (0, false)].
Proof. now vm_compute. Qed.

(** C73.  [named args n]: n is the last name among the arguments. *)
Theorem cli_reads_stdin : forall loc mb file file' stdin clock oref olab om oa fuel args, In (lit "-stdin") args ->
  main loc mb file stdin clock oref olab om oa fuel args = main loc mb file' stdin clock oref olab om oa fuel args.
Proof. intros. now apply main_stdin. Qed.
Theorem cli_reads_file : forall loc mb file file' stdin stdin' clock oref olab om oa fuel args, ~ In (lit "-stdin") args ->
  (forall n, named args n -> file n = file' n) ->
  main loc mb file stdin clock oref olab om oa fuel args = main loc mb file' stdin' clock oref olab om oa fuel args.
Proof. intros. now apply CliThm.main_file. Qed.
Definition out (o : outcome result) : option str := match o with Ok r => Some (res_stdout r) | _ => None end.
(** A mistyped option is taken for a file, and wins over an earlier file name. *)
Example cli_reads_case :
  map out [cli ["-outputtext"; "a.s"]; cli ["a.s"; "-outputtext"; "-stdin"]; cli ["a.s"; "-outputtext"; "-typo"]]%string
    = [Some (lns ["f:"; "        ret"]%string); Some (lns ["g:"; "        nop"]%string); Some []] /\
  named (map lit ["a.s"; "-outputtext"; "-typo"; "-plt"]%string) (lit "-typo").
Proof.
  split; [now vm_compute|]. exists (map lit ["a.s"; "-outputtext"]%string) [lit "-plt"]; [reflexivity| |].
  - intros H. vm_compute in H. intuition discriminate.
  - intros a [<-|[]]. vm_compute. tauto.
Qed.

(** C74: the options that can change the result, in binary and in text mode; order and
    repetition of the arguments do not matter except for the last name. *)
Theorem cli_options : forall loc mb file stdin clock oref olab om oa fuel args args',
  (forall o, In o ["-binary"; "-stdin"; "-outputtext"; "-library_functions"; "-dont_mask_filenames"; "-nocompat"]%string ->
     (In (lit o) args <-> In (lit o) args')) ->
  (In (lit "-binary") args -> (In (lit "-plt") args <-> In (lit "-plt") args')) ->
  (~ In (lit "-binary") args -> forall o, In o ["-unused_labels"; "-directives"; "-comment_only"; "-whitespace"; "-debugdump"]%string ->
     (In (lit o) args <-> In (lit o) args')) ->
  In (lit "-stdin") args \/ (forall n, named args n <-> named args' n) ->
  main loc mb file stdin clock oref olab om oa fuel args = main loc mb file stdin clock oref olab om oa fuel args'.
Proof.
  intros loc mb file stdin clock oref olab om oa fuel args args' H1 H2 H3 H4. apply main_same; [|exact H4].
  intros bin Hb o Ho. apply in_app_iff in Ho as [Ho|Ho]; [now apply H1|]. destruct bin.
  - destruct Ho as [<-|[]]. apply H2. now apply Hb.
  - apply H3; [|assumption]. intros H. apply Hb in H. discriminate.
Qed.
Example cli_options_case :
  out (cli ["-stdin"; "-whitespace"; "-outputtext"]%string) = Some (lns ["g:"; "  nop"]%string) /\
  out (cli ["-outputtext"; "-stdin"; "-plt"; "-whitespace"; "-stdin"]%string) = Some (lns ["g:"; "  nop"]%string) /\
  out (cli ["-outputtext"; "-stdin"; "-plt"]%string) = Some (lns ["g:"; "        nop"]%string).
Proof. now vm_compute. Qed.

(** C75 *)
Theorem cli_outcomes : forall loc mb (file : str -> str) (stdin : str) clock oref olab om oa fuel args,
  (forall m, Permutation (olab m) m) -> (forall n, Z.of_nat (length (file n)) < 2147483648) -> Z.of_nat (length stdin) < 2147483648 ->
  let o := main loc mb file stdin clock oref olab om oa fuel args in
  (exists r, o = Ok r) \/
  In (lit "-binary") args /\ (o = UB ShiftRange \/ o = UB AtoiRange) \/
  ~ In (lit "-binary") args /\ o = Diverges.
Proof. intros. now apply main_outcome. Qed.
(** A file that cannot be opened reads as an empty one ([file n = []]). *)
Theorem cli_nothing_to_read : forall mb file stdin clock oref olab om oa fuel args, (forall m, Permutation (olab m) m) ->
  (In (lit "-stdin") args -> stdin = []) -> (~ In (lit "-stdin") args -> exists n, named args n /\ file n = []) ->
  exists r, main true mb file stdin clock oref olab om oa fuel args = Ok r /\ res_exit r = 0 /\
    (In (lit "-outputtext") args -> res_stdout r = []) /\
    (~ In (lit "-outputtext") args -> res_stdout r =
       lit "{""asm"": [],""labelDefinitions"": {}, ""parsingTime"": " ++ dec_Z clock ++ lit ", ""filteredCount"": 0}").
Proof.
  intros mb file stdin clock oref olab om oa fuel args Hp H1 H2.
  destruct (main_empty mb clock oref olab om oa file stdin fuel args Hp H1 H2) as [d E].
  eexists. split; [exact E|]. split; [reflexivity|]. cbn [res_stdout]. rewrite <- has_arg_no, <- has_arg_iff. split; intros ->; [reflexivity|].
  unfold write. reflexivity.
Qed.
Example cli_nothing_case : out (cli ["no such file"]%string) = Some (T "{`asm`: [],`labelDefinitions`: {}, `parsingTime`: 7, `filteredCount`: 0}").
Proof. now vm_compute. Qed.

(** C76 *)
Theorem json_asm_valid : forall mb flt flt' oref olab fuel input vis s vis' reproducible clock,
  Forall (fun c => 32 <= code c \/ c = TAB \/ c = LF) input ->
  AsmText.run mb flt oref olab fuel input vis = Ok (s, vis') ->
  exists v, json_text (AsmText.outputJson flt' dec_Z reproducible clock s) v.
Proof. exact text_json_valid. Qed.
Theorem json_asm_valid_iff : forall mb flt flt' oref olab fuel input vis s vis' reproducible clock,
  AsmText.run mb flt oref olab fuel input vis = Ok (s, vis') ->
  (exists v, json_text (AsmText.outputJson flt' dec_Z reproducible clock s) v) <->
  Forall (line_printable flt') (t_lines s) /\ (forall l, In l (t_lines s) -> lv_is_label l = true -> printable (v_str (lv_label l))).
Proof. exact text_json_iff. Qed.
(** Input with CRLF line ends, when nothing is filtered, never gives JSON. *)
Theorem json_asm_crlf : forall mb flt flt' oref olab fuel ls vis s vis' reproducible clock,
  f_directives flt = false -> f_comment_only flt = false -> f_library_functions flt = false -> f_unused_labels flt = false ->
  f_whitespace flt = false -> Forall crlf_line ls -> ls <> [] ->
  AsmText.run mb flt oref olab fuel (crlf ls) vis = Ok (s, vis') ->
  forall v, ~ json_text (AsmText.outputJson flt' dec_Z reproducible clock s) v.
Proof. exact text_json_crlf. Qed.
Theorem cli_json_text : forall mb file stdin clock oref olab om oa fuel args r,
  ~ In (lit "-binary") args -> ~ In (lit "-outputtext") args ->
  (In (lit "-stdin") args -> Forall (fun c => 32 <= code c \/ c = TAB \/ c = LF) stdin) ->
  (~ In (lit "-stdin") args -> forall n, named args n -> Forall (fun c => 32 <= code c \/ c = TAB \/ c = LF) (file n)) ->
  main true mb file stdin clock oref olab om oa fuel args = Ok r -> res_exit r = 0 ->
  exists v, json_text (res_stdout r) v.
Proof. exact main_json. Qed.
Example json_asm_case :
  let r i := match go no_filter i with Ok (s, _) => parse_json (AsmText.outputJson no_filter dec_Z false 0 s) | _ => None end in
  r (crlf [T "ret"]) = None /\ crlf_line (T "ret") /\ r (lns ["main:"; "~.string ``a\n```"; "~ret"]%string) <> None.
Proof. cbv zeta. split; [now vm_compute|]. split; [|vm_compute; discriminate]. split; [intros X; vm_compute in X; intuition discriminate|vm_compute; repeat split]. Qed.
Print Assumptions cli_exit.
Print Assumptions cli_debug_file.
Print Assumptions cli_reads_stdin.
Print Assumptions cli_reads_file.
Print Assumptions cli_options.
Print Assumptions cli_outcomes.
Print Assumptions cli_nothing_to_read.
Print Assumptions json_asm_valid.
Print Assumptions json_asm_valid_iff.
Print Assumptions json_asm_crlf.
Print Assumptions cli_json_text.
