(** Property C111: what the white-space filter of the text parser does.

    [squeezed flt cs] writes an input again, line by line: the lines of block
    comments as they are, blank lines empty, lines of text with tabs expanded and
    white space squeezed.  [ws_off flt] is the same filter without its
    white-space part.  [first_seen] is the first character of a line that is
    neither a blank nor a tab. *)
From Verif Require Import AsmLemmas AsmRead AsmMark AsmTrace AsmThms AsmSpace Recog5 AsmFair Tests PropAsm1.
From Verif Require Import AsmText.
Arguments T _%string_scope.
Arguments ln _%string_scope.

(** C111.  Reading with the white-space filter is the same as squeezing the input
    first and reading it without that filter: same end of the run, same lines,
    same tables; only the text of an unfinished line is not compared.  [fair]: the
    few tests that are made on a line before it is squeezed give the same answer
    afterwards. *)
Theorem asm_whitespace_filter : forall mb flt oref olab fuel input vis, Forall (fair flt) (scan_input flt input) ->
  AsmText.run mb (ws_off flt) oref olab fuel (squeezed flt (scan_input flt input)) vis =
  (r <- AsmText.run mb flt oref olab fuel input vis ;; Ok (set_t_text [] (fst r), snd r)).
Proof. exact run_squeezed. Qed.
(** In particular when no line begins with a slash or a semicolon, and none that
    begins with a number sign marks inline assembly: the two outputs are the same
    text. *)
Theorem asm_whitespace_output : forall mb flt oref olab fuel input vis s v,
  (forall raw nest, In (CText raw nest) (scan_input flt input) ->
     first_seen raw <> Some "/"%char /\ first_seen raw <> Some ";"%char /\
     (first_seen raw = Some "#"%char -> nest_step raw = 0 /\ nest_step (clean flt 0 raw) = 0)) ->
  AsmText.run mb flt oref olab fuel input vis = Ok (s, v) ->
  exists s', AsmText.run mb (ws_off flt) oref olab fuel (squeezed flt (scan_input flt input)) vis = Ok (s', v) /\
    t_lines s' = t_lines s /\ outputText s' = outputText s /\ redetermineLabels s' = redetermineLabels s.
Proof.
  intros mb flt oref olab fuel input vis s v H R. pose proof (run_squeezed mb flt oref olab fuel input vis) as X. rewrite R in X. cbn [xout obind fst snd] in X.
  exists (set_t_text [] s). split; [|repeat split]. apply X, calm_all, Forall_forall. intros c Hc. destruct c as [r|r|r n]; [exact I|exact I|]. exact (H r n Hc).
Qed.
(** The condition is needed: squeezing "# APP" gives the mark of inline assembly. *)
Definition blanks_on : Filter := mkFilter false false false false false true false false false false.
Theorem asm_whitespace_unfair_refuted : exists input,
  texts (go blanks_on input) = Some (Ts ["#APP"; "  f:"]%string) /\
  texts (go (ws_off blanks_on) (squeezed blanks_on (scan_input blanks_on input))) = Some (Ts ["#APP"; "f:"]%string).
Proof. exists (ln "# APP" ++ ln "    f:"). split; vm_compute; reflexivity. Qed.

(** A line  .file number "directory" "name"  loses its second name: the blanks
    between the two strings are removed, and what is left is taken for a line with
    one name.  The file is then the directory. *)
Theorem asm_whitespace_directory : forall l a d r f, file_head l a d r -> second_name r f -> ~ In BSL d -> ~ In BSL f ->
  getFileDef l = Some (number a, d ++ lit "/" ++ f) /\
  getFileDef (squashHorizontalWhitespaceWithQuotes l true) = Some (number a, d).
Proof. intros l a d r f H1 H2 H3 H4. split; [exact (file_both l a d r f H1 H2)|exact (file_squeezed l a d r f H1 H2 H3 H4)]. Qed.
Definition two_names : str := ln "~.file 1 `/app` `ex.c`" ++ ln "~.loc~1 4 2" ++ ln "~nop".
Definition file_of (o : outcome (tstate * list str)) : option (list str) :=
  match o with Ok (s, _) => Some (map (fun l => v_str (sv_file (lv_source l))) (t_lines s)) | _ => None end.
Theorem asm_whitespace_file_refuted : exists input,
  file_of (go no_filter input) = Some (Ts [""; "/app/ex.c"; "/app/ex.c"]%string) /\ file_of (go blanks_on input) = Some (Ts [""; "/app"; "/app"]%string).
Proof. exists two_names. split; vm_compute; reflexivity. Qed.
Definition blanks_in : str := two_names ++ ln "~ ~" ++ ln "xy  =~1 # a   b" ++ ln "f:~ mov   `a  b` , r1" ++ T "~ret  ".
Example asm_whitespace_case :
  squeezed blanks_on (scan_input blanks_on blanks_in) =
    ln "  .file 1 `/app``ex.c`" ++ ln "  .loc 1 4 2" ++ ln "  nop" ++ ln "" ++ ln "  xy = 1 # a b" ++ ln "f: mov `a  b` ,r1" ++ ln "  ret " /\
  texts (go blanks_on blanks_in) = texts (go (ws_off blanks_on) (squeezed blanks_on (scan_input blanks_on blanks_in))) /\
  texts (go blanks_on blanks_in) = Some (Ts ["  .file 1 `/app``ex.c`"; "  .loc 1 4 2"; "  nop"; ""; "  xy = 1 # a b"; "f: mov `a  b` ,r1"; "  ret "]%string).
Proof. split; [|split]; vm_compute; reflexivity. Qed.

Print Assumptions asm_whitespace_filter.
Print Assumptions asm_whitespace_output.
Print Assumptions asm_whitespace_unfair_refuted.
Print Assumptions asm_whitespace_directory.
Print Assumptions asm_whitespace_file_refuted.
