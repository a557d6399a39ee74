(** Properties C103, C104: the text parser with and without the directives and
    the comment filter.

    [thinned P Q a b]: [b] comes from [a] by leaving out lines of [P] and
    replacing each other line by one that [Q] relates to it.  [alike]: the same
    text, section, flags, label, parent and references, and the same location
    unless the line is a label. *)
From Coq Require Import Sorted.
From Verif Require Import AsmLemmas AsmRead AsmMark AsmTrace AsmThms AsmPlace AsmWorld AsmStored AsmDirect AsmNotes Tests PropAsm1.
Arguments T _%string_scope.
Arguments ln _%string_scope.

(** C103.  When lines with .cfi_startproc hold nothing else ([bare_starts]), the
    directives filter leaves out such lines, directives and blank lines, and
    changes nothing about the others. *)
Theorem asm_directives_filter : forall mb flt flt' input oref olab fuel vis s v oref' olab' fuel' vis' s' v',
  f_directives flt = false -> f_directives flt' = true -> f_comment_only flt' = f_comment_only flt -> f_whitespace flt' = f_whitespace flt ->
  f_library_functions flt = false -> f_library_functions flt' = false -> f_unused_labels flt = false -> f_unused_labels flt' = false ->
  f_compatmode flt = false -> f_compatmode flt' = false -> Z.of_nat (length input) < two31 -> bare_starts flt (scan_input flt input) ->
  AsmText.run mb flt oref olab fuel input vis = Ok (s, v) -> AsmText.run mb flt' oref' olab' fuel' input vis' = Ok (s', v') ->
  thinned left_out alike (t_lines s) (t_lines s').
Proof.
  intros mb flt flt' input oref olab fuel vis s v oref' olab' fuel' vis' s' v' H1 H2 H3 H4 H5 H6 H7 H8 H9 H10 H11 H12 R R'.
  destruct (read_thinned mb flt flt' input H1 H2 H3 H4 H5 H6 H12) as [A B].
  eapply run_thinned; [exact left_label|exact left_keeps|..]; eauto.
Qed.
(** The location of labels does change: a directive between a label and the
    location that follows keeps the label from taking it. *)
Definition dirs : Filter := mkFilter false false false true false false false false false false.
Definition places (o : outcome (tstate * list str)) : option (list (str * Z)) :=
  match o with Ok (s, _) => Some (map (fun l => (lv_text l, sv_line (lv_source l))) (t_lines s)) | _ => None end.
Definition fn : str := lns ["~.file~1 `a.c`"; "f:"; "~.cfi_startproc"; "~.loc~1 7 1"; "~ret"]%string.
Theorem asm_filter_moves_labels_refuted : exists input s v s' v' l l',
  bare_starts no_filter (scan_input no_filter input) /\ go no_filter input = Ok (s, v) /\ go dirs input = Ok (s', v') /\
  In l (t_lines s) /\ In l' (t_lines s') /\ lv_text l = T "f:" /\ lv_text l' = T "f:" /\ sv_line (lv_source l) = 0 /\ sv_line (lv_source l') = 7.
Proof.
  exists fn. do 4 eexists. exists (nth 1 (t_lines (read_lines mblen_ascii no_filter tstate0 fn)) (line_v0 0)).
  eexists. split; [|split; [vm_compute; reflexivity|split; [vm_compute; reflexivity|split; [right; left; vm_compute; reflexivity|split; [left; reflexivity|repeat split; vm_compute; reflexivity]]]]].
  intros raw nest H X. vm_compute in H. repeat (destruct H as [H|H]; [injection H as <- <-; try (vm_compute in X; discriminate)|]); [|destruct H].
  exists (T "        "), []. repeat split; vm_compute; reflexivity.
Qed.
(** A label on the same line as .cfi_startproc is lost with it. *)
Theorem asm_filter_drops_label_refuted : exists input,
  texts (go no_filter input) = Some (Ts ["f: .cfi_startproc"; "        ret"]%string) /\ texts (go dirs input) = Some (Ts ["        ret"]%string).
Proof. exists (lns ["f: .cfi_startproc"; "~ret"]%string). split; vm_compute; reflexivity. Qed.
Example asm_directives_filter_case :
  places (go no_filter fn) = Some [(T "        .file   1 `a.c`", 0); (T "f:", 0); (T "        .cfi_startproc", 0); (T "        .loc    1 7 1", 7); (T "        ret", 7)] /\
  places (go dirs fn) = Some [(T "f:", 7); (T "        ret", 7)].
Proof. split; vm_compute; reflexivity. Qed.

(** C104.  When no line begins a block comment and no comment is a label, the
    comment filter leaves out lines that are only a comment and blank lines, and
    changes nothing about the others. *)
Theorem asm_comment_filter : forall mb flt flt' input oref olab fuel vis s v oref' olab' fuel' vis' s' v',
  f_comment_only flt = false -> f_comment_only flt' = true -> f_directives flt' = f_directives flt -> f_whitespace flt' = f_whitespace flt ->
  f_library_functions flt = false -> f_library_functions flt' = false -> f_unused_labels flt = false -> f_unused_labels flt' = false ->
  f_compatmode flt = false -> f_compatmode flt' = false -> Z.of_nat (length input) < two31 ->
  no_block (scan_input flt input) -> idle_notes flt (scan_input flt input) ->
  AsmText.run mb flt oref olab fuel input vis = Ok (s, v) -> AsmText.run mb flt' oref' olab' fuel' input vis' = Ok (s', v') ->
  thinned (left_note flt) alike (t_lines s) (t_lines s').
Proof.
  intros mb flt flt' input oref olab fuel vis s v oref' olab' fuel' vis' s' v' H1 H2 H3 H4 H5 H6 H7 H8 H9 H10 H11 H12 H13 R R'.
  destruct (notes_thinned mb flt flt' input H1 H2 H3 H4 H5 H6 H12 H13) as [A B].
  eapply run_thinned; [exact (left_note_label flt)|exact (left_note_keeps flt)|..]; eauto.
Qed.
Definition comms : Filter := mkFilter false false false false true false false false false false.
(** Neither condition can be left out: a name beginning with an at sign is taken
    for a comment, ... *)
Theorem asm_at_label_dropped_refuted : exists input,
  texts (go no_filter input) = Some (Ts ["@f:"; "        ret"]%string) /\ texts (go comms input) = Some (Ts ["        ret"]%string) /\
  exists s v, go no_filter input = Ok (s, v) /\ redetermineLabels s = [(T "@f", 1)].
Proof. exists (lns ["@f:"; "~ret"]%string). split; [vm_compute; reflexivity|]. split; [vm_compute; reflexivity|]. do 2 eexists. split; vm_compute; reflexivity. Qed.
(** ... and the mark of inline assembly is not seen in a block comment, so that a
    label after it is shown differently. *)
Theorem asm_comment_filter_changes_refuted : exists input,
  texts (go no_filter input) = Some (Ts ["/*"; "#APP"; "*/"; "f:"]%string) /\ texts (go comms input) = Some (Ts [" f:"]%string).
Proof. exists (lns ["/*"; "#APP"; "*/"; " f:"]%string). split; vm_compute; reflexivity. Qed.
Definition noted : str := lns ["# head"; ""; "f:"; ""; "~# ~loop"; ""; "~ret # x"; "~; end"]%string.
Example asm_comment_filter_case : no_block (scan_input no_filter noted) /\ idle_notes no_filter (scan_input no_filter noted) /\
  texts (go comms noted) = Some (Ts ["f:"; ""; "        ret # x"]%string).
Proof.
  split; [|split; [|now vm_compute]].
  - intros raw nest H. vm_compute in H. repeat (destruct H as [H|H]; [try discriminate H; injection H as <- <-; vm_compute; reflexivity|]). destruct H.
  - intros raw nest H X. vm_compute in H. repeat (destruct H as [H|H]; [try discriminate H; injection H as <- <-; (vm_compute; reflexivity) || (vm_compute in X; discriminate X)|]). destruct H.
Qed.

Print Assumptions asm_directives_filter.
Print Assumptions asm_filter_moves_labels_refuted.
Print Assumptions asm_filter_drops_label_refuted.
Print Assumptions asm_comment_filter.
Print Assumptions asm_at_label_dropped_refuted.
Print Assumptions asm_comment_filter_changes_refuted.
