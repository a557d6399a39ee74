(** Text parser: lines, filters, label table, accounting (C32-C40, C45, C48,
    C49).  [mb] is the locale's mblen, [oref] and [olab] the unknown iteration
    orders of the hash tables, [fuel] bounds the recursion of isUsed and [vis] is
    what earlier parses of the thread left in its visited list. *)
From Coq Require Import Permutation Sorted.
From Verif Require Import AsmLemmas AsmRead AsmMark AsmTrace AsmThms AsmLines Tests.

Definition ln (s : string) : str := T s ++ [LF].
Definition lns (l : list string) : str := List.concat (map ln l).
Definition Ts (l : list string) : list str := map T l.
Arguments T _%string_scope.
Arguments ln _%string_scope.
(** A run on a fresh parser, and what is looked at in the examples. *)
Definition go (flt : Filter) (input : str) := AsmText.run mblen_ascii flt id id 50 input [].
Definition texts (o : outcome (tstate * list str)) : option (list str) :=
  match o with Ok (s, _) => Some (map lv_text (t_lines s)) | _ => None end.
Definition labels (o : outcome (tstate * list str)) : option (list (str * Z)) :=
  match o with Ok (s, _) => Some (redetermineLabels s) | _ => None end.
Definition only_directives : Filter := mkFilter false false false true false false false false false false.
Definition only_comments : Filter := mkFilter false false false false true false false false false false.
Definition only_library : Filter := mkFilter false false true false false false false false false false.
Definition only_unused : Filter := mkFilter false true false false false false false false false false.
Definition sample : str := lns [ "~.file~`a.c`"; "~.globl~main"; "main:"; "~# start"; "~mov~eax, 1"; "~jmp~.L2"; ".L2:"; "~ret"; "" ]%string.
Example sample_labels : labels (go only_directives sample) = Some [(T "main", 1); (T ".L2", 5)]
  /\ texts (go only_directives sample) = Some (Ts ["main:"; "        # start"; "        mov     eax, 1"; "        jmp     .L2"; ".L2:"; "        ret"; ""]%string).
Proof. now vm_compute. Qed.

(** C32 *)
Theorem asm_label_table : forall mb flt oref olab fuel input vis s vis',
  AsmText.run mb flt oref olab fuel input vis = Ok (s, vis') ->
  (forall n i, In (n, i) (redetermineLabels s) <->
     1 <= i /\ exists l, nth_error (t_lines s) (Z.to_nat (i - 1)) = Some l /\ lv_is_label l = true /\ v_str (lv_label l) = n) /\
  StronglySorted Z.lt (map snd (redetermineLabels s)) /\
  (forall l, In l (t_lines s) -> lv_is_label l = true -> exists a c, label_of (lv_text l) = Some (v_str (lv_label l), (a, c))).
Proof. exact C32_labels. Qed.

(** C33 *)
Theorem asm_filters_only_delete : forall mb flt oref olab fuel input vis s vis',
  AsmText.run mb flt oref olab fuel input vis = Ok (s, vis') ->
  (exists kept, subseq kept (t_lines (read_lines mb flt tstate0 input)) /\ Forall2 same_core kept (t_lines s)) /\
  subseq (map lv_text (t_lines s)) (flat_map (survives flt true) (scan_input flt input)).
Proof.
  intros mb flt oref olab fuel input vis s vis' H. split; [exact (C33_lines _ _ _ _ _ _ _ _ _ H)|].
  apply (run_survives _ _ _ _ _ _ _ _ _ true H). discriminate.
Qed.
Example asm_filters_only_delete_case :
  flat_map (survives only_unused true) (scan_input only_unused sample)
    = Ts ["        .file   `a.c`"; "        .globl  main"; "main:"; "        # start"; "        mov     eax, 1"; "        jmp     .L2"; ".L2:"; "        ret"; ""]%string
  /\ texts (go only_unused sample) =
     Some (Ts ["        .file   `a.c`"; "        .globl  main"; "main:"; "        # start"; "        mov     eax, 1"; "        jmp     .L2"; "        ret"; ""]%string).
Proof. now vm_compute. Qed.

(** C34 *)
Theorem asm_no_filter_shows_all : forall mb flt oref olab fuel ls vis s vis',
  f_directives flt = false -> f_comment_only flt = false -> f_library_functions flt = false -> f_unused_labels flt = false ->
  f_whitespace flt = false -> Forall plain_line ls ->
  AsmText.run mb flt oref olab fuel (join_lines ls) vis = Ok (s, vis') ->
  map lv_text (t_lines s) = fold_left plain_show ls [].
Proof. exact C34_plain. Qed.
(** The same for every input, on the lines as they are read. *)
Theorem asm_no_filter_shows_read : forall mb flt oref olab fuel input vis s vis',
  f_directives flt = false -> f_comment_only flt = false -> f_library_functions flt = false -> f_unused_labels flt = false ->
  AsmText.run mb flt oref olab fuel input vis = Ok (s, vis') ->
  map lv_text (t_lines s) = fold_left (show_line flt) (scan_input flt input) [].
Proof. exact C34_show. Qed.
Example asm_no_filter_case :
  let ls := Ts [""; "main:"; "~ret"; ""; ""; "~nop"]%string in
  Forall plain_line ls /\ fold_left plain_show ls [] = Ts ["main:"; "        ret"; ""; "        nop"]%string
  /\ texts (go no_filter (join_lines ls)) = Some (fold_left plain_show ls []).
Proof.
  cbv zeta. split; [|now vm_compute]. unfold Ts. cbn [map].
  repeat (constructor; [split; [intros X; vm_compute in X; intuition discriminate|
    split; [first [now left | right; reflexivity]|vm_compute; repeat split]]|]). constructor.
Qed.

(** C35 *)
Theorem asm_white_line_moves : forall mb flt oref olab fuel p r q vis,
  (p = [] \/ exists p', p = p' ++ [LF]) -> all_blank r = true -> block_open flt p = false ->
  AsmText.run mb flt oref olab fuel (p ++ r ++ LF :: q) vis = AsmText.run mb flt oref olab fuel (p ++ LF :: r ++ q) vis.
Proof. exact C35_run. Qed.
Theorem asm_white_line_refuted : exists p r q, all_blank r = true /\ p ++ r ++ LF :: q <> p ++ LF :: q /\
  texts (go no_filter (p ++ r ++ LF :: q)) <> texts (go no_filter (p ++ LF :: q)) /\
  labels (go no_filter (p ++ r ++ LF :: q)) <> labels (go no_filter (p ++ LF :: q)).
Proof. exists (ln "a:"), (T "  "), (lns ["foo:"; " ret"]%string). vm_compute. repeat split; discriminate. Qed.

(** C36 *)
Theorem asm_carriage_returns_kept : forall mb flt oref olab fuel ls vis s vis',
  f_directives flt = false -> f_comment_only flt = false -> f_library_functions flt = false -> f_unused_labels flt = false ->
  f_whitespace flt = false -> Forall crlf_line ls ->
  AsmText.run mb flt oref olab fuel (crlf ls) vis = Ok (s, vis') ->
  map lv_text (t_lines s) = map (fun l => expandTabs (l ++ [CR])) ls.
Proof. exact C36_crlf. Qed.
Theorem asm_carriage_returns_refuted : exists ls, Forall crlf_line ls /\ Forall plain_line ls /\
  texts (go no_filter (crlf ls)) <> texts (go no_filter (join_lines ls)) /\
  option_map (@length str) (texts (go no_filter (crlf ls))) <> option_map (@length str) (texts (go no_filter (join_lines ls))).
Proof.
  exists (Ts [""; "main:"; " ret"]%string). split; [|split; [|vm_compute; split; discriminate]]; unfold Ts; cbn [map].
  - repeat (constructor; [split; [intros X; vm_compute in X; intuition discriminate|vm_compute; repeat split]|]). constructor.
  - repeat (constructor; [split; [intros X; vm_compute in X; intuition discriminate|
      split; [first [now left | right; reflexivity]|vm_compute; repeat split]]|]). constructor.
Qed.

(** C37 *)
Theorem asm_last_line_parsed : forall mb flt oref olab fuel p last vis, ~ In LF last -> all_blank last = false ->
  AsmText.run mb flt oref olab fuel (p ++ last) vis = AsmText.run mb flt oref olab fuel (p ++ last ++ [LF]) vis.
Proof. exact C37_run. Qed.
Example asm_last_line_case : texts (go no_filter (ln "main:" ++ T " ret")) = Some (Ts ["main:"; " ret"]%string)
  /\ all_blank (T " ret") = false /\ ~ In LF (T " ret")
  /\ (* white space only *) texts (go no_filter (ln "main:" ++ T "  ")) <> texts (go no_filter (ln "main:")).
Proof. vm_compute. repeat split; try discriminate. intuition discriminate. Qed.

(** C38, C39 *)
Theorem asm_shown_lines : forall mb flt oref olab fuel input vis s vis',
  AsmText.run mb flt oref olab fuel input vis = Ok (s, vis') ->
  (forall raw nest n a, In (CText raw nest) (scan_input flt input) -> label_of (clean flt nest raw) <> Some (n, (a, true))) ->
  forall l, In l (t_lines s) -> lv_text l <> [] ->
  exists raw nest, In (CText raw nest) (scan_input flt input) /\ lv_text l = clean flt nest raw /\
    (f_comment_only flt = true -> isJustComments raw = false) /\
    (f_directives flt = true -> filtered_directive (lv_text l) = false).
Proof. exact shown_line_origin. Qed.
(** In order and with repetitions. *)
Theorem asm_shown_lines_order : forall mb flt oref olab fuel input vis s vis',
  AsmText.run mb flt oref olab fuel input vis = Ok (s, vis') ->
  (forall raw nest n a, In (CText raw nest) (scan_input flt input) -> label_of (clean flt nest raw) <> Some (n, (a, true))) ->
  subseq (map lv_text (t_lines s)) (flat_map (survives flt false) (scan_input flt input)).
Proof. intros mb flt oref olab fuel input vis s vis' H Hc. exact (run_survives _ _ _ _ _ _ _ _ _ false H (fun _ => Hc)). Qed.
Definition commented : str := lns ["main:"; "  /* a"; "  hidden:"; "  */"; "~; only"; "~.cfi_startproc"; "~.long 5"; "~ret # end"]%string.
Example asm_shown_lines_case :
  flat_map (survives only_comments false) (scan_input only_comments commented) = Ts ["main:"; "        .cfi_startproc"; "        .long 5"; "        ret # end"]%string
  /\ texts (go only_comments commented) = Some (Ts ["main:"; "        .cfi_startproc"; "        .long 5"; "        ret # end"]%string)
  /\ flat_map (survives only_directives false) (scan_input only_directives commented)
     = Ts ["main:"; "  /* a"; "  hidden:"; "  */"; "        ; only"; "        .long 5"; "        ret # end"]%string.
Proof. now vm_compute. Qed.
(** In a CUDA parameter list the directive filter is off, so the condition is needed. *)
Example asm_shown_cuda_case :
  texts (go only_directives (lns [".visible .entry f("; "~.param .u64 x"; ")"; "{"; "~.reg .b32 r;"]%string))
   = Some (Ts [".visible .entry f("; "        .param .u64 x"; ")"; "{"]%string).
Proof. now vm_compute. Qed.

(** C40 *)
Theorem asm_library_filter_empty : forall mb flt oref olab fuel input vis,
  f_library_functions flt = true -> (forall m, Permutation (olab m) m) ->
  exists s, AsmText.run mb flt oref olab fuel input vis = Ok (s, vis) /\ t_lines s = []
    /\ t_total_lines s = Z.of_nat (length (scan_input flt input)).
Proof. exact C40_lib. Qed.
Theorem asm_library_filter_refuted :
  texts (go only_library sample) = Some [] /\ option_map (@length str) (texts (go no_filter sample)) = Some 9%nat.
Proof. now vm_compute. Qed.

(** C45 *)
Theorem asm_no_undefined_behaviour : forall mb flt oref olab fuel input vis,
  (forall m, Permutation (olab m) m) -> Z.of_nat (length input) < two31 ->
  (exists r, AsmText.run mb flt oref olab fuel input vis = Ok r) \/ AsmText.run mb flt oref olab fuel input vis = Diverges.
Proof. exact C45_run. Qed.
Theorem asm_label_table_indices : forall mb flt input k i,
  Z.of_nat (length input) < two31 -> In (k, i) (t_labels_defined (read_lines mb flt tstate0 input)) ->
  last_def (t_lines (read_lines mb flt tstate0 input)) (v_str k) i.
Proof. exact table_lines. Qed.
Example asm_label_table_case :
  map (fun e => (v_str (fst e), snd e)) (t_labels_defined (read_lines mblen_ascii no_filter tstate0 (lns ["a:"; " nop"; "b:"; "a:"]%string)))
   = [(T "a", 4); (T "b", 3)].
Proof. now vm_compute. Qed.

(** C48 *)
Theorem asm_references_defined : forall mb flt oref olab fuel input vis s vis' l r,
  AsmText.run mb flt oref olab fuel input vis = Ok (s, vis') ->
  Z.of_nat (length input) < two31 -> In l (t_lines s) -> In r (lv_labels l) ->
  In (mkLabel (v_str (lbv_name r)) (lbv_range r)) (getUsedLabelsInLine mb (lv_text l)) /\
  exists raw nest a c, In (CText raw nest) (scan_input flt input) /\ label_of (clean flt nest raw) = Some (v_str (lbv_name r), (a, c)).
Proof. exact C48_refs. Qed.
Example asm_references_case :
  match go no_filter (lns ["main:"; " jmp .L2"; " jmp .L3"; ".L2:"]%string) with
  | Ok (s, _) => map (fun l => map (fun r => v_str (lbv_name r)) (lv_labels l)) (t_lines s) = [[]; [T ".L2"]; []; []]
  | _ => False end.
Proof. now vm_compute. Qed.

(** C49 *)
Theorem asm_line_count : forall mb flt oref olab fuel input vis s vis',
  AsmText.run mb flt oref olab fuel input vis = Ok (s, vis') ->
  t_total_lines s = Z.of_nat (length (scan_input flt input)) /\ Z.of_nat (length (t_lines s)) <= t_total_lines s.
Proof. exact C49_count. Qed.
Example asm_line_count_case : (match go only_directives sample with Ok (s, _) => t_total_lines s | _ => -1 end) = 9.
Proof. now vm_compute. Qed.

Print Assumptions asm_label_table.
Print Assumptions asm_filters_only_delete.
Print Assumptions asm_no_filter_shows_all.
Print Assumptions asm_no_filter_shows_read.
Print Assumptions asm_white_line_moves.
Print Assumptions asm_white_line_refuted.
Print Assumptions asm_carriage_returns_kept.
Print Assumptions asm_carriage_returns_refuted.
Print Assumptions asm_last_line_parsed.
Print Assumptions asm_shown_lines.
Print Assumptions asm_shown_lines_order.
Print Assumptions asm_library_filter_empty.
Print Assumptions asm_library_filter_refuted.
Print Assumptions asm_no_undefined_behaviour.
Print Assumptions asm_label_table_indices.
Print Assumptions asm_references_defined.
Print Assumptions asm_line_count.
