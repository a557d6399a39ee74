(** Objdump parser: stream handling, cap, label table (C01-C07, C22, C24).
    Every theorem is closed by a lemma of ObjThm1; the examples beside it show
    that its hypotheses can be met and that it says something. *)
From Verif Require Import ObjThm1 Tests.

(** Input lines. *)
Definition ln (s : string) : str := T s ++ [LF].
Definition lns (l : list string) : str := List.concat (map ln l).
Definition Ts (l : list string) : list str := map T l.
Arguments T _%string_scope.
Arguments ln _%string_scope.
(** A small listing: section, source line, two functions with a call. *)
Definition sample : str := lns [ "Disassembly of section .text:"; ""; "0000000000401000 <main>:"; "/app/example.cpp:3";
    "  401000:~55                   ~push   rbp"; "  401001:~e8 00 00 00 00       ~call   401010 <square+0x2>";
    ""; "0000000000401010 <square>:"; "  401010:~c3                   ~ret" ]%string.
Definition sample_result : outcome ostate := run mblen_ascii no_filter sample.
Definition view (o : outcome ostate) : option (list str * list (str * Z)) :=
  match o with Ok s => Some (map l_text (o_lines s), o_labels s) | _ => None end.
Example sample_view : view sample_result =
  Some (Ts ["main:"; " push   rbp"; " call   401010 <square+0x2>"; "square:"; " ret"]%string,
        [(T "main", 1); (T "square", 4)]).
Proof. vm_compute. reflexivity. Qed.

(** C01 *)
Theorem objdump_cr_irrelevant : forall mb flt s input,
  fromStream mb flt s (drop_cr input) = fromStream mb flt s input.
Proof. exact C01_lemma. Qed.
Example objdump_cr_case :
  view (run mblen_ascii no_filter (T "401000 <f>:" ++ [CR; LF])) = Some ([T "f:"], [(T "f", 1)])
  /\ drop_cr (T "401000 <f>:" ++ [CR; LF]) <> (T "401000 <f>:" ++ [CR; LF]).
Proof. split; [reflexivity|discriminate]. Qed.

(** C02 *)
Theorem objdump_last_line_dropped : forall mb flt s input tail s2,
  ~ In LF tail -> fromStream mb flt s (input ++ tail) = Ok s2 ->
  exists s1, fromStream mb flt s input = Ok s1 /\ same_output s1 s2 /\ o_total_lines s1 = o_total_lines s2
    /\ outputText s1 = outputText s2
    /\ (forall flt' fmt repro clock, outputJson flt' fmt repro clock s1 = outputJson flt' fmt repro clock s2).
Proof. exact C02_lemma. Qed.
Example objdump_last_line_case :
  view (run mblen_ascii no_filter (sample ++ T "  401011:~90~nop")) = view sample_result
  /\ view (run mblen_ascii no_filter (sample ++ ln "  401011:~90  ~nop")) <> view sample_result.
Proof. split; [vm_compute; reflexivity|vm_compute; discriminate]. Qed.

(** C03 *)
Theorem objdump_cap : forall mb flt s, reachable mb flt s ->
  Z.of_nat (length (o_lines s)) <= 5001
  /\ (Z.of_nat (length (o_lines s)) = 5001 <-> o_stopParsing s = true)
  /\ (Z.of_nat (length (o_lines s)) = 5001 ->
        exists pre, o_lines s = (pre ++ [set_l_text (lit "[truncated; too many lines]") line0])).
Proof. exact C03_cap. Qed.
Theorem objdump_cap_final : forall mb flt s input s', reachable mb flt s -> Z.of_nat (length (o_lines s)) = 5001 ->
  fromStream mb flt s input = Ok s' -> same_output s s'.
Proof. exact C03_frozen. Qed.

(** C04 *)
Theorem objdump_lines_counted : forall mb flt input s, run mb flt input = Ok s ->
  (o_stopParsing s = false /\ o_total_lines s = count_lf input)
  \/ (exists a b s0, input = (a ++ LF :: b) /\ run mb flt a = Ok s0 /\ o_stopParsing s0 = false
        /\ run mb flt (a ++ [LF]) = Ok s /\ o_stopParsing s = true /\ o_total_lines s = count_lf (a ++ [LF])).
Proof. exact C04_count. Qed.
Theorem objdump_filtered_count : forall mb flt input s, run mb flt input = Ok s -> count_lf input < 2 ^ 63 ->
  filteredCount (o_total_lines s) (Z.of_nat (length (o_lines s))) = o_total_lines s - Z.of_nat (length (o_lines s))
  /\ 0 <= o_total_lines s - Z.of_nat (length (o_lines s)).
Proof. exact C04_filtered. Qed.
Example objdump_counts_case : count_lf sample = 9 /\
  match sample_result with Ok s => (o_total_lines s, Z.of_nat (length (o_lines s))) = (9, 5) | _ => False end.
Proof. vm_compute. auto. Qed.

(** C05 *)
Theorem objdump_label_table : forall mb flt input s, run mb flt input = Ok s -> o_stopParsing s = false ->
  o_labels s = label_table 1 (o_lines s)
  /\ Forall (fun l => l_is_label l = true -> l_text l = (l_label l ++ [":"%char])) (o_lines s).
Proof. exact C05_lemma. Qed.
Theorem objdump_label_definitions : forall mb flt input s name n, run mb flt input = Ok s -> o_stopParsing s = false ->
  (In (name, n) (o_labels s) <-> label_line_at (o_lines s) name n).
Proof. exact C05_nth. Qed.
Example objdump_label_case :
  match sample_result with
  | Ok s => o_stopParsing s = false /\ label_line_at (o_lines s) (T "square") 4
  | _ => False end.
Proof. vm_compute. repeat split; try discriminate. eexists. repeat split; reflexivity. Qed.

(** C06 *)
Theorem objdump_label_at_cap : forall mb flt input s, run mb flt input = Ok s -> o_stopParsing s = true ->
  exists a b s0, input = (a ++ LF :: b) /\ run mb flt a = Ok s0 /\ o_stopParsing s0 = false /\
    exists pre, o_lines s = (pre ++ [truncated_line]) /\ Z.of_nat (length pre) = 5000 /\
      ((o_inLabel s0 = false /\ o_labels s = label_table 1 pre)
       \/ (o_inLabel s0 = true /\ exists name, name = label_name (o_text s0)
             /\ o_labels s = (label_table 1 pre ++ [(name, 5001)]))).
Proof. exact C06_lemma. Qed.

(** C07 *)
Theorem objdump_ignored_never_shown : forall mb flt s, reachable mb flt s ->
  (forall l, In l (o_lines s) -> l_is_label l = true -> shouldIgnoreFunction (l_label l) flt = false)
  /\ (forall l r, In l (o_lines s) -> In r (l_labels l) -> shouldIgnoreFunction (lb_name r) flt = false)
  /\ (forall name n, In (name, n) (o_labels s) -> shouldIgnoreFunction name flt = false).
Proof. exact C07_lemma. Qed.
Example objdump_ignored_case :
  view (run mblen_ascii no_filter (lns ["401000 <_start>:"; " 401000:~90  ~call 1 <main>"; "401010 <main>:"; " 401010:~90  ~call 1 <_start>"]%string))
  = Some (Ts ["main:"; " call 1 <_start>"]%string, [(T "main", 1)]).
Proof. vm_compute. reflexivity. Qed.

(** C22 *)
Theorem objdump_no_line_break : forall mb flt s l, reachable mb flt s -> In l (o_lines s) ->
  ~ In LF (l_text l) /\ ~ In CR (l_text l).
Proof. exact C22_breaks. Qed.
Theorem objdump_text_output_lines : forall mb flt s, reachable mb flt s ->
  text_lines (outputText s) = map l_text (o_lines s).
Proof. exact C22_lines. Qed.
Example objdump_text_case : match sample_result with
  | Ok s => length (text_lines (outputText s)) = 5%nat
  | _ => False end.
Proof. vm_compute. reflexivity. Qed.

(** C24: in one run of a fresh parser the text never starts with a slash while
    the address is being read, so [actually_filename] is never called ... *)
Theorem objdump_filename_branch_dead : forall mb flt input s t, run mb flt input = Ok s ->
  o_inAddress s = true -> o_text s <> "/"%char :: t.
Proof. exact C24_lemma. Qed.
(** ... but a second call on a parser whose first input stopped inside a source
    line does reach it. *)
Theorem objdump_filename_branch_dead_history_refuted :
  exists mb flt s t, reachable mb flt s /\ o_text (set_o_inAddress true (set_o_total_lines 0 s)) = "/"%char :: t
    /\ exists s', fromStream mb flt s (T ":") = Ok s' /\ o_currentFilename s' = T "/foo" /\ o_skipRestOfTheLine s' = true.
Proof.
  exists mblen_ascii, no_filter.
  destruct (fromStream mblen_ascii no_filter ostate0 (T "/foo")) as [s1| | |] eqn:E; try discriminate.
  exists s1, (T "foo"). split; [econstructor; [constructor|exact E]|].
  vm_compute in E. injection E as <-. split; [reflexivity|]. eexists. repeat split; reflexivity.
Qed.

Print Assumptions objdump_cr_irrelevant.
Print Assumptions objdump_last_line_dropped.
Print Assumptions objdump_cap.
Print Assumptions objdump_cap_final.
Print Assumptions objdump_lines_counted.
Print Assumptions objdump_filtered_count.
Print Assumptions objdump_label_table.
Print Assumptions objdump_label_definitions.
Print Assumptions objdump_label_at_cap.
Print Assumptions objdump_ignored_never_shown.
Print Assumptions objdump_no_line_break.
Print Assumptions objdump_text_output_lines.
Print Assumptions objdump_filename_branch_dead.
Print Assumptions objdump_filename_branch_dead_history_refuted.
