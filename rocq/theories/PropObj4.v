(** Objdump parser: text before the first word of a line (C77), and a parser
    used for several streams (C78). *)
From Verif Require Import ObjThm1 ObjBasic ObjPieces ObjSmall Tests PropObj1.
Arguments T _%string_scope.
Arguments ln _%string_scope.

(** C77: semicolons, carriage returns and white space at the start of a line
    have no effect at all.  [whole_lines a]: [a] is empty or ends with a line
    feed, so that [p] starts a line. *)
Theorem objdump_lead_ignored : forall mb flt a p b, whole_lines a ->
  Forall (fun c => c = ";"%char \/ c = CR \/ (is_whitespace c = true /\ c <> LF)) p ->
  run mb flt (a ++ p ++ b) = run mb flt (a ++ b).
Proof. exact lead_skipped. Qed.
Example objdump_lead_case :
  view (run mblen_ascii no_filter (ln "401000 <f>:" ++ T " ; ;; " ++ ln "401000:~c3  ~ret")) = Some (Ts ["f:"; " ret"]%string, [(T "f", 1)])
  /\ view (run mblen_ascii no_filter (ln "401000 <f>:" ++ T "# " ++ ln "401000:~c3  ~ret")) <> view (run mblen_ascii no_filter (ln "401000 <f>:" ++ ln "401000:~c3  ~ret")).
Proof. split; [now vm_compute|]. vm_compute. discriminate. Qed.

(** C78: every call counts the line feeds of its own stream only, up to the one at which
    it stops ... *)
Theorem objdump_count_again : forall mb flt s input s', fromStream mb flt s input = Ok s' -> o_stopParsing s = false ->
  (o_stopParsing s' = false /\ o_total_lines s' = count_lf input)
  \/ (exists a b s0, input = a ++ LF :: b /\ fromStream mb flt s a = Ok s0 /\ o_stopParsing s0 = false
        /\ fromStream mb flt s (a ++ [LF]) = Ok s' /\ o_stopParsing s' = true /\ o_total_lines s' = count_lf (a ++ [LF])).
Proof. exact count_again. Qed.
(** ... so that a call on a parser that has stopped reports fewer lines than it
    shows: filteredCount of the JSON is negative. *)
Theorem objdump_count_after_cap : forall mb flt s input s', reachable mb flt s -> o_stopParsing s = true ->
  fromStream mb flt s input = Ok s' -> o_lines s' = o_lines s /\
  o_total_lines s' = 0 /\ filteredCount (o_total_lines s') (Z.of_nat (length (o_lines s'))) = -5001.
Proof.
  intros mb flt s input s' Hr Hs H. split; [|eapply count_after_cap; eassumption].
  rewrite fromStream_stopped in H by exact Hs. now injection H as <-.
Qed.
(** A second call adds its lines to those of the first, but not its count. *)
Example objdump_count_again_case : exists s s',
  fromStream mblen_ascii no_filter ostate0 sample = Ok s /\ fromStream mblen_ascii no_filter s (ln "0 <g>:") = Ok s' /\
  (length (o_lines s), o_total_lines s) = (5%nat, 9) /\ (length (o_lines s'), o_total_lines s') = (6%nat, 1) /\
  filteredCount (o_total_lines s') (Z.of_nat (length (o_lines s'))) = -5.
Proof. do 2 eexists. split; [vm_compute; reflexivity|]. split; [vm_compute; reflexivity|]. now vm_compute. Qed.

Print Assumptions objdump_lead_ignored.
Print Assumptions objdump_count_again.
Print Assumptions objdump_count_after_cap.
