(** Text parser: several calls of fromStream on one parser object (C96). *)
From Coq Require Import Permutation.
From Verif Require Import AsmLemmas AsmRead AsmMark AsmTrace AsmThms AsmUse AsmSearch AsmComplete AsmRemove AsmAgain Tests PropAsm1 PropAsm2.
Arguments T _%string_scope.
Arguments ln _%string_scope.

(** C96: without the two filters that remove lines at the end, any number of calls
    keeps the line numbers of the labels in range. *)
Theorem asm_calls_defined : forall mb flt oref olab, (forall m, Permutation (olab m) m) ->
  f_unused_labels flt = false -> f_compatmode flt = false -> forall fuel inputs vis,
  fold_right (fun i n => Z.of_nat (length i) + 1 + n) 0 inputs < two31 ->
  (exists r, calls mb flt oref olab fuel inputs tstate0 vis = Ok r) \/ calls mb flt oref olab fuel inputs tstate0 vis = Diverges.
Proof.
  intros mb flt oref olab Hl Hu Hc fuel inputs vis Hb.
  exact (calls_usable mb flt oref olab Hl Hu Hc fuel inputs tstate0 vis 0 (usable0 flt Hu Hc) Hb).
Qed.
(** The second call adds to the first, and its labels are numbered on. *)
Example asm_calls_defined_case : exists s vis',
  calls mblen_ascii no_filter id id 50 [lns ["~.globl~f"; "f:"; "~ret"]%string; lns ["~.globl~g"; "g:"; "~jmp~f"]%string] tstate0 [] = Ok (s, vis') /\
  map (fun e => (v_str (fst e), snd e)) (t_labels_defined s) = [(T "f", 2); (T "g", 5)] /\
  map (fun l => (v_str (lv_label l), lv_is_used l)) (filter lv_is_label (t_lines s)) = [(T "f", true); (T "g", true)] /\
  length (t_lines s) = 6%nat /\ t_total_lines s = 3.
Proof. eexists. eexists. split; [vm_compute; reflexivity|]. now vm_compute. Qed.

(** With one of them on, a call whose label table points past the lines that are
    left is never defined, whatever the orders of the tables. *)
Theorem asm_reuse_out_of_range : forall mb flt oref olab, (forall m, Permutation (olab m) m) -> forall fuel s input vis r,
  (exists e, In e (t_labels_defined (read_lines mb flt s input)) /\ Z.of_nat (length (t_lines (read_lines mb flt s input))) < snd e) ->
  fromStream mb flt oref olab fuel s input vis <> Ok r.
Proof. exact stream_out. Qed.
(** The table is not reset and the lines were removed: a function nobody uses is
    enough to make every second call, even on an empty stream, read outside
    [lines]. *)
Theorem asm_second_call_refuted : exists flt input,
  forall oref olab, (forall m, Permutation (olab m) m) -> forall fuel, exists s vis',
  AsmText.run mblen_ascii flt oref olab (S fuel) input [] = Ok (s, vis') /\
  forall fuel2 vis2, fromStream mblen_ascii flt oref olab fuel2 s [] vis2 = UB IndexRange.
Proof.
  exists only_unused, (lns ["f:"; "~ret"]%string). intros oref olab Hl fuel.
  assert (Ho : forall e, olab [e] = [e]) by (intros e; apply Permutation_length_1_inv, Permutation_sym, Hl).
  unfold AsmText.run, fromStream, markLabelUsage.
  set (s0 := filterNonLabels (read_lines mblen_ascii only_unused tstate0 (lns ["f:"; "~ret"]%string))).
  assert (E : s0 = ltac:(let x := eval vm_compute in (filterNonLabels (read_lines mblen_ascii only_unused tstate0 (lns ["f:"; "~ret"]%string))) in exact x)) by now vm_compute.
  rewrite E. cbn [t_labels_defined]. rewrite Ho. clear E s0. cbn. eexists. eexists. split; [reflexivity|].
  intros fuel2 vis2. cbn. rewrite Ho. cbn. reflexivity.
Qed.
(** With enough lines in the next stream the stale number names one of them. *)
Example asm_second_call_wrong_line : exists s vis' s2 vis2, go only_unused (lns ["f:"; "~ret"]%string) = Ok (s, vis') /\ t_lines s = [] /\
  fromStream mblen_ascii only_unused id id 50 s (lns ["~.globl~g"; "g:"; "~ret"]%string) vis' = Ok (s2, vis2) /\
  map (fun e => (v_str (fst e), snd e)) (t_labels_defined s2) = [(T "f", 1); (T "g", 2)] /\
  map lv_text (t_lines s2) = [T "        .globl  g"; T "g:"; T "        ret"].
Proof. eexists. eexists. eexists. eexists. split; [vm_compute; reflexivity|]. split; [reflexivity|]. split; [vm_compute; reflexivity|]. now vm_compute. Qed.

Print Assumptions asm_calls_defined.
Print Assumptions asm_reuse_out_of_range.
Print Assumptions asm_second_call_refuted.
