(** Property C114: the regular expressions of the model are those of the source
    text.  [patterns] (Patterns.v) is copied from src/utils/regexes.hpp by a tool;
    [parse_re] (RegexSyntax.v) reads the text of a pattern. *)
From Verif Require Import Utils RegexNorm Patterns UtilQuotes Tests.
Arguments T _%string_scope.

Definition the_pattern (name : string) : option (kind * string) :=
  match find (fun e => String.eqb (fst (fst e)) name) patterns with Some (_, k, p) => Some (k, p) | None => None end.
(** Regexes::name(s) *)
Definition ctre (name : string) (s : str) : option mstate :=
  match the_pattern name with
  | Some (k_match, p) => match parse_re p with Some r => re_match r s | None => None end
  | Some (k_search, p) => match parse_re p with Some r => re_search r s | None => None end
  | _ => None
  end.
(** ctre::range<...>: the next match from a position *)
Definition ctre_next (name : string) (pos : nat) (s : str) : option (nat * mstate) :=
  match the_pattern name with
  | Some (k_range, p) => match parse_re p with Some r => search_from r pos s | None => None end
  | _ => None
  end.
Arguments the_pattern _%string_scope.
Arguments ctre _%string_scope _.
Arguments ctre_next _%string_scope _ _.

Lemma matches n p r s : the_pattern n = Some (k_match, p) -> reads_as p r = true -> re_match r s = ctre n s.
Proof. intros H1 H2. unfold ctre. rewrite H1. destruct (reads_alike p r H2) as (r' & -> & H). symmetry. now apply alike_match. Qed.
Lemma searches n p r s : the_pattern n = Some (k_search, p) -> reads_as p r = true -> re_search r s = ctre n s.
Proof. intros H1 H2. unfold ctre. rewrite H1. destruct (reads_alike p r H2) as (r' & -> & H). symmetry. now apply alike_search. Qed.
Lemma ranges n p r s pos : the_pattern n = Some (k_range, p) -> reads_as p r = true -> search_from r pos s = ctre_next n pos s.
Proof. intros H1 H2. unfold ctre_next. rewrite H1. destruct (reads_alike p r H2) as (r' & -> & H). symmetry. now apply alike_search_from. Qed.
Ltac by_name n := first [ rewrite (matches n _ _ _ eq_refl) by (vm_compute; reflexivity) | rewrite (searches n _ _ _ eq_refl) by (vm_compute; reflexivity) ].

(** All 43 texts are regular expressions the reader understands. *)
Theorem patterns_are_read : Forall (fun e => exists r, parse_re (snd e) = Some r) patterns /\ length patterns = 43%nat.
Proof.
  split; [|reflexivity].
  assert (H : forallb (fun e => is_some (parse_re (snd e))) patterns = true) by (vm_compute; reflexivity).
  rewrite forallb_forall in H. apply Forall_forall. intros e He. specialize (H e He).
  destruct (parse_re (snd e)) as [r|]; [now exists r|discriminate].
Qed.
Print Assumptions patterns_are_read.

(** regexwrappers.cpp, the functions that only test a pattern *)
Theorem patterns_of_tests : forall l,
  startCommentBlock l = is_some (ctre "blockCommentStart" l) /\
  endCommentBlock l = is_some (ctre "blockCommentStop" l) /\
  startAppBlock l = is_some (ctre "startAppBlock" l) /\
  endAppBlock l = is_some (ctre "endAppBlock" l) /\
  startAsmNesting l = is_some (ctre "startAsmNesting" l) /\
  endAsmNesting l = is_some (ctre "endAsmNesting" l) /\
  startProcBlock l = is_some (ctre "startProcBlock" l) /\
  endBlock l = is_some (ctre "endBlock" l) /\
  endProcBlock l = is_some (ctre "endProcBlock" l) /\
  isJustComments l = is_some (ctre "commentOnly" l) /\
  isJustNvccComments l = is_some (ctre "commentOnlyNvcc" l) /\
  isCudaEndDef l = is_some (ctre "cudaEndDef" l) /\
  isDataDefn l = is_some (ctre "dataDefn" l) /\
  isDirective l = is_some (ctre "directive" l) /\
  isInstOpcode l = is_some (ctre "instOpcodeRe" l) /\
  isExampleOrStdin l = is_some (ctre "stdInLooking" l).
Proof.
  intros l.
  unfold startCommentBlock, endCommentBlock, startAppBlock, endAppBlock, startAsmNesting, endAsmNesting, startProcBlock,
    endBlock, endProcBlock, isJustComments, isJustNvccComments, isCudaEndDef, isDataDefn, isDirective, isInstOpcode, isExampleOrStdin.
  by_name "blockCommentStart"%string. by_name "blockCommentStop"%string. by_name "startAppBlock"%string. by_name "endAppBlock"%string.
  by_name "startAsmNesting"%string. by_name "endAsmNesting"%string. by_name "startProcBlock"%string. by_name "endBlock"%string.
  by_name "endProcBlock"%string. by_name "commentOnly"%string. by_name "commentOnlyNvcc"%string. by_name "cudaEndDef"%string.
  by_name "dataDefn"%string. by_name "directive"%string. by_name "instOpcodeRe"%string. by_name "stdInLooking"%string.
  repeat (split; [reflexivity|]). reflexivity.
Qed.
Print Assumptions patterns_of_tests.

(** ... that return one group *)
Theorem patterns_of_names : forall l,
  getLabel l = option_map (cap 1) (ctre "labelDef" l) /\
  getLabelAssignment l = option_map (cap 1) (ctre "labelAssignmentDef" l) /\
  getAssignmentDef l = option_map (cap 1) (ctre "assignmentDef" l) /\
  getCudaLabel l = option_map (cap 1) (ctre "cudaBeginDef" l) /\
  getFunctionTypeDefinedLabel l = option_map (cap 1) (ctre "definesFunctionOrObject" l) /\
  getWeakDefinedLabel l = option_map (cap 1) (ctre "definesWeak" l) /\
  getGlobalDefinedLabel l = option_map (cap 1) (ctre "definesGlobal" l) /\
  getD2FileInfo l = option_map (cap 1) (ctre "sourceD2File" l) /\
  getD2LineInfo l = option_map (fun mt => to_number (cap 1 mt)) (ctre "sourceD2Tag" l) /\
  getSectionNameDef l =
    option_map (fun mt => if str_eqb (cap 1 mt) (T "section") then cap 2 mt else cap 1 mt) (ctre "sectionDef" l).
Proof.
  intros l.
  unfold getLabel, getLabelAssignment, getAssignmentDef, getCudaLabel, getFunctionTypeDefinedLabel, getWeakDefinedLabel,
    getGlobalDefinedLabel, getD2FileInfo, getD2LineInfo, getSectionNameDef.
  by_name "labelDef"%string. by_name "labelAssignmentDef"%string. by_name "assignmentDef"%string. by_name "cudaBeginDef"%string.
  by_name "definesFunctionOrObject"%string. by_name "definesWeak"%string. by_name "definesGlobal"%string.
  by_name "sourceD2File"%string. by_name "sourceD2Tag"%string. by_name "sectionDef"%string.
  repeat (split; [reflexivity|]). reflexivity.
Qed.
Print Assumptions patterns_of_names.

(** ... that return a place in the source *)
Theorem patterns_of_places : forall l,
  getSourceRef l =
    match ctre "sourceTag" l with
    | Some mt => (to_number (cap 1 mt), to_number (cap 2 mt),
                  match ctre "sourceTagWithColumn" l with Some mc => to_number (cap 3 mc) | None => 0%Z end)
    | None => (0, 0, 0)%Z
    end /\
  getFileDef l =
    option_map (fun mt => (to_number (cap 1 mt), match cap 4 mt with [] => cap 2 mt | rest => cap 2 mt ++ T "/" ++ rest end))
      (ctre "fileFind" l) /\
  getSourceInfoFromStabs l =
    option_map (fun mt => mkStabn (to_number (cap 1 mt)) (if (to_number (cap 1 mt) =? 68)%Z then to_number (cap 2 mt) else 0%Z))
      (ctre "sourceStab" l) /\
  get6502DbgInfo l =
    match ctre "source6502Dbg" l with
    | Some mt => Some (cap 1 mt, to_number (cap 2 mt), false)
    | None => option_map (fun _ => ([], 0%Z, true)) (ctre "source6502DbgEnd" l)
    end.
Proof.
  intros l. unfold getSourceRef, getFileDef, getSourceInfoFromStabs, get6502DbgInfo.
  by_name "sourceTag"%string. by_name "sourceTagWithColumn"%string. by_name "fileFind"%string. by_name "sourceStab"%string.
  by_name "source6502Dbg"%string. by_name "source6502DbgEnd"%string.
  split; [reflexivity|split; [|split]].
  - destruct (ctre "fileFind" l) as [mt|]; [|reflexivity]. cbn [option_map]. now destruct (cap 4 mt).
  - destruct (ctre "sourceStab" l) as [mt|]; [|reflexivity]. cbn [option_map]. cbv zeta. now destruct (to_number (cap 1 mt) =? 68)%Z.
  - destruct (ctre "source6502Dbg" l) as [mt|]; [reflexivity|]. now destruct (ctre "source6502DbgEnd" l).
Qed.
Print Assumptions patterns_of_places.

Lemma squash_quotes_fuel : forall k k' l b, (length l <= k)%nat -> (length l <= k')%nat -> squash_quotes k l b = squash_quotes k' l b.
Proof.
  assert (E : forall k b, squash_quotes k [] b = squashHorizontalWhitespace [] true).
  { intros [|k] b; [reflexivity|]. cbn [squash_quotes]. now rewrite search_quotes_nil. }
  induction k as [|k IH]; intros k' l b H1 H2.
  - destruct l; [|cbn in H1; lia]. now rewrite !E.
  - destruct k' as [|k']; [destruct l; [|cbn in H2; lia]; now rewrite !E|].
    cbn [squash_quotes]. destruct (re_search findQuotes l) as [st|] eqn:Q; [|reflexivity].
    apply search_quotes_some in Q as (Hl & Hq & _).
    apply quoted_len in Hq.
    assert (Hlen : (length l = length (cap 1 st) + (length (cap 2 st) + length (cap 3 st)))%nat) by (rewrite Hl at 1; now rewrite !app_length).
    rewrite (IH k' (cap 1 st) b) by lia. now rewrite (IH k' (cap 3 st) false) by lia.
Qed.

(** ... and the others; [used_labels_loop] is the loop over ctre::range, for which the
    next match is that of the text at regexwrappers.cpp:223 *)
Theorem patterns_of_others :
  (forall l nv, hasOpcode l nv =
     let c := getLineWithoutComment l in
     is_some (ctre "instOpcodeRe" c) ||
     (negb (is_some (ctre "assignmentDef" c)) && is_some (if nv then ctre "hasNvccOpcodeRe" c else ctre "hasOpcodeRe" c)))%bool /\
  (forall f flt, shouldIgnoreFunction f flt =
     is_some (ctre "binaryIgnoreFunction" f) ||
     (f_plt flt && (ends_with (T "@plt") f || ends_with (T "@plt>") f || is_some (ctre "pltFunction" f))))%bool /\
  (forall l b, squashHorizontalWhitespaceWithQuotes l b =
     match ctre "findQuotes" l with
     | Some mt => squashHorizontalWhitespaceWithQuotes (cap 1 mt) b ++ cap 2 mt ++ squashHorizontalWhitespaceWithQuotes (cap 3 mt) false
     | None => squashHorizontalWhitespace l true
     end) /\
  (forall pos rest, search_from usedLabelRe pos rest = ctre_next "usedLabels" pos rest).
Proof.
  split; [|split; [|split]].
  - intros l nv. unfold hasOpcode. cbv zeta. generalize (getLineWithoutComment l). intros c.
    by_name "instOpcodeRe"%string. by_name "assignmentDef"%string. by_name "hasNvccOpcodeRe"%string. by_name "hasOpcodeRe"%string.
    destruct (ctre "instOpcodeRe" c); [reflexivity|]. destruct (ctre "assignmentDef" c); [reflexivity|]. now destruct nv.
  - intros f flt. unfold shouldIgnoreFunction. by_name "binaryIgnoreFunction"%string. by_name "pltFunction"%string.
    destruct (ctre "binaryIgnoreFunction" f); [reflexivity|]. cbn [is_some orb]. now destruct (f_plt flt).
  - intros l b. unfold squashHorizontalWhitespaceWithQuotes.
    destruct l as [|x l]; [reflexivity|]. cbn [length squash_quotes]. by_name "findQuotes"%string.
    destruct (ctre "findQuotes" (x :: l)) as [st|] eqn:Q; [|reflexivity].
    assert (Q' : re_search findQuotes (x :: l) = Some st) by (by_name "findQuotes"%string; exact Q).
    apply search_quotes_some in Q' as (Hl & Hq & _).
    apply quoted_len in Hq.
    assert (Hlen : (S (length l) = length (cap 1 st) + (length (cap 2 st) + length (cap 3 st)))%nat)
      by (change (S (length l)) with (length (x :: l)); rewrite Hl at 1; now rewrite !app_length).
    rewrite (squash_quotes_fuel (length l) (length (cap 1 st))) by lia.
    now rewrite (squash_quotes_fuel (length l) (length (cap 3 st))) by lia.
  - intros pos rest. apply (ranges "usedLabels" _ _ _ _ eq_refl). vm_compute. reflexivity.
Qed.
Print Assumptions patterns_of_others.

(** The reader on texts it does not know: nothing is returned (no pattern of the
    source is like that, by [patterns_are_read]). *)
Example patterns_example :
  parse_re "(a" = None /\ parse_re "a)" = None /\ parse_re "[a" = None /\ parse_re "*a" = None /\
  option_map (fun st => (cap 1 st, cap 2 st, cap 4 st)) (ctre "fileFind" (T "  .file 3 `/a` `b.c` ")) = Some (T "3", T "/a", T "b.c") /\
  option_map (cap 1) (ctre "labelDef" (T "main: nop")) = Some (T "main") /\
  is_some (ctre "directive" (T "  .text")) = true /\ is_some (ctre "directive" (T " nop .text")) = false.
Proof. repeat (split; [vm_compute; reflexivity|]). vm_compute. reflexivity. Qed.
