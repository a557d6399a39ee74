(** Properties C101, C102: cleaning a line twice, reading the output again. *)
From Verif Require Import AsmLemmas AsmRead AsmMark AsmTrace AsmThms AsmLines UtilAgain AsmTwice Tests PropAsm1.
Arguments T _%string_scope.
Arguments ln _%string_scope.

(** C101.  White space that was squashed once stays as it is, ... *)
Theorem squash_settles : forall line b, squashHorizontalWhitespace (squashHorizontalWhitespace line b) b = squashHorizontalWhitespace line b.
Proof. intros line []; [apply squash_start_again|apply squash_inner_again]. Qed.
Theorem squash_quotes_settles : forall line b b',
  squashHorizontalWhitespaceWithQuotes (squashHorizontalWhitespaceWithQuotes line b) b' = squashHorizontalWhitespaceWithQuotes line b.
Proof. exact squash_quotes_again. Qed.
(** ... so do expanded tabs and labels moved to the margin. *)
Theorem tabs_settle : forall line, (~ In TAB line -> expandTabs line = line) /\ expandTabs (expandTabs line) = expandTabs line.
Proof. intros line. split; [apply no_tabs_expanded|apply tabs_again]. Qed.
Theorem label_margin_settles : forall line, fixLabelIndentation (fixLabelIndentation line) = fixLabelIndentation line.
Proof. exact label_indentation_again. Qed.
(** A comment taken off twice need not be the comment alone: each time a word is lost. *)
Theorem comment_settles_refuted : exists line, getLineWithoutComment (getLineWithoutComment line) <> getLineWithoutComment line.
Proof. exists (T "mov eax, ebx"). vm_compute. discriminate. Qed.
(** White space between two quoted strings is lost (regexwrappers.cpp:652 takes
    the text after a string for the start of a line). *)
Theorem strings_run_together : forall a g b start, quoted a -> blank g -> quoted b ->
  squashHorizontalWhitespaceWithQuotes (a ++ g ++ b) start = a ++ b.
Proof. intros. now apply strings_joined. Qed.
Example settles_case : let f := fun s => squashHorizontalWhitespaceWithQuotes (T s) true in
  f "x  `a  b` ,  `c` `d`  `e  \"%string = T "x`a  b` ,`c``d`  `e \" /\ f "x`a  b` ,`c``d`  `e \"%string = T "x`a  b` ,`c``d`  `e \".
Proof. split; vm_compute; reflexivity. Qed.
Example strings_case : quoted (T "`a`") /\ blank (T "  ") /\ squashHorizontalWhitespaceWithQuotes (T "`a`  `b`") true = T "`a``b`".
Proof.
  split; [exists (T "a"); split; [|reflexivity]; constructor; [discriminate|discriminate|constructor]|]. split; [repeat constructor|now vm_compute].
Qed.

(** C102.  What is shown without filters (white space excepted) is shown again
    when it is read back, if there is no inline assembly. *)
Theorem asm_shown_settles : forall mb flt oref olab fuel input vis s vis' mb2 oref2 olab2 fuel2 vis2 s2 vis2',
  f_directives flt = false -> f_comment_only flt = false -> f_library_functions flt = false -> f_unused_labels flt = false ->
  AsmText.run mb flt oref olab fuel input vis = Ok (s, vis') ->
  (forall raw nest, In (CText raw nest) (scan_input flt input) -> nest <= 0) -> Forall no_marker (map lv_text (t_lines s)) ->
  AsmText.run mb2 flt oref2 olab2 fuel2 (join_lines (map lv_text (t_lines s))) vis2 = Ok (s2, vis2') ->
  map lv_text (t_lines s2) = map lv_text (t_lines s).
Proof. exact shown_again. Qed.
(** With white space that becomes the mark of inline assembly it is not. *)
Theorem asm_shown_settles_refuted : exists input s v s2 v2,
  AsmText.run mblen_ascii no_filter id id 10 input [] = Ok (s, v) /\
  AsmText.run mblen_ascii no_filter id id 10 (join_lines (map lv_text (t_lines s))) [] = Ok (s2, v2) /\
  map lv_text (t_lines s2) <> map lv_text (t_lines s).
Proof.
  exists (lns ["      #~Begin ASM"; "  x:"]%string). do 4 eexists. split; [vm_compute; reflexivity|]. split; [vm_compute; reflexivity|]. vm_compute. discriminate.
Qed.
Definition squeezed : Filter := mkFilter false false false false false true false false false false.
Definition odd_text : str := lns ["  "; "x  y  z:"; ""; " "; "~.string~`a  b`   `c`"; "# c  d"]%string.
Example asm_shown_settles_case : texts (go squeezed odd_text) = Some (Ts ["  x y z:"; ""; "  .string `a  b``c`"; "#c d"]%string) /\
  texts (go squeezed (lns ["  x y z:"; ""; "  .string `a  b``c`"; "#c d"]%string)) = Some (Ts ["  x y z:"; ""; "  .string `a  b``c`"; "#c d"]%string).
Proof. split; vm_compute; reflexivity. Qed.

Print Assumptions squash_settles.
Print Assumptions squash_quotes_settles.
Print Assumptions tabs_settle.
Print Assumptions label_margin_settles.
Print Assumptions comment_settles_refuted.
Print Assumptions strings_run_together.
Print Assumptions asm_shown_settles.
Print Assumptions asm_shown_settles_refuted.
