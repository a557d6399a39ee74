(** Text utilities, regular expressions, command line (C51-C64). *)
From Verif Require Import Tests PropObj1 PropObj2 UtilText UtilQuotes UtilLabels UtilMisc.
Arguments T _%string_scope.
Local Open Scope nat_scope.

(** C51 *)
Theorem ignored_names : forall (name : str) (f : Filter),
  shouldIgnoreFunction name f = true <->
  (exists t, name = lit "__" ++ t) \/ (exists t, name = lit ".plt" ++ t) \/ runtime_name name \/
  (f_plt f = true /\
   ((exists a, name = a ++ lit "@plt>") \/
    exists a b, name = a ++ lit "@plt" ++ b /\ Forall (fun c => plt_tail_char c = true) b)).
Proof. exact C51_lemma. Qed.
Example ignored_names_case :
  map (fun n => shouldIgnoreFunction (lit n) no_filter) ["_start"; "_start2"; "__x"; "main"; "f@plt"]%string
  = [true; false; true; false; false].
Proof. vm_compute. reflexivity. Qed.

(** C52 *)
Theorem tabs_expanded : forall line, expanded 0 line (expandTabs line) /\ ~ In TAB (expandTabs line) /\
  forall a b, line = a ++ TAB :: b -> ~ In TAB a ->
    exists k o, expandTabs line = a ++ repeat SP k ++ o /\ 1 <= k <= 8 /\ (length a + k) mod 8 = 0.
Proof.
  intros line. split; [apply C52_expanded|]. split; [eapply expanded_no_tab, C52_expanded|].
  intros a b ->. apply C52_first.
Qed.
Example tabs_expanded_case : expandTabs (T "ab~c") = T "ab      c".
Proof. vm_compute. reflexivity. Qed.

(** C53: the second tab misses its stop; with every tab but the last at a
    multiple of eight the result is the usual one. *)
Theorem tab_stops_refuted : exists line, ~ tab_stops 0 line (expandTabs line).
Proof.
  exists (T "a~b~c"). vm_compute (expandTabs _). intros H.
  repeat match goal with H : tab_stops _ ?l _ |- _ => inversion H; clear H; subst; try discriminate end; cbn in *; congruence.
Qed.
Theorem tab_stops_missed : forall a b c, ~ In TAB a -> ~ In TAB b -> length a mod 8 <> 0 ->
  exists u v, expandTabs (a ++ TAB :: b ++ TAB :: c) = u ++ v /\ expandTabs (a ++ TAB :: b ++ [TAB]) = u /\ length u mod 8 <> 0.
Proof. exact C53_second. Qed.
Theorem tab_stops_reached : forall line,
  (forall a b, line = a ++ TAB :: b -> In TAB b -> nontabs a mod 8 = 0) -> tab_stops 0 line (expandTabs line).
Proof. exact C53_ok. Qed.
Example tab_stops_case : expandTabs (T "a~b~c") = T "a       b      c" /\ expandTabs (T "~a~c") = T "        a       c".
Proof. vm_compute. auto. Qed.

(** C54 *)
Theorem words_kept : forall line, exists ind l, blank ind /\ word_list l /\ line = ind ++ text_of l /\
  squashHorizontalWhitespace line true = squash_result ind l /\
  squashHorizontalWhitespace line false = one_space ind ++ squashed l.
Proof.
  intros line. destruct (decompose line) as (ind & l & Hi & Hl & ->). exists ind, l.
  repeat split; auto using C54_lemma, C54_inner.
Qed.
Example words_kept_case :
  squashHorizontalWhitespace (T "    mov~~eax,  1 ") true = T "  mov eax, 1 " /\
  squashHorizontalWhitespace (T "a  bc") true = T "abc".
Proof. vm_compute. auto. Qed.

(** C55 *)
Theorem quotes_kept : forall line b, exists l last, quote_split line l last /\
  squashHorizontalWhitespaceWithQuotes line b =
  List.concat (map (fun p => squashHorizontalWhitespace (fst p) true ++ snd p) l) ++ squashHorizontalWhitespace last true.
Proof. exact C55_lemma. Qed.
Theorem quotes_cut_unique : forall line l last l' last',
  quote_split line l last -> quote_split line l' last' -> l = l' /\ last = last'.
Proof. intros line l last l' last' H H'. eapply quote_split_unique; eassumption. Qed.
Example quotes_kept_case :
  squashHorizontalWhitespaceWithQuotes (lit "  .string  ""a  b""") true = lit "  .string ""a  b""".
Proof. vm_compute. reflexivity. Qed.

(** C56: a prefix without comment characters; complete up to a comment ... *)
Theorem comment_stripped : forall line,
  exists rest, line = getLineWithoutComment line ++ rest /\ no_comment (getLineWithoutComment line).
Proof. exact C56_prefix. Qed.
Theorem comment_words_kept : forall ind l w g t, blank ind -> spaced l -> word w -> blank g ->
  no_comment (text_of l ++ w) -> comment_tail t ->
  getLineWithoutComment (ind ++ text_of l ++ w ++ g ++ t) = ind ++ text_of l ++ w.
Proof. exact C56_comment. Qed.
(** ... but without one the last of several words is lost. *)
Theorem last_word_lost : forall ind l w g v, blank ind -> spaced l -> word w -> blank g -> g <> [] -> word v ->
  no_comment (text_of l ++ w ++ v) ->
  getLineWithoutComment (ind ++ text_of l ++ w ++ g ++ v) = ind ++ text_of l ++ w.
Proof. exact C56_lost. Qed.
Example last_word_case : getLineWithoutComment (T "  mov eax, ebx") = T "  mov eax," /\
  getLineWithoutComment (T "  mov eax, ebx  # c") = T "  mov eax, ebx".
Proof. vm_compute. auto. Qed.

(** C57 *)
Theorem first_word_stripped : forall line, exists pre post,
  line = pre ++ getLineWithoutCommentAndStripFirstWord line ++ post /\
  strip_offsets line = (length pre, length (pre ++ getLineWithoutCommentAndStripFirstWord line)).
Proof. exact C57_lemma. Qed.
Theorem operands_kept : forall pre w sp body c g t,
  no_comment pre -> no_letter pre ->
  match w with [] => False | d :: _ => letter d = true end -> word w -> no_comment w ->
  is_whitespace sp = true -> no_comment (body ++ [c]) -> is_whitespace c = false -> blank g -> ends_here t ->
  getLineWithoutCommentAndStripFirstWord (pre ++ w ++ sp :: body ++ [c] ++ g ++ t) = sp :: body ++ [c].
Proof. exact C57_result. Qed.
Example operands_case : getLineWithoutCommentAndStripFirstWord (T "  mov eax, ebx  # c") = T " eax, ebx".
Proof. vm_compute. reflexivity. Qed.

(** C58 *)
Theorem used_labels_exact : forall mb line, (Z.of_nat (length line) < 2 ^ 64)%Z ->
  let operands := getLineWithoutCommentAndStripFirstWord line in
  (In DQ operands -> getUsedLabelsInLine mb line = []) /\
  (~ In DQ operands -> exists l, tokens 0 operands l /\
     getUsedLabelsInLine mb line =
     flat_map (token_labels mb (Z.of_nat (length line) - Z.of_nat (length operands) + 1)) l).
Proof. exact C58_lemma. Qed.
Theorem used_labels_columns : forall mb line pre lbl, ascii_compatible mb -> (Z.of_nat (length line) < 65535)%Z ->
  line = pre ++ getLineWithoutCommentAndStripFirstWord line -> In lbl (getUsedLabelsInLine mb line) ->
  UtilLabels.columns line (r_start (lb_range lbl)) (r_end (lb_range lbl)) = lb_name lbl.
Proof. exact C58_select. Qed.
Definition named (l : list asm_label) : list (str * Z * Z) :=
  map (fun r => (lb_name r, r_start (lb_range r), r_end (lb_range r))) l.
Example used_labels_case :
  named (getUsedLabelsInLine mblen_ascii (T " lea $a, b_1")) = [(T "a", 7%Z, 8%Z); (T "$a", 6%Z, 8%Z); (T "b_1", 10%Z, 13%Z)].
Proof. vm_compute. reflexivity. Qed.

(** C59: with a comment the columns are too far right, by what was cut off. *)
Theorem used_labels_shifted : forall mb line pre operands post lbl,
  ascii_compatible mb -> (Z.of_nat (length line) < 65535)%Z ->
  line = pre ++ operands ++ post -> operands = getLineWithoutCommentAndStripFirstWord line ->
  In lbl (getUsedLabelsInLine mb line) ->
  exists a b, operands = a ++ lb_name lbl ++ b /\
    r_start (lb_range lbl) = (Z.of_nat (length (pre ++ a) + length post) + 1)%Z /\
    r_end (lb_range lbl) = (Z.of_nat (length (pre ++ a ++ lb_name lbl) + length post) + 1)%Z.
Proof. exact C58_columns. Qed.
Theorem used_labels_comment_refuted : exists line lbl, In lbl (getUsedLabelsInLine mblen_ascii line) /\
  UtilLabels.columns line (r_start (lb_range lbl)) (r_end (lb_range lbl)) <> lb_name lbl.
Proof.
  exists (T " jmp foo # loop back"). eexists. split; [left; reflexivity|]. vm_compute. discriminate.
Qed.
Example used_labels_comment_case :
  named (getUsedLabelsInLine mblen_ascii (T " jmp foo # loop back")) = [(T "foo", 18%Z, 21%Z)].
Proof. vm_compute. reflexivity. Qed.

(** C60 *)
Theorem characters_counted : forall mb,
  (forall s, (0 <= ustrlen mb s <= Z.of_nat (length s))%Z) /\
  (ascii_compatible mb -> forall s, ascii_text s -> ustrlen mb s = Z.of_nat (length s)) /\
  (utf8_locale mb -> forall cps, Forall scalar cps -> ustrlen mb (flat_map utf8 cps) = Z.of_nat (length cps)).
Proof.
  intros mb. split; [apply C60_le|]. split.
  - intros H s Hs. now apply ustrlen_ascii.
  - intros H cps Hc. now apply C60_utf8.
Qed.
Theorem utf8_locale_exists : utf8_locale mblen_utf8.
Proof. exact mblen_utf8_ok. Qed.
Example characters_counted_case :
  ustrlen mblen_utf8 (flat_map utf8 [97; 233; 8364; 128512]%Z) = 4%Z /\ length (flat_map utf8 [97; 233; 8364; 128512]%Z) = 10.
Proof. vm_compute. auto. Qed.

(** C61 *)
Theorem regex_match_language : forall r s, is_some (re_match r s) = true <-> den r [] s [].
Proof. exact re_match_den. Qed.
Theorem regex_search_language : forall r s,
  is_some (re_search r s) = true <-> exists a u b, s = a ++ u ++ b /\ den r a u b.
Proof. exact re_search_den. Qed.
Theorem regex_search_leftmost : forall r s st, re_search r s = Some st ->
  exists a u, s = a ++ u ++ m_rest st /\ m_pos st = length (a ++ u) /\ den r a u (m_rest st) /\
    forall a' v w, s = a' ++ v ++ w -> (length a' < length a) -> ~ den r a' v w.
Proof. intros r s st H. destruct (re_search_some r s st H) as (a & u & H1 & H2 & H3 & _ & H4). eauto 8. Qed.
Theorem regex_groups : forall r s st n, re_search r s = Some st \/ re_match r s = Some st -> always n r = true ->
  exists a pre post, In (n, a) (groups r) /\ s = pre ++ cap n st ++ post /\ den a pre (cap n st) post.
Proof. intros r s st n [H|H]; apply caps_of_cap; eauto using search_caps, match_caps. Qed.
Example regex_case : getLabel (T "foo.1:") = Some (T "foo.1") /\ getLabel (T "foo 1:") = None.
Proof. vm_compute. auto. Qed.

(** C62: the keyword is returned instead of the name. *)
Theorem cuda_label_keyword : forall line,
  (forall x, getCudaLabel line = Some x -> x = lit "entry" \/ x = lit "func") /\
  (getCudaLabel line <> None <-> exists kw name, cuda_line line kw name).
Proof. exact C62_lemma. Qed.
Example cuda_label_case : getCudaLabel (T ".visible .entry _Z6squarePii(") = Some (T "entry").
Proof. vm_compute. reflexivity. Qed.

(** C63 *)
Theorem library_paths : forall f, file_in_library f = true <->
  (exists t, f = lit "/opt/compiler-explorer/" ++ t) \/ (exists t, f = lit "/usr/include" ++ t) \/
  (exists t, f = lit "/usr/local/include" ++ t).
Proof. exact C63_lemma. Qed.
Example library_paths_case :
  map (fun n => file_in_library (lit n)) ["/usr/include/c++/iostream"; "/usr/local/lib/x.h"; "/app/example.cpp"]%string
  = [true; false; false].
Proof. vm_compute. reflexivity. Qed.

(** C64 *)
Theorem command_line : forall args,
  let c := getConfigurationFromCommandline args in
  c_filter c = mkFilter (has_arg "-binary" args) (has_arg "-unused_labels" args) (has_arg "-library_functions" args)
                        (has_arg "-directives" args) (has_arg "-comment_only" args) (has_arg "-whitespace" args)
                        (has_arg "-plt" args) (has_arg "-dont_mask_filenames" args) (negb (has_arg "-nocompat" args)) false /\
  c_useStdin c = has_arg "-stdin" args /\ c_doDebugDump c = has_arg "-debugdump" args /\
  c_outputText c = has_arg "-outputtext" args /\ c_filename c = last_name args /\
  c_isConfigured c = has_arg "-stdin" args || existsb (fun a => negb (is_option a)) args.
Proof. exact C64_lemma. Qed.
Example command_line_case :
  let c := getConfigurationFromCommandline (map lit ["a.s"; "-plt"; "-typo"; "-outputtext"])%string in
  c_filename c = lit "-typo" /\ f_plt (c_filter c) = true /\ f_binary (c_filter c) = false /\ c_outputText c = true.
Proof. vm_compute. auto. Qed.

Print Assumptions ignored_names.
Print Assumptions tabs_expanded.
Print Assumptions tab_stops_refuted.
Print Assumptions tab_stops_missed.
Print Assumptions tab_stops_reached.
Print Assumptions words_kept.
Print Assumptions quotes_kept.
Print Assumptions quotes_cut_unique.
Print Assumptions comment_stripped.
Print Assumptions comment_words_kept.
Print Assumptions last_word_lost.
Print Assumptions first_word_stripped.
Print Assumptions operands_kept.
Print Assumptions used_labels_exact.
Print Assumptions used_labels_columns.
Print Assumptions used_labels_shifted.
Print Assumptions used_labels_comment_refuted.
Print Assumptions characters_counted.
Print Assumptions utf8_locale_exists.
Print Assumptions regex_match_language.
Print Assumptions regex_search_language.
Print Assumptions regex_search_leftmost.
Print Assumptions regex_groups.
Print Assumptions cuda_label_keyword.
Print Assumptions library_paths.
Print Assumptions command_line.
