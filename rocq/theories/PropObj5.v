(** Objdump parser: every line whatsoever (C87), and what follows from it
    (C88-C93). *)
From Verif Require Import ObjAlone Tests PropObj1 PropObj2.
Arguments T _%string_scope.
Arguments ln _%string_scope.

(** C87: the character machine does, on every sequence of lines whatsoever, what
    [read_lines] of ObjEvery.v says line by line, undefined behaviour included. *)
Theorem objdump_every_line : forall mb flt ls, Forall (fun l => ~ In LF l) ls ->
  omap (fun s => (o_lines s, o_labels s)) (run mb flt (unlines ls))
  = omap (fun p => (a_lines (p_l p), a_labels (p_l p))) (read_lines mb flt pstate0 (map drop_cr ls)).
Proof. exact every_line. Qed.
Definition texts (o : outcome pstate) : list str := match o with Ok p => map l_text (a_lines (p_l p)) | _ => [] end.
Example objdump_every_line_case :
  texts (read_lines mblen_ascii no_filter pstate0
    [T "Disassembly of nothing"; T "deadbeef g"; T "zz: 90"; T "10: 90 9x <g>"; T "a/b"; T "..."; T ": t"; T ""])
  = Ts [" Disassembly of nothing"; "g:"; " 90 9x <g>"; " a/b"; " ..."; " t"]%string.
Proof. vm_compute. reflexivity. Qed.

(** C88: a line that is one word is shown as it is. *)
Theorem objdump_word_line : forall mb flt ls s b w, Forall one_line ls -> run mb flt (unlines ls) = Ok s -> o_stopParsing s = false ->
  o_ignoreUntilNextLabel s = false -> Z.of_nat (length (o_lines s)) < 5000 ->
  Forall blank b -> w <> [] -> Forall field_char w ->
  exists s' l, run mb flt (unlines (ls ++ [b ++ w])) = Ok s' /\ o_lines s' = o_lines s ++ [l] /\ o_labels s' = o_labels s
    /\ l_text l = SP :: w /\ l_address l = None /\ l_opcodes l = [] /\ l_labels l = [] /\ l_is_label l = false
    /\ l_section l = o_currentSection s /\ l_source l = o_currentSourceRef s.
Proof. exact word_line_lemma. Qed.
Example objdump_word_line_case :
  view (run mblen_ascii no_filter (ln "401000 <f>:" ++ ln "~..." ++ ln "401004:~c3  ~ret")) = Some (Ts ["f:"; " ..."; " ret"]%string, [(T "f", 1)]).
Proof. vm_compute. reflexivity. Qed.

(** C89: FIRST:m1:...:mk:NUM with a slash before the first colon.  The line
    number is the last number; the file is what stands before it, FIRST only if
    there is no colon in between. *)
Theorem objdump_source_pieces : forall mb flt ls s b w f mids num tail,
  Forall one_line ls -> run mb flt (unlines ls) = Ok s -> o_stopParsing s = false -> o_ignoreUntilNextLabel s = false ->
  Forall blank b -> Forall field_char w -> ~ In ":"%char f -> ObjListing.same_line f ->
  Forall piece mids -> num <> [] -> Forall decimal num -> 0 < dec_value num <= 2147483647 ->
  ObjListing.same_line tail -> (tail = [] \/ exists c t, tail = c :: t /\ blank c) ->
  let first := w ++ "/"%char :: f in
  exists s', run mb flt (unlines (ls ++ [b ++ first ++ colon_joined mids ++ ":"%char :: num ++ tail])) = Ok s'
    /\ o_lines s' = o_lines s /\ o_labels s' = o_labels s /\ o_currentSection s' = o_currentSection s
    /\ o_currentSourceRef s' = mkSource (last mids first) 0 (dec_value num) 0 (negb (file_in_library (last mids first))) false.
Proof. exact source_pieces_lemma. Qed.
Definition source_of (o : outcome ostate) : option (str * Z) :=
  match o with Ok s => Some (s_file (o_currentSourceRef s), s_line (o_currentSourceRef s)) | _ => None end.
Example objdump_source_pieces_case :
  source_of (run mblen_ascii no_filter (ln "src/b.c:12 (discriminator 2)")) = Some (T "src/b.c", 12)
  /\ source_of (run mblen_ascii no_filter (ln "/a/b.c:12")) = Some (T "/a/b.c", 12).
Proof. split; vm_compute; reflexivity. Qed.
(** A line that also gives a column is misread: the file becomes a number. *)
Theorem objdump_source_column_refuted :
  source_of (run mblen_ascii no_filter (ln "/a/b.c:12:5")) = Some (T "12", 5).
Proof. vm_compute. reflexivity. Qed.

(** C90: after lines in which every "<" is closed, a line means what it means
    as the only line of a file (everything but section and source). *)
Theorem objdump_line_alone : forall mb flt ls s l t, Forall one_line ls -> Forall closes ls -> run mb flt (unlines ls) = Ok s -> one_line l ->
  o_stopParsing s = false -> o_ignoreUntilNextLabel s = false -> Z.of_nat (length (o_lines s)) < 5000 -> f_library_functions flt = false ->
  run mb flt (l ++ [LF]) = Ok t ->
  exists s' X, run mb flt (unlines (ls ++ [l])) = Ok s' /\ o_lines s' = o_lines s ++ X /\ map reading X = map reading (o_lines t)
    /\ o_labels s' = o_labels s ++ map (shift (Z.of_nat (length (o_lines s)))) (o_labels t).
Proof. exact alone. Qed.
Example objdump_line_alone_case :
  refs_of (run mblen_ascii no_filter (ln "0:~90  ~call <abc>" ++ ln "1:~91  ~lea <x+1>")) = [[(T "abc", 8, 11)]; [(T "x", 7, 8)]]
  /\ refs_of (run mblen_ascii no_filter (ln "1:~91  ~lea <x+1>")) = [[(T "x", 7, 8)]].
Proof. split; vm_compute; reflexivity. Qed.
(** Without that condition it is false: a "<" left open makes a reference out of
    text of the next line. *)
Theorem objdump_open_bracket_refuted :
  refs_of (run mblen_ascii no_filter (ln "0:~90  ~jl  <" ++ ln "1:~91  ~cmp a, bcd>e")) = [[]; [(T ", bcd", 7, 12)]]
  /\ refs_of (run mblen_ascii no_filter (ln "1:~91  ~cmp a, bcd>e")) = [[]].
Proof. split; vm_compute; reflexivity. Qed.

(** C91: the references of a line are exactly the names in brackets before a "#":
    from a "<" to the next ">" or "+", with no other "<" in between ([bracketed];
    columns from 1).  For lines without opcodes only one direction holds. *)
Theorem objdump_references_exact : forall mb flt ls s l, ascii_compatible mb ->
  Forall one_line ls -> Forall closes ls -> run mb flt (unlines ls) = Ok s -> In l (o_lines s) ->
  ascii_text (l_text l) -> Z.of_nat (length (l_text l)) < 65535 ->
  (forall r, In r (l_labels l) -> exists u, bracketed 1 (l_text l) u r)
  /\ (l_opcodes l <> [] -> forall r, In r (l_labels l) <->
        exists u, bracketed 1 (l_text l) u r /\ shouldIgnoreFunction (lb_name r) flt = false /\ ~ In "#"%char (u ++ lb_name r)).
Proof. intros mb flt ls s l Hmb H1 H2 H3 H4. exact (refs_exact mb flt Hmb ls s l H1 H2 H3 H4). Qed.
Example objdump_references_exact_case :
  refs_of (run mblen_ascii no_filter (ln "0:~90  ~lea <a+0x1>, <bc> # <d>")) = [[(T "a", 7, 8); (T "bc", 16, 18)]].
Proof. vm_compute. reflexivity. Qed.
(** So a demangled template name is never referred to: the reference of a call of
    f<int>() is "int", while the label defined is "f<int>()". *)
Theorem objdump_template_reference_refuted :
  view (run mblen_ascii no_filter (ln "0 <f<int>()>:" ++ ln "0:~e8 fb  ~call 0 <f<int>()>")) = Some (Ts ["f<int>():"; " call 0 <f<int>()>"]%string, [(T "f<int>()", 1)])
  /\ refs_of (run mblen_ascii no_filter (ln "0 <f<int>()>:" ++ ln "0:~e8 fb  ~call 0 <f<int>()>")) = [[]; [(T "int", 12, 15)]].
Proof. split; vm_compute; reflexivity. Qed.

(** C92: a hexadecimal word followed by a blank and any text makes a label of
    that text. *)
Theorem objdump_label_word : forall mb flt ls s b w c t,
  Forall one_line ls -> run mb flt (unlines ls) = Ok s -> o_stopParsing s = false ->
  f_library_functions flt = false -> Z.of_nat (length (o_lines s)) < 5000 ->
  o_ignoreUntilNextLabel s = false ->
  Forall blank b -> w <> [] -> Forall field_char w -> good_addr w -> blank c -> starts_nonblank t -> ObjListing.same_line t ->
  shouldIgnoreFunction (name_of_label t) flt = false ->
  exists s' l, run mb flt (unlines (ls ++ [b ++ w ++ c :: t])) = Ok s' /\ o_lines s' = o_lines s ++ [l]
    /\ o_labels s' = o_labels s ++ [(name_of_label t, Z.of_nat (length (o_lines s)) + 1)]
    /\ l_text l = name_of_label t ++ [":"%char] /\ l_is_label l = true /\ l_label l = name_of_label t
    /\ l_address l = hex_value w.
Proof.
  intros mb flt ls s b w c t H1 H2 H3 H4 H5 H6 H7 H8 H9 H10 H11 H12 H13 H14.
  assert (Hd : w <> lit "Disassembly") by (intros ->; destruct H10 as (v & Hv & _); discriminate).
  destruct (label_word_lemma mb flt ls s b w c t H1 H2 H3 H4 H5 H7 H8 H9 Hd H11 H12 H13 (or_intror H10) H14)
    as (s' & l & A1 & A2 & A3 & A4 & A5 & A6 & A7 & _).
  rewrite H6 in A7. exists s', l. repeat split; assumption.
Qed.
(** Instructions of a listing without addresses can look like that. *)
Example objdump_label_word_case :
  view (run mblen_ascii no_filter (ln "add rax, rbx" ++ ln "sub rax, rbx" ++ ln "dec edi")) = Some (Ts ["rax, rbx:"; "edi:"]%string, [(T "rax, rbx", 1); (T "edi", 2)]).
Proof. vm_compute. reflexivity. Qed.

(** C93: while a hidden function is being read the first word is not looked at:
    every line of a word, a blank and more text ends it and is taken for a label,
    without address. *)
Theorem objdump_hidden_ends : forall mb flt ls s b w c t,
  Forall one_line ls -> run mb flt (unlines ls) = Ok s -> o_stopParsing s = false ->
  f_library_functions flt = false -> Z.of_nat (length (o_lines s)) < 5000 ->
  o_ignoreUntilNextLabel s = true ->
  Forall blank b -> w <> [] -> Forall field_char w -> w <> lit "Disassembly" -> blank c -> starts_nonblank t -> ObjListing.same_line t ->
  shouldIgnoreFunction (name_of_label t) flt = false ->
  exists s' l, run mb flt (unlines (ls ++ [b ++ w ++ c :: t])) = Ok s' /\ o_lines s' = o_lines s ++ [l]
    /\ o_labels s' = o_labels s ++ [(name_of_label t, Z.of_nat (length (o_lines s)) + 1)]
    /\ l_text l = name_of_label t ++ [":"%char] /\ l_is_label l = true /\ l_label l = name_of_label t
    /\ l_address l = None /\ o_ignoreUntilNextLabel s' = false.
Proof.
  intros mb flt ls s b w c t H1 H2 H3 H4 H5 H6 H7 H8 H9 H10 H11 H12 H13 H14.
  destruct (label_word_lemma mb flt ls s b w c t H1 H2 H3 H4 H5 H7 H8 H9 H10 H11 H12 H13 (or_introl H6) H14)
    as (s' & l & A1 & A2 & A3 & A4 & A5 & A6 & A7 & A8).
  rewrite H6 in A7. exists s', l. repeat split; assumption.
Qed.
Example objdump_hidden_ends_case :
  view (run mblen_ascii no_filter (ln "0 <_start>:" ++ ln "0:~90  ~nop" ++ ln "not found" ++ ln "1:~91  ~hlt"))
  = Some (Ts ["found:"; " hlt"]%string, [(T "found", 1)])
  /\ view (run mblen_ascii no_filter (ln "0 <main>:" ++ ln "0:~90  ~nop" ++ ln "not found" ++ ln "1:~91  ~hlt"))
  = Some (Ts ["main:"; " nop"; " hlt"]%string, [(T "main", 1)]).
Proof. split; vm_compute; reflexivity. Qed.

Print Assumptions objdump_every_line.
Print Assumptions objdump_word_line.
Print Assumptions objdump_source_pieces.
Print Assumptions objdump_source_column_refuted.
Print Assumptions objdump_line_alone.
Print Assumptions objdump_open_bracket_refuted.
Print Assumptions objdump_references_exact.
Print Assumptions objdump_template_reference_refuted.
Print Assumptions objdump_label_word.
Print Assumptions objdump_hidden_ends.
