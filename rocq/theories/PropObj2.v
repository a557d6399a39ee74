(** Objdump parser: references, addresses, whole listings (C06, C08-C17, C21, C23). *)
From Verif Require Import ObjRefs ObjAddrRun Tests PropObj1.
Arguments T _%string_scope.
Arguments ln _%string_scope.

Lemma ascii_compatible_ascii : ascii_compatible mblen_ascii.
Proof. intros c t H. unfold mblen_ascii. destruct (code c =? 0) eqn:E; [lia|]. destruct (code c <? 128) eqn:E2; [reflexivity|lia]. Qed.

(** C06: both kinds of overflow happen. *)
Theorem objdump_overflow_cases : forall mb flt, ascii_compatible mb -> f_library_functions flt = false ->
  (exists input s, run mb flt input = Ok s /\ o_stopParsing s = true /\ o_labels s = [(lit "f", 5001)] /\ label_table 1 (o_lines s) = [])
  /\ (exists input s, run mb flt input = Ok s /\ o_stopParsing s = true /\ o_labels s = []).
Proof. exact C06_both. Qed.

(** C08 *)
Theorem objdump_reference_columns : forall mb flt input s l r, ascii_compatible mb -> run mb flt input = Ok s ->
  In l (o_lines s) -> In r (l_labels l) -> ascii_text (l_text l) -> Z.of_nat (length (l_text l)) < 65535 ->
  2 <= r_start (lb_range r) <= r_end (lb_range r) /\ r_end (lb_range r) <= Z.of_nat (length (l_text l)) + 1 /\
  columns (r_start (lb_range r)) (r_end (lb_range r)) (l_text l) = lb_name r.
Proof. exact C08_lemma. Qed.
Definition refs_of (o : outcome ostate) : list (list (str * Z * Z)) :=
  match o with
  | Ok s => map (fun l => map (fun r => (lb_name r, r_start (lb_range r), r_end (lb_range r))) (l_labels l)) (o_lines s)
  | _ => [] end.
Example objdump_reference_case :
  refs_of (run mblen_ascii no_filter (ln "0:~90  ~lea <a+0x1>, <bc>")) = [[(T "a", 7, 8); (T "bc", 16, 18)]].
Proof. vm_compute. reflexivity. Qed.

(** C09: with a two-byte character before the reference the name is wrong and
    the columns (counted in characters) do not select it. *)
Fixpoint utf8_chars (fuel : nat) (t : str) : list str :=
  match fuel, t with
  | S f, c :: _ =>
      let n := if code c <? 192 then 1%nat else if code c <? 224 then 2%nat else if code c <? 240 then 3%nat else 4%nat in
      firstn n t :: utf8_chars f (skipn n t)
  | _, _ => []
  end.
Definition char_columns (a b : Z) (t : str) : str :=
  List.concat (firstn (Z.to_nat (b - a)) (skipn (Z.to_nat (a - 1)) (utf8_chars (length t) t))).
Definition eacute : str := [ascii_of_nat 195; ascii_of_nat 169].
Theorem objdump_multibyte_columns_refuted :
  exists input s l r, run mblen_utf8 no_filter input = Ok s /\ In l (o_lines s) /\ In r (l_labels l)
    /\ input = T "0:~90  ~call " ++ eacute ++ ln " <foo>"
    /\ l_text l = T " call " ++ eacute ++ T " <foo>"
    /\ lb_name r = T "<foo" /\ char_columns (r_start (lb_range r)) (r_end (lb_range r)) (l_text l) = T "foo".
Proof.
  destruct (run mblen_utf8 no_filter (T "0:~90  ~call " ++ eacute ++ ln " <foo>")) as [s| | |] eqn:E; try (vm_compute in E; discriminate).
  eexists _, s. do 2 eexists. split; [exact E|]. vm_compute in E. injection E as <-.
  split; [left; reflexivity|]. split; [left; reflexivity|]. repeat split; vm_compute; reflexivity.
Qed.

(** C10 *)
Theorem objdump_address_value : forall mb flt pre s b h v rest s', line_start mb flt pre s -> o_ignoreUntilNextLabel s = false ->
  Z.of_nat (length (o_lines s)) < 5000 -> Forall blank b -> hex_value h = Some v -> Z.of_nat (length h) <= 64 -> ~ In LF rest ->
  v < 2147483648 ->
  run mb flt (pre ++ b ++ h ++ [":"%char] ++ rest ++ [LF]) = Ok s' ->
  o_lines s' = o_lines s \/ exists l, o_lines s' = o_lines s ++ [l] /\ l_address l = Some v.
Proof. exact C10_lemma. Qed.
Definition addresses (o : outcome ostate) : list (option Z) := match o with Ok s => map l_address (o_lines s) | _ => [] end.
Example objdump_address_case : addresses (run mblen_ascii no_filter (ln "  7fffffff:~90  ~nop")) = [Some 2147483647].
Proof. vm_compute. reflexivity. Qed.

(** C11 *)
Theorem objdump_address_wraps : forall mb flt pre s b h v rest s', line_start mb flt pre s -> o_ignoreUntilNextLabel s = false ->
  Z.of_nat (length (o_lines s)) < 5000 -> Forall blank b -> hex_value h = Some v -> Z.of_nat (length h) <= 64 -> ~ In LF rest ->
  v < 4294967296 ->
  run mb flt (pre ++ b ++ h ++ [":"%char] ++ rest ++ [LF]) = Ok s' ->
  o_lines s' = o_lines s \/
  exists l, o_lines s' = o_lines s ++ [l] /\ l_address l = Some (if v <? 2147483648 then v else v - 4294967296).
Proof. exact C11_shown. Qed.
Theorem objdump_address_undefined : forall mb flt pre s b h v rest, line_start mb flt pre s -> o_ignoreUntilNextLabel s = false ->
  Forall blank b -> hex_value h = Some v -> Z.of_nat (length h) <= 64 -> 4294967296 <= v ->
  run mb flt (pre ++ b ++ h ++ [":"%char] ++ rest) = UB ShiftRange.
Proof. exact C11_ub. Qed.
Example objdump_address_wraps_case : addresses (run mblen_ascii no_filter (ln "  80001000:~90  ~nop")) = [Some (-2147479552)]
  /\ run mblen_ascii no_filter (ln "  7ffff7a00000:~90  ~nop") = UB ShiftRange
  /\ line_start mblen_ascii no_filter [] (set_o_inAddress true ostate0).
Proof. split; [vm_compute; reflexivity|]. split; [vm_compute; reflexivity|]. repeat split. now left. Qed.

(** C12 *)
Theorem objdump_undefined_sources : forall mb flt s input, reachable mb flt s ->
  (exists s', fromStream mb flt s input = Ok s')
  \/ exists a c b s0, input = a ++ c :: b /\ fromStream mb flt s a = Ok s0 /\
     ((fromStream mb flt s input = UB ShiftRange /\ (c = ":"%char \/ c = SP \/ c = TAB) /\ bad_address s0)
      \/ (fromStream mb flt s input = UB AtoiRange /\ (c = LF \/ c = SP \/ c = TAB) /\ bad_number s0)).
Proof. exact C12_lemma. Qed.
Example objdump_undefined_cases :
  run mblen_ascii no_filter (T "100000000 ") = UB ShiftRange
  /\ run mblen_ascii no_filter (ln "/a.c:2147483648") = UB AtoiRange
  /\ exists s, run mblen_ascii no_filter sample = Ok s.
Proof. split; [vm_compute; reflexivity|]. split; [vm_compute; reflexivity|]. eexists. vm_compute. reflexivity. Qed.

(** C13 *)
Theorem objdump_instruction_line : forall mb flt pre s b h v gs pad text,
  ascii_compatible mb -> line_start mb flt pre s -> o_ignoreUntilNextLabel s = false ->
  Z.of_nat (length (o_lines s)) < 5000 ->
  Forall blank b -> hex_value h = Some v -> v < 2147483648 -> Z.of_nat (length h) <= 64 ->
  gs <> [] -> Forall hex_string gs -> pad <> [] -> Forall blank pad ->
  starts_nonblank text -> ascii_text text -> Z.of_nat (length text) < 65533 ->
  ~ In "<"%char text -> ~ In "#"%char text -> ~ In LF text -> ~ In CR text ->
  exists s' l, run mb flt (pre ++ b ++ h ++ [":"%char; TAB] ++ render_groups gs ++ pad ++ text ++ [LF]) = Ok s'
    /\ o_lines s' = o_lines s ++ [l] /\ o_labels s' = o_labels s
    /\ l_address l = Some v /\ l_opcodes l = gs /\ l_text l = SP :: text /\ l_labels l = [] /\ l_is_label l = false
    /\ l_section l = o_currentSection s /\ l_source l = o_currentSourceRef s.
Proof. exact C13_lemma. Qed.
(** The hypotheses hold for an ordinary line after the sample listing. *)
Example objdump_instruction_case : exists s, line_start mblen_ascii no_filter sample s /\ o_ignoreUntilNextLabel s = false
  /\ hex_value (T "401011") = Some 4198417 /\ Forall hex_string [T "48"; T "89"] /\ starts_nonblank (T "mov    rbp,rsp")
  /\ render_groups [T "48"; T "89"] = T "48 89 ".
Proof.
  destruct (run mblen_ascii no_filter sample) as [s| | |] eqn:E; try (vm_compute in E; discriminate).
  exists s. split.
  - split; [right; exists (removelast sample); vm_compute; reflexivity|]. split; [exact E|].
    vm_compute in E. injection E as <-. repeat split.
  - vm_compute in E. injection E as <-. split; [reflexivity|]. split; [vm_compute; reflexivity|].
    split; [repeat constructor; discriminate|]. split; [|reflexivity].
    exists "m"%char, (T "ov    rbp,rsp"). split; [reflexivity|]. intros [H|H]; discriminate.
Qed.

(** C14 *)
Theorem objdump_source_line : forall mb flt pre s file num tail rest,
  ascii_compatible mb -> line_start mb flt pre s -> o_ignoreUntilNextLabel s = false ->
  wf_item (ISource file num tail) -> Forall wf_item rest -> Forall (fun i => is_source i = false) rest ->
  exists s1 s2, run mb flt (pre ++ "/"%char :: file ++ ":"%char :: num ++ tail ++ [LF]) = Ok s1
    /\ o_lines s1 = o_lines s /\ o_labels s1 = o_labels s
    /\ run mb flt (pre ++ "/"%char :: file ++ ":"%char :: num ++ tail ++ [LF] ++ render rest) = Ok s2
    /\ forall l, In l (o_lines s2) -> In l (o_lines s) \/ l = marker \/
         (s_file (l_source l) = "/"%char :: file /\ s_line (l_source l) = dec_value num
          /\ s_is_usercode (l_source l) = negb (file_in_library ("/"%char :: file))).
Proof. exact C14_lemma. Qed.
(** Inside an ignored function the number of a source line without a tail is lost. *)
Theorem objdump_source_line_lost_refuted :
  exists input s l, run mblen_ascii no_filter input = Ok s /\ In l (o_lines s)
    /\ input = lns ["0 <_start>:"; "/app/a.c:12"; "1 <f>:"]%string
    /\ l_label l = T "f" /\ s_file (l_source l) = T "/app/a.c" /\ s_line (l_source l) = 0.
Proof.
  destruct (run mblen_ascii no_filter (lns ["0 <_start>:"; "/app/a.c:12"; "1 <f>:"]%string)) as [s| | |] eqn:E; try (vm_compute in E; discriminate).
  eexists _, s. eexists. split; [exact E|]. vm_compute in E. injection E as <-. split; [left; reflexivity|]. repeat split; reflexivity.
Qed.

(** C15 *)
Theorem objdump_section_line : forall mb flt pre s name rest, ascii_compatible mb -> line_start mb flt pre s ->
  name <> [] -> ~ In ":"%char name -> ~ In LF name -> ~ In CR name -> Forall wf_item rest -> Forall (fun i => is_section i = false) rest ->
  exists s1 s2, run mb flt (pre ++ lit "Disassembly of section " ++ name ++ [":"%char; LF]) = Ok s1
    /\ o_lines s1 = o_lines s /\ o_labels s1 = o_labels s
    /\ run mb flt (pre ++ lit "Disassembly of section " ++ name ++ [":"%char; LF] ++ render rest) = Ok s2
    /\ forall l, In l (o_lines s2) -> In l (o_lines s) \/ l = marker \/ l_section l = name.
Proof. exact C15_lemma. Qed.

(** C16 *)
Theorem objdump_label_shown : forall mb flt pre s h v name,
  ascii_compatible mb -> line_start mb flt pre s -> f_library_functions flt = false ->
  hex_value h = Some v -> v < 2147483648 -> Z.of_nat (length h) <= 64 -> ~ In LF name -> ~ In CR name ->
  Z.of_nat (length (o_lines s)) < 5000 -> shouldIgnoreFunction name flt = false ->
  exists s' l, run mb flt (pre ++ h ++ lit " <" ++ name ++ lit ">:" ++ [LF]) = Ok s'
    /\ o_lines s' = o_lines s ++ [l] /\ o_labels s' = o_labels s ++ [(name, Z.of_nat (length (o_lines s)) + 1)]
    /\ l_text l = name ++ [":"%char] /\ l_is_label l = true /\ l_label l = name
    /\ l_address l = (if o_ignoreUntilNextLabel s then None else Some v)
    /\ o_ignoreUntilNextLabel s' = false.
Proof. exact C16_shown. Qed.
Theorem objdump_label_ignored : forall mb flt pre s h v name rest, ascii_compatible mb -> line_start mb flt pre s ->
  f_library_functions flt = false ->
  hex_value h = Some v -> v < 2147483648 -> Z.of_nat (length h) <= 64 -> ~ In LF name -> ~ In CR name ->
  shouldIgnoreFunction name flt = true -> Forall wf_item rest -> Forall (fun i => is_label_item i = false) rest ->
  exists s', run mb flt (pre ++ h ++ lit " <" ++ name ++ lit ">:" ++ [LF] ++ render rest) = Ok s'
    /\ o_lines s' = o_lines s /\ o_labels s' = o_labels s.
Proof. exact C16_ignored. Qed.
Example objdump_ignore_rule_case : shouldIgnoreFunction (T "__libc_csu_init") no_filter = true
  /\ shouldIgnoreFunction (T "main") no_filter = false.
Proof. split; vm_compute; reflexivity. Qed.

(** C17 *)
Theorem objdump_listing : forall mb flt items, ascii_compatible mb -> Forall wf_item items ->
  exists s, run mb flt (render items) = Ok s /\ o_lines s = a_lines (denote flt items) /\ o_labels s = a_labels (denote flt items)
    /\ o_stopParsing s = a_stopped (denote flt items).
Proof. exact C17_lemma. Qed.
Theorem objdump_listing_line_start : forall mb flt items, ascii_compatible mb -> Forall wf_item items ->
  a_stopped (denote flt items) = false ->
  exists s, line_start mb flt (render items) s /\ abs s = denote flt items.
Proof. exact listing_line_start. Qed.
(** The sample listing is the rendering of well-formed items. *)
Definition sample_items : list item :=
  [ IOther (T "a.out") (T "     file format elf64-x86-64"); IBlank [];
    ISection (T ".text"); IBlank []; ILabel (T "0000000000401000") (T "main"); ISource (T "app/example.cpp") (T "3") [];
    IInstr (T "  ") (T "401000") [T "55"] (T "                  ~") [Txt (T "push   rbp")] [];
    IInstr (T "  ") (T "401001") [T "e8"; T "00"; T "00"; T "00"; T "00"] (T "      ~") [Txt (T "call   401010 "); Ref (T "square") (T "+0x2")] (T "# 1 <g>");
    IReloc (T "~~~") (T "401002") (T "_X86_64_PC32~bar-0x4");
    IBytes (T "  ") (T "401006") [T "00"; T "00"]; IBlank [];
    ILabel (T "0000000000401010") (T "square");
    ISource (T "usr/include/x.h") (T "12") (T " (discriminator 3)");
    IInstr (T "  ") (T "401010") [T "c3"] (T "                  ~") [Txt (T "ret")] [] ].
Example sample_items_wf : Forall wf_item sample_items.
Proof.
  unfold sample_items.
  repeat (constructor; [cbn [wf_item]|]); try (constructor; fail).
  all: repeat match goal with
  | |- _ /\ _ => split
  | |- good_addr _ => eexists; split; [vm_compute; reflexivity|split; [lia|vm_compute; discriminate]]
  | |- _ = [] \/ _ => first [left; reflexivity | right; do 2 eexists; split; [reflexivity|now left] | right; eexists; split; [reflexivity|]]
  | |- Forall blank _ => apply Forall_forall; let c := fresh in let H := fresh in intros c H; vm_compute in H; unfold blank; intuition
  | |- starts_nonblank _ => do 2 eexists; split; [vm_compute; reflexivity|intros [H|H]; discriminate]
  | |- ~ In _ _ => let H := fresh in intros H; vm_compute in H; intuition discriminate
  | |- exists n c, _ => eexists _, "t"%char; split; [instantiate (1 := T "a.ou"); reflexivity|reflexivity]
  | |- _ <> [] => discriminate
  | |- _ < _ => vm_compute; reflexivity
  | |- _ <= _ => vm_compute; discriminate
  | |- same_line _ => apply Forall_forall; let c := fresh in let H := fresh in intros c H; vm_compute in H; split; intros ->; intuition discriminate
  end.
  all: try (repeat constructor; try discriminate; try (vm_compute; split; discriminate || reflexivity); fail).
  all: vm_compute; intros [H|H]; discriminate.
Qed.
Example sample_items_meaning :
  map l_text (a_lines (denote no_filter sample_items)) =
    Ts ["main:"; " push   rbp"; " call   401010 <square+0x2># 1 <g>"; "    R_X86_64_PC32 bar-0x4"; " 00 00 "; "square:"; " ret"]%string
  /\ a_labels (denote no_filter sample_items) = [(T "main", 1); (T "square", 6)].
Proof. vm_compute. split; reflexivity. Qed.

(** C21 *)
Theorem objdump_pieces : forall mb flt s a b, whole_lines a ->
  omap forget_total (s1 <- fromStream mb flt s a ;; fromStream mb flt s1 b) =
  omap forget_total (fromStream mb flt s (a ++ b)).
Proof. exact C21_lemma. Qed.
Theorem objdump_pieces_output : forall mb flt s a b s1 s2 s', whole_lines a ->
  fromStream mb flt s a = Ok s1 -> fromStream mb flt s1 b = Ok s2 -> fromStream mb flt s (a ++ b) = Ok s' ->
  same_output s2 s' /\ outputText s2 = outputText s'.
Proof. exact C21_output. Qed.
(** Splitting inside a line changes the result. *)
Example objdump_pieces_case :
  match run mblen_ascii no_filter (T "0:~90  ~mov") with
  | Ok s1 => view (fromStream mblen_ascii no_filter s1 (ln " fs:0"))
  | _ => None end <> view (run mblen_ascii no_filter (ln "0:~90~nop")).
Proof. vm_compute. discriminate. Qed.

(** C23 *)
Theorem objdump_opcode_groups : forall mb flt input s l g, run mb flt input = Ok s -> In l (o_lines s) -> In g (l_opcodes l) ->
  g <> [] /\ (forall c, In c g -> hex_digit c <> None \/ c = TAB).
Proof. exact C23_lemma. Qed.
(** A tab inside the byte columns ends up inside a group. *)
Example objdump_opcode_case :
  match run mblen_ascii no_filter (ln "0:~48~89 ~nop") with Ok s => map l_opcodes (o_lines s) = [[T "48~89"]] | _ => False end.
Proof. vm_compute. reflexivity. Qed.

Print Assumptions objdump_overflow_cases.
Print Assumptions objdump_reference_columns.
Print Assumptions objdump_multibyte_columns_refuted.
Print Assumptions objdump_address_value.
Print Assumptions objdump_address_wraps.
Print Assumptions objdump_address_undefined.
Print Assumptions objdump_undefined_sources.
Print Assumptions objdump_instruction_line.
Print Assumptions objdump_source_line.
Print Assumptions objdump_source_line_lost_refuted.
Print Assumptions objdump_section_line.
Print Assumptions objdump_label_shown.
Print Assumptions objdump_label_ignored.
Print Assumptions objdump_listing.
Print Assumptions objdump_listing_line_start.
Print Assumptions objdump_pieces.
Print Assumptions objdump_pieces_output.
Print Assumptions objdump_opcode_groups.
