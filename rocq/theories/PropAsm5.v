(** Text parser, line by line: which lines are stored (C80), what is recorded
    for each (C81), the section, label and parent in force (C82), the reference
    tables (C83) and the table of aliases (C84), all of them exactly.

    [scan_input flt input] are the lines of the input, each one part of a block
    comment, blank or text; [worlds flt pre] is what is carried from the lines
    [pre] to the next one.  With the library filter on nothing is stored at all
    (asm_library_filter_empty), so that filter is off here. *)
From Coq Require Import Sorted.
From Verif Require Import AsmLemmas AsmRead AsmMark AsmTrace AsmThms AsmUse AsmComplete AsmPlace AsmSearch AsmRemove
  AsmWorld AsmStored AsmCarry Tests PropAsm1.
Arguments T _%string_scope.
Arguments ln _%string_scope.

(** C80.  [ks] are the positions of the stored lines, [js] of those set aside. *)
Theorem asm_stored_exactly : forall mb flt input, f_library_functions flt = false ->
  let cs := scan_input flt input in let s := read_lines mb flt tstate0 input in
  exists ks js, StronglySorted lt ks /\ StronglySorted lt js /\
    map lv_text (t_lines s) = map (text_at flt cs) ks /\ map lv_text (t_filteredlines s) = map (text_at flt cs) js /\
    (forall k, In k ks <->
       match nth_error cs k with
       | Some (CText raw nest) => verdict_of flt (worlds flt (firstn k cs)) raw (clean flt nest raw) = Kept
       | Some (CBlank _) => exists j, In j ks /\ (j < k)%nat /\ text_at flt cs j <> [] /\ forall i, In i ks -> ~ (j < i < k)%nat
       | _ => False
       end) /\
    (forall k, In k js <-> exists raw nest, nth_error cs k = Some (CText raw nest) /\
       verdict_of flt (worlds flt (firstn k cs)) raw (clean flt nest raw) = Aside).
Proof.
  intros mb flt input Hl. cbv zeta. destruct (read_stored mb flt Hl input) as (ks & js & [_ A B C D E F G H]). exists ks, js.
  split; [exact A|]. split; [exact E|].
  split; [clear - C; induction C as [|k l ks ls S _ IH]; cbn [map]; [reflexivity|rewrite IH, (srow_text mb flt _ _ _ S); reflexivity]|].
  split; [clear - G; induction G as [|k l ks ls S _ IH]; cbn [map]; [reflexivity|rewrite IH, (proj1 S); reflexivity]|].
  split.
  - intros k. rewrite D. unfold stored_at, verdict_at. destruct (nth_error _ k) as [[raw|raw|raw nest]|]; reflexivity.
  - intros k. rewrite H. unfold verdict_at. destruct (nth_error _ k) as [[raw|raw|raw nest]|].
    1, 2, 4: split; [discriminate|intros (? & ? & [=] & _)].
    split; [eauto|]. now intros (? & ? & [= <- <-] & ?).
Qed.
(** The three verdicts: dropped are the start of a procedure hidden with the
    directives and, with the filter, lines that are only a comment; set aside
    are directives, with the filter, unless in a CUDA definition. *)
Theorem asm_verdicts : forall flt w raw t,
  (verdict_of flt w raw t = Dropped <->
     (f_directives flt = true /\ startProcBlock t = true /\ sp_line (pl_spot (w_place w)) = 0) \/ only_comment flt (pl_cuda (w_place w)) raw = true) /\
  (verdict_of flt w raw t = Aside <->
     verdict_of flt w raw t <> Dropped /\ f_directives flt = true /\ w_def w = false /\ isInstOpcode t = false /\
     (locates w t = true \/ (label_of t = None /\ isDataDefn t = false /\ isDirective t = true))).
Proof.
  intros flt w raw t. unfold verdict_of, hidden_start. split.
  - assert (N : forall h d, class_verdict flt h d t <> Dropped) by (intros h d; unfold class_verdict; destruct (_ && _); discriminate).
    destruct (_ || _) eqn:E; split; intros X.
    + rewrite orb_true_iff, !andb_true_iff, Z.eqb_eq in E. tauto.
    + reflexivity.
    + now apply N in X.
    + exfalso. assert (Y : (f_directives flt && (startProcBlock t && (sp_line (pl_spot (w_place w)) =? 0))) || only_comment flt (pl_cuda (w_place w)) raw = true)
        by (rewrite orb_true_iff, !andb_true_iff, Z.eqb_eq; tauto). congruence.
  - destruct (_ || _).
    + split; [discriminate|]. intros (X & _). now contradiction X.
    + unfold class_verdict, symbol_line, plain, opens, data_line, found.
      destruct (locates w t), (f_directives flt), (w_def w), (isInstOpcode t), (label_of t) as [[n [a c]]|], (isDataDefn t), (isDirective t); try destruct c; cbn;
        (split; [intros X|intros (X1 & X2 & X3 & X4 & X5)]); try discriminate; try reflexivity;
        try (exfalso; clear - X5; intuition discriminate); repeat split; auto; discriminate.
Qed.
(** With the filters of the last pass off these are the lines of the result. *)
Theorem asm_result_exactly : forall mb flt oref olab fuel input vis s vis',
  f_unused_labels flt = false -> f_compatmode flt = false -> AsmText.run mb flt oref olab fuel input vis = Ok (s, vis') ->
  map lv_text (t_lines s) = map lv_text (t_lines (read_lines mb flt tstate0 input)) /\ t_filteredlines s = t_filteredlines (read mb flt input).
Proof.
  intros mb flt oref olab fuel input vis s vis' F1 F2 H. destruct (run_parted _ _ _ _ _ _ _ _ _ H) as (L & kept & out & A & B & C & D).
  assert (G : kept = L /\ out = []).
  { clear - B F1 F2. assert (N : forall p l, ~ gone flt p l) by (intros p l; unfold gone; intuition congruence).
    revert B. generalize (@nil asm_line_v) at 1. intros p0 B. induction B as [|pre l t kept out _ _ IH|pre l t kept out P]; [now split| |contradiction (N _ _ P)]. destruct IH as [-> ->]. now split. }
  destruct G as [-> ->]. split; [|rewrite D; apply app_nil_r]. rewrite C, map_map. change (Forall2 same_but_marks (t_lines (read_lines mb flt tstate0 input)) L) in A. revert A. generalize (read mb flt input) (t_lines (read_lines mb flt tstate0 input)). clear. intros s0 ls A.
  induction A as [|x y xs ys S _ IH]; cbn [map]; [reflexivity|]. rewrite IH. f_equal. rewrite shown_core, S. reflexivity.
Qed.
(** Dropped: the comment and the second blank line; aside: [.globl] and [.loc];
    the indices are those of the lines kept. *)
Definition both : Filter := mkFilter false false false true true false false false false false.
Definition listing : str := lns ["~.globl~f"; "f:"; "~.loc~1 2 3"; "~nop"; ""; ""; "~# note"; "~.long~f"; "g:"]%string.
Example asm_stored_exactly_case :
  let s := read_lines mblen_ascii both tstate0 listing in let cs := scan_input both listing in
  map lv_text (t_lines s) = map (text_at both cs) [1; 3; 4; 7; 8]%nat /\ map lv_text (t_filteredlines s) = map (text_at both cs) [0; 2]%nat /\
  map (text_at both cs) [1; 3; 4; 7; 8]%nat = Ts ["f:"; "        nop"; ""; "        .long   f"; "g:"]%string.
Proof. now vm_compute. Qed.

(** C81.  Every field recorded for a stored line, the location of labels excepted. *)
Theorem asm_line_record : forall mb flt input, f_library_functions flt = false ->
  let cs := scan_input flt input in
  exists ks, StronglySorted lt ks /\ (forall k, In k ks <-> stored_at flt cs ks k) /\
    Forall2 (fun k l =>
      match nth_error cs k with
      | Some (CText raw nest) =>
          let w := worlds flt (firstn k cs) in let w' := worlds flt (firstn (S k) cs) in let t := clean flt nest raw in
          let name := if locates w t then None else label_of t in
          lv_text l = t /\ v_str (lv_section l) = w_sect w' /\
          (name = None -> spot_of (lv_source l) = pl_spot (w_place w')) /\
          lv_is_label l = is_some name /\ v_str (lv_label l) = match name with Some (n, _) => n | None => [] end /\
          lv_is_internal_label l = match name with Some (n, _) => isInternalLabel n | None => false end /\
          lv_is_assignment l = match name with Some (_, (a, _)) => a | None => false end /\
          lv_is_data l = negb (locates w t) && isDataDefn t /\
          lv_is_directive l = directive_line (locates w t) (w_def w) t /\
          lv_has_opcode l = hasOpcode t (pl_cuda (w_place w')) /\
          lv_is_inline_asm l = (0 <? nest) /\
          lv_closest_parent_label l = (if lv_is_assignment l || str_eqb (v_str (lv_label l)) (w_parent w') then [] else w_parent w') /\
          map (fun r => (v_str (lbv_name r), lbv_range r)) (lv_labels l) =
            (if negb (is_some name) && (lv_has_opcode l || lv_is_data l) then map (fun r => (lb_name r, lb_range r)) (getUsedLabelsInLine mb t) else [])
      | Some (CBlank _) => exists i, l = line_v0 i
      | _ => False
      end) ks (t_lines (read_lines mb flt tstate0 input)).
Proof.
  intros mb flt input Hl. cbv zeta. destruct (read_stored mb flt Hl input) as (ks & js & [_ A B C D _ _ _ _]). exists ks.
  split; [exact A|]. split; [exact D|]. revert C. generalize ks. generalize (t_lines (read_lines mb flt tstate0 input)). clear. intros ls ks0 C.
  induction C as [|k l ks0 ls S _ IH]; constructor; [|exact IH]. clear IH. revert S. unfold srow.
  destruct (nth_error _ k) as [[raw|raw|raw nest]|]; auto. intros [H1 H2 H3 H4 H5 H6 H7 H8 H9 H10 H11 H12 H13]. unfold found, data_line in *.
  rewrite H10, H8. repeat split; auto.
Qed.
(** The names taken for internal labels: those beginning with a dot, a dollar or
    a capital L, also when they name a function. *)
Theorem asm_internal_names : forall n,
  isInternalLabel n = true <-> exists c r, n = c :: r /\ (c = "."%char \/ c = "$"%char \/ c = "L"%char).
Proof. exact internal_iff. Qed.
(** A function [List] is internal and below the parent [main]; label lines count
    as having an opcode; a mnemonic alone on its line is taken for a name. *)
Example asm_line_record_case :
  map (fun l => (lv_is_label l, lv_is_internal_label l, lv_has_opcode l, lv_is_data l, lv_closest_parent_label l, map (fun r => v_str (lbv_name r)) (lv_labels l)))
    (t_lines (read_lines mblen_ascii both tstate0 (lns ["main:"; "~jmp~List"; "List:"; "~.quad~main"; "~ret"; "b:"; "x~=~1"]%string))) =
  [ (true, false, true, false, T "", []); (false, false, true, false, T "main", Ts ["List"]%string);
    (true, true, true, false, T "main", []); (false, false, false, true, T "main", Ts ["main"]%string);
    (false, false, true, false, T "main", Ts ["ret"]%string); (true, false, true, false, T "", []); (true, false, true, false, T "", []) ].
Proof. now vm_compute. Qed.

(** C82.  The last line that sets a value decides. *)
Theorem asm_section_in_force : forall flt pre c post a,
  sets_section flt (worlds flt pre) c = Some a ->
  (forall p x q, post = p ++ x :: q -> sets_section flt (worlds flt (pre ++ c :: p)) x = None) ->
  w_sect (worlds flt (pre ++ c :: post)) = a.
Proof. intros flt. exact (field_last flt str w_sect (sets_section flt) (section_step flt)). Qed.
Theorem asm_label_in_force : forall flt pre c post a,
  sets_label flt (worlds flt pre) c = Some a ->
  (forall p x q, post = p ++ x :: q -> sets_label flt (worlds flt (pre ++ c :: p)) x = None) ->
  w_label (worlds flt (pre ++ c :: post)) = a.
Proof. intros flt. exact (field_last flt str w_label (sets_label flt) (label_step flt)). Qed.
Theorem asm_parent_in_force : forall flt pre c post a,
  sets_parent flt (worlds flt pre) c = Some a ->
  (forall p x q, post = p ++ x :: q -> sets_parent flt (worlds flt (pre ++ c :: p)) x = None) ->
  w_parent (worlds flt (pre ++ c :: post)) = a.
Proof. intros flt. exact (field_last flt str w_parent (sets_parent flt) (parent_step flt)). Qed.
Theorem asm_nothing_in_force : forall flt cs,
  ((forall p x q, cs = p ++ x :: q -> sets_section flt (worlds flt p) x = None) -> w_sect (worlds flt cs) = []) /\
  ((forall p x q, cs = p ++ x :: q -> sets_label flt (worlds flt p) x = None) -> w_label (worlds flt cs) = []) /\
  ((forall p x q, cs = p ++ x :: q -> sets_parent flt (worlds flt p) x = None) -> w_parent (worlds flt cs) = []).
Proof.
  intros flt cs. split; [|split].
  - exact (field_none flt str w_sect (sets_section flt) (section_step flt) cs).
  - exact (field_none flt str w_label (sets_label flt) (label_step flt) cs).
  - exact (field_none flt str w_parent (sets_parent flt) (parent_step flt) cs).
Qed.
(** The lines that set them, spelled out: the parent is not reset at the end of
    a function, the last label is. *)
Theorem asm_setting_lines : forall flt w raw nest, let t := clean flt nest raw in
  hidden_start flt w t = false ->
  (sets_section flt w (CText raw nest) = if locates w t then None else getSectionNameDef t) /\
  (only_comment flt (pl_cuda (w_place w)) raw = false -> locates w t = false ->
     (forall n x, label_of t = Some (n, x) -> sets_label flt w (CText raw nest) = Some n /\
        sets_parent flt w (CText raw nest) = (if isInternalLabel n then None else Some n)) /\
     (label_of t = None -> sets_label flt w (CText raw nest) = (if closes w t then Some [] else None) /\ sets_parent flt w (CText raw nest) = None)).
Proof.
  intros flt w raw nest t Hh. unfold sets_label, sets_parent, label_here, sets_section. subst t. cbv zeta. rewrite Hh. cbn [orb negb andb].
  split; [reflexivity|]. intros Hc Hl. rewrite Hc, Hl. unfold found. cbn [andb]. rewrite orb_false_r. split.
  - intros n x ->. cbn [option_map fst]. auto.
  - intros ->. cbn [option_map]. auto.
Qed.
Example asm_in_force_case :
  let w := worlds both (scan_input both (lns ["~.text"; "main:"; ".L1:"; "~nop"; "~.data"; "~.section~.foo"; "~.cfi_endproc"; "~nop"]%string)) in
  w_sect w = T ".foo" /\ w_label w = T "" /\ w_parent w = T "main".
Proof. now vm_compute. Qed.

(** C83.  [looked m k r]: table [m] holds [r] under key [k]; [made f cs e]: some
    line of [cs] makes the entry [e]. *)
Theorem asm_reference_tables : forall mb flt oref olab fuel input vis s vis', f_library_functions flt = false ->
  AsmText.run mb flt oref olab fuel input vis = Ok (s, vis') ->
  let cs := scan_input flt input in
  (forall k r, looked (t_used_labels s) k r <-> map_contains (t_labels_defined s) k = true /\ made flt (used_at mb flt) cs (k, r)) /\
  (forall k r, looked (t_data_used_labels s) k r <-> made flt (data_at mb flt) cs (k, r)) /\
  (forall k, set_contains (t_usercode_labels s) k = true <-> made flt (global_at flt) cs k).
Proof.
  intros mb flt oref olab fuel input vis s vis' Hl H. destruct (run_tables mb flt oref olab Hl fuel input vis s vis' H) as (A & B & C & _). auto.
Qed.
(** The entries a stored line makes: code mentions its names below the parent,
    data below the last label and, where the location is inside a procedure,
    also below the parent. *)
Theorem asm_line_entries : forall mb flt w raw nest, let t := clean flt nest raw in let w' := world_text flt w raw t in
  verdict_of flt w raw t = Kept -> label_of t = None -> isDirective t = false -> locates w t = false ->
  (hasOpcode t (pl_cuda (w_place w')) = true ->
     forall k r, In (k, r) (used_at mb flt w (CText raw nest)) <-> In k (map lb_name (getUsedLabelsInLine mb t)) /\ k <> w_parent w' /\ r = w_parent w') /\
  (hasOpcode t (pl_cuda (w_place w')) = false -> used_at mb flt w (CText raw nest) = []) /\
  (forall k r, In (k, r) (data_at mb flt w (CText raw nest)) <-> isDataDefn t = true /\ In k (map lb_name (getUsedLabelsInLine mb t)) /\
     (r = w_label w' \/ (sp_inside (pl_spot (w_place w')) = true /\ r = w_parent w'))).
Proof.
  intros mb flt w raw nest t w' Hk Hn Hd Hl. unfold used_at, data_at. subst t. cbv zeta. rewrite Hk, Hl.
  assert (S : symbol_entries false (w_def w) (clean flt nest raw) (w_label (world_text flt w raw (clean flt nest raw))) = []).
  { unfold symbol_entries, symbol_line. rewrite Hd. cbn [orb]. now rewrite andb_false_r. }
  rewrite S. cbn [app]. unfold code_entries, data_entries, data_line, found. rewrite Hn. cbn [is_some negb andb]. fold w'.
  assert (P : forall ns a k r, In (k, r) (pairs ns a) <-> In k ns /\ r = a).
  { intros ns a k r. unfold pairs. rewrite in_map_iff. split; [intros (x & [= -> ->] & X); auto|intros [X ->]; eauto]. }
  split; [|split].
  - intros ->. intros k r. rewrite P, filter_In, negb_true_iff, str_eqb_neq. unfold names. tauto.
  - now intros ->.
  - intros k r. destruct (isDataDefn _); [|cbn; intuition discriminate]. rewrite in_app_iff, P. unfold names. destruct (sp_inside _).
    + rewrite P. tauto.
    + cbn [In]. intuition discriminate.
Qed.
Example asm_reference_tables_case : exists s vis', go both (lns ["~.globl~f"; "f:"; "~call~g"; "~jmp~f"; "g:"; "~.quad~f"; "~call~nowhere"]%string) = Ok (s, vis') /\
  map (fun e => (v_str (fst e), map v_str (snd e))) (t_used_labels s) = [(T "f", Ts [""%string]); (T "g", Ts ["f"%string])] /\
  map (fun e => (v_str (fst e), map v_str (snd e))) (t_data_used_labels s) = [(T "f", Ts ["g"%string])] /\ map v_str (t_usercode_labels s) = Ts ["f"%string].
Proof. do 2 eexists. split; [vm_compute; reflexivity|]. now vm_compute. Qed.

(** C84 *)
Theorem asm_alias_table : forall mb flt oref olab fuel input vis s vis', f_library_functions flt = false ->
  AsmText.run mb flt oref olab fuel input vis = Ok (s, vis') ->
  forall k a, option_map v_str (map_find (t_aliased_labels s) k) = Some a <->
    exists pre c post, scan_input flt input = pre ++ c :: post /\ alias_at flt (worlds flt pre) c = Some (k, a) /\
      forall p c' q b, post = p ++ c' :: q -> alias_at flt (worlds flt (pre ++ c :: p)) c' <> Some (k, b).
Proof.
  intros mb flt oref olab fuel input vis s vis' Hl H. exact (proj2 (proj2 (proj2 (run_tables mb flt oref olab Hl fuel input vis s vis' H)))).
Qed.
(** An alias is made by a label line that is stored and is no assignment, when
    the last of the stored labels has had neither code nor data nor an
    assignment after it. *)
Theorem asm_alias_made : forall flt w raw nest k a, let t := clean flt nest raw in
  (alias_at flt w (CText raw nest) = Some (k, a) <->
     verdict_of flt w raw t = Kept /\ locates w t = false /\ (exists c, label_of t = Some (k, (false, c))) /\ a = w_addr w /\ a <> []) /\
  (verdict_of flt w raw t = Kept -> w_addr (world_text flt w raw t) =
     match (if locates w t then None else label_of t) with
     | Some (n, (assign, _)) => if assign : bool then [] else n
     | None => if hasOpcode t (pl_cuda (w_place (world_text flt w raw t))) || (negb (locates w t) && isDataDefn t) then [] else w_addr w
     end) /\
  (verdict_of flt w raw t <> Kept -> w_addr (world_text flt w raw t) = w_addr w).
Proof.
  intros flt w raw nest k a t. unfold alias_at. subst t. cbv zeta. set (t := clean flt nest raw). split; [|split].
  - destruct (verdict_of flt w raw t); [split; [discriminate|intros [? _]; discriminate]..|]. unfold alias_entry, found.
    destruct (locates w t); [split; [discriminate|intros (_ & ? & _); discriminate]|].
    destruct (label_of t) as [[n [[|] c]]|].
    + split; [discriminate|]. intros (_ & _ & (c' & [=]) & _).
    + destruct (w_addr w) as [|x q]; cbn [is_nil].
      * split; [discriminate|]. intros (_ & _ & _ & -> & X). now contradiction X.
      * split; [intros [= <- <-]; repeat split; eauto; discriminate|]. now intros (_ & _ & (c' & [= <- <-]) & -> & _).
    + split; [discriminate|]. intros (_ & _ & (c' & [=]) & _).
  - unfold verdict_of, world_text. destruct (hidden_start _ _ _); [discriminate|]. cbn [orb]. destruct (only_comment _ _ _); [discriminate|].
    intros V. unfold class_world. cbn [w_addr w_place pl_cuda pre_world w_def]. rewrite V. unfold next_addr, found, data_line.
    destruct (if locates w t then None else label_of t) as [[n [b c]]|]; reflexivity.
  - unfold verdict_of, world_text. destruct (hidden_start _ _ _); [reflexivity|]. cbn [orb]. destruct (only_comment _ _ _); [reflexivity|].
    intros V. unfold class_world. cbn [w_addr w_place pl_cuda pre_world w_def]. destruct (class_verdict _ _ _ _); [reflexivity..|now contradiction V].
Qed.
(** Aliases chain, and comments and directives do not come between. *)
Example asm_alias_table_case : exists s vis', go only_directives (lns ["a:"; "~# note"; "b:"; "c:"; "~.text"; "d:"; "~ret"; "e:"]%string) = Ok (s, vis') /\
  map (fun e => (v_str (fst e), v_str (snd e))) (t_aliased_labels s) = [(T "b", T "a"); (T "c", T "b"); (T "d", T "c")].
Proof. do 2 eexists. split; [vm_compute; reflexivity|]. now vm_compute. Qed.

Print Assumptions asm_stored_exactly.
Print Assumptions asm_verdicts.
Print Assumptions asm_result_exactly.
Print Assumptions asm_line_record.
Print Assumptions asm_internal_names.
Print Assumptions asm_section_in_force.
Print Assumptions asm_label_in_force.
Print Assumptions asm_parent_in_force.
Print Assumptions asm_nothing_in_force.
Print Assumptions asm_setting_lines.
Print Assumptions asm_reference_tables.
Print Assumptions asm_line_entries.
Print Assumptions asm_alias_table.
Print Assumptions asm_alias_made.
