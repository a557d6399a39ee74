(** Text parser: exactly which lines the last pass removes (C79). *)
From Verif Require Import AsmLemmas AsmRead AsmMark AsmTrace AsmThms AsmUse AsmSearch AsmRemove Tests PropAsm1.
Arguments T _%string_scope.
Arguments ln _%string_scope.

(** C79.  The lines read get their marks ([L]); they are then divided into
    [kept], the lines of the result, and [out], by the rule [gone]. *)
Theorem asm_removed_exactly : forall mb flt oref olab fuel input vis s vis',
  AsmText.run mb flt oref olab fuel input vis = Ok (s, vis') ->
  exists L kept out, Forall2 same_but_marks (t_lines (read_lines mb flt tstate0 input)) L /\ parted (gone flt) [] L kept out /\
    Forall2 (fun l l' => l' = set_lv_source (lv_source l') (set_lv_labels (lv_labels l') l)) kept (t_lines s) /\
    t_filteredlines s = t_filteredlines (read mb flt input) ++ out.
Proof.
  intros mb flt oref olab fuel input vis s vis' H. destruct (run_parted _ _ _ _ _ _ _ _ _ H) as (L & kept & out & A & B & C & D).
  exists L, kept, out. split; [exact A|]. split; [exact B|]. split; [|exact D]. rewrite C. clear.
  induction kept as [|l t IH]; [constructor|]. cbn [map]. constructor; [apply shown_core|exact IH].
Qed.
(** What the rule says, case by case: used labels stay, lines before the first
    label stay (but for data in compatibility mode), lines below an unused
    function go until the next used label, whatever they are. *)
Theorem asm_removal_rule : forall flt ls l,
  (lv_is_label l = true -> lv_is_used l = true -> lv_is_data l = false -> ~ gone flt (ls ++ [l]) l) /\
  (f_unused_labels flt = false -> f_compatmode flt = false -> ~ gone flt (ls ++ [l]) l) /\
  (f_compatmode flt = false -> Forall (fun x => lv_is_label x = false) (ls ++ [l]) -> ~ gone flt (ls ++ [l]) l) /\
  (f_unused_labels flt = true -> unused_function l -> gone flt (ls ++ [l]) l) /\
  (f_unused_labels flt = true -> in_unused ls -> lv_is_label l = false \/ lv_is_used l = false -> gone flt (ls ++ [l]) l) /\
  (f_unused_labels flt = true -> f_compatmode flt = false -> ~ in_unused ls -> (gone flt (ls ++ [l]) l <-> unused_function l \/ lone_label l)).
Proof.
  intros flt ls l. unfold gone. rewrite in_unused_snoc. unfold unused_function, lone_label, unmarked. repeat split; intros.
  - intuition congruence.
  - intuition congruence.
  - intros X. assert (lv_is_label l = false) by (apply Forall_app in H0 as [_ H0]; now inversion H0).
    assert (in_unused ls -> False).
    { intros (a & x & b & -> & (Hx & _) & _). rewrite <- app_assoc in H0. apply Forall_app in H0 as [_ H0]. inversion H0; subst. congruence. }
    intuition congruence.
  - auto.
  - left. split; [assumption|]. left. right. split; [assumption|]. intuition congruence.
  - intuition congruence.
  - intuition congruence.
Qed.
(** A label that is not internal has no parent recorded: the branch of
    removeUnused on closest_parent_label (parser.cpp:753-757) is never taken. *)
Theorem asm_no_parent_of_functions : forall mb flt input l, In l (t_lines (read_lines mb flt tstate0 input)) ->
  lv_is_label l = true -> lv_is_internal_label l = false -> lv_closest_parent_label l = [].
Proof. intros mb flt input l H. exact (proj1 (Forall_forall _ _) (read_parent mb flt input) l H). Qed.
(** [dead] goes with all its lines up to the next used label, also the internal
    label and the data in between; [.L2] and [.L1] go alone ([.L1] is used but
    not marked, see asm_used_label_unmarked_refuted). *)
Example asm_removed_exactly_case : exists s vis', go only_unused
    (lns ["~.text"; "~.globl~main"; "dead:"; "~nop"; ".L9:"; "~.long~1"; "main:"; "~jmp~.L1"; ".L2:"; "~inc~eax"; ".L1:"; "~ret"]%string) = Ok (s, vis') /\
  map lv_text (t_lines s) = Ts ["        .text"; "        .globl  main"; "main:"; "        jmp     .L1"; "        inc     eax"; "        ret"]%string /\
  map lv_text (t_filteredlines s) = Ts ["dead:"; "        nop"; ".L9:"; "        .long   1"; ".L2:"; ".L1:"]%string.
Proof. do 2 eexists. split; [vm_compute; reflexivity|]. now vm_compute. Qed.

Print Assumptions asm_removed_exactly.
Print Assumptions asm_removal_rule.
Print Assumptions asm_no_parent_of_functions.
