(** Text parser: the location of label lines (C85) and the references shown
    (C86), exactly. *)
From Coq Require Import Sorted.
From Verif Require Import AsmLemmas AsmRead AsmMark AsmTrace AsmThms AsmUse AsmComplete AsmPlace AsmSearch AsmRemove
  AsmWorld AsmStored AsmCarry AsmSpot Tests PropAsm1.
Arguments T _%string_scope.
Arguments ln _%string_scope.

(** C85.  [pend_at flt cs k]: the location of the label line [k], worked out
    from the lines after it. *)
Theorem asm_label_location : forall mb flt input, f_library_functions flt = false ->
  let cs := scan_input flt input in
  exists ks, StronglySorted lt ks /\ (forall k, In k ks <-> stored_at flt cs ks k) /\
    Forall2 (fun k l => lv_is_label l = true -> spot_of (lv_source l) = pd_spot (pend_at flt cs k)) ks (t_lines (read_lines mb flt tstate0 input)).
Proof.
  intros mb flt input Hl. cbv zeta. destruct (read_spots mb flt Hl input) as (ks & js & [_ A _ _ D _ _ _ _] & P). exists ks.
  split; [exact A|]. split; [exact D|]. revert P. generalize ks. generalize (t_lines (read_lines mb flt tstate0 input)). clear. intros ls ks0. revert ls.
  induction ks0 as [|k ks IH]; intros [|l ls]; cbn [pinv]; try contradiction; constructor.
  - intros E. destruct P as [P _]. destruct (P E) as [_ ->]. reflexivity.
  - apply IH, P.
Qed.
(** A label, then lines that are not stored or are internal labels, then a .loc
    or .d2line that is stored or followed by a stored line: its location is that
    of the directive, with no end mark, and user code only if not internal. *)
Theorem asm_label_takes_next : forall flt pre c mid raw nest post,
  let cs := pre ++ c :: mid ++ CText raw nest :: post in
  let w := worlds flt (pre ++ c :: mid) in let t := clean flt nest raw in
  let r := pl_spot (w_place (pre_world w t)) in
  (forall p x q, mid = p ++ x :: q -> waits flt (worlds flt (pre ++ c :: p)) x) ->
  hidden_start flt w t = false -> gives w t = true ->
  (verdict_of flt w raw t = Kept \/ post = [] \/ exists x q, post = x :: q /\ ends_wait flt (worlds flt (pre ++ c :: mid ++ [CText raw nest])) x) ->
  pd_spot (pend_at flt cs (length pre)) =
    mkSpot (sp_file r) (sp_idx r) (sp_line r) (sp_col r) false
           (sp_user r && negb (match name_of flt (worlds flt pre) c with Some (n, _) => isInternalLabel n | None => false end)) (sp_inside r).
Proof.
  intros flt pre c mid raw nest post cs w t r Hm Hh Hg Hp.
  assert (F1 : firstn (S (length pre)) cs = pre ++ [c]).
  { unfold cs. replace (S (length pre)) with (length (pre ++ [c])) by (rewrite app_length; cbn; lia).
    change (pre ++ c :: mid ++ CText raw nest :: post) with (pre ++ [c] ++ (mid ++ CText raw nest :: post)). rewrite app_assoc. apply firstn_len_app. }
  assert (F0 : firstn (length pre) cs = pre) by (unfold cs; apply firstn_len_app).
  assert (F2 : skipn (S (length pre)) cs = mid ++ CText raw nest :: post).
  { unfold cs. replace (S (length pre)) with (length (pre ++ [c])) by (rewrite app_length; cbn; lia).
    change (pre ++ c :: mid ++ CText raw nest :: post) with (pre ++ [c] ++ (mid ++ CText raw nest :: post)). rewrite app_assoc. apply skipn_len_app. }
  assert (N : nth_error cs (length pre) = Some c) by (unfold cs; rewrite nth_error_app2 by lia; now rewrite Nat.sub_diag).
  assert (W : forall p, worlds flt (pre ++ c :: p) = fold_left (world_cand flt) p (worlds flt (pre ++ [c]))).
  { intros p. change (c :: p) with ([c] ++ p). unfold worlds. now rewrite app_assoc, fold_left_app. }
  unfold pend_at. rewrite F1, F2. unfold int_at. rewrite N, F0.
  pose proof (pend_given flt (internal_of flt (worlds flt pre) c) mid raw nest post (worlds flt (pre ++ [c])) (pl_spot (w_place (worlds flt (pre ++ [c]))))) as G.
  cbv zeta in G. rewrite <- W in G. fold w t r in G. apply G; auto.
  - intros p x q E. rewrite <- W. eauto.
  - destruct Hp as [Hp|[Hp|(x & q & -> & Hx)]]; auto. right. right. exists x, q. split; [reflexivity|].
    rewrite W, fold_left_app, <- W in Hx. exact Hx.
Qed.
(** A stored line that is no internal label follows: the location in force. *)
Theorem asm_label_keeps_own : forall flt pre c x post,
  ends_wait flt (worlds flt (pre ++ [c])) x ->
  pd_spot (pend_at flt (pre ++ c :: x :: post) (length pre)) = pl_spot (w_place (worlds flt (pre ++ [c]))).
Proof.
  intros flt pre c x post H. unfold pend_at.
  replace (S (length pre)) with (length (pre ++ [c])) by (rewrite app_length; cbn; lia).
  change (pre ++ c :: x :: post) with (pre ++ [c] ++ (x :: post)). rewrite app_assoc, firstn_len_app, skipn_len_app. now apply pend_own.
Qed.
(** [f] and [.L1] take line 10 that follows, [g] keeps line 10 because a stored
    line comes before the next .loc; two .loc in a row: the last one counts. *)
Example asm_label_location_case :
  map (fun l => (lv_text l, sv_line (lv_source l)))
    (t_lines (read_lines mblen_ascii only_directives tstate0
      (lns ["f:"; ".L1:"; "~.loc~1 10"; "~nop"; "g:"; "~nop"; "~.loc~1 20"; "h:"; "~.loc~1 30"; "~.loc~1 40"; "~nop"]%string))) =
  [(T "f:", 10); (T ".L1:", 10); (T "        nop", 10); (T "g:", 10); (T "        nop", 10); (T "h:", 40); (T "        nop", 40)].
Proof. now vm_compute. Qed.

(** C86 *)
Theorem asm_result_references : forall mb flt oref olab fuel input vis s vis',
  AsmText.run mb flt oref olab fuel input vis = Ok (s, vis') -> Z.of_nat (length input) < two31 ->
  let ls := t_lines (read_lines mb flt tstate0 input) in
  forall l', In l' (t_lines s) -> exists l, In l ls /\ lv_text l' = lv_text l /\
    lv_labels l' = filter (fun r => existsb (fun d => lv_is_label d && str_eqb (v_str (lv_label d)) (v_str (lbv_name r))) ls) (lv_labels l).
Proof.
  intros mb flt oref olab fuel input vis s vis' H Hlen. cbv zeta. intros l' Hin.
  destruct (run_line _ _ _ _ _ _ _ _ _ _ H Hin) as (l & Hl & Hc & _ & Hlab). exists l. split; [exact Hl|]. split; [now rewrite Hc|].
  rewrite Hlab. apply filter_ext_in. intros r _. apply eq_iff_eq_true. rewrite map_contains_in, existsb_exists. split.
  - intros (k & i & A & B). destruct (table_lines _ _ _ _ _ Hlen A) as [(x & X & _ & Xl & Xn) _]. apply nth_error_In in X. exists x. split; [exact X|].
    rewrite Xl, Xn, B, str_eqb_refl. reflexivity.
  - intros (d & A & B). apply andb_prop in B as [B1 B2]. apply str_eqb_eq in B2.
    destruct (count_read mb flt input) as [_ C]. destruct C as [_ C _]; [pose proof (read_total mb flt input); lia|].
    destruct (C d A B1) as (k & i & K1 & K2). exists k, i. split; [exact K1|]. congruence.
Qed.
(** [puts] is nowhere defined. *)
Example asm_result_references_case : exists s vis', go only_unused (lns ["~.globl~main"; "main:"; "~call~puts"; "~jmp~main"; "~.quad~data"; "dead:"; "~nop"; "data:"]%string) = Ok (s, vis') /\
  map (fun l => (lv_text l, map (fun r => v_str (lbv_name r)) (lv_labels l))) (t_lines s) =
  [(T "        .globl  main", []); (T "main:", []); (T "        call    puts", []); (T "        jmp     main", [T "main"]); (T "        .quad   data", [T "data"]); (T "data:", [])].
Proof. do 2 eexists. split; [vm_compute; reflexivity|]. now vm_compute. Qed.

Print Assumptions asm_label_location.
Print Assumptions asm_label_takes_next.
Print Assumptions asm_label_keeps_own.
Print Assumptions asm_result_references.
