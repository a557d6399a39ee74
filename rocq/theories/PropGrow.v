(** Properties C109, C110: what is printed of a longer input begins with what is
    printed of the beginning. *)
From Verif Require Import ObjThm1 ObjLib ObjGrow AsmMark AsmGrow Tests ObjDump AsmText PropAsm1.
Arguments T _%string_scope.
Arguments ln _%string_scope.
Local Open Scope Z_scope.

(** C109 *)
Definition whole_lines (a : str) : Prop := a = [] \/ exists a', a = a' ++ [LF].
Theorem asm_reading_on : forall mb flt oref olab fuel a vis s v oref' olab' fuel' b vis' s' v',
  f_unused_labels flt = false -> f_compatmode flt = false -> whole_lines a ->
  AsmText.run mb flt oref olab fuel a vis = Ok (s, v) -> AsmText.run mb flt oref' olab' fuel' (a ++ b) vis' = Ok (s', v') ->
  (exists ls rest, t_lines s' = ls ++ rest /\
    Forall2 (fun l l' => lv_text l' = lv_text l /\ lv_is_label l' = lv_is_label l /\ lv_label l' = lv_label l /\
      lv_section l' = lv_section l /\ lv_closest_parent_label l' = lv_closest_parent_label l /\
      lv_has_opcode l' = lv_has_opcode l /\ lv_is_data l' = lv_is_data l /\ lv_is_directive l' = lv_is_directive l /\
      subseq (lv_labels l) (lv_labels l')) (t_lines s) ls) /\
  (exists rest, AsmText.outputText s' = AsmText.outputText s ++ rest) /\
  (exists rest, redetermineLabels s' = redetermineLabels s ++ rest).
Proof.
  intros mb flt oref olab fuel a vis s v oref' olab' fuel' b vis' s' v' F1 F2 Ha H H'.
  destruct (run_more _ _ _ _ _ _ _ _ _ _ _ _ _ _ _ _ F1 F2 Ha H H') as (ls & r & E & G). split; [|split].
  - exists ls, r. split; [exact E|]. clear - G. induction G as [|l l' x y Hg _ IH]; constructor; [|exact IH]. unfold grown in Hg. intuition.
  - exists (flat_map (fun l => lv_text l ++ [LF]) r). unfold AsmText.outputText. rewrite E, flat_map_app. f_equal. clear - G.
    induction G as [|l l' x y Hg _ IH]; [reflexivity|]. cbn [flat_map]. rewrite IH. destruct Hg as (-> & _). reflexivity.
  - exists (labels_from (1 + Z.of_nat (length ls)) r). unfold redetermineLabels. rewrite E. clear - G. generalize 1. intros n. revert n.
    induction G as [|l l' x y Hg _ IH]; intros n; [cbn [app labels_from length]; f_equal; lia|]. cbn [app labels_from length].
    rewrite IH. destruct Hg as (_ & -> & -> & _). rewrite app_assoc. do 2 f_equal. lia.
Qed.
Definition begun_text : str := ln "f:" ++ ln "~jmp~.L1" ++ ln "  ".
Definition later_text : str := ln "~.loc~1 7" ++ ln ".L1:" ++ ln "~nop".
Definition texts_refs (o : outcome (tstate * list str)) : list (str * list str) :=
  match o with Ok (s, _) => map (fun l => (lv_text l, map (fun r => v_str (lbv_name r)) (lv_labels l))) (t_lines s) | _ => [] end.
(** The reference is there only when the label is; the blank line is there once. *)
Example asm_reading_on_case : whole_lines begun_text /\
  texts_refs (go only_directives begun_text) = [(T "f:", []); (T "        jmp     .L1", []); ([], [])] /\
  texts_refs (go only_directives (begun_text ++ later_text)) =
    [(T "f:", []); (T "        jmp     .L1", [T ".L1"]); ([], []); (T ".L1:", []); (T "        nop", [])].
Proof. split; [right; exists (ln "f:" ++ ln "~jmp~.L1" ++ T "  "); reflexivity|]. split; now vm_compute. Qed.
(** Locations may change: a directive after a label also says where the label is. *)
Theorem asm_reading_on_location_refuted : exists a b s v s' v' l l', whole_lines a /\
  go only_directives a = Ok (s, v) /\ go only_directives (a ++ b) = Ok (s', v') /\ hd_error (t_lines s) = Some l /\ hd_error (t_lines s') = Some l' /\
  sv_line (lv_source l) = 0 /\ sv_line (lv_source l') = 7.
Proof.
  exists (ln "f:"), (ln "~.file~1 `x.c`" ++ ln "~.loc~1 7"). do 6 eexists. split; [right; exists (T "f:"); reflexivity|].
  split; [vm_compute; reflexivity|]. split; [vm_compute; reflexivity|]. split; [cbn [t_lines hd_error]; reflexivity|]. split; [cbn [t_lines hd_error]; reflexivity|]. split; reflexivity.
Qed.
(** With the filter for unused labels neither output need be part of the other: a
    label used further down appears, a function defined again disappears. *)
Theorem asm_reading_on_unused_refuted : exists a b a' b', whole_lines a /\ whole_lines a' /\
  texts (go only_unused a) = Some (map T ["        .globl  f"]%string) /\
  texts (go only_unused (a ++ b)) = Some (map T ["        .globl  f"; ".L1:"]%string) /\
  texts (go only_unused a') = Some (map T ["        .globl  f"; "f:"; "        nop"]%string) /\
  texts (go only_unused (a' ++ b')) = Some (map T ["        .globl  f"; "f:"; "        ret"]%string).
Proof.
  exists (ln "~.globl~f" ++ ln ".L1:"), (ln "f:" ++ ln "~jmp~.L1"), (ln "~.globl~f" ++ ln "f:" ++ ln "~nop"), (ln "f:" ++ ln "~ret").
  split; [right; exists (ln "~.globl~f" ++ T ".L1:"); reflexivity|]. split; [right; exists (ln "~.globl~f" ++ ln "f:" ++ T "~nop"); reflexivity|].
  repeat split; now vm_compute.
Qed.

(** C110: objdump, wherever the input is cut. *)
Theorem objdump_reading_on : forall mb flt a b s s', f_library_functions flt = false ->
  ObjDump.run mb flt a = Ok s -> ObjDump.run mb flt (a ++ b) = Ok s' ->
  (exists rest, o_lines s' = o_lines s ++ rest) /\ (exists rest, o_labels s' = o_labels s ++ rest) /\
  (exists rest, ObjDump.outputText s' = ObjDump.outputText s ++ rest).
Proof.
  intros mb flt a b s s' F H H'. unfold ObjDump.run in H'. apply fromStream_app_Ok in H' as (s1 & H1 & H2).
  unfold ObjDump.run in H. rewrite H1 in H. injection H as ->.
  destruct (feed_more mb flt F b s s' H2) as [[r E] [q E']]. split; [now exists r|]. split; [now exists q|].
  exists (flat_map (fun l => l_text l ++ [LF]) r). unfold ObjDump.outputText. now rewrite E, flat_map_app.
Qed.
(** With the library filter: the lines before the first function and the functions
    stay, except that the last function goes when it turns out to have no line of
    user code. *)
Theorem objdump_reading_on_library : forall mb flt a b s s', f_library_functions flt = true ->
  ObjDump.run mb flt a = Ok s -> ObjDump.run mb flt (a ++ b) = Ok s' ->
  (forall x l y, o_lines s = x ++ l :: y -> l_is_label l = true -> exists rest, o_lines s' = x ++ rest) /\
  (forall x l y, o_lines s = x ++ l :: y -> l_is_label l = true -> (exists u, In u (l :: y) /\ s_is_usercode (l_source u) = true) ->
     (forall k, In k y -> l_is_label k = false) -> exists rest, o_lines s' = o_lines s ++ rest) /\
  ((forall l, In l (o_lines s) -> l_is_label l = false) -> exists rest, o_lines s' = o_lines s ++ rest).
Proof.
  intros mb flt a b s s' F H H'. destruct (run_settled mb flt F a b s s' H H') as (r & E). rewrite E. clear E.
  unfold settled. pose proof (shape_functions (o_lines s)) as Hs. destruct (functions (o_lines s)) as [pre gs]. destruct Hs as [Hs Hl].
  assert (P : forall x : list asm_line, ObjGrow.prefix x (pre ++ List.concat (trim gs)) -> exists rest, (pre ++ List.concat (trim gs)) ++ r = x ++ rest).
  { intros x [q ->]. exists (q ++ r). now rewrite app_assoc. }
  split; [|split].
  - intros x l y Ex El. apply P. apply (label_before pre gs x l y Hs); [congruence|exact El].
  - intros x l y Ex El (u & Hu & Hc) Hn. apply P. rewrite Hl. apply prefix_in.
    rewrite (last_user pre gs x l y Hs); [apply prefix_refl|congruence|exact El|exact Hn|]. apply existsb_exists. now exists u.
  - intros Hn. apply P. rewrite Hl. apply prefix_in. rewrite (no_groups pre gs Hs); [apply prefix_refl|]. now rewrite <- Hl.
Qed.
Definition one_user : str := ln "1 <main>:" ++ ln "/tmp/m.cpp:4" ++ ln " 1:~90  ~nop2".
Definition one_lib : str := ln "2 <lib2>:" ++ ln "/usr/include/b.h:5" ++ ln " 2:~90  ~nop3".
Definition lines_of (o : outcome ostate) : option (list str) := match o with Ok s => Some (map l_text (o_lines s)) | _ => None end.
Example objdump_reading_on_case :
  lines_of (ObjDump.run mblen_ascii no_filter one_user) = Some (map T ["main:"; " nop2"]%string) /\
  lines_of (ObjDump.run mblen_ascii no_filter (one_user ++ one_lib)) = Some (map T ["main:"; " nop2"; "lib2:"; " nop3"]%string) /\
  lines_of (ObjDump.run mblen_ascii only_library (one_user ++ one_lib ++ one_user)) =
    Some (map T ["main:"; " nop2"; "lib2:"; " nop3"; "main:"; " nop2"]%string) /\
  (exists s, ObjDump.run mblen_ascii only_library one_user = Ok s /\ exists u, In u (o_lines s) /\ s_is_usercode (l_source u) = true).
Proof.
  repeat split; [now vm_compute..|]. eexists. split; [vm_compute; reflexivity|]. eexists. split; [right; left; reflexivity|]. reflexivity.
Qed.
(** The exception happens: a function that was printed is not any more. *)
Theorem objdump_reading_on_library_refuted : exists a b,
  lines_of (ObjDump.run mblen_ascii only_library a) = Some (map T ["lib2:"; " nop3"]%string) /\
  lines_of (ObjDump.run mblen_ascii only_library (a ++ b)) = Some (map T ["main:"; " nop2"]%string).
Proof. exists one_lib, one_user. split; now vm_compute. Qed.

Print Assumptions asm_reading_on.
Print Assumptions asm_reading_on_location_refuted.
Print Assumptions asm_reading_on_unused_refuted.
Print Assumptions objdump_reading_on.
Print Assumptions objdump_reading_on_library.
Print Assumptions objdump_reading_on_library_refuted.
