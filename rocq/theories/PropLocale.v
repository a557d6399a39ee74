(** Properties C105, C106: what the locale of the process changes.  The locale is
    the C function mblen, any function [mb] of the unread bytes. *)
From Verif Require Import AsmLocale ObjLocale UtilLabels ObjRefs Tests ObjDump AsmText PropAsm1.
Arguments T _%string_scope.
Arguments ln _%string_scope.
Local Open Scope Z_scope.

(** Two references with the same name and start; two lines that differ at most in
    the ends of their references. *)
Definition same_ref (r r' : asm_label_v) : Prop :=
  lbv_name r = lbv_name r' /\ r_start (lbv_range r) = r_start (lbv_range r').
Definition same_line (l l' : asm_line_v) : Prop :=
  set_lv_labels [] l = set_lv_labels [] l' /\ Forall2 same_ref (lv_labels l) (lv_labels l').

Lemma map_Forall2 {A} (g : A -> A) (R : A -> A -> Prop) : (forall a b, g a = g b -> R a b) ->
  forall a b, map g a = map g b -> Forall2 R a b.
Proof.
  intros H a. induction a as [|x a IH]; intros [|y b] E; try discriminate; constructor; injection E as E1 E2; auto.
Qed.
Lemma endless_same l l' : endless_line l = endless_line l' -> same_line l l'.
Proof.
  intro H. split; [exact (f_equal (set_lv_labels []) H)|].
  apply (map_Forall2 endless); [|exact (f_equal lv_labels H)].
  intros [n [a b]] [n' [a' b']] E. injection E as -> ->. now split.
Qed.

Lemma endless_text s : AsmText.outputText (endless_state s) = AsmText.outputText s.
Proof.
  unfold AsmText.outputText. change (t_lines (endless_state s)) with (map endless_line (t_lines s)).
  induction (t_lines s) as [|l t IH]; [reflexivity|]. cbn [map flat_map]. now rewrite IH.
Qed.
Lemma endless_labels s : redetermineLabels (endless_state s) = redetermineLabels s.
Proof.
  unfold redetermineLabels. change (t_lines (endless_state s)) with (map endless_line (t_lines s)).
  generalize 1. induction (t_lines s) as [|l t IH]; intro n; [reflexivity|]. cbn [map labels_from]. now rewrite IH.
Qed.
Lemma bare_text s : ObjDump.outputText (bare_state s) = ObjDump.outputText s.
Proof.
  unfold ObjDump.outputText. change (o_lines (bare_state s)) with (map bare_line (o_lines s)).
  induction (o_lines s) as [|l t IH]; [reflexivity|]. cbn [map flat_map]. now rewrite IH.
Qed.

(** C105 *)
Theorem asm_locale : forall mb mb' flt ord_refs ord_labels fuel input vis,
  match AsmText.run mb flt ord_refs ord_labels fuel input vis, AsmText.run mb' flt ord_refs ord_labels fuel input vis with
  | Ok (s, v), Ok (s', v') =>
      Forall2 same_line (t_lines s) (t_lines s') /\ Forall2 same_line (t_filteredlines s) (t_filteredlines s') /\
      AsmText.outputText s = AsmText.outputText s' /\ redetermineLabels s = redetermineLabels s' /\
      t_labels_defined s = t_labels_defined s' /\ t_usercode_labels s = t_usercode_labels s' /\
      t_used_labels s = t_used_labels s' /\ t_data_used_labels s = t_data_used_labels s' /\
      t_weakly_used_labels s = t_weakly_used_labels s' /\ t_aliased_labels s = t_aliased_labels s' /\
      t_files s = t_files s' /\ t_total_lines s = t_total_lines s' /\ v = v'
  | UB u, UB u' => u = u'
  | Throws, Throws | Diverges, Diverges => True
  | _, _ => False
  end.
Proof.
  intros mb mb' flt ord_refs ord_labels fuel input vis.
  pose proof (fromStream_rel flt ord_refs ord_labels mb mb' fuel tstate0 tstate0 input vis eq_refl) as H.
  unfold AsmText.run. unfold eout in H.
  destruct (AsmText.fromStream mb _ _ _ _ _ _ _) as [[s v]|u| |], (AsmText.fromStream mb' _ _ _ _ _ _ _) as [[s' v']|u'| |];
    cbn [obind fst snd] in H; try discriminate H; try exact I; [|congruence].
  assert (HS : endless_state s = endless_state s')
    by exact (f_equal (fun o => match o with Ok p => fst p | _ => endless_state s end) H).
  assert (HV : v = v') by exact (f_equal (fun o => match o with Ok p => snd p | _ => v end) H).
  split; [exact (map_Forall2 _ _ endless_same _ _ (f_equal t_lines HS))|].
  split; [exact (map_Forall2 _ _ endless_same _ _ (f_equal t_filteredlines HS))|].
  split; [rewrite <- (endless_text s), <- (endless_text s'); now rewrite HS|].
  split; [rewrite <- (endless_labels s), <- (endless_labels s'); now rewrite HS|].
  repeat split; [exact (f_equal t_labels_defined HS)|exact (f_equal t_usercode_labels HS)|exact (f_equal t_used_labels HS)
    |exact (f_equal t_data_used_labels HS)|exact (f_equal t_weakly_used_labels HS)|exact (f_equal t_aliased_labels HS)
    |exact (f_equal t_files HS)|exact (f_equal t_total_lines HS)|exact HV].
Qed.
(** In two locales in which an ASCII byte is one character, nothing differs, for
    any input: a reference holds only ASCII letters, digits and . _ @ $ %. *)
Theorem asm_locale_ascii : forall mb mb' flt ord_refs ord_labels fuel input vis,
  ascii_compatible mb -> ascii_compatible mb' ->
  AsmText.run mb flt ord_refs ord_labels fuel input vis = AsmText.run mb' flt ord_refs ord_labels fuel input vis.
Proof. intros mb mb' flt oref olab fuel input vis H H'. exact (fromStream_same mb mb' flt oref olab H H' fuel tstate0 input vis). Qed.
(** The ends do depend on the locale: in one where no byte is a character. *)
Definition call : str := lns ["main:"; "~call~g"; "g:"]%string.
Definition ranges (o : outcome (tstate * list str)) : option (list (list (Z * Z))) :=
  match o with
  | Ok (s, _) => Some (map (fun l => map (fun r => (r_start (lbv_range r), r_end (lbv_range r))) (lv_labels l)) (t_lines s))
  | _ => None
  end.
Theorem asm_locale_ends_refuted : exists mb mb' input,
  ranges (AsmText.run mb no_filter (fun l => l) (fun l => l) 9 input []) <> ranges (AsmText.run mb' no_filter (fun l => l) (fun l => l) 9 input []).
Proof. exists mblen_ascii, (fun _ => 0), call. vm_compute. discriminate. Qed.
Example asm_locale_case :
  ranges (AsmText.run mblen_utf8 no_filter (fun l => l) (fun l => l) 9 call []) = Some [[]; [(17, 18)]; []] /\
  ranges (AsmText.run (fun _ => 0) no_filter (fun l => l) (fun l => l) 9 call []) = Some [[]; [(17, 17)]; []].
Proof. vm_compute. repeat split. Qed.

(** C106 *)
Definition sans_refs (l : asm_line) : asm_line := set_l_labels [] l.
Theorem objdump_locale : forall mb mb' flt input,
  match ObjDump.run mb flt input, ObjDump.run mb' flt input with
  | Ok s, Ok s' =>
      map sans_refs (o_lines s) = map sans_refs (o_lines s') /\ o_labels s = o_labels s' /\
      ObjDump.outputText s = ObjDump.outputText s' /\ o_total_lines s = o_total_lines s'
  | UB u, UB u' => u = u'
  | Throws, Throws | Diverges, Diverges => True
  | _, _ => False
  end.
Proof.
  intros mb mb' flt input. pose proof (obj_fromStream_rel mb mb' flt ostate0 ostate0 input eq_refl) as H.
  unfold ObjDump.run. unfold bout in H.
  destruct (ObjDump.fromStream mb flt ostate0 input) as [s|u| |], (ObjDump.fromStream mb' flt ostate0 input) as [s'|u'| |];
    cbn [obind] in H; try discriminate H; try exact I; [|congruence].
  assert (HS : bare_state s = bare_state s')
    by exact (f_equal (fun o => match o with Ok p => p | _ => bare_state s end) H).
  split; [exact (f_equal o_lines HS)|]. split; [exact (f_equal o_labels HS)|].
  split; [|exact (f_equal o_total_lines HS)].
  rewrite <- (bare_text s), <- (bare_text s'). now rewrite HS.
Qed.
Theorem objdump_locale_ascii : forall mb mb' flt input,
  ascii_compatible mb -> ascii_compatible mb' -> ascii_text input ->
  ObjDump.run mb flt input = ObjDump.run mb' flt input.
Proof. intros mb mb' flt input H H' Hi. unfold ObjDump.run, ObjDump.fromStream. apply feed_same; trivial. constructor. Qed.
(** The names of references do depend on it: the column of a character is used as
    the offset of a byte. *)
Definition accent : str := T "0: 90  call " ++ [ascii_of_nat 195; ascii_of_nat 169] ++ T "<f>" ++ [LF].
Definition names (o : outcome ostate) : option (list (list str)) :=
  match o with Ok s => Some (map (fun l => map lb_name (l_labels l)) (o_lines s)) | _ => None end.
Theorem objdump_locale_names_refuted : exists mb mb' input,
  ascii_compatible mb /\ ascii_compatible mb' /\
  names (ObjDump.run mb no_filter input) <> names (ObjDump.run mb' no_filter input).
Proof.
  exists mblen_utf8, mblen_ascii, accent. split; [|split].
  - intros c t Hc. unfold mblen_utf8. replace (code c =? 0) with false by (symmetry; apply Z.eqb_neq; lia).
    replace (code c <? 128) with true by (symmetry; apply Z.ltb_lt; lia). reflexivity.
  - intros c t Hc. unfold mblen_ascii. replace (code c =? 0) with false by (symmetry; apply Z.eqb_neq; lia).
    replace (code c <? 128) with true by (symmetry; apply Z.ltb_lt; lia). reflexivity.
  - vm_compute. discriminate.
Qed.
Example objdump_locale_case :
  names (ObjDump.run mblen_utf8 no_filter accent) = Some [[T "<f"]] /\
  names (ObjDump.run mblen_ascii no_filter accent) = Some [[ascii_of_nat 169 :: T "<f"]] /\
  match ObjDump.run mblen_ascii no_filter accent with
  | Ok s => ObjDump.outputText s = T " call " ++ [ascii_of_nat 195; ascii_of_nat 169] ++ T "<f>" ++ [LF]
  | _ => False
  end.
Proof. vm_compute. repeat split. Qed.

Print Assumptions asm_locale.
Print Assumptions asm_locale_ascii.
Print Assumptions asm_locale_ends_refuted.
Print Assumptions objdump_locale.
Print Assumptions objdump_locale_ascii.
Print Assumptions objdump_locale_names_refuted.
