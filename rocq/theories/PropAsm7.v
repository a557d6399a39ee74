(** Text parser: how many labels are marked (C94) and exactly which (C95), when
    no data line names a label. *)
From Coq Require Import Permutation.
From Verif Require Import AsmLemmas AsmRead AsmMark AsmTrace AsmThms AsmUse AsmSearch AsmComplete AsmRemove AsmRoots AsmMarking Tests PropAsm1 PropAsm2 AsmWitness.
Arguments T _%string_scope.
Arguments ln _%string_scope.

Definition no_data_names (mb : str -> Z) (flt : Filter) (input : str) : Prop :=
  forall d k, In d (lines_read mb flt input) -> lv_is_data d = true -> mentions d k -> ~ is_label_name mb flt input k.
(** The lines of a result with a mark of any kind. *)
Definition marked_lines (s : tstate) : list asm_line_v :=
  filter (fun l => lv_is_used l || lv_is_used_through_alias l || lv_is_used_data_through_alias l) (t_lines s ++ t_filteredlines s).
(** The names of [R] that are not in [vis]. *)
Definition not_in (vis R : list str) : list str := filter (fun k => negb (existsb (str_eqb k) vis)) R.
(** The names a chain of uses can end at. *)
Definition the_roots (mb : str -> Z) (flt : Filter) (input : str) : list str := roots_of (lines_read mb flt input) (lines_aside mb flt input).

(** C94: every mark takes a root: the roots not yet visited become fewer. *)
Theorem asm_marks_take_roots : forall mb flt oref olab, shuffles oref -> (forall m, Permutation (olab m) m) -> forall input,
  Z.of_nat (length input) < two31 -> no_data_names mb flt input ->
  forall fuel vis s vis', AsmText.run mb flt oref olab fuel input vis = Ok (s, vis') ->
  (exists q, vis' = q ++ vis) /\
  forall R, incl (the_roots mb flt input) R -> (length (marked_lines s) + length (not_in vis' R) <= length (not_in vis R))%nat.
Proof.
  intros mb flt oref olab Ho Hl input Hlen Hd fuel vis s vis' H.
  destruct (run_roots mb flt oref olab Ho Hl input Hlen Hd fuel vis s vis' H) as [A B]. split; [exact A|].
  intros R HR. apply B. intros k Hk. apply HR. now apply roots_listed.
Qed.
(** So with one global function at most one label is marked, ... *)
Theorem asm_one_root_one_mark : forall mb flt oref olab, shuffles oref -> (forall m, Permutation (olab m) m) -> forall input,
  Z.of_nat (length input) < two31 -> no_data_names mb flt input -> forall r, incl (the_roots mb flt input) [r] ->
  forall fuel vis s vis', AsmText.run mb flt oref olab fuel input vis = Ok (s, vis') -> (length (marked_lines s) <= 1)%nat.
Proof.
  intros mb flt oref olab Ho Hl input Hlen Hd r Hr fuel vis s vis' H.
  destruct (asm_marks_take_roots mb flt oref olab Ho Hl input Hlen Hd fuel vis s vis' H) as [_ B]. specialize (B [r] Hr).
  unfold not_in in B. cbn [filter] in B. destruct (existsb _ vis); cbn [negb length] in B; lia.
Qed.
(** ... and once one was marked, later parses in the thread with that function as
    the only global one mark nothing at all. *)
Theorem asm_later_parse_unmarked : forall mb flt oref olab input flt2 oref2 olab2 input2,
  shuffles oref -> (forall m, Permutation (olab m) m) -> shuffles oref2 -> (forall m, Permutation (olab2 m) m) ->
  Z.of_nat (length input) < two31 -> no_data_names mb flt input -> Z.of_nat (length input2) < two31 -> no_data_names mb flt2 input2 ->
  forall r, incl (the_roots mb flt input) [r] -> incl (the_roots mb flt2 input2) [r] ->
  forall fuel vis s vis' fuel2 s2 vis2, AsmText.run mb flt oref olab fuel input vis = Ok (s, vis') ->
  AsmText.run mb flt2 oref2 olab2 fuel2 input2 vis' = Ok (s2, vis2) -> marked_lines s <> [] -> marked_lines s2 = [].
Proof.
  intros mb flt oref olab input flt2 oref2 olab2 input2 Ho Hl Ho2 Hl2 Hlen Hd Hlen2 Hd2 r Hr Hr2 fuel vis s vis' fuel2 s2 vis2 H H2 Hm.
  destruct (asm_marks_take_roots mb flt oref olab Ho Hl input Hlen Hd fuel vis s vis' H) as [_ B]. specialize (B [r] Hr).
  destruct (asm_marks_take_roots mb flt2 oref2 olab2 Ho2 Hl2 input2 Hlen2 Hd2 fuel2 vis' s2 vis2 H2) as [_ B2]. specialize (B2 [r] Hr2).
  assert (N : (length (not_in vis [r]) <= 1)%nat) by (unfold not_in; cbn [filter]; destruct (existsb _ vis); cbn; lia).
  destruct (marked_lines s) as [|x t]; [contradiction|]. cbn [length] in B.
  destruct (marked_lines s2); [reflexivity|]. cbn [length] in B2. lia.
Qed.
(** main calls f and g, g calls h: all four are used, one is marked; parsed once
    more, none is and with the unused-labels filter only the .globl line is left. *)
Definition calls : str := lns ["~.globl~main"; "main:"; "~call~f"; "~call~g"; "f:"; "~ret"; "g:"; "~call~h"; "h:"; "~ret"]%string.
Lemma calls_no_data flt : flt = no_filter \/ flt = only_unused -> no_data_names mblen_ascii flt calls.
Proof.
  intros F. assert (E : forallb (fun l => negb (lv_is_data l)) (lines_read mblen_ascii flt calls) = true) by (destruct F as [-> | ->]; vm_compute; reflexivity).
  intros d k H Hd. rewrite forallb_forall in E. specialize (E d H). rewrite Hd in E. discriminate E.
Qed.
Example asm_one_root_case : no_data_names mblen_ascii only_unused calls /\ the_roots mblen_ascii only_unused calls = [T "main"] /\
  (exists s vis', go only_unused calls = Ok (s, vis') /\ map (fun l => v_str (lv_label l)) (marked_lines s) = [T "main"] /\ vis' = [T "main"] /\
     texts (AsmText.run mblen_ascii only_unused id id 50 calls vis') = Some (Ts ["        .globl  main"]%string)) /\
  exists s vis', AsmText.run mblen_ascii only_unused id (@rev _) 50 calls [] = Ok (s, vis') /\
     map (fun l => v_str (lv_label l)) (marked_lines s) = [T "h"] /\ vis' = Ts ["main"; "g"; "h"]%string.
Proof. split; [apply calls_no_data; auto|]. split; [now vm_compute|]. split; do 2 eexists; (split; [vm_compute; reflexivity|]); now vm_compute. Qed.

(** C95.  [ms]: the names of the label lines in the order they are tried, with
    the mark each gets; [vis'] is what is left behind for the next parse.  The
    mark goes to the last line that defines the name; all other lines have none. *)
Theorem asm_marks_exactly : forall mb flt oref olab, shuffles oref -> (forall m, Permutation (olab m) m) -> forall input,
  Z.of_nat (length input) < two31 -> no_data_names mb flt input ->
  forall fuel vis s vis', AsmText.run mb flt oref olab fuel input vis = Ok (s, vis') ->
  let ls := t_lines (read_lines mb flt tstate0 input) in
  exists ms L kept out,
    marking (looked (t_used_labels s)) (fun k => set_contains (t_usercode_labels s) k = true) (fun k => option_map v_str (map_find (t_aliased_labels s) k)) vis ms vis' /\
    NoDup (map fst ms) /\
    (forall k, In k (map fst ms) <-> exists l, In l ls /\ lv_is_label l = true /\ v_str (lv_label l) = k) /\
    (forall k m i, In (k, m) ms -> last_def ls k (Z.of_nat i + 1) -> nth_error L i = option_map (set_mark m) (nth_error ls i)) /\
    (forall i, (forall k, ~ last_def ls k (Z.of_nat i + 1)) -> nth_error L i = nth_error ls i) /\
    parted (gone flt) [] L kept out /\
    Forall2 (fun l l' => l' = set_lv_source (lv_source l') (set_lv_labels (lv_labels l') l)) kept (t_lines s) /\
    t_filteredlines s = t_filteredlines (read_lines mb flt tstate0 input) ++ out.
Proof.
  intros mb flt oref olab Ho Hl input Hlen Hd fuel vis s vis' H.
  destruct (run_marking mb flt oref olab Ho Hl input Hlen Hd fuel vis s vis' H) as (ms & L & kept & out & A & B & C & D & E & F & G & K).
  exists ms, L, kept, out. repeat (split; [assumption|]). split; [|exact K]. rewrite G. clear.
  induction kept as [|l t IH]; [constructor|]. cbn [map]. constructor; [apply shown_core|exact IH].
Qed.
(** The marking of the example above in the second order: [h] takes the trail
    main, g, h; then nothing is left for the others. *)
Example asm_marks_exactly_case : forall s vis', AsmText.run mblen_ascii only_unused id (@rev _) 50 calls [] = Ok (s, vis') ->
  trail (looked (t_used_labels s)) (fun k => set_contains (t_usercode_labels s) k = true) [] (T "h") (Ts ["main"; "g"; "h"]%string) /\
  (forall p, ~ trail (looked (t_used_labels s)) (fun k => set_contains (t_usercode_labels s) k = true) (Ts ["main"; "g"; "h"]%string) (T "main") p).
Proof.
  intros s vis' H. vm_compute in H. injection H as <- <-. split.
  - change (Ts ["main"; "g"; "h"]%string) with ((([T "main"]) ++ [T "g"]) ++ [T "h"]).
    eapply TR_step with (r := T "g"); [intros []| |discriminate|eapply TR_step with (r := T "main"); [| |discriminate|apply TR_root; [|left]]].
    + do 2 eexists. split; [vm_compute; reflexivity|]. split; [left; reflexivity|reflexivity].
    + intros [X|[]]; discriminate.
    + do 2 eexists. split; [vm_compute; reflexivity|]. split; [left; reflexivity|reflexivity].
    + intros [X|[X|[]]]; discriminate.
    + now vm_compute.
  - intros p X. assert (N : In (T "main") (Ts ["main"; "g"; "h"]%string)) by now left. inversion X; contradiction.
Qed.

Print Assumptions asm_marks_take_roots.
Print Assumptions asm_one_root_one_mark.
Print Assumptions asm_later_parse_unmarked.
Print Assumptions asm_marks_exactly.
