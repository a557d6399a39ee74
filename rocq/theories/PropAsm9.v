(** Text parser: the views a parse leaves behind in its thread (C97). *)
From Coq Require Import Permutation.
From Verif Require Import AsmLemmas AsmRead AsmMark AsmTrace AsmThms AsmUse AsmSearch AsmComplete AsmDet AsmViews AsmRemove AsmRoots AsmMarking AsmVisited AsmLeft Tests PropAsm1 PropAsm2 AsmWitness PropAsm7.
Arguments T _%string_scope.
Arguments ln _%string_scope.

(** [runV mb flt oref olab me dead fuel input vis]: parser number [me] reads
    [input] in a thread whose set holds [vis], after the parsers in [dead] were
    destroyed.  With none destroyed this is the model over names. *)
Theorem asm_visited_names : forall mb flt oref olab me dead fuel input vis, (forall p, dead p = false) ->
  omap (fun r => (fst r, map (fun e => v_str (snd e)) (snd r))) (runV mb flt oref olab me dead fuel input vis) =
  AsmText.run mb flt oref olab fuel input (map (fun e => v_str (snd e)) vis).
Proof. intros mb flt oref olab me dead fuel input vis H. exact (run_no_dead mb flt oref olab me dead input fuel vis H). Qed.

(** C97: what a parse adds to the set are views into its own line objects. *)
Theorem asm_visited_left : forall mb flt oref olab, shuffles oref -> f_comment_only flt = false -> f_library_functions flt = false ->
  forall me dead fuel input vis s vis', runV mb flt oref olab me dead fuel input vis = Ok (s, vis') ->
  forall e, In e vis' -> In e vis \/
    fst e = me /\ alive s (snd e) /\ match v_own (snd e) with OLine _ | ONull => True | _ => False end.
Proof.
  intros mb flt oref olab Ho Hc Hf me dead fuel input vis s vis' H e He.
  destruct (left_alive mb flt oref olab Ho me dead input fuel vis s vis' Hc Hf H e He) as [X|(X1 & X2 & X3)]; [now left|right].
  split; [exact X1|]. split; [exact X3|]. unfold into in X2. now destruct (v_own (snd e)).
Qed.
(** If the parser of such a view is gone and the next input defines a label of
    that name, characters of a destroyed line are read, in every hash order. *)
Theorem asm_dead_view_read : forall mb flt oref olab, shuffles oref -> (forall m, Permutation (olab m) m) -> forall input,
  Z.of_nat (length input) < two31 -> no_data_names mb flt input ->
  forall me dead vis e, NoDup (map (fun e => v_str (snd e)) vis) -> In e vis -> dead (fst e) = true -> is_label_name mb flt input (v_str (snd e)) ->
  exists n, forall fuel, (n <= fuel)%nat -> runV mb flt oref olab me dead fuel input vis = UB DanglingRead.
Proof.
  intros mb flt oref olab Ho Hl input Hlen Hd me dead vis e. exact (dead_read mb flt oref olab Ho Hl me dead input Hlen Hd vis e).
Qed.
(** So a thread that parses, with two parsers one after the other, the same input
    in which a label is marked, reads destroyed characters. *)
Theorem asm_parsed_twice : forall mb flt oref olab oref2 olab2, shuffles oref -> (forall m, Permutation (olab m) m) ->
  shuffles oref2 -> (forall m, Permutation (olab2 m) m) -> forall input,
  Z.of_nat (length input) < two31 -> no_data_names mb flt input ->
  forall first second dead dead2 fuel s vis', runV mb flt oref olab first dead fuel input [] = Ok (s, vis') -> marked_lines s <> [] ->
  dead2 first = true ->
  exists n, forall fuel2, (n <= fuel2)%nat -> runV mb flt oref2 olab2 second dead2 fuel2 input vis' = UB DanglingRead.
Proof.
  intros mb flt oref olab oref2 olab2 Ho Hl Ho2 Hl2 input Hlen Hd first second dead dead2 fuel s vis' H Hm Hdead.
  assert (Hm' : marks (t_lines s ++ t_filteredlines s) <> 0%nat).
  { unfold marks. intros X. apply length_zero_iff_nil in X. exact (Hm X). }
  destruct (mark_leaves mb flt oref olab Ho Hl first dead input Hlen Hd fuel [] s vis' H Hm') as (e & E1 & E2 & E3).
  destruct (left_kept mb flt oref olab Ho Hl first dead input Hlen Hd fuel [] s vis' H (NoDup_nil _)) as [Hs _].
  apply (dead_read mb flt oref2 olab2 Ho2 Hl2 second dead2 input Hlen Hd vis' e Hs E1); [now rewrite E2|exact E3].
Qed.
(** main calls f and g, g calls h: the view left is the name in the second line
    of the first parser; the same parse by a second parser reads it. *)
Example asm_parsed_twice_case : exists s vis', runV mblen_ascii no_filter id id 1 (fun _ => false) 50 calls [] = Ok (s, vis') /\
  vis' = [(1%nat, mkView (OLine 1) (T "main"))] /\ marked_lines s <> [] /\ no_data_names mblen_ascii no_filter calls /\
  runV mblen_ascii no_filter id id 2 (Nat.eqb 1) 50 calls vis' = UB DanglingRead /\
  (exists s2 v2, runV mblen_ascii no_filter id id 2 (fun _ => false) 50 calls vis' = Ok (s2, v2) /\ marked_lines s2 = []).
Proof.
  eexists. eexists. split; [vm_compute; reflexivity|]. split; [reflexivity|]. split; [vm_compute; discriminate|]. split; [apply calls_no_data; auto|].
  split; [vm_compute; reflexivity|]. eexists. eexists. split; [vm_compute; reflexivity|]. now vm_compute.
Qed.

Print Assumptions asm_visited_names.
Print Assumptions asm_visited_left.
Print Assumptions asm_dead_view_read.
Print Assumptions asm_parsed_twice.
