(** Text parser: the search for used labels (C41-C44).  [mb], [oref], [olab],
    [fuel] and [vis] are as in PropAsm1. *)
From Coq Require Import Permutation.
From Verif Require Import AsmLemmas AsmRead AsmMark AsmTrace AsmThms AsmUse AsmSearch AsmComplete AsmDet Tests PropAsm1 AsmWitness.
Arguments T _%string_scope.
Arguments ln _%string_scope.

(** The label lines of a result that are marked as used. *)
Definition used_labels_of (o : outcome (tstate * list str)) : option (list str) :=
  match o with Ok (s, _) => Some (map (fun l => v_str (lv_label l)) (filter lv_is_used (t_lines s ++ t_filteredlines s))) | _ => None end.

(** C41 *)
Theorem asm_used_labels_reached : forall mb flt oref olab, shuffles oref -> forall input fuel vis s vis' l,
  AsmText.run mb flt oref olab fuel input vis = Ok (s, vis') -> In l (t_lines s) ->
  (lv_is_used l = true -> reaches mb flt input (v_str (lv_label l))) /\
  (lv_is_used_through_alias l = true -> exists a, same_address (lines_read mb flt input) (v_str (lv_label l)) a /\ reaches mb flt input a) /\
  (lv_is_used_data_through_alias l = true -> exists r a, data_by (lines_read mb flt input) (v_str (lv_label l)) r /\
     same_address (lines_read mb flt input) r a /\ reaches mb flt input a).
Proof. exact C41_used. Qed.
(** A label that is found, and one that nothing names. *)
Definition three : str := lns ["~.globl~main"; "f:"; "~ret"; "g:"; "~ret"; "main:"; "~call~f"]%string.
Example asm_used_labels_reached_case : used_labels_of (go no_filter three) = Some [T "f"]
  /\ ~ reaches mblen_ascii no_filter three (T "g").
Proof.
  split; [now vm_compute|]. apply not_named. now vm_compute.
Qed.

(** C42: what the tables say is found when no data refers to a label, and nothing
    was visited before.  The search is exact for one label ... *)
Theorem asm_search_exact : forall oref s, shuffles oref -> forall dom : str -> Prop,
  (forall k r, dom k -> tab_used oref s k r -> r <> [] -> dom r) ->
  (forall k, dom k -> refs_of oref (t_data_used_labels s) k = []) ->
  (forall k, dom k -> refs_of oref (t_weakly_used_labels s) k = []) ->
  forall fuel k b vis', dom k -> isUsed oref s fuel k 1 [] = Ok (b, vis') ->
  b = true <-> chain (tab_used oref s) (fun _ _ => False) (tab_user s) k.
Proof. exact search_exact. Qed.
(** ... some label is marked if one has a chain of uses ... *)
Theorem asm_some_label_marked : forall mb flt oref olab, shuffles oref -> (forall m, Permutation (olab m) m) -> forall input,
  Z.of_nat (length input) < two31 ->
  (forall d k, In d (lines_read mb flt input) -> lv_is_data d = true -> mentions d k -> ~ is_label_name mb flt input k) ->
  forall fuel s vis' l, AsmText.run mb flt oref olab fuel input [] = Ok (s, vis') ->
  In l (lines_read mb flt input) -> lv_is_label l = true ->
  code_chain (lines_read mb flt input) (lines_aside mb flt input) (v_str (lv_label l)) ->
  exists x, In x (t_lines s ++ t_filteredlines s) /\ (lv_is_used x = true \/ lv_is_used_through_alias x = true).
Proof. exact C42_some. Qed.
(** ... but the next one need not be: main is global, its code jumps to .L2, and in
    every hash order one of the two is not marked. *)
Theorem asm_used_label_unmarked_refuted : exists input k1 k2, k1 <> k2 /\
  (forall k, k = k1 \/ k = k2 -> is_label_name mblen_ascii no_filter input k /\
     code_chain (lines_read mblen_ascii no_filter input) (lines_aside mblen_ascii no_filter input) k) /\
  forall oref olab, shuffles oref -> (forall m, Permutation (olab m) m) -> forall fuel s vis',
  AsmText.run mblen_ascii no_filter oref olab fuel input [] = Ok (s, vis') ->
  exists l, In l (t_lines s) /\ (v_str (lv_label l) = k1 \/ v_str (lv_label l) = k2) /\ lv_is_label l = true /\
    lv_is_used l = false /\ lv_is_used_through_alias l = false /\ lv_is_used_data_through_alias l = false.
Proof.
  exists two, (T "main"), (T ".L2"). split; [vm_compute; discriminate|]. split; [exact two_chains|].
  exact two_unmarked.
Qed.
(** What is shown with the unused-labels filter, in the two orders. *)
Example asm_used_label_unmarked_case :
  used_labels_of (go no_filter two) = Some [T "main"] /\
  texts (go only_unused two) = Some (Ts ["        .globl  main"; "main:"; "        jmp     .L2"; "        ret"]%string) /\
  texts (AsmText.run mblen_ascii only_unused id (@rev _) 50 two []) = Some (Ts ["        .globl  main"; ".L2:"; "        ret"]%string).
Proof. now vm_compute. Qed.

(** C43: the parse ends when no data line names a label ... *)
Theorem asm_terminates : forall mb flt oref olab, shuffles oref -> (forall m, Permutation (olab m) m) -> forall input,
  (forall d k, In d (lines_read mb flt input) -> lv_is_data d = true -> mentions d k -> ~ is_label_name mb flt input k) ->
  Z.of_nat (length input) < two31 -> forall vis,
  exists r n, forall fuel, (n <= fuel)%nat -> AsmText.run mb flt oref olab fuel input vis = Ok r.
Proof. exact ends_always. Qed.
Example asm_terminates_case : (forall d k, In d (lines_read mblen_ascii no_filter two) -> lv_is_data d = true -> mentions d k -> ~ is_label_name mblen_ascii no_filter two k)
  /\ is_label_name mblen_ascii no_filter two (T "main").
Proof.
  split; [|apply two_chains; left; reflexivity].
  assert (E : forallb (fun l => negb (lv_is_data l)) (lines_read mblen_ascii no_filter two) = true) by (vm_compute; reflexivity).
  intros d k H Hd. rewrite forallb_forall in E. specialize (E d H). rewrite Hd in E. discriminate E.
Qed.
(** ... and need not otherwise: no depth of recursion is enough. *)
Theorem asm_endless_refuted : exists input, forall oref olab, shuffles oref -> (forall m, Permutation (olab m) m) ->
  forall fuel, AsmText.run mblen_ascii no_filter oref olab fuel input [] = Diverges.
Proof.
  exists tab. exact tab_endless.
Qed.


(** C44 *)
Theorem asm_same_result : forall mb flt input, f_unused_labels flt = false -> f_compatmode flt && f_directives flt = false ->
  forall oref olab fuel vis r oref' olab' fuel' vis' r',
  AsmText.run mb flt oref olab fuel input vis = Ok r -> AsmText.run mb flt oref' olab' fuel' input vis' = Ok r' ->
  forall fmt rep clock, AsmText.outputJson flt fmt rep clock (fst r) = AsmText.outputJson flt fmt rep clock (fst r') /\
    AsmText.outputText (fst r) = AsmText.outputText (fst r').
Proof. intros. eapply C44_same; eassumption. Qed.
Theorem asm_depth_irrelevant : forall mb flt oref olab input vis n m r r',
  AsmText.run mb flt oref olab n input vis = Ok r -> AsmText.run mb flt oref olab m input vis = Ok r' -> r = r'.
Proof. intros. eapply run_unique; eassumption. Qed.
(** The output depends on the hash order, and on earlier parses in the thread. *)
Definition out_text (o : outcome (tstate * list str)) : option str := match o with Ok (s, _) => Some (AsmText.outputText s) | _ => None end.
Theorem asm_hash_order_matters_refuted : exists input olab olab', (forall m, Permutation (olab m) m) /\ (forall m, Permutation (olab' m) m) /\
  exists a b, out_text (AsmText.run mblen_ascii only_unused id olab 50 input []) = Some a /\
    out_text (AsmText.run mblen_ascii only_unused id olab' 50 input []) = Some b /\ a <> b.
Proof.
  exists two, (fun m => m), (fun m => rev m). split; [auto|]. split; [intros; apply Permutation_sym, Permutation_rev|].
  do 2 eexists. split; [vm_compute; reflexivity|]. split; [vm_compute; reflexivity|]. discriminate.
Qed.
Theorem asm_history_matters_refuted : exists first input s vis, AsmText.run mblen_ascii only_unused id id 50 first [] = Ok (s, vis) /\
  exists a b, out_text (AsmText.run mblen_ascii only_unused id id 50 input []) = Some a /\
    out_text (AsmText.run mblen_ascii only_unused id id 50 input vis) = Some b /\ a <> b.
Proof.
  exists two, two. do 2 eexists. split; [vm_compute; reflexivity|].
  do 2 eexists. split; [vm_compute; reflexivity|]. split; [vm_compute; reflexivity|]. discriminate.
Qed.
Example asm_history_matters_case : texts (AsmText.run mblen_ascii only_unused id id 50 two [T "main"]) = Some (Ts ["        .globl  main"]%string).
Proof. now vm_compute. Qed.

Print Assumptions asm_used_labels_reached.
Print Assumptions asm_search_exact.
Print Assumptions asm_some_label_marked.
Print Assumptions asm_used_label_unmarked_refuted.
Print Assumptions asm_terminates.
Print Assumptions asm_endless_refuted.
Print Assumptions asm_same_result.
Print Assumptions asm_depth_irrelevant.
Print Assumptions asm_hash_order_matters_refuted.
Print Assumptions asm_history_matters_refuted.
