(** The text parser: more depth, endless searches, and what the result depends on. *)
From Coq Require Import Permutation.
From Verif Require Import AsmLemmas AsmRead AsmMark AsmTrace AsmThms AsmUse AsmSearch AsmComplete.

(** *** A search that ends is the same with more depth allowed *)
Lemma bind_ok {A B} (o : outcome A) (f : A -> outcome B) r : obind o f = Ok r -> exists a, o = Ok a /\ f a = Ok r.
Proof. destruct o; cbn; try discriminate. eauto. Qed.
Lemma any_ref_mono (f g : view -> list str -> outcome (bool * list str)) refs : (forall r v o, f r v = Ok o -> g r v = Ok o) ->
  forall vis o, any_ref f refs vis = Ok o -> any_ref g refs vis = Ok o.
Proof.
  intros H. induction refs as [|r t IH]; intros vis o; cbn [any_ref]; [auto|]. intros E. apply bind_ok in E as ([u v] & E1 & E2).
  rewrite (H _ _ _ E1). cbn [obind fst snd] in *. destruct u; auto.
Qed.
Lemma isUsed_mono ord s n : forall k depth vis o, isUsed ord s n k depth vis = Ok o -> isUsed ord s (S n) k depth vis = Ok o.
Proof.
  induction n as [|n IH]; intros k depth vis o; [discriminate|]. rewrite (isUsed_step ord s (S n)), (isUsed_step ord s n). cbv zeta.
  destruct (mem_str _ _); [auto|]. destruct (set_contains _ _); [auto|]. intros H. apply bind_ok in H as ([u v] & E1 & E2).
  erewrite any_ref_mono; [|clear E1; intros r w q; cbn beta; instantiate (1 := fun r w => if is_nil (v_str r) then Ok (true, w) else isUsed ord s n (v_str r) (depth + 1) w); cbn beta;
    destruct (is_nil _); [auto|apply IH]|exact E1]. cbn [obind fst snd] in *. destruct u; [auto|].
  destruct (0 <? depth); [|exact E2]. apply bind_ok in E2 as ([u2 v2] & E2 & E3). apply bind_ok in E2 as ([u1 v1] & E2 & E4).
  erewrite any_ref_mono; [|intros r w q; cbn beta; instantiate (1 := fun r w => isUsed ord s n (v_str r) (depth - 1) w); cbn beta; apply IH|exact E2]. 
  cbn [obind fst snd] in *. destruct u1; cbn [obind fst snd] in *; [injection E4 as <- <-; exact E3|].
  erewrite any_ref_mono; [|intros r w q; cbn beta; instantiate (1 := fun r w => isUsed ord s n (v_str r) (depth - 1) w); cbn beta; apply IH|exact E4]. 
  exact E3.
Qed.
Lemma isUsed_more ord s n m k depth vis o : (n <= m)%nat -> isUsed ord s n k depth vis = Ok o -> isUsed ord s m k depth vis = Ok o.
Proof. induction 1; auto using isUsed_mono. Qed.
Lemma alias_more ord s n m k vis o : (n <= m)%nat -> isUsedThroughAlias ord s n k vis = Ok o -> isUsedThroughAlias ord s m k vis = Ok o.
Proof. intros H. unfold isUsedThroughAlias. destruct (map_find _ _); [now apply isUsed_more|auto]. Qed.
Lemma mark_one_more ord s n m idx vis o : (n <= m)%nat -> mark_one ord s n idx vis = Ok o -> mark_one ord s m idx vis = Ok o.
Proof.
  intros Hn. unfold mark_one. destruct (_ || _); [auto|]. destruct (nth_error _ _); [|auto]. intros H. apply bind_ok in H as ([u v] & E1 & E2).
  rewrite (isUsed_more _ _ _ _ _ _ _ _ Hn E1). cbn [obind fst snd] in *. destruct u; [auto|]. apply bind_ok in E2 as ([u2 v2] & E2 & E3).
  unfold isDataUsedThroughAlias in *. erewrite any_ref_mono; [| |exact E2]; [|intros r w q; apply alias_more, Hn]. cbn [obind fst snd] in *. destruct u2; [auto|].
  apply bind_ok in E3 as ([u3 v3] & E3 & E4). rewrite (alias_more _ _ _ _ _ _ _ Hn E3). exact E4.
Qed.
Lemma mark_loop_more ord n m labels : (n <= m)%nat -> forall s vis o, mark_loop ord n labels s vis = Ok o -> mark_loop ord m labels s vis = Ok o.
Proof.
  intros Hn. induction labels as [|e t IH]; intros s vis o; cbn [mark_loop]; [auto|]. intros H. apply bind_ok in H as ([s1 v1] & E1 & E2).
  rewrite (mark_one_more _ _ _ _ _ _ _ Hn E1). cbn [obind fst snd] in *. auto.
Qed.
Lemma run_more mblen flt ord_refs ord_labels n m input vis o : (n <= m)%nat ->
  AsmText.run mblen flt ord_refs ord_labels n input vis = Ok o -> AsmText.run mblen flt ord_refs ord_labels m input vis = Ok o.
Proof.
  intros Hn. unfold AsmText.run, fromStream, markLabelUsage. intros H. apply bind_ok in H as ([s1 v1] & E1 & E2).
  rewrite (mark_loop_more _ _ _ _ Hn _ _ _ E1). exact E2.
Qed.

(** *** A search that does not end: data below [t] names [f], code in [f] names [t] *)
Section Endless.
Variables (ord : list view -> list view) (s : tstate) (f t : str) (vf vt : view).
Hypothesis Hf : v_str vf = f.
Hypothesis Ht : v_str vt = t.
Hypothesis Hne : f <> t.
Hypothesis Hf0 : f <> [].
Hypothesis Huser : set_contains (t_usercode_labels s) f = false /\ set_contains (t_usercode_labels s) t = false.
Hypothesis Hweak : t_weakly_used_labels s = [].
Hypothesis Huf : refs_of ord (t_used_labels s) f = [].
Hypothesis Hdf : refs_of ord (t_data_used_labels s) f = [vt].
Hypothesis Hut : refs_of ord (t_used_labels s) t = [vf].
Hypothesis Hdt : refs_of ord (t_data_used_labels s) t = [].
Lemma endless : forall n vis, ~ In f vis -> isUsed ord s n f 1 vis = Diverges /\ isUsed ord s n t 0 vis = Diverges.
Proof.
  assert (Hw : forall k, refs_of ord (t_weakly_used_labels s) k = []) by (intros; now rewrite Hweak).
  assert (Hmem : forall vis, ~ In f vis -> mem_str f vis = false).
  { intros vis H. destruct (mem_str f vis) eqn:E; [apply mem_str_in in E; contradiction|reflexivity]. }
  intros n. induction n as [n IH] using lt_wf_ind. intros vis Hv. destruct n as [|n]; [split; reflexivity|].
  destruct Huser as [U1 U2]. split.
  - rewrite isUsed_step. cbv zeta. cbn [Z.eqb]. rewrite (Hmem _ Hv), U1, Huf. cbn [any_ref obind fst snd Z.ltb Z.compare Pos.compare_cont].
    rewrite Hw, Hdf. cbn [any_ref obind fst snd]. rewrite Ht. replace (1 - 1) with 0 by lia.
    destruct n as [|n]; [reflexivity|].
    rewrite isUsed_step. cbv zeta. cbn [Z.eqb mem_str existsb]. rewrite U2, Hut. cbn [any_ref obind fst snd].
    rewrite Hf. assert (Hn : is_nil f = false) by (destruct f; [contradiction|reflexivity]). rewrite Hn.
    assert (Hf' : ~ In f [t]) by (intros [X|[]]; congruence).
    destruct (IH n ltac:(lia) [t] Hf') as [IH1 _]. replace (0 + 1) with 1 by lia. rewrite IH1. reflexivity.
  - rewrite isUsed_step. cbv zeta. cbn [Z.eqb mem_str existsb]. rewrite U2, Hut. cbn [any_ref obind fst snd].
    rewrite Hf. assert (Hn : is_nil f = false) by (destruct f; [contradiction|reflexivity]). rewrite Hn.
    assert (Hf' : ~ In f [t]) by (intros [X|[]]; congruence).
    destruct (IH n ltac:(lia) [t] Hf') as [IH1 _]. replace (0 + 1) with 1 by lia. rewrite IH1. reflexivity.
Qed.
Lemma harmless : forall n, isUsed ord s n t 1 [] = Diverges \/ isUsed ord s n t 1 [] = Ok (false, []).
Proof.
  assert (Hw : forall k, refs_of ord (t_weakly_used_labels s) k = []) by (intros; now rewrite Hweak).
  assert (Htf : str_eqb t f = false) by (apply str_eqb_neq; congruence).
  assert (Hft : str_eqb f t = false) by (apply str_eqb_neq; congruence).
  destruct Huser as [U1 U2]. intros [|n]; [now left|]. rewrite isUsed_step. cbv zeta. cbn [Z.eqb mem_str existsb]. rewrite U2, Hut. cbn [any_ref obind fst snd].
  rewrite Hf. assert (Hn : is_nil f = false) by (destruct f; [contradiction|reflexivity]). rewrite Hn. replace (1 + 1) with 2 by lia.
  destruct n as [|n]; [now left|]. rewrite (isUsed_step ord s n). cbv zeta. cbn [Z.eqb mem_str existsb]. rewrite Hft. cbn [orb].
  rewrite U1, Huf. cbn [any_ref obind fst snd Z.ltb Z.compare Pos.compare_cont]. rewrite Hw, Hdf. cbn [any_ref obind fst snd]. rewrite Ht.
  replace (2 - 1) with 1 by lia. destruct n as [|n]; [now left|]. rewrite (isUsed_step ord s n). cbv zeta. cbn [Z.eqb mem_str existsb]. rewrite str_eqb_refl, orb_true_l, orb_true_r.
  cbn [obind fst snd any_ref]. rewrite Hw, Hdt. cbn [any_ref obind fst snd].
  unfold remove_str. cbn [filter]. rewrite !str_eqb_refl, ?Htf. cbn [negb filter]. rewrite ?str_eqb_refl, ?Htf. cbn. right. rewrite ?str_eqb_refl. reflexivity.
Qed.
End Endless.

(** *** Without the unused-labels filter the search does not matter *)
Definition unmark (l : asm_line_v) : asm_line_v := set_flags false false false l.
Lemma marked_unmark ord s fuel l l' : marked ord s fuel l l' -> unmark l' = unmark l.
Proof. intros [H _ _ _]. rewrite H. now destruct l. Qed.
Lemma marked_list_unmark ord s fuel a b : Forall2 (marked ord s fuel) a b -> map unmark b = map unmark a.
Proof. induction 1 as [|x y a b H _ IH]; [reflexivity|]. cbn [map]. rewrite (marked_unmark _ _ _ _ _ H), IH. reflexivity. Qed.
Lemma shown_unmark s l : unmark (shown s l) = shown s (unmark l).
Proof.
  unfold shown, resolve_file, filterOutReferedLabelsThatArentDefined, unmark, set_flags. destruct l. vsimp.
  destruct (negb _); [|reflexivity]. destruct (files_at _ _); reflexivity.
Qed.
Lemma remove_all flt s : f_unused_labels flt = false -> f_compatmode flt && f_directives flt = false -> forall ls r, r_remove r = false ->
  remove_loop flt s r ls = (map (shown s) ls, []).
Proof.
  intros Hu Hc. induction ls as [|l t IH]; intros r Hr; [reflexivity|]. cbn [remove_loop].
  assert (E : exists r', remove_label flt s r l = (false, r') /\ r_remove r' = false).
  { unfold remove_label. rewrite Hu. destruct (lv_is_label l); eexists; split; try reflexivity; exact Hr. }
  destruct E as (r' & -> & Hr'). rewrite (IH _ Hr'). unfold removed. rewrite Hr'. cbn [orb].
  replace (negb (r_isUsed r') && negb (r_alias r') && negb (r_dataalias r') && f_compatmode flt && f_directives flt) with false.
  - cbn [andb]. reflexivity.
  - rewrite <- !andb_assoc, Hc, !andb_false_r. reflexivity.
Qed.
Lemma run_unmarked mblen flt o1 o2 n input vis s' vis' : f_unused_labels flt = false -> f_compatmode flt && f_directives flt = false ->
  AsmText.run mblen flt o1 o2 n input vis = Ok (s', vis') ->
  map unmark (t_lines s') = map unmark (map (shown (read mblen flt input)) (t_lines (read mblen flt input))) /\ t_total_lines s' = t_total_lines (read mblen flt input).
Proof.
  intros Hu Hc H. destruct (run_ok _ _ _ _ _ _ _ _ _ H) as (L & kept & out & [A B C D E F]).
  rewrite (remove_all _ _ Hu Hc) in F by reflexivity. injection F as F1 F2. subst s' out. tsimp. split; [|reflexivity].
  rewrite <- F1, !map_map. apply marked_list_unmark in A.
  rewrite (map_ext _ _ (shown_unmark _) L), (map_ext _ _ (shown_unmark _) (t_lines (read mblen flt input))).
  rewrite <- (map_map unmark (shown _) L), <- (map_map unmark (shown _) (t_lines _)), A. reflexivity.
Qed.
Lemma labels_unmark ls : forall n, labels_from n (map unmark ls) = labels_from n ls.
Proof. induction ls as [|l t IH]; intros n; [reflexivity|]. cbn [map labels_from]. rewrite IH. destruct l. reflexivity. Qed.
Lemma write_unmark fmt flt ls labels n rep clock : write fmt flt (map unmark ls) labels n rep clock = write fmt flt ls labels n rep clock.
Proof.
  unfold write. rewrite map_length. do 4 f_equal.
  assert (G : forall l, writeLine fmt flt (unmark l) = writeLine fmt flt l) by (intros []; reflexivity).
  assert (T : forall t, sep_tail (lit ",") (writeLine fmt flt) (map unmark t) = sep_tail (lit ",") (writeLine fmt flt) t).
  { induction t as [|x t IH]; [reflexivity|]. cbn [map sep_tail]. rewrite G, IH. reflexivity. }
  destruct ls as [|l t]; [reflexivity|]. cbn [map sep_list]. rewrite G, T. reflexivity.
Qed.
Lemma json_unmark flt fmt rep clock s s' : map unmark (t_lines s) = map unmark (t_lines s') -> t_total_lines s = t_total_lines s' ->
  AsmText.outputJson flt fmt rep clock s = AsmText.outputJson flt fmt rep clock s' /\ AsmText.outputText s = AsmText.outputText s'.
Proof.
  intros H Ht. split.
  - unfold AsmText.outputJson, redetermineLabels. rewrite <- (write_unmark fmt flt (t_lines s)), <- (write_unmark fmt flt (t_lines s')), H, Ht.
    rewrite <- (labels_unmark (t_lines s)), <- (labels_unmark (t_lines s')), H. reflexivity.
  - unfold AsmText.outputText.
    assert (G : forall ls, flat_map (fun l => lv_text l ++ [LF]) ls = flat_map (fun l => lv_text l ++ [LF]) (map unmark ls)).
    { induction ls as [|l t IH]; [reflexivity|]. cbn [map flat_map]. rewrite IH. destruct l. reflexivity. }
    rewrite G, H, <- G. reflexivity.
Qed.
(** C44 *)
Lemma C44_same mblen flt o1 o2 n1 v1 r1 p1 p2 n2 v2 r2 input fmt rep clock : f_unused_labels flt = false -> f_compatmode flt && f_directives flt = false ->
  AsmText.run mblen flt o1 o2 n1 input v1 = Ok r1 -> AsmText.run mblen flt p1 p2 n2 input v2 = Ok r2 ->
  AsmText.outputJson flt fmt rep clock (fst r1) = AsmText.outputJson flt fmt rep clock (fst r2) /\ AsmText.outputText (fst r1) = AsmText.outputText (fst r2).
Proof.
  destruct r1 as [s1 w1], r2 as [s2 w2]. intros Hu Hc H1 H2. destruct (run_unmarked _ _ _ _ _ _ _ _ _ Hu Hc H1) as [A1 B1].
  destruct (run_unmarked _ _ _ _ _ _ _ _ _ Hu Hc H2) as [A2 B2]. cbn [fst]. apply json_unmark; congruence.
Qed.

(** *** Sets of at most one reference have one order *)
Lemma shuffle_short ord l : shuffles ord -> (length l <= 1)%nat -> ord l = l.
Proof.
  intros H Hl. destruct l as [|x [|y t]]; [| |cbn in Hl; lia].
  - apply Permutation_nil, Permutation_sym, H.
  - apply Permutation_length_1_inv, Permutation_sym, H.
Qed.
Definition short (m : list (view * list view)) : Prop := Forall (fun e => (length (snd e) <= 1)%nat) m.
Lemma refs_short ord m k : shuffles ord -> short m -> refs_of ord m k = refs_of (fun l => l) m k.
Proof.
  intros H Hm. unfold refs_of, map_find, option_map. destruct (find _ m) as [[a refs]|] eqn:E; [|reflexivity]. cbn [snd].
  apply find_some in E as [E _]. unfold short in Hm. rewrite Forall_forall in Hm. apply shuffle_short; [exact H|exact (Hm _ E)].
Qed.
Lemma isUsed_short ord s n : shuffles ord -> short (t_used_labels s) -> short (t_data_used_labels s) -> short (t_weakly_used_labels s) ->
  forall k d v, isUsed ord s n k d v = isUsed (fun l => l) s n k d v.
Proof.
  intros Ho H1 H2 H3. induction n as [|n IH]; intros k d v; [reflexivity|]. rewrite !isUsed_step. cbv zeta.
  destruct (mem_str _ _); [reflexivity|]. destruct (set_contains _ _); [reflexivity|].
  rewrite !(refs_short ord) by assumption.
  erewrite any_ref_ext; [|intros r w; instantiate (1 := fun r w => if is_nil (v_str r) then Ok (true, w) else isUsed (fun l => l) s n (v_str r) (d + 1) w);
    cbn beta; destruct (is_nil _); [reflexivity|apply IH]].
  destruct (any_ref _ _ _) as [[u w]| | |]; cbn [obind fst snd]; try reflexivity. destruct u; [reflexivity|]. destruct (0 <? d); [|reflexivity].
  erewrite any_ref_ext; [|intros r x; apply IH]. destruct (any_ref _ _ _) as [[u2 w2]| | |]; cbn [obind fst snd]; try reflexivity. destruct u2; [reflexivity|].
  erewrite any_ref_ext; [|intros r x; apply IH]. reflexivity.
Qed.
Lemma mark_loop_short ord n labels : shuffles ord -> forall s v, short (t_used_labels s) -> short (t_data_used_labels s) -> short (t_weakly_used_labels s) ->
  mark_loop ord n labels s v = mark_loop (fun l => l) n labels s v.
Proof.
  intros Ho. induction labels as [|e t IH]; intros s v H1 H2 H3; [reflexivity|]. cbn [mark_loop].
  assert (Ha : forall k w, isUsedThroughAlias ord s n k w = isUsedThroughAlias (fun l => l) s n k w).
  { intros k w. unfold isUsedThroughAlias. destruct (map_find _ _); [|reflexivity]. now apply isUsed_short. }
  assert (E : mark_one ord s n (snd e) v = mark_one (fun l => l) s n (snd e) v).
  { unfold mark_one. destruct (_ || _); [reflexivity|]. destruct (nth_error _ _); [|reflexivity]. rewrite isUsed_short by assumption.
    destruct (isUsed _ _ _ _ _ _) as [[u w]| | |]; cbn [obind fst snd]; try reflexivity. destruct u; [reflexivity|].
    unfold isDataUsedThroughAlias. rewrite (refs_short ord) by assumption. erewrite any_ref_ext; [|intros r x; apply Ha].
    destruct (any_ref _ _ _) as [[u2 w2]| | |]; cbn [obind fst snd]; try reflexivity. destruct u2; [reflexivity|]. rewrite Ha. reflexivity. }
  rewrite E. destruct (mark_one (fun l => l) s n (snd e) v) as [[s1 v1]| | |] eqn:E1; cbn [obind fst snd]; try reflexivity.
  destruct (mark_one_ok (fun l => l) s n s (snd e) v s1 v1 (ex_intro _ (t_lines s) (eq_sym (set_lines_id s))) E1) as (L & -> & _). apply IH; assumption.
Qed.
Lemma run_short mblen flt ord ol n input vis : shuffles ord ->
  short (t_used_labels (read mblen flt input)) -> short (t_data_used_labels (read mblen flt input)) ->
  AsmText.run mblen flt ord ol n input vis = AsmText.run mblen flt (fun l => l) ol n input vis.
Proof.
  intros Ho H1 H2. unfold AsmText.run, fromStream, markLabelUsage. fold (read mblen flt input).
  rewrite mark_loop_short; auto. rewrite weak_read. constructor.
Qed.
(** Two labels have two orders. *)
Lemma run_pair mblen flt ord ol n input vis a b : (forall m, Permutation (ol m) m) -> t_labels_defined (read mblen flt input) = [a; b] ->
  AsmText.run mblen flt ord ol n input vis = AsmText.run mblen flt ord (fun m => m) n input vis \/
  AsmText.run mblen flt ord ol n input vis = AsmText.run mblen flt ord (fun m => rev m) n input vis.
Proof.
  intros Ho E. unfold AsmText.run, fromStream, markLabelUsage. fold (read mblen flt input). rewrite E.
  destruct (Permutation_length_2_inv (Permutation_sym (Ho [a; b]))) as [-> | ->]; auto.
Qed.
(** Whatever the depth, a parse that ends has one result. *)
Lemma run_unique mblen flt ord ol n m input vis r r' : AsmText.run mblen flt ord ol n input vis = Ok r -> AsmText.run mblen flt ord ol m input vis = Ok r' -> r = r'.
Proof.
  intros H1 H2. apply (run_more _ _ _ _ _ (max n m)) in H1; [|lia]. apply (run_more _ _ _ _ _ (max n m)) in H2; [|lia]. congruence.
Qed.

Lemma clear_chain oref s vis k : clear oref s vis k -> chain (tab_used oref s) (fun _ _ => False) (tab_user s) k.
Proof. induction 1; [now apply CH_user|now apply CH_free|eapply CH_used; eassumption]. Qed.
Lemma chain_clear0 oref s k : chain (tab_used oref s) (fun _ _ => False) (tab_user s) k -> clear oref s [] k.
Proof.
  induction 1 as [k H|k H|k r H _ IH|k r []]; [apply CL_user; auto|apply CL_free; auto|].
  destruct (str_dec r []) as [->|N]; [apply CL_free; auto|]. apply CL_step with (r := r); auto.
Qed.
Lemma search_exact oref s : shuffles oref -> forall dom : str -> Prop,
  (forall k r, dom k -> tab_used oref s k r -> r <> [] -> dom r) ->
  (forall k, dom k -> refs_of oref (t_data_used_labels s) k = []) ->
  (forall k, dom k -> refs_of oref (t_weakly_used_labels s) k = []) ->
  forall fuel k b vis', dom k -> isUsed oref s fuel k 1 [] = Ok (b, vis') ->
  b = true <-> chain (tab_used oref s) (fun _ _ => False) (tab_user s) k.
Proof.
  intros Ho dom H1 H2 H3 fuel k b vis' Hk H. destruct (isUsed_exact oref s dom H1 H2 H3 fuel k 1 [] Hk ltac:(lia) _ _ H) as [A B]. split.
  - intros E. eapply clear_chain, A, E.
  - intros Hc. apply chain_clear0 in Hc. destruct b; [reflexivity|]. destruct (B eq_refl) as [_ X]. contradiction.
Qed.
Lemma ends_always mb flt oref olab : shuffles oref -> (forall m, Permutation (olab m) m) -> forall input,
  (forall d k, In d (lines_read mb flt input) -> lv_is_data d = true -> mentions d k -> ~ is_label_name mb flt input k) ->
  Z.of_nat (length input) < two31 -> forall vis,
  exists r n, forall fuel, (n <= fuel)%nat -> AsmText.run mb flt oref olab fuel input vis = Ok r.
Proof.
  intros Hr Hl input Hd Hlen vis. destruct (C43_ends mb flt oref olab Hr Hl input Hd (enough mb flt input) vis Hlen (le_n _)) as (r & E).
  exists r, (enough mb flt input). intros fuel Hf. eapply run_more; eassumption.
Qed.

Definition short_b (m : list (view * list view)) : bool := forallb (fun e => (length (snd e) <=? 1)%nat) m.
Lemma short_b_ok m : short_b m = true -> short m.
Proof. unfold short_b, short. rewrite forallb_forall, Forall_forall. intros H e He. apply Nat.leb_le. auto. Qed.
Lemma run_check mblen flt ord ol n m input vis s v (P : tstate -> bool) : AsmText.run mblen flt ord ol n input vis = Ok (s, v) ->
  match AsmText.run mblen flt ord ol m input vis with Ok r => P (fst r) | _ => false end = true -> P s = true.
Proof.
  intros H. destruct (AsmText.run mblen flt ord ol m input vis) as [r| | |] eqn:E; try discriminate.
  pose proof (run_unique _ _ _ _ _ _ _ _ _ _ H E) as <-. auto.
Qed.
