(** The text parser: every mark takes a root out of play. *)
From Coq Require Import Permutation.
From Verif Require Import AsmLemmas AsmRead AsmMark AsmTrace AsmThms AsmUse AsmSearch AsmComplete.

(** A trail of uses from [k] to a root, the root first; no name of it is in
    [vis], and none comes twice. *)
Section Trail.
Variables (used : str -> str -> Prop) (user : str -> Prop).
Inductive trail : list str -> str -> list str -> Prop :=
| TR_root vis k : ~ In k vis -> user k \/ used k [] -> trail vis k [k]
| TR_step vis k r p : ~ In k vis -> used k r -> r <> [] -> trail (k :: vis) r p -> trail vis k (p ++ [k]).
Lemma trail_free vis k p : trail vis k p -> forall x, In x p -> ~ In x vis.
Proof.
  induction 1 as [vis k H _|vis k r p H _ _ _ IH]; intros x Hx.
  - destruct Hx as [<-|[]]. exact H.
  - apply in_app_iff in Hx as [Hx|[<-|[]]]; [|exact H]. intros X. apply (IH x Hx). now right.
Qed.
Lemma trail_nodup vis k p : trail vis k p -> NoDup p.
Proof.
  induction 1 as [vis k H _|vis k r p H _ _ Ht IH]; [constructor; [intros []|constructor]|].
  apply NoDup_rev in IH. rewrite <- (rev_involutive (p ++ [k])). apply NoDup_rev. rewrite rev_app_distr. cbn [rev app]. constructor; [|exact IH].
  intros X. apply in_rev in X. exact (trail_free _ _ _ Ht k X (or_introl eq_refl)).
Qed.
Lemma trail_root vis k p : trail vis k p -> exists r q, p = r :: q /\ (user r \/ used r []).
Proof.
  induction 1 as [vis k H Hr|vis k r p H _ _ _ (x & q & -> & Hx)]; [eauto|]. cbn [app]. eauto.
Qed.
Lemma trail_start vis k p : trail vis k p -> exists q, p = q ++ [k].
Proof. destruct 1; [now exists []|eauto]. Qed.
End Trail.
Lemma trail_impl (u u' : str -> str -> Prop) (g g' : str -> Prop) vis k p : (forall a b, u a b -> u' a b) -> (forall a, g a -> g' a) ->
  trail u g vis k p -> trail u' g' vis k p.
Proof. intros A B. induction 1; [apply TR_root; intuition|eapply TR_step; eauto]. Qed.

Section Search.
Variables (ord : list view -> list view) (s : tstate).
Variable dom : str -> Prop.
Hypothesis dom_used : forall k r, dom k -> tab_used ord s k r -> r <> [] -> dom r.
Hypothesis dom_data : forall k, dom k -> refs_of ord (t_data_used_labels s) k = [].
Hypothesis dom_weak : forall k, dom k -> refs_of ord (t_weakly_used_labels s) k = [].
Lemma isUsed_trail : forall fuel k depth vis vis', dom k -> 1 <= depth -> isUsed ord s fuel k depth vis = Ok (true, vis') ->
  exists p, trail (tab_used ord s) (tab_user s) vis k p /\ vis' = p ++ vis.
Proof.
  induction fuel as [|n IH]; intros k depth vis vis' Hk Hd; [discriminate|]. rewrite isUsed_step. cbv zeta.
  replace (depth =? 0) with false by (symmetry; apply Z.eqb_neq; lia).
  destruct (mem_str k vis) eqn:Em; [discriminate|].
  assert (Hout : ~ In k vis) by (intros X; apply mem_str_in in X; congruence).
  destruct (set_contains (t_usercode_labels s) k) eqn:Eu.
  { intros [= <-]. exists [k]. split; [|reflexivity]. apply TR_root; [exact Hout|now left]. }
  set (f := fun ref v => if is_nil (v_str ref) then Ok (true, v) else isUsed ord s n (v_str ref) (depth + 1) v).
  assert (Hany : forall refs, (forall r, In r refs -> tab_used ord s k (v_str r)) -> forall b v1, any_ref f refs (k :: vis) = Ok (b, v1) -> 
     if b then exists p, trail (tab_used ord s) (tab_user s) vis k p /\ v1 = p ++ vis else v1 = k :: vis).
  { induction refs as [|r t IHr]; intros Hr b v1; cbn [any_ref]; [now intros [= <- <-]|].
    unfold f at 1. destruct (is_nil (v_str r)) eqn:En; cbn [obind fst snd].
    - intros [= <- <-]. exists [k]. split; [|reflexivity]. apply TR_root; [exact Hout|right]. destruct (v_str r) eqn:Er; [|discriminate]. rewrite <- Er. apply Hr. now left.
    - assert (Hne : v_str r <> []) by (intros X; rewrite X in En; discriminate).
      assert (Hdr : dom (v_str r)) by (eapply dom_used; [exact Hk|apply Hr; now left|exact Hne]).
      destruct (isUsed ord s n (v_str r) (depth + 1) (k :: vis)) as [[u v]| | |] eqn:E; cbn [obind fst snd]; try discriminate. destruct u.
      + intros [= <- <-]. apply IH in E as (p & Hp & ->); [|exact Hdr|lia]. exists (p ++ [k]). split; [|now rewrite <- app_assoc].
        eapply TR_step; [exact Hout|apply Hr; now left|exact Hne|exact Hp].
      + destruct (isUsed_exact ord s dom dom_used dom_data dom_weak n (v_str r) (depth + 1) (k :: vis) Hdr ltac:(lia) _ _ E) as [_ B].
        destruct (B eq_refl) as [-> _]. apply IHr. intros r' Hr'. apply Hr. now right. }
  specialize (Hany (refs_of ord (t_used_labels s) k) (fun r Hr => ex_intro _ r (conj Hr eq_refl))).
  destruct (any_ref f (refs_of ord (t_used_labels s) k) (k :: vis)) as [[u v]| | |]; cbn [obind fst snd]; try discriminate.
  specialize (Hany u v eq_refl). destruct u; [now intros [= <-]|].
  rewrite (dom_weak _ Hk), (dom_data _ Hk). cbn [any_ref obind fst snd].
  destruct (0 <? depth); cbn [obind fst snd]; discriminate.
Qed.
End Search.

(** *** Counting *)
Definition marked_b (l : asm_line_v) : bool := lv_is_used l || lv_is_used_through_alias l || lv_is_used_data_through_alias l.
Definition marks (ls : list asm_line_v) : nat := length (filter marked_b ls).
(** The names of [R] not in [vis]. *)
Definition free (R vis : list str) : nat := length (filter (fun k => negb (mem_str k vis)) R).
Lemma marks_update n f ls : (marks (update_nth n f ls) <= S (marks ls))%nat.
Proof.
  unfold marks. revert n. induction ls as [|x t IH]; intros [|n]; cbn [update_nth filter]; try (cbn; lia).
  - destruct (marked_b (f x)), (marked_b x); cbn [length]; lia.
  - specialize (IH n). destruct (marked_b x); cbn [length]; lia.
Qed.
Lemma mem_app k a b : mem_str k (a ++ b) = mem_str k a || mem_str k b.
Proof. unfold mem_str. apply existsb_app. Qed.
Lemma free_app R p vis : (free R (p ++ vis) <= free R vis)%nat.
Proof.
  unfold free. induction R as [|x t IH]; [reflexivity|]. cbn [filter]. rewrite mem_app.
  destruct (mem_str x p), (mem_str x vis); cbn [orb negb length]; lia.
Qed.
Lemma free_root R p vis r : In r R -> In r p -> ~ In r vis -> (S (free R (p ++ vis)) <= free R vis)%nat.
Proof.
  unfold free. induction R as [|x t IH]; [intros []|]. intros HR Hp Hv. cbn [filter]. rewrite mem_app. destruct HR as [->|HR].
  - apply mem_str_in in Hp. rewrite Hp. cbn [orb negb]. destruct (mem_str r vis) eqn:E; [apply mem_str_in in E; contradiction|]. cbn [negb length].
    pose proof (free_app t p vis) as G. unfold free in G. lia.
  - specialize (IH HR Hp Hv). destruct (mem_str x p), (mem_str x vis); cbn [orb negb length]; lia.
Qed.
Lemma marks_app a b : marks (a ++ b) = (marks a + marks b)%nat.
Proof. unfold marks. now rewrite filter_app, app_length. Qed.

Section Parse.
Variables (mblen : str -> Z) (flt : Filter)
          (ord_refs : list view -> list view) (ord_labels : list (view * Z) -> list (view * Z)).
Hypothesis Hrefs : shuffles ord_refs.
Hypothesis Hlabels : forall m, Permutation (ord_labels m) m.
Variable input : str.
Let st := read_lines mblen flt tstate0 input.
Let ls := lines_read mblen flt input.
Let fs := lines_aside mblen flt input.
Hypothesis Hlen : Z.of_nat (length input) < two31.
Hypothesis no_data_refs : forall d k, In d ls -> lv_is_data d = true -> mentions d k -> ~ is_label_name mblen flt input k.
Definition root (k : str) : Prop := global ls fs k \/ used_by ls fs k [].
Definition road (vis : list str) (k : str) (p : list str) : Prop := trail (used_by ls fs) (global ls fs) vis k p.

Lemma search_road fuel k vis b vis' : is_label_name mblen flt input k -> isUsed ord_refs (read mblen flt input) fuel k 1 vis = Ok (b, vis') ->
  if b then exists p, road vis k p /\ vis' = p ++ vis else vis' = vis.
Proof.
  intros Hk H. destruct b.
  - apply isUsed_trail with (dom := is_label_name mblen flt input) in H as (p & Hp & ->); auto; [| | | |lia].
    + exists p. split; [|reflexivity]. eapply trail_impl; [| |exact Hp]; intros; [eapply tab_used_read; eauto|now apply tab_user_read].
    + intros a r _ Ha Hr. eapply user_named; [|exact Hr]. eapply tab_used_read, Ha. exact Hrefs.
    + intros a Ha. eapply name_no_data; eauto.
    + intros. now apply weak_none.
  - destruct (exact_read mblen flt ord_refs Hrefs input no_data_refs fuel k vis Hk _ _ H) as [_ B]. now apply B.
Qed.
(** What one search for a label leaves behind. *)
Definition grown (vis vis' : list str) (n : nat) : Prop :=
  (exists q, vis' = q ++ vis) /\ forall R, (forall k, root k -> In k R) -> (n + free R vis' <= free R vis)%nat.
Lemma grown_refl vis : grown vis vis 0.
Proof. split; [now exists []|intros; reflexivity]. Qed.
Lemma grown_road vis k p : road vis k p -> grown vis (p ++ vis) 1.
Proof.
  intros H. split; [eauto|]. intros R HR. destruct (trail_root _ _ _ _ _ H) as (r & q & -> & Hr).
  apply (free_root R (r :: q) vis r); [now apply HR|now left|]. apply (trail_free _ _ _ _ _ H). now left.
Qed.
Lemma grown_trans a b c m n : grown a b m -> grown b c n -> grown a c (m + n).
Proof.
  intros [(q & ->) A] [(q' & ->) B]. split; [exists (q' ++ q); now rewrite app_assoc|]. intros R HR. specialize (A R HR). specialize (B R HR). lia.
Qed.
Lemma mark_one_roots s fuel idx l vis s' vis' L : s = set_t_lines L (read mblen flt input) ->
  nth_error L (Z.to_nat (idx - 1)) = Some l -> is_label_name mblen flt input (v_str (lv_label l)) ->
  mark_one ord_refs s fuel idx vis = Ok (s', vis') -> exists n, grown vis vis' n /\ (marks (t_lines s') <= n + marks L)%nat.
Proof.
  intros -> E Hname. unfold mark_one. tsimp. destruct (_ || _); [discriminate|]. rewrite E, isUsed_lines.
  destruct (isUsed ord_refs (read mblen flt input) fuel _ 1 vis) as [[u v]| | |] eqn:E1; cbn [obind fst snd]; try discriminate.
  apply search_road in E1; [|exact Hname]. destruct u.
  { intros [= <- <-]. destruct E1 as (p & Hp & ->). exists 1%nat. split; [now apply grown_road with (k := v_str (lv_label l))|apply marks_update]. }
  subst v. rewrite data_alias_lines. unfold isDataUsedThroughAlias. erewrite name_no_data by eauto. cbn [any_ref obind fst snd].
  rewrite alias_lines. unfold isUsedThroughAlias. change (t_aliased_labels (read mblen flt input)) with (t_aliased_labels st).
  unfold map_find, option_map. destruct (find _ _) as [[kv a]|] eqn:Ef; cbn [snd].
  - apply find_some in Ef as [Ef _].
    assert (Ha : is_label_name mblen flt input (v_str a)).
    { destruct (ai_alias _ _ _ (read_alias mblen flt input) _ _ Ef) as (pre & la & mid & lk & post & X & (Y1 & _ & Y3) & _).
      exists la. split; [unfold lines_read; rewrite X, in_app_iff; cbn; auto|auto]. }
    destruct (isUsed ord_refs (read mblen flt input) fuel (v_str a) 1 vis) as [[u3 v3]| | |] eqn:E5; cbn [obind fst snd]; try discriminate.
    apply search_road in E5; [|exact Ha]. destruct u3.
    + intros [= <- <-]. destruct E5 as (p & Hp & ->). exists 1%nat. split; [now apply grown_road with (k := v_str a)|apply marks_update].
    + intros [= <- <-]. subst v3. exists 0%nat. split; [apply grown_refl|apply le_n].
  - cbn [obind fst snd]. intros [= <- <-]. exists 0%nat. split; [apply grown_refl|apply le_n].
Qed.
Lemma mark_loop_roots fuel labels : forall L vis s' vis',
  Forall2 (marked ord_refs (read mblen flt input) fuel) (t_lines st) L ->
  (forall e, In e labels -> exists l, nth_error (t_lines st) (Z.to_nat (snd e - 1)) = Some l /\ lv_is_label l = true) ->
  mark_loop ord_refs fuel labels (set_t_lines L (read mblen flt input)) vis = Ok (s', vis') ->
  exists n, grown vis vis' n /\ (marks (t_lines s') <= n + marks L)%nat.
Proof.
  induction labels as [|e t IH]; intros L vis s' vis' HL Hl; cbn [mark_loop].
  - intros [= <- <-]. exists 0%nat. split; [apply grown_refl|apply le_n].
  - destruct (mark_one ord_refs _ fuel (snd e) vis) as [[s1 v1]| | |] eqn:E; cbn [obind fst snd]; try discriminate. intros H.
    destruct (mark_one_ok _ _ _ _ _ _ _ _ (ex_intro _ L eq_refl) E) as (L1 & -> & M). tsimp.
    destruct (Hl e (or_introl eq_refl)) as (l & E1 & E3).
    assert (Hl' : exists l', nth_error L (Z.to_nat (snd e - 1)) = Some l' /\ lv_label l' = lv_label l).
    { clear -HL E1. revert E1. generalize (Z.to_nat (snd e - 1)) as n. induction HL as [|x y xs ys Hxy _ IHf]; intros [|n]; cbn; try discriminate; [|apply IHf].
      intros [= <-]. exists y. split; [reflexivity|]. destruct Hxy as [Hm _ _ _]. rewrite Hm. reflexivity. }
    destruct Hl' as (l' & E' & Hlab).
    assert (Hname : is_label_name mblen flt input (v_str (lv_label l'))).
    { rewrite Hlab. exists (erase l). split; [apply in_map; eapply nth_error_In, E1|]. split; [exact E3|reflexivity]. }
    destruct (mark_one_roots _ _ _ _ _ _ _ _ eq_refl E' Hname E) as (n1 & G1 & C1). tsimp.
    destruct (IH L1 v1 s' vis') as (n2 & G2 & C2); [eapply marked_list_trans; eassumption|intros; apply Hl; now right|exact H|].
    exists (n1 + n2)%nat. split; [eapply grown_trans; eassumption|lia].
Qed.
Lemma remove_marks s l : forall r, (marks (fst (remove_loop flt s r l)) + marks (snd (remove_loop flt s r l)) = marks l)%nat.
Proof.
  induction l as [|x t IH]; intros r; [reflexivity|]. cbn [remove_loop]. destruct (remove_label flt s r x) as [only r'].
  specialize (IH r'). destruct (remove_loop flt s r' t) as [kept out]. cbn [fst snd] in IH. destruct (removed _ _ _ _); cbn [fst snd].
  - unfold marks in *. cbn [filter]. destruct (marked_b x); cbn [length]; lia.
  - unfold marks in *. cbn [filter]. replace (marked_b (resolve_file s (filterOutReferedLabelsThatArentDefined s x))) with (marked_b x).
    + destruct (marked_b x); cbn [length]; lia.
    + fold (shown s x). rewrite shown_core. reflexivity.
Qed.
Lemma read_unmarked l : In l (t_lines st) -> marked_b l = false.
Proof.
  intros Hl. pose proof (reads_from _ _ _ _ _ (tr_reads _ _ _ _ (read_trace mblen flt input))) as Hf. rewrite Forall_forall in Hf.
  destruct (Hf _ Hl) as [X|(raw & nest & h & x & X1 & X2 & X3)]; [rewrite X; reflexivity|]. rewrite X3.
  destruct (kl_unmarked _ _ _ _ _ _ _ X2) as (U1 & U2 & U3). unfold marked_b. unfold erase in *. cbn. 
  change (lv_is_used x || lv_is_used_through_alias x || lv_is_used_data_through_alias x = false). now rewrite U1, U2, U3.
Qed.
(** *** The whole parse *)
Lemma aside_unmarked l : In l (t_filteredlines st) -> marked_b l = false.
Proof.
  enough (H : Forall (fun l => marked_b l = false) (t_filteredlines st)) by (rewrite Forall_forall in H; exact (H l)).
  unfold st. apply read_invariant with (P := fun s => Forall (fun l => marked_b l = false) (t_filteredlines s)); [intros; assumption| |constructor|apply good0|reflexivity].
  intros s H Hg. destruct (eol_cases mblen flt s Hg) as [_|_ _|s1 l1 _ _ Hq _ _ _|handled s1 l1 _ _ Hq _ _ Hl0 _ _].
  - exact H.
  - destruct (blank_cases (base1 flt s)) as [[_ ->]|[_ ->]]; exact H.
  - unfold drop_line. tsimp. rewrite (q_filtered _ _ Hq). exact H.
  - pose proof (label_cases handled l1 s1) as Hl. pose proof (classify_cases mblen flt handled l1 s1) as Hc.
    assert (Hm : marked_b (fst (label_step handled l1 s1)) = false).
    { subst l1. destruct Hl; unfold labelled; try (split_if; reflexivity); reflexivity. }
    assert (Hs : t_filteredlines (snd (label_step handled l1 s1)) = t_filteredlines s).
    { transitivity (t_filteredlines s1); [|exact (q_filtered _ _ Hq)]. destruct Hl as [|_|n a c _]; [reflexivity..|]. unfold define_label. destruct c, (isInternalLabel (v_str (slice l1 n))); reflexivity. }
    destruct (label_step handled l1 s1) as [l2 s2]. cbn [fst snd] in *.
    assert (Hk : forall l3 s3, t_filteredlines s3 = t_filteredlines s2 -> Forall (fun l => marked_b l = false) (t_filteredlines (eol_keep mblen l3 s3))).
    { intros l3 s3 E. destruct (keep_shape mblen l3 s3) as (a & p & ->). tsimp. rewrite E, Hs. exact H. }
    destruct Hc as [_|l3 _ _ _ _ _ _ E3|l3 _ _ _ _ _ _ E3|l3 _ _ _ _ E3|_ _].
    + apply Hk. destruct (isCudaEndDef _); reflexivity.
    + unfold move_filtered. pose proof (directive_frame l3 s2) as (u & c & Hfr). tsimp. rewrite Hfr. tsimp. rewrite Hs. apply Forall_app. split; [exact H|].
      constructor; [|constructor]. subst l3. destruct handled; exact Hm.
    + apply Hk. pose proof (directive_frame l3 s2) as (u & c & Hfr). rewrite Hfr. reflexivity.
    + now apply Hk.
    + now apply Hk.
Qed.
Lemma none_marked l : (forall x, In x l -> marked_b x = false) -> marks l = 0%nat.
Proof.
  unfold marks. induction l as [|x t IH]; intros H; [reflexivity|]. cbn [filter]. rewrite (H x (or_introl eq_refl)). apply IH. intros y Hy. apply H. now right.
Qed.
Lemma run_roots fuel vis s' vis' : AsmText.run mblen flt ord_refs ord_labels fuel input vis = Ok (s', vis') ->
  grown vis vis' (marks (t_lines s' ++ t_filteredlines s')).
Proof.
  unfold AsmText.run, fromStream. fold (read mblen flt input). unfold markLabelUsage. intros H.
  destruct (mark_loop ord_refs fuel _ (read mblen flt input) vis) as [[s1 v1]| | |] eqn:E; cbn [obind fst snd] in H; try discriminate.
  assert (Hm : exists L, s1 = set_t_lines L (read mblen flt input)).
  { destruct (mark_ok _ _ _ _ _ _ _ E) as (L & -> & _). eauto. }
  injection H as <- <-.
  rewrite <- (set_lines_id (read mblen flt input)) in E.
  destruct (mark_loop_roots fuel (ord_labels (t_labels_defined (read mblen flt input))) (t_lines st) vis s1 v1) as (n & [G1 G2] & C); [apply marked_list_refl| |exact E|].
  - intros [k i] Hin. eapply Permutation_in in Hin; [|apply Hlabels]. cbn [snd].
    destruct (table_lines _ _ _ _ _ Hlen Hin) as [(l & A & B & D & _) _]. eauto.
  - rewrite (none_marked (t_lines st) read_unmarked) in C.
    assert (Hle : (marks (t_lines (removeUnused flt s1) ++ t_filteredlines (removeUnused flt s1)) <= n)%nat).
    { unfold removeUnused. pose proof (remove_marks s1 (t_lines s1) (mkR false false false false)) as Hr.
      destruct (remove_loop flt s1 _ (t_lines s1)) as [kept out]. cbn [fst snd] in Hr. tsimp. rewrite !marks_app.
      rewrite (none_marked (t_filteredlines s1)); [lia|]. destruct Hm as (L & ->). exact aside_unmarked. }
    split; [exact G1|]. intros R HR. specialize (G2 R HR). lia.
Qed.
End Parse.

(** *** The roots listed: the names of .globl and .weak lines, and what code
    before the first function mentions. *)
Fixpoint outside (parent : str) (ls : list asm_line_v) : list str :=
  match ls with
  | [] => []
  | l :: t => (if is_nil parent && negb (lv_is_label l) && lv_has_opcode l then map (fun r => v_str (lbv_name r)) (lv_labels l) else []) ++
              outside (if lv_is_label l && negb (lv_is_internal_label l) then v_str (lv_label l) else parent) t
  end.
Definition named (l : asm_line_v) : list str :=
  if negb (lv_is_label l) && lv_is_directive l then
    match getWeakDefinedLabel (lv_text l) with Some k => [k] | None => [] end ++ match getGlobalDefinedLabel (lv_text l) with Some k => [k] | None => [] end
  else [].
Definition roots_of (ls fs : list asm_line_v) : list str := flat_map named (ls ++ fs) ++ outside [] ls.
Lemma outside_in l post k : lv_is_label l = false -> lv_has_opcode l = true -> mentions l k -> forall pre parent,
  fold_left (fun n l => if lv_is_label l && negb (lv_is_internal_label l) then v_str (lv_label l) else n) pre parent = [] -> In k (outside parent (pre ++ l :: post)).
Proof.
  intros A B C. induction pre as [|x t IH]; intros parent H; cbn [fold_left app outside] in *; apply in_app_iff.
  - left. subst parent. rewrite A, B. cbn [is_nil negb andb]. exact C.
  - right. apply IH, H.
Qed.
Lemma named_in l k : lv_is_label l = false -> lv_is_directive l = true -> getWeakDefinedLabel (lv_text l) = Some k \/ getGlobalDefinedLabel (lv_text l) = Some k -> In k (named l).
Proof. intros A B C. unfold named. rewrite A, B. cbn [negb andb]. apply in_app_iff. destruct C as [-> | ->]; [left|right]; now left. Qed.
Lemma roots_listed ls fs k : global ls fs k \/ used_by ls fs k [] -> In k (roots_of ls fs).
Proof.
  intros H. unfold roots_of. apply in_app_iff. destruct H as [(l & A & B & C & D)|H].
  - left. apply in_flat_map. exists l. split; [exact A|]. apply named_in; auto.
  - inversion H as [pre l post E A B C D E0|l r A B C D _ E0].
    + right. rewrite E. apply outside_in; auto. rewrite E0. exact E0.
    + left. apply in_flat_map. exists l. split; [exact A|]. now apply named_in.
Qed.
