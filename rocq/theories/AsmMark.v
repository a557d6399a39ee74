(** The text parser: marking used labels and removing lines. *)
From Coq Require Import Permutation.
From Verif Require Import AsmLemmas AsmRead.

(** *** Marking *)
Definition calm {A} (o : outcome A) : Prop := (exists a, o = Ok a) \/ o = Diverges.
Lemma calm_bind {A B} (o : outcome A) (f : A -> outcome B) : calm o -> (forall a, o = Ok a -> calm (f a)) -> calm (obind o f).
Proof. intros [(a & ->)| ->] H; [now apply H|now right]. Qed.
Lemma calm_ok {A} (a : A) : calm (Ok a). Proof. left. eauto. Qed.
Lemma any_ref_calm f refs : (forall r v, calm (f r v)) -> forall vis, calm (any_ref f refs vis).
Proof.
  intros Hf. induction refs as [|r t IH]; intros vis; [apply calm_ok|]. cbn [any_ref].
  apply calm_bind; [apply Hf|]. intros [u v] _. cbn [fst snd]. destruct u; [apply calm_ok|apply IH].
Qed.
Lemma isUsed_calm ord s fuel : forall label depth vis, calm (isUsed ord s fuel label depth vis).
Proof.
  induction fuel as [|k IH]; intros label depth vis; [now right|]. cbn [isUsed].
  destruct (mem_str _ _); [apply calm_ok|]. destruct (set_contains _ _); [apply calm_ok|].
  apply calm_bind.
  { apply any_ref_calm. intros r v. destruct (is_nil _); [apply calm_ok|apply IH]. }
  intros a _. destruct (fst a); [apply calm_ok|]. apply calm_bind.
  - destruct (0 <? depth); [|apply calm_ok]. apply calm_bind; [apply any_ref_calm; intros; apply IH|].
    intros b _. destruct (fst b); [apply calm_ok|apply any_ref_calm; intros; apply IH].
  - intros b _. destruct (fst b); apply calm_ok.
Qed.
Lemma alias_calm ord s fuel label vis : calm (isUsedThroughAlias ord s fuel label vis).
Proof. unfold isUsedThroughAlias. destruct (map_find _ _); [apply isUsed_calm|apply calm_ok]. Qed.
Lemma data_alias_calm ord s fuel label vis : calm (isDataUsedThroughAlias ord s fuel label vis).
Proof. apply any_ref_calm. intros. apply alias_calm. Qed.

(** The tables searched do not depend on the lines. *)
Lemma any_ref_ext f g refs : (forall r v, f r v = g r v) -> forall vis, any_ref f refs vis = any_ref g refs vis.
Proof.
  intros H. induction refs as [|r t IH]; intros vis; [reflexivity|]. cbn [any_ref]. rewrite H.
  destruct (g r vis) as [[u v]| | |]; cbn [obind fst snd]; [|reflexivity..]. destruct u; [reflexivity|apply IH].
Qed.
Lemma isUsed_lines ord L s fuel : forall label depth vis,
  isUsed ord (set_t_lines L s) fuel label depth vis = isUsed ord s fuel label depth vis.
Proof.
  induction fuel as [|k IH]; intros label depth vis; [reflexivity|]. cbn [isUsed]. tsimp.
  destruct (mem_str _ _); [reflexivity|]. destruct (set_contains _ _); [reflexivity|].
  erewrite any_ref_ext; [|intros r v; instantiate (1 := fun r v => if is_nil (v_str r) then Ok (true, v) else isUsed ord s k (v_str r) (depth + 1) v);
    cbn beta; destruct (is_nil _); [reflexivity|apply IH]].
  destruct (any_ref _ _ _) as [a| | |]; cbn [obind]; [|reflexivity..]. destruct (fst a); [reflexivity|].
  destruct (0 <? depth); [|reflexivity].
  erewrite any_ref_ext; [|intros r v; apply IH].
  destruct (any_ref _ _ (snd a)) as [b| | |]; cbn [obind]; [|reflexivity..]. destruct (fst b); [reflexivity|].
  erewrite any_ref_ext; [|intros r v; apply IH]. reflexivity.
Qed.
Lemma alias_lines ord L s fuel label vis :
  isUsedThroughAlias ord (set_t_lines L s) fuel label vis = isUsedThroughAlias ord s fuel label vis.
Proof. unfold isUsedThroughAlias. tsimp. destruct (map_find _ _); [apply isUsed_lines|reflexivity]. Qed.
Lemma data_alias_lines ord L s fuel label vis :
  isDataUsedThroughAlias ord (set_t_lines L s) fuel label vis = isDataUsedThroughAlias ord s fuel label vis.
Proof. unfold isDataUsedThroughAlias. tsimp. apply any_ref_ext. intros. apply alias_lines. Qed.

(** A marked line: only the three flags differ, and a flag that is newly set was
    found by a search. *)
Definition set_flags (a b c : bool) (l : asm_line_v) : asm_line_v :=
  set_lv_is_used a (set_lv_is_used_through_alias b (set_lv_is_used_data_through_alias c l)).
Record marked (ord : list view -> list view) (s : tstate) (fuel : nat) (l l' : asm_line_v) : Prop := {
  mk_flags : l' = set_flags (lv_is_used l') (lv_is_used_through_alias l') (lv_is_used_data_through_alias l') l;
  mk_used : lv_is_used l' = true -> lv_is_used l = true \/
    exists vis vis', isUsed ord s fuel (v_str (lv_label l)) 1 vis = Ok (true, vis');
  mk_alias : lv_is_used_through_alias l' = true -> lv_is_used_through_alias l = true \/
    exists vis vis', isUsedThroughAlias ord s fuel (v_str (lv_label l)) vis = Ok (true, vis');
  mk_data : lv_is_used_data_through_alias l' = true -> lv_is_used_data_through_alias l = true \/
    exists vis vis', isDataUsedThroughAlias ord s fuel (v_str (lv_label l)) vis = Ok (true, vis') }.
Lemma marked_refl ord s fuel l : marked ord s fuel l l.
Proof. constructor; [now destruct l|auto..]. Qed.
Lemma marked_trans ord s fuel a b c : marked ord s fuel a b -> marked ord s fuel b c -> marked ord s fuel a c.
Proof.
  intros [F1 U1 A1 D1] [F2 U2 A2 D2].
  assert (Hl : lv_label b = lv_label a) by (rewrite F1; reflexivity). rewrite Hl in *.
  constructor.
  - rewrite F2, F1. destruct a. reflexivity.
  - intros H. destruct (U2 H); auto.
  - intros H. destruct (A2 H); auto.
  - intros H. destruct (D2 H); auto.
Qed.
Lemma marked_list_refl ord s fuel ls : Forall2 (marked ord s fuel) ls ls.
Proof. induction ls; constructor; auto using marked_refl. Qed.
Lemma marked_list_trans ord s fuel a : forall b c, Forall2 (marked ord s fuel) a b -> Forall2 (marked ord s fuel) b c -> Forall2 (marked ord s fuel) a c.
Proof.
  induction a as [|x a IH]; intros b c H1 H2; inversion H1; subst; inversion H2; subst; constructor; eauto using marked_trans.
Qed.
Lemma marked_update ord s fuel f ls : forall n l, nth_error ls n = Some l -> marked ord s fuel l (f l) ->
  Forall2 (marked ord s fuel) ls (update_nth n f ls).
Proof.
  induction ls as [|x t IH]; intros [|n] l H Hm; try discriminate; cbn in *.
  - injection H as ->. constructor; [assumption|apply marked_list_refl].
  - constructor; [apply marked_refl|eauto].
Qed.
Lemma update_nth_length {A} (f : A -> A) ls : forall n, length (update_nth n f ls) = length ls.
Proof. induction ls as [|x t IH]; intros [|n]; cbn; auto. Qed.

Lemma mark_one_ok ord s0 fuel s idx vis s' vis' : (exists L, s = set_t_lines L s0) ->
  mark_one ord s fuel idx vis = Ok (s', vis') ->
  exists L, s' = set_t_lines L s0 /\ Forall2 (marked ord s0 fuel) (t_lines s) L.
Proof.
  intros (L0 & ->). unfold mark_one. tsimp. destruct (_ || _); [discriminate|].
  destruct (nth_error L0 _) as [l|] eqn:E; [|discriminate]. rewrite isUsed_lines.
  destruct (isUsed ord s0 fuel _ 1 vis) as [[u v]| | |] eqn:E1; cbn [obind fst snd]; try discriminate.
  destruct u.
  { intros [= <- <-]. eexists. split; [reflexivity|]. eapply marked_update; [exact E|].
    constructor; vsimp; auto. intros _. right. eauto. }
  rewrite data_alias_lines. destruct (isDataUsedThroughAlias ord s0 fuel _ v) as [[u2 v2]| | |] eqn:E2; cbn [obind fst snd]; try discriminate.
  destruct u2.
  { intros [= <- <-]. eexists. split; [reflexivity|]. eapply marked_update; [exact E|].
    constructor; vsimp; auto. intros _. right. eauto. }
  rewrite alias_lines. destruct (isUsedThroughAlias ord s0 fuel _ v2) as [[u3 v3]| | |] eqn:E3; cbn [obind fst snd]; try discriminate.
  destruct u3; intros [= <- <-].
  - eexists. split; [reflexivity|]. eapply marked_update; [exact E|].
    constructor; vsimp; auto. intros _. right. eauto.
  - eexists. split; [reflexivity|]. apply marked_list_refl.
Qed.
Lemma mark_loop_ok ord s0 fuel labels : forall s vis s' vis', (exists L, s = set_t_lines L s0) ->
  mark_loop ord fuel labels s vis = Ok (s', vis') ->
  exists L, s' = set_t_lines L s0 /\ Forall2 (marked ord s0 fuel) (t_lines s) L.
Proof.
  induction labels as [|e t IH]; intros s vis s' vis' Hs; cbn [mark_loop].
  - intros [= <- <-]. destruct Hs as (L & ->). eexists. split; [reflexivity|]. apply marked_list_refl.
  - destruct (mark_one ord s fuel (snd e) vis) as [[s1 v1]| | |] eqn:E; cbn [obind fst snd]; try discriminate.
    intros H. destruct (mark_one_ok _ _ _ _ _ _ _ _ Hs E) as (L1 & -> & M1).
    destruct (IH _ _ _ _ (ex_intro _ L1 eq_refl) H) as (L2 & -> & M2). tsimp.
    exists L2. split; [reflexivity|]. eapply marked_list_trans; eassumption.
Qed.
Lemma set_lines_id s : set_t_lines (t_lines s) s = s.
Proof. now destruct s. Qed.
Lemma mark_ok ord_r ord_l fuel s vis s' vis' : markLabelUsage ord_r ord_l fuel s vis = Ok (s', vis') ->
  exists L, s' = set_t_lines L s /\ Forall2 (marked ord_r s fuel) (t_lines s) L.
Proof. intros H. eapply mark_loop_ok; [|exact H]. exists (t_lines s). symmetry. apply set_lines_id. Qed.

(** With every index in range marking is defined. *)
Lemma mark_one_calm ord s fuel idx vis : 1 <= idx <= Z.of_nat (length (t_lines s)) ->
  calm (mark_one ord s fuel idx vis) /\
  forall s' v, mark_one ord s fuel idx vis = Ok (s', v) -> length (t_lines s') = length (t_lines s).
Proof.
  intros H. unfold mark_one.
  assert (E : (idx <? 1) || (Z.of_nat (length (t_lines s)) <? idx) = false).
  { apply orb_false_iff. split; apply Z.ltb_ge; lia. }
  rewrite E. destruct (nth_error (t_lines s) (Z.to_nat (idx - 1))) as [l|] eqn:El.
  2: { exfalso. apply nth_error_None in El. lia. }
  split.
  - apply calm_bind; [apply isUsed_calm|]. intros a _. destruct (fst a); [apply calm_ok|].
    apply calm_bind; [apply data_alias_calm|]. intros b _. destruct (fst b); [apply calm_ok|].
    apply calm_bind; [apply alias_calm|]. intros c _. destruct (fst c); apply calm_ok.
  - intros s' v.
    destruct (isUsed _ _ _ _ _ _) as [a| | |]; cbn [obind]; try discriminate.
    destruct (fst a); [intros [= <- <-]; apply update_nth_length|].
    destruct (isDataUsedThroughAlias _ _ _ _ _) as [b| | |]; cbn [obind]; try discriminate.
    destruct (fst b); [intros [= <- <-]; apply update_nth_length|].
    destruct (isUsedThroughAlias _ _ _ _ _) as [c| | |]; cbn [obind]; try discriminate.
    destruct (fst c); [intros [= <- <-]; apply update_nth_length|]. now intros [= <- <-].
Qed.
Lemma mark_loop_calm ord fuel labels : forall s vis,
  (forall e, In e labels -> 1 <= snd e <= Z.of_nat (length (t_lines s))) -> calm (mark_loop ord fuel labels s vis).
Proof.
  induction labels as [|e t IH]; intros s vis H; [apply calm_ok|]. cbn [mark_loop].
  destruct (mark_one_calm ord s fuel (snd e) vis) as [A B]; [apply H; now left|].
  apply calm_bind; [exact A|]. intros [s1 v1] E. apply IH. cbn [fst]. intros e' He. rewrite (B _ _ E). apply H. now right.
Qed.

(** *** Removing *)
Inductive subseq {A} : list A -> list A -> Prop :=
| SubNil : subseq [] []
| SubKeep a l l' : subseq l l' -> subseq (a :: l) (a :: l')
| SubDrop a l l' : subseq l l' -> subseq l (a :: l').
Lemma subseq_refl {A} (l : list A) : subseq l l.
Proof. induction l; constructor; auto. Qed.
Lemma subseq_map {A B} (f : A -> B) l l' : subseq l l' -> subseq (map f l) (map f l').
Proof. induction 1; cbn; constructor; auto. Qed.
Lemma subseq_length {A} (l l' : list A) : subseq l l' -> (length l <= length l')%nat.
Proof. induction 1; cbn; lia. Qed.
Lemma subseq_in {A} (l l' : list A) : subseq l l' -> forall a, In a l -> In a l'.
Proof. induction 1; cbn; intros; intuition. Qed.
Lemma subseq_trans {A} (b c : list A) : subseq b c -> forall a, subseq a b -> subseq a c.
Proof.
  induction 1 as [|x b c H IH|x b c H IH]; intros a Ha; [assumption| |constructor; auto].
  inversion Ha; subst; constructor; auto.
Qed.

Definition shown (s : tstate) (l : asm_line_v) : asm_line_v := resolve_file s (filterOutReferedLabelsThatArentDefined s l).
Lemma remove_shape flt s ls : forall r, exists kept,
  fst (remove_loop flt s r ls) = map (shown s) kept /\ subseq kept ls /\
  (length kept + length (snd (remove_loop flt s r ls)) = length ls)%nat /\
  (forall l, In l (snd (remove_loop flt s r ls)) -> In l ls).
Proof.
  induction ls as [|l t IH]; intros r; [exists []; repeat split; auto; constructor|]. cbn [remove_loop].
  destruct (remove_label flt s r l) as [only r']. specialize (IH r') as (kept & E & Hs & Hn & Hin).
  destruct (remove_loop flt s r' t) as [k o]. cbn [fst snd] in *. destruct (removed flt r' only l); cbn [fst snd length].
  - exists kept. repeat split; [assumption|now constructor|lia|]. intros x [<-|Hx]; [now left|right; auto].
  - exists (l :: kept). subst k. repeat split; [now constructor|cbn; lia|]. intros x Hx. right; auto.
Qed.
Lemma remove_shape' flt s : exists kept,
  t_lines (removeUnused flt s) = map (shown s) kept /\ subseq kept (t_lines s) /\
  exists out, removeUnused flt s = set_t_filteredlines (t_filteredlines s ++ out) (set_t_lines (map (shown s) kept) s)
  /\ (length kept + length out = length (t_lines s))%nat /\ (forall l, In l out -> In l (t_lines s)).
Proof.
  unfold removeUnused. destruct (remove_shape flt s (t_lines s) (mkR false false false false)) as (kept & E & Hs & Hn & Hin).
  destruct (remove_loop flt s _ _) as [k o]. cbn [fst snd] in *. subst k. exists kept. tsimp. eauto 10.
Qed.

(** *** The whole parse *)
Section Run.
Variables (mblen : str -> Z) (flt : Filter)
          (ord_refs : list view -> list view) (ord_labels : list (view * Z) -> list (view * Z)).
(** The lines after reading, after marking. *)
Definition read (input : str) : tstate := filterNonLabels (read_lines mblen flt tstate0 input).
Lemma read_lines_eq input : t_lines (read input) = t_lines (read_lines mblen flt tstate0 input).
Proof. reflexivity. Qed.
Record run_shape (fuel : nat) (input : str) (s' : tstate) (L kept out : list asm_line_v) : Prop := {
  rs_marked : Forall2 (marked ord_refs (read input) fuel) (t_lines (read input)) L;
  rs_kept : subseq kept L;
  rs_out : (length kept + length out = length L)%nat;
  rs_out_in : forall l, In l out -> In l L;
  rs_state : s' = set_t_filteredlines (t_filteredlines (read input) ++ out)
               (set_t_lines (map (shown (read input)) kept) (read input));
  rs_loop : remove_loop flt (read input) (mkR false false false false) L = (map (shown (read input)) kept, out) }.
Lemma shown_lines s L : shown (set_t_lines L s) = shown s.
Proof. reflexivity. Qed.
Lemma remove_loop_lines L s ls : forall r, remove_loop flt (set_t_lines L s) r ls = remove_loop flt s r ls.
Proof.
  induction ls as [|l t IH]; intros r; [reflexivity|]. cbn [remove_loop].
  change (remove_label flt (set_t_lines L s) r l) with (remove_label flt s r l).
  destruct (remove_label flt s r l) as [only r']. rewrite IH. reflexivity.
Qed.
Lemma run_ok fuel input vis s' vis' :
  AsmText.run mblen flt ord_refs ord_labels fuel input vis = Ok (s', vis') -> exists L kept out, run_shape fuel input s' L kept out.
Proof.
  unfold AsmText.run, fromStream. fold (read input).
  destruct (markLabelUsage ord_refs ord_labels fuel (read input) vis) as [[s1 v1]| | |] eqn:E; cbn [obind fst snd]; try discriminate.
  intros [= <- <-]. destruct (mark_ok _ _ _ _ _ _ _ E) as (L & -> & M).
  exists L. destruct (remove_shape flt (read input) L (mkR false false false false)) as (kept & E1 & H1 & H2 & H3).
  destruct (remove_loop flt (read input) _ L) as [k o] eqn:E2. cbn [fst snd] in *. subst k.
  exists kept, o. constructor; auto. unfold removeUnused. tsimp. rewrite remove_loop_lines, E2. reflexivity.
Qed.
Lemma run_defined fuel input vis : (forall m, Permutation (ord_labels m) m) ->
  Z.of_nat (length input) < two31 ->
  t_total_lines (read_lines mblen flt tstate0 input) <= Z.of_nat (length input) ->
  calm (AsmText.run mblen flt ord_refs ord_labels fuel input vis).
Proof.
  intros Hp Hlen Ht. unfold AsmText.run, fromStream. fold (read input).
  destruct (count_read mblen flt input) as [Hc Hl]. destruct Hl as [Hs _ _]; [lia|].
  apply calm_bind; [|intros; apply calm_ok]. unfold markLabelUsage. apply mark_loop_calm.
  intros [k i] Hin. cbn [snd]. eapply Permutation_in in Hin; [|apply Hp].
  destruct (Hs k i Hin) as [(l & A & B & _) _]. split; [assumption|].
  assert (Z.to_nat (i - 1) < length (t_lines (read_lines mblen flt tstate0 input)))%nat by (apply nth_error_Some; congruence).
  rewrite read_lines_eq. lia.
Qed.
End Run.
