(** The text parser: exactly which marks the search gives. *)
From Coq Require Import Permutation.
From Verif Require Import AsmLemmas AsmRead AsmMark AsmTrace AsmThms AsmUse AsmSearch AsmComplete AsmRemove AsmRoots.

(** *** The labels one after the other *)
Inductive mark := Used | ThroughAlias | NoMark.
Definition set_mark (m : mark) (l : asm_line_v) : asm_line_v :=
  match m with Used => set_lv_is_used true l | ThroughAlias => set_lv_is_used_through_alias true l | NoMark => l end.
(** [marking vis ms vis']: the labels are tried in the order of [ms].  A label
    gets its mark by a trail of uses that avoids all names already taken, or by
    one of its alias; the names of the trail are then taken. *)
Section Marking.
Variables (used : str -> str -> Prop) (user : str -> Prop) (alias : str -> option str).
Inductive marking : list str -> list (str * mark) -> list str -> Prop :=
| MK_nil vis : marking vis [] vis
| MK_used k p vis ms vis' : trail used user vis k p -> marking (p ++ vis) ms vis' -> marking vis ((k, Used) :: ms) vis'
| MK_alias k a p vis ms vis' : (forall q, ~ trail used user vis k q) -> alias k = Some a -> trail used user vis a p ->
    marking (p ++ vis) ms vis' -> marking vis ((k, ThroughAlias) :: ms) vis'
| MK_none k vis ms vis' : (forall q, ~ trail used user vis k q) -> (forall a q, alias k = Some a -> ~ trail used user vis a q) ->
    marking vis ms vis' -> marking vis ((k, NoMark) :: ms) vis'.
End Marking.
Lemma trail_same (u u' : str -> str -> Prop) (g g' : str -> Prop) vis k p : (forall a b, u a b <-> u' a b) -> (forall a, g a <-> g' a) ->
  trail u g vis k p <-> trail u' g' vis k p.
Proof. intros A B. split; apply trail_impl; firstorder. Qed.

Section Search.
Variables (ord : list view -> list view) (s : tstate).
Lemma trail_clear vis k p : trail (tab_used ord s) (tab_user s) vis k p -> clear ord s vis k.
Proof.
  induction 1 as [vis k H [Hu|Hu]|vis k r p H Hu Hr _ IH]; [now apply CL_user|now apply CL_free|].
  eapply CL_step; [exact H|exact Hu|exact Hr|]. eapply clear_less, IH.
Qed.
End Search.

Lemma nth_update {A} (f : A -> A) l : forall n, nth_error (update_nth n f l) n = option_map f (nth_error l n).
Proof. induction l as [|x t IH]; intros [|n]; cbn; auto. Qed.
Lemma nth_update_other {A} (f : A -> A) l : forall n m, n <> m -> nth_error (update_nth n f l) m = nth_error l m.
Proof. induction l as [|x t IH]; intros [|n] [|m] H; cbn; auto; contradiction. Qed.
Lemma update_id {A} (l : list A) : forall n, update_nth n (fun x => x) l = l.
Proof. induction l as [|x t IH]; intros [|n]; cbn; [reflexivity..|]. now rewrite IH. Qed.

Section Parse.
Variables (mblen : str -> Z) (flt : Filter)
          (ord_refs : list view -> list view) (ord_labels : list (view * Z) -> list (view * Z)).
Hypothesis Hrefs : shuffles ord_refs.
Hypothesis Hlabels : forall m, Permutation (ord_labels m) m.
Variable input : str.
Let st := read_lines mblen flt tstate0 input.
Let ls := lines_read mblen flt input.
Hypothesis Hlen : Z.of_nat (length input) < two31.
Hypothesis no_data_refs : forall d k, In d ls -> lv_is_data d = true -> mentions d k -> ~ is_label_name mblen flt input k.

Definition alias_of (s : tstate) (k : str) : option str := option_map v_str (map_find (t_aliased_labels s) k).
Definition table_trail (s : tstate) := trail (looked (t_used_labels s)) (fun k => set_contains (t_usercode_labels s) k = true).
Definition table_marking (s : tstate) := marking (looked (t_used_labels s)) (fun k => set_contains (t_usercode_labels s) k = true) (alias_of s).

Lemma tab_looked k r : tab_used ord_refs (read mblen flt input) k r <-> looked (t_used_labels (read mblen flt input)) k r.
Proof.
  split.
  - intros (v & A & B). unfold refs_of in A. destruct (map_find _ k) as [refs|] eqn:E; [|destruct A]. exists refs, v.
    split; [exact E|]. split; [|exact B]. eapply Permutation_in; [apply Hrefs|exact A].
  - intros H. unfold tab_used. now apply looked_refs.
Qed.
Lemma search_both fuel k vis b vis' : is_label_name mblen flt input k -> isUsed ord_refs (read mblen flt input) fuel k 1 vis = Ok (b, vis') ->
  if b then exists p, table_trail (read mblen flt input) vis k p /\ vis' = p ++ vis
  else vis' = vis /\ forall q, ~ table_trail (read mblen flt input) vis k q.
Proof.
  intros Hk H. destruct b.
  - apply isUsed_trail with (dom := is_label_name mblen flt input) in H as (p & Hp & ->); auto; [| | | |lia].
    + exists p. split; [|reflexivity]. unfold table_trail. eapply trail_same; [| |exact Hp]; [intros a b; symmetry; apply tab_looked|reflexivity].
    + intros a r _ Ha Hr. eapply user_named; [|exact Hr]. eapply tab_used_read, Ha. exact Hrefs.
    + intros a Ha. eapply name_no_data; eauto.
    + intros. now apply weak_none.
  - destruct (exact_read mblen flt ord_refs Hrefs input no_data_refs fuel k vis Hk _ _ H) as [_ B]. destruct (B eq_refl) as [-> Hc].
    split; [reflexivity|]. intros q Hq. apply Hc. apply (trail_clear _ _ _ _ q). unfold table_trail in Hq.
    eapply trail_same; [| |exact Hq]; [intros a b; apply tab_looked|reflexivity].
Qed.
(** One label. *)
Lemma mark_one_exact fuel idx l vis s' vis' L :
  nth_error L (Z.to_nat (idx - 1)) = Some l -> is_label_name mblen flt input (v_str (lv_label l)) ->
  mark_one ord_refs (set_t_lines L (read mblen flt input)) fuel idx vis = Ok (s', vis') ->
  exists m, s' = set_t_lines (update_nth (Z.to_nat (idx - 1)) (set_mark m) L) (read mblen flt input) /\
    forall ms v, table_marking (read mblen flt input) vis' ms v -> table_marking (read mblen flt input) vis ((v_str (lv_label l), m) :: ms) v.
Proof.
  intros E Hname. unfold mark_one. tsimp. destruct (_ || _); [discriminate|]. rewrite E, isUsed_lines.
  destruct (isUsed ord_refs (read mblen flt input) fuel _ 1 vis) as [[u v]| | |] eqn:E1; cbn [obind fst snd]; try discriminate.
  apply search_both in E1; [|exact Hname]. destruct u.
  { intros [= <- <-]. destruct E1 as (p & Hp & ->). exists Used. split; [reflexivity|]. intros ms v H. eapply MK_used; eassumption. }
  destruct E1 as [-> Hno]. rewrite data_alias_lines. unfold isDataUsedThroughAlias. erewrite name_no_data by eauto. cbn [any_ref obind fst snd].
  rewrite alias_lines. unfold isUsedThroughAlias.
  destruct (map_find (t_aliased_labels (read mblen flt input)) (v_str (lv_label l))) as [a|] eqn:Ef.
  - assert (Ha : is_label_name mblen flt input (v_str a)).
    { revert Ef. change (t_aliased_labels (read mblen flt input)) with (t_aliased_labels st). unfold map_find, option_map. destruct (find _ _) as [[kv a']|] eqn:Ef; [|discriminate].
      intros [= <-]. apply find_some in Ef as [Ef _].
      destruct (ai_alias _ _ _ (read_alias mblen flt input) _ _ Ef) as (pre & la & mid & lk & post & X & (Y1 & _ & Y3) & _).
      exists la. split; [unfold lines_read; rewrite X, in_app_iff; cbn; auto|auto]. }
    assert (Hal : alias_of (read mblen flt input) (v_str (lv_label l)) = Some (v_str a)) by (unfold alias_of; now rewrite Ef).
    destruct (isUsed ord_refs (read mblen flt input) fuel (v_str a) 1 vis) as [[u3 v3]| | |] eqn:E5; cbn [obind fst snd]; try discriminate.
    apply search_both in E5; [|exact Ha]. destruct u3; intros [= <- <-].
    + destruct E5 as (p & Hp & ->). exists ThroughAlias. split; [reflexivity|]. intros ms v H. eapply MK_alias; eassumption.
    + destruct E5 as [-> Hno']. exists NoMark. split; [|intros ms v H; apply MK_none; [exact Hno| |exact H]].
      * unfold set_mark. now rewrite update_id.
      * intros a0 q. rewrite Hal. intros [= <-]. apply Hno'.
  - cbn [obind fst snd]. intros [= <- <-]. exists NoMark. split; [|intros ms v H; apply MK_none; [exact Hno| |exact H]].
    + unfold set_mark. now rewrite update_id.
    + intros a0 q. unfold alias_of. rewrite Ef. discriminate.
Qed.
(** All of them. *)
Lemma mark_loop_exact fuel labels : forall L vis s' vis', NoDup (map (fun e => Z.to_nat (snd e - 1)) labels) ->
  (forall e, In e labels -> exists l, nth_error L (Z.to_nat (snd e - 1)) = Some l /\ v_str (lv_label l) = v_str (fst e) /\ is_label_name mblen flt input (v_str (fst e))) ->
  mark_loop ord_refs fuel labels (set_t_lines L (read mblen flt input)) vis = Ok (s', vis') ->
  exists ms L', s' = set_t_lines L' (read mblen flt input) /\ table_marking (read mblen flt input) vis ms vis' /\
    map fst ms = map (fun e => v_str (fst e)) labels /\
    (forall e m, In (e, m) (combine labels (map snd ms)) -> nth_error L' (Z.to_nat (snd e - 1)) = option_map (set_mark m) (nth_error L (Z.to_nat (snd e - 1)))) /\
    (forall i, ~ In i (map (fun e => Z.to_nat (snd e - 1)) labels) -> nth_error L' i = nth_error L i).
Proof.
  induction labels as [|e t IH]; intros L vis s' vis' Hnd Hl; cbn [mark_loop].
  - intros [= <- <-]. exists [], L. split; [reflexivity|]. split; [constructor|]. split; [reflexivity|]. split; [intros e m []|reflexivity].
  - destruct (Hl e (or_introl eq_refl)) as (l & E1 & E2 & E3).
    destruct (mark_one ord_refs _ fuel (snd e) vis) as [[s1 v1]| | |] eqn:E; cbn [obind fst snd]; try discriminate. intros H.
    cbn [map] in Hnd. inversion Hnd as [|x xs N1 N2]; subst x xs. rewrite <- E2 in E3.
    destruct (mark_one_exact _ _ _ _ _ _ _ E1 E3 E) as (m & -> & Hm).
    destruct (IH (update_nth (Z.to_nat (snd e - 1)) (set_mark m) L) v1 s' vis' N2) as (ms & L' & -> & M1 & M2 & M3 & M4); [|exact H|].
    + intros e' He'. destruct (Hl e' (or_intror He')) as (l' & F1 & F2 & F3). exists l'. split; [|auto]. rewrite nth_update_other; [exact F1|].
      intros X. apply N1. rewrite X. apply (in_map (fun e => Z.to_nat (snd e - 1))), He'.
    + exists ((v_str (lv_label l), m) :: ms), L'. split; [reflexivity|]. split; [now apply Hm|]. split; [cbn [map fst]; now rewrite E2, M2|]. split.
      * cbn [map snd combine]. intros e' m' [[= <- <-]|X].
        -- rewrite (M4 _ N1). apply nth_update.
        -- rewrite (M3 _ _ X). f_equal. apply nth_update_other. intros Y. apply N1. rewrite Y. apply (in_map (fun e => Z.to_nat (snd e - 1))). eapply in_combine_l, X.
      * intros i Hi. cbn [map In] in Hi. rewrite M4 by tauto. apply nth_update_other. tauto.
Qed.
Lemma run_marking fuel vis s' vis' : AsmText.run mblen flt ord_refs ord_labels fuel input vis = Ok (s', vis') ->
  exists ms L kept out,
    table_marking s' vis ms vis' /\ NoDup (map fst ms) /\
    (forall k, In k (map fst ms) <-> exists l, In l (t_lines st) /\ lv_is_label l = true /\ v_str (lv_label l) = k) /\
    (forall k m i, In (k, m) ms -> last_def (t_lines st) k (Z.of_nat i + 1) -> nth_error L i = option_map (set_mark m) (nth_error (t_lines st) i)) /\
    (forall i, (forall k, ~ last_def (t_lines st) k (Z.of_nat i + 1)) -> nth_error L i = nth_error (t_lines st) i) /\
    parted (gone flt) [] L kept out /\
    t_lines s' = map (shown (read mblen flt input)) kept /\ t_filteredlines s' = t_filteredlines st ++ out.
Proof.
  unfold AsmText.run, fromStream. fold (read mblen flt input). unfold markLabelUsage. intros H.
  destruct (mark_loop ord_refs fuel _ (read mblen flt input) vis) as [[s1 v1]| | |] eqn:E; cbn [obind fst snd] in H; try discriminate.
  destruct (count_read mblen flt input) as [_ Hci]. destruct Hci as [Hs Hc Hnd]; [pose proof (read_total mblen flt input); lia|]. fold st in Hs, Hc, Hnd.
  set (labels := ord_labels (t_labels_defined (read mblen flt input))) in *.
  assert (HP : Permutation labels (t_labels_defined st)) by apply Hlabels.  clearbody labels.
  assert (Hin : forall k i, In (k, i) labels -> last_def (t_lines st) (v_str k) i) by (intros k i X; apply Hs; eapply Permutation_in; eassumption).
  assert (Hnames : NoDup (map (fun e : view * Z => v_str (fst e)) labels)).
  { eapply Permutation_NoDup; [|exact Hnd]. apply Permutation_map, Permutation_sym, HP. }
  assert (Hidx : NoDup (map (fun e : view * Z => Z.to_nat (snd e - 1)) labels)).
  { clear -Hnames Hin. induction labels as [|[k i] t IH]; [constructor|]. cbn [map fst snd] in *. inversion Hnames as [|x xs N1 N2]; subst.
    constructor; [|apply IH; [intros; apply Hin; now right|exact N2]]. intros X. apply in_map_iff in X as ([k' i'] & X1 & X2). cbn [snd] in X1.
    destruct (Hin k i (or_introl eq_refl)) as [(l & A & B & C & D) _]. destruct (Hin k' i' (or_intror X2)) as [(l' & A' & B' & C' & D') _].
    rewrite X1, A in A'. injection A' as <-. apply N1. rewrite <- D, D'. apply (in_map (fun e : view * Z => v_str (fst e)) t (k', i') X2). }
  rewrite <- (set_lines_id (read mblen flt input)) in E.
  destruct (mark_loop_exact fuel labels (t_lines st) vis s1 v1 Hidx) as (ms & L & -> & M1 & M2 & M3 & M4); [|exact E|].
  { intros [k i] X. destruct (Hin k i X) as [(l & A & B & C & D) _]. exists l. split; [exact A|]. split; [exact D|]. cbn [fst]. rewrite <- D.
    exists (erase l). split; [apply in_map; eapply nth_error_In, A|]. split; [exact C|reflexivity]. }
  destruct (mark_loop_ok ord_refs (read mblen flt input) fuel labels _ _ _ _ (ex_intro _ (t_lines st) eq_refl) E) as (L1 & EL & FL).
  assert (L1 = L) as -> by (apply (f_equal t_lines) in EL; symmetry; exact EL). clear EL.
  assert (HPar : Forall no_parent L) by (eapply marked_parent; [exact FL|apply read_parent]).
  destruct (loop_parted flt (read mblen flt input) L [] _ (locals0 flt) HPar) as (kept & Hk & Hp).
  injection H as <- <-. unfold removeUnused. tsimp_goal. rewrite remove_loop_lines.
  destruct (remove_loop flt (read mblen flt input) _ L) as [k o]. cbn [fst snd] in *. tsimp_goal.
  exists ms, L, kept, o. split; [exact M1|]. split; [rewrite M2; exact Hnames|]. split.
  { intros k0. rewrite M2. split.
    - intros X. apply in_map_iff in X as ([k1 i] & <- & X). destruct (Hin _ _ X) as [(l & A & B & C & D) _]. exists l. split; [eapply nth_error_In, A|]. auto.
    - intros (l & A & B & <-). destruct (Hc l A B) as (k1 & i & X1 & <-). apply (in_map (fun e : view * Z => v_str (fst e)) labels (k1, i)).
      eapply Permutation_in; [apply Permutation_sym, HP|exact X1]. }
  split; [|split; [|split; [exact Hp|split; [exact Hk|reflexivity]]]].
  - intros k0 m i X [(l & A & B & C & D) Hlast].
    assert (Hc' : exists e, In (e, m) (combine labels (map snd ms)) /\ v_str (fst e) = k0).
    { clear -X M2. revert labels M2. induction ms as [|[k1 m1] t IH]; [destruct X|]. intros [|e es] M2; [discriminate|]. cbn [map fst snd] in M2. injection M2 as M2a M2b.
      cbn [map snd combine]. destruct X as [[= -> ->]|X]; [exists e; split; [now left|now symmetry]|]. destruct (IH X es M2b) as (e' & P & Q). exists e'. split; [now right|exact Q]. }
    destruct Hc' as ([k1 j] & X1 & X2). cbn [fst] in X2. pose proof (M3 _ _ X1) as X3. cbn [snd] in X3.
    assert (Hj : Z.to_nat (j - 1) = i).
    { pose proof (in_combine_l _ _ _ _ X1) as X4. destruct (Hin _ _ X4) as [(l' & A' & B' & C' & D') Hlast'].
      pose proof (Hlast _ _ A' C' ltac:(congruence)) as Q1. pose proof (Hlast' _ _ A C ltac:(congruence)) as Q2. lia. }
    rewrite Hj in X3. exact X3.
  - intros i Hi. apply M4. intros X. apply in_map_iff in X as ([k1 j] & X1 & X2). cbn [snd] in X1. pose proof (Hin _ _ X2) as X3. apply (Hi (v_str k1)).
    replace (Z.of_nat i + 1) with j; [exact X3|]. destruct X3 as [(l & _ & B & _) _]. lia.
Qed.
End Parse.
