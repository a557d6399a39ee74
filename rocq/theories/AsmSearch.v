(** The text parser: the search for uses. *)
From Coq Require Import Permutation.
From Verif Require Import AsmLemmas AsmRead AsmMark AsmTrace AsmThms AsmUse.

Definition shuffles (ord : list view -> list view) : Prop := forall l, Permutation (ord l) l.
Lemma refs_entry ord m k r : shuffles ord -> In r (refs_of ord m k) -> entry m k (v_str r).
Proof.
  intros Ho. unfold refs_of, map_find, option_map. destruct (find _ m) as [[kv refs]|] eqn:E; [|intros []]. cbn [snd].
  intros H. apply find_some in E as [E1 E2]. exists kv, refs, r. split; [exact E1|]. split; [now apply same_key_iff|].
  split; [|reflexivity]. eapply Permutation_in; [apply Ho|exact H].
Qed.
Lemma any_ref_true f refs : forall vis vis', any_ref f refs vis = Ok (true, vis') -> exists r v v', In r refs /\ f r v = Ok (true, v').
Proof.
  induction refs as [|r t IH]; intros vis vis'; cbn [any_ref]; [discriminate|].
  destruct (f r vis) as [[u v]| | |] eqn:E; cbn [obind fst snd]; try discriminate. destruct u.
  - intros _. exists r, vis, v. split; [now left|exact E].
  - intros H. destruct (IH _ _ H) as (r' & a & b & A & B). exists r', a, b. split; [now right|exact B].
Qed.

(** Where chains of uses may end. *)
Section Chain.
Variables (used data : str -> str -> Prop) (user : str -> Prop).
Inductive chain : str -> Prop :=
| CH_user k : user k -> chain k
| CH_free k : used k [] -> chain k
| CH_used k r : used k r -> chain r -> chain k
| CH_data k r : data k r -> chain r -> chain k.
End Chain.
Lemma chain_impl (u u' d d' : str -> str -> Prop) (g g' : str -> Prop) k : (forall a b, u a b -> u' a b) -> (forall a b, d a b -> d' a b) -> (forall a, g a -> g' a) ->
  chain u d g k -> chain u' d' g' k.
Proof. intros A B C. induction 1; [apply CH_user|apply CH_free|eapply CH_used|eapply CH_data]; eauto. Qed.

Section Search.
Variables (ord : list view -> list view) (s : tstate).
Hypothesis Hord : shuffles ord.
Definition tab_user (k : str) : Prop := set_contains (t_usercode_labels s) k = true.
Definition tab_used (k r : str) : Prop := exists v, In v (refs_of ord (t_used_labels s) k) /\ v_str v = r.
Definition tab_data (k r : str) : Prop := exists v, In v (refs_of ord (t_data_used_labels s) k) /\ v_str v = r.

Lemma isUsed_sound : refs_of ord (t_weakly_used_labels s) = (fun _ => []) \/ t_weakly_used_labels s = [] ->
  forall fuel k depth vis vis', isUsed ord s fuel k depth vis = Ok (true, vis') -> chain tab_used tab_data tab_user k.
Proof.
  intros Hw0. assert (Hw : forall k, refs_of ord (t_weakly_used_labels s) k = []) by (intros k; destruct Hw0 as [-> | ->]; reflexivity). clear Hw0.
  induction fuel as [|n IH]; intros k depth vis vis'; [discriminate|]. cbn [isUsed].
  destruct (mem_str _ _); [discriminate|]. destruct (set_contains (t_usercode_labels s) k) eqn:Eu; [intros _; now apply CH_user|].
  destruct (any_ref _ (refs_of ord (t_used_labels s) k) _) as [[u v]| | |] eqn:E1; cbn [obind fst snd]; try discriminate. destruct u.
  { intros _. apply any_ref_true in E1 as (r & a & b & A & B). destruct (is_nil (v_str r)) eqn:En.
    - apply CH_free. exists r. split; [exact A|]. now destruct (v_str r).
    - eapply CH_used; [exists r; split; [exact A|reflexivity]|]. eapply IH, B. }
  rewrite Hw. cbn [any_ref obind fst snd]. destruct (0 <? depth); cbn [obind fst snd]; [|discriminate].
  destruct (any_ref _ (refs_of ord (t_data_used_labels s) k) _) as [[u2 v2]| | |] eqn:E2; cbn [obind fst snd]; try discriminate. destruct u2; [|discriminate].
  intros _. apply any_ref_true in E2 as (r & a & b & A & B). eapply CH_data; [exists r; split; [exact A|reflexivity]|]. eapply IH, B.
Qed.

(** *** Without references from data the search is exact *)
(** A chain of uses from [k] that avoids [vis]. *)
Inductive clear (vis : list str) : str -> Prop :=
| CL_user k : ~ In k vis -> tab_user k -> clear vis k
| CL_free k : ~ In k vis -> tab_used k [] -> clear vis k
| CL_step k r : ~ In k vis -> tab_used k r -> r <> [] -> clear vis r -> clear vis k.
Lemma clear_out vis k : clear vis k -> ~ In k vis.
Proof. now destruct 1. Qed.
Lemma clear_less vis k x : clear (x :: vis) k -> clear vis k.
Proof. induction 1; [apply CL_user|apply CL_free|eapply CL_step]; eauto; intros X; apply H; now right. Qed.
(** A chain through [x] contains one that starts at [x] and does not come back. *)
Lemma clear_cut vis x k : clear vis k -> clear (x :: vis) k \/
  (tab_user x \/ tab_used x [] \/ exists r, tab_used x r /\ r <> [] /\ clear (x :: vis) r).
Proof.
  induction 1 as [k H Hu|k H Hu|k r H Hu Hr Hc IH].
  - destruct (str_dec x k) as [->|N]; [auto|]. left. apply CL_user; [|exact Hu]. intros [X|X]; auto.
  - destruct (str_dec x k) as [->|N]; [auto|]. left. apply CL_free; [|exact Hu]. intros [X|X]; auto.
  - destruct IH as [IH|IH]; [|auto]. destruct (str_dec x k) as [->|N]; [right; right; right; eauto|].
    left. eapply CL_step; [|exact Hu|exact Hr|exact IH]. intros [X|X]; auto.
Qed.
Lemma mem_str_in k vis : mem_str k vis = true <-> In k vis.
Proof.
  unfold mem_str. rewrite existsb_exists. split.
  - intros (x & A & B). apply str_eqb_eq in B. now subst.
  - intros H. exists k. split; [exact H|apply str_eqb_refl].
Qed.
Lemma remove_fresh k vis : ~ In k vis -> remove_str k (k :: vis) = vis.
Proof.
  intros H. unfold remove_str. cbn [filter]. rewrite str_eqb_refl. cbn [negb].
  assert (G : forall l, ~ In k l -> filter (fun x => negb (str_eqb x k)) l = l).
  { induction l as [|x t IH]; intros Hl; [reflexivity|]. cbn [filter]. destruct (str_eqb x k) eqn:E.
    - apply str_eqb_eq in E. exfalso. apply Hl. now left.
    - cbn [negb]. rewrite IH; [reflexivity|]. intros X. apply Hl. now right. }
  auto.
Qed.

(** [dom]: labels that no data refers to, closed under being used. *)
Variable dom : str -> Prop.
Hypothesis dom_used : forall k r, dom k -> tab_used k r -> r <> [] -> dom r.
Hypothesis dom_data : forall k, dom k -> refs_of ord (t_data_used_labels s) k = [].
Hypothesis dom_weak : forall k, dom k -> refs_of ord (t_weakly_used_labels s) k = [].

(** What a search gives: a chain if successful; if not, nothing was changed and there is no chain. *)
Definition exact_result (k : str) (vis : list str) (o : outcome (bool * list str)) : Prop :=
  forall b vis', o = Ok (b, vis') -> (b = true -> clear vis k) /\ (b = false -> vis' = vis /\ ~ clear vis k).
Lemma isUsed_exact : forall fuel k depth vis, dom k -> 1 <= depth -> exact_result k vis (isUsed ord s fuel k depth vis).
Proof.
  induction fuel as [|n IH]; intros k depth vis Hk Hd b vis'; [discriminate|]. cbn [isUsed].
  replace (depth =? 0) with false by (symmetry; apply Z.eqb_neq; lia).
  destruct (mem_str k vis) eqn:Em.
  { intros [= <- <-]. split; [discriminate|]. intros _. split; [reflexivity|]. intros X. apply clear_out in X. now apply mem_str_in in Em. }
  assert (Hout : ~ In k vis) by (intros X; apply mem_str_in in X; congruence).
  destruct (set_contains (t_usercode_labels s) k) eqn:Eu.
  { intros [= <- <-]. split; [intros _; now apply CL_user|discriminate]. }
  set (f := fun ref v => if is_nil (v_str ref) then Ok (true, v) else isUsed ord s n (v_str ref) (depth + 1) v).
  assert (Hany : forall refs, (forall r, In r refs -> tab_used k (v_str r)) -> forall b1 v1, any_ref f refs (k :: vis) = Ok (b1, v1) ->
     (b1 = true -> clear vis k) /\ (b1 = false -> v1 = k :: vis /\ forall r, In r refs -> v_str r <> [] /\ ~ clear (k :: vis) (v_str r))).
  { induction refs as [|r t IHr]; intros Hr b1 v1; cbn [any_ref].
    - intros [= <- <-]. split; [discriminate|]. intros _. split; [reflexivity|]. intros r [].
    - unfold f at 1. destruct (is_nil (v_str r)) eqn:En; cbn [obind fst snd].
      + intros [= <- <-]. split; [|discriminate]. intros _. apply CL_free; [exact Hout|]. destruct (v_str r) eqn:Er; [|discriminate].
        rewrite <- Er. apply Hr. now left.
      + assert (Hne : v_str r <> []) by (intros X; rewrite X in En; discriminate).
        assert (Hdr : dom (v_str r)) by (eapply dom_used; [exact Hk|apply Hr; now left|exact Hne]).
        destruct (isUsed ord s n (v_str r) (depth + 1) (k :: vis)) as [[u v]| | |] eqn:E; cbn [obind fst snd]; try discriminate.
        destruct (IH _ (depth + 1) (k :: vis) Hdr ltac:(lia) _ _ E) as [A B]. destruct u.
        * intros [= <- <-]. split; [|discriminate]. intros _. eapply CL_step; [exact Hout|apply Hr; now left|exact Hne|]. eapply clear_less, A. reflexivity.
        * destruct (B eq_refl) as [-> Hnc]. intros H. destruct (IHr (fun r' Hr' => Hr r' (or_intror Hr')) _ _ H) as [C D]. split; [exact C|].
          intros E0. destruct (D E0) as [D1 D2]. split; [exact D1|]. intros r' [<-|Hr']; [auto|apply D2, Hr']. }
  specialize (Hany (refs_of ord (t_used_labels s) k) (fun r Hr => ex_intro _ r (conj Hr eq_refl))).
  destruct (any_ref f (refs_of ord (t_used_labels s) k) (k :: vis)) as [[u v]| | |]; cbn [obind fst snd]; try discriminate.
  destruct (Hany u v eq_refl) as [A B]. destruct u; [intros [= <- <-]; split; [intros _; auto|discriminate]|].
  destruct (B eq_refl) as [-> Hno]. rewrite (dom_weak _ Hk), (dom_data _ Hk). cbn [any_ref obind fst snd].
  assert (Hnc : ~ clear vis k).
  { intros Hc. assert (Hnf : ~ tab_used k []) by (intros (v & V1 & V2); destruct (Hno v V1); contradiction).
    inversion Hc as [k0 X1 X2 E0|k0 X1 X2 E0|k0 r X1 X2 X3 X4 E0]; subst k0.
    - unfold tab_user in X2. congruence.
    - contradiction.
    - assert (Hr : forall r', tab_used k r' -> ~ clear (k :: vis) r') by (intros r' (v & V1 & <-); apply Hno, V1).
      destruct (clear_cut vis k r X4) as [Y|[Y|[Y|(r' & Y1 & Y2 & Y3)]]].
      + exact (Hr _ X2 Y).
      + unfold tab_user in Y. congruence.
      + contradiction.
      + exact (Hr _ Y1 Y3). }
  assert (Hfin : (0 <? depth) = true) by (apply Z.ltb_lt; lia). rewrite Hfin. cbn [obind fst snd].
  intros [= <- <-]. split; [discriminate|]. intros _. split; [|exact Hnc]. now apply remove_fresh.
Qed.

(** *** and it ends *)
Definition keys : list str := map (fun e => v_str (fst e)) (t_used_labels s).
Definition fresh (vis : list str) : nat := length (filter (fun k => negb (mem_str k vis)) keys).
Lemma fresh_cons_le k vis : (fresh (k :: vis) <= fresh vis)%nat.
Proof.
  unfold fresh. induction keys as [|x t IH]; [reflexivity|]. cbn [filter]. unfold mem_str at 1. cbn [existsb].
  fold (mem_str x vis). destruct (mem_str x vis); [rewrite orb_true_r; exact IH|]. rewrite orb_false_r. cbn [negb]. destruct (str_eqb x k); cbn [negb length]; lia.
Qed.
Lemma fresh_cons_lt k vis : In k keys -> ~ In k vis -> (fresh (k :: vis) < fresh vis)%nat.
Proof.
  unfold fresh. pose proof fresh_cons_le as _. induction keys as [|x t IH]; [intros []|]. intros H Hn. cbn [filter]. unfold mem_str at 1. cbn [existsb].
  fold (mem_str x vis). assert (Hle : (length (filter (fun k0 => negb (mem_str k0 (k :: vis))) t) <= length (filter (fun k0 => negb (mem_str k0 vis)) t))%nat).
  { clear. induction t as [|y t IH]; [reflexivity|]. cbn [filter]. unfold mem_str at 1. cbn [existsb]. fold (mem_str y vis).
    destruct (mem_str y vis); [rewrite orb_true_r; exact IH|]. rewrite orb_false_r. cbn [negb]. destruct (str_eqb y k); cbn [negb length]; lia. }
  destruct H as [->|H].
  - rewrite str_eqb_refl. cbn [orb negb]. destruct (mem_str k vis) eqn:E; [apply mem_str_in in E; contradiction|]. cbn [negb length]. lia.
  - specialize (IH H Hn). destruct (mem_str x vis); [rewrite orb_true_r; exact IH|]. rewrite orb_false_r. cbn [negb]. destruct (str_eqb x k); cbn [negb length]; lia.
Qed.
Lemma refs_no_key k : ~ In k keys -> refs_of ord (t_used_labels s) k = [].
Proof.
  intros H. unfold refs_of, map_find, option_map. destruct (find _ _) as [[kv r]|] eqn:E; [|reflexivity]. exfalso. apply H.
  apply find_some in E as [E1 E2]. apply same_key_iff in E2. unfold keys. apply in_map_iff. exists (kv, r). auto.
Qed.
Lemma isUsed_step n k depth vis : isUsed ord s (S n) k depth vis =
  let visited := if depth =? 0 then [] else vis in
  if mem_str k visited then Ok (false, visited)
  else
    let visited := k :: visited in
    if set_contains (t_usercode_labels s) k then Ok (true, visited)
    else
      r <- any_ref (fun ref vis =>
             if is_nil (v_str ref) then Ok (true, vis) else isUsed ord s n (v_str ref) (depth + 1) vis)
           (refs_of ord (t_used_labels s) k) visited ;;
      if fst r then Ok r
      else
        r <- (if 0 <? depth then
                r <- any_ref (fun ref vis => isUsed ord s n (v_str ref) (depth - 1) vis)
                       (refs_of ord (t_weakly_used_labels s) k) (snd r) ;;
                if fst r then Ok r
                else any_ref (fun ref vis => isUsed ord s n (v_str ref) (depth - 1) vis)
                       (refs_of ord (t_data_used_labels s) k) (snd r)
              else Ok r) ;;
        if fst r then Ok r else Ok (false, remove_str k (snd r)).
Proof. reflexivity. Qed.
Lemma isUsed_ends : forall fuel k depth vis, dom k -> 1 <= depth -> (fresh vis < fuel)%nat -> (0 < fuel)%nat -> isUsed ord s (S fuel) k depth vis <> Diverges.
Proof.
  induction fuel as [|n IH]; intros k depth vis Hk Hd Hf H0; [lia|]. rewrite isUsed_step. cbv zeta.
  replace (depth =? 0) with false by (symmetry; apply Z.eqb_neq; lia).
  destruct (mem_str k vis) eqn:Em; [discriminate|]. destruct (set_contains _ _); [discriminate|].
  assert (Hout : ~ In k vis) by (intros X; apply mem_str_in in X; congruence).
  set (f := fun ref v => if is_nil (v_str ref) then Ok (true, v) else isUsed ord s (S n) (v_str ref) (depth + 1) v).
  assert (Hany : forall refs, (forall r, In r refs -> tab_used k (v_str r)) -> (In k keys \/ refs = []) -> 
      any_ref f refs (k :: vis) <> Diverges /\ forall b v, any_ref f refs (k :: vis) = Ok (b, v) -> b = false -> v = k :: vis).
  { induction refs as [|r t IHr]; intros Hr Hkey; cbn [any_ref].
    - split; [discriminate|]. now intros b v [= <- <-].
    - destruct Hkey as [Hkey|]; [|discriminate]. specialize (IHr (fun r' Hr' => Hr r' (or_intror Hr')) (or_introl Hkey)). destruct IHr as [I1 I2].
      unfold f at 1 3. destruct (is_nil (v_str r)) eqn:En; cbn [obind fst snd]; [split; [discriminate|]; intros b v [= <- <-]; discriminate|].
      assert (Hne : v_str r <> []) by (intros X; rewrite X in En; discriminate).
      assert (Hdr : dom (v_str r)) by (eapply dom_used; [exact Hk|apply Hr; now left|exact Hne]).
      assert (Hcall : isUsed ord s (S n) (v_str r) (depth + 1) (k :: vis) <> Diverges).
      { pose proof (fresh_cons_lt k vis Hkey Hout). destruct n as [|n']; [lia|]. apply IH; auto; lia. }
      destruct (isUsed ord s (S n) (v_str r) (depth + 1) (k :: vis)) as [[u v]| | |] eqn:E; cbn [obind fst snd]; try (split; [discriminate|intros; discriminate]); [|now exfalso].
      destruct u; [split; [discriminate|]; intros b v0 [= <- <-]; discriminate|].
      destruct (isUsed_exact (S n) (v_str r) (depth + 1) (k :: vis) Hdr ltac:(lia) _ _ E) as [_ B]. destruct (B eq_refl) as [-> _]. auto. }
  destruct (Hany (refs_of ord (t_used_labels s) k)) as [H1 H2].
  { intros r Hr. exists r. auto. }
  { destruct (in_dec str_dec k keys) as [Y|N]; [now left|right; now apply refs_no_key]. }
  fold f. destruct (any_ref f (refs_of ord (t_used_labels s) k) (k :: vis)) as [[u v]| | |] eqn:E; cbn [obind fst snd]; try discriminate; [|now exfalso].
  destruct u; [discriminate|]. rewrite (dom_weak _ Hk), (dom_data _ Hk). cbn [any_ref obind fst snd].
  assert (Hfin : (0 <? depth) = true) by (apply Z.ltb_lt; lia). rewrite Hfin. cbn [obind fst snd]. discriminate.
Qed.
End Search.

(** *** The whole parse *)
Section Parse.
Variables (mblen : str -> Z) (flt : Filter)
          (ord_refs : list view -> list view) (ord_labels : list (view * Z) -> list (view * Z)).
Hypothesis Hrefs : shuffles ord_refs.
Hypothesis Hlabels : forall m, Permutation (ord_labels m) m.
Variable input : str.
Let st := read_lines mblen flt tstate0 input.
(** The lines that were read, and those set aside by the filters. *)
Definition lines_read : list asm_line_v := map erase (t_lines st).
Definition lines_aside : list asm_line_v := map erase (t_filteredlines st).
Definition reaches (k : str) : Prop := chain (used_by lines_read lines_aside) (data_by lines_read) (global lines_read lines_aside) k.

Lemma entry_filter p m k r : entry (filter p m) k r -> entry m k r.
Proof. intros (kv & refs & rv & A & B). apply filter_In in A as [A _]. exists kv, refs, rv. auto. Qed.
Lemma tab_used_read k r : tab_used ord_refs (read mblen flt input) k r -> used_by lines_read lines_aside k r.
Proof.
  intros (v & Hv & <-). apply refs_entry in Hv; [|exact Hrefs]. apply entry_filter in Hv.
  apply (ti_used _ _ _ _ _ _ _ (read_table mblen flt input)). exact Hv.
Qed.
Lemma tab_data_read k r : tab_data ord_refs (read mblen flt input) k r -> data_by lines_read k r.
Proof.
  intros (v & Hv & <-). apply refs_entry in Hv; [|exact Hrefs].
  apply (ti_data _ _ _ _ _ _ _ (read_table mblen flt input)). exact Hv.
Qed.
Lemma tab_user_read k : tab_user (read mblen flt input) k -> global lines_read lines_aside k.
Proof.
  unfold tab_user. change (t_usercode_labels (read mblen flt input)) with (t_usercode_labels st). intros H.
  unfold set_contains in H. apply existsb_exists in H as (v & A & B). apply same_key_iff in B. subst k.
  apply (ti_user _ _ _ _ _ _ _ (read_table mblen flt input)). exact A.
Qed.
Lemma weak_read : t_weakly_used_labels (read mblen flt input) = [].
Proof. unfold read, filterNonLabels. tsimp. rewrite read_weak. reflexivity. Qed.
Lemma search_reaches fuel k depth vis vis' : isUsed ord_refs (read mblen flt input) fuel k depth vis = Ok (true, vis') -> reaches k.
Proof.
  intros H. eapply chain_impl; [| | |eapply isUsed_sound; [right; apply weak_read|exact H]].
  - exact tab_used_read. - exact tab_data_read. - exact tab_user_read.
Qed.
Lemma alias_reaches fuel k vis vis' : isUsedThroughAlias ord_refs (read mblen flt input) fuel k vis = Ok (true, vis') ->
  exists a, same_address lines_read k a /\ reaches a.
Proof.
  unfold isUsedThroughAlias. change (t_aliased_labels (read mblen flt input)) with (t_aliased_labels st).
  unfold map_find, option_map. destruct (find _ _) as [[kv a]|] eqn:E; [|discriminate]. cbn [snd]. intros H.
  apply find_some in E as [E1 E2]. apply same_key_iff in E2. exists (v_str a). split; [|eapply search_reaches, H].
  rewrite <- E2. apply (ai_alias _ _ _ (read_alias mblen flt input)). exact E1.
Qed.
Lemma data_alias_reaches fuel k vis vis' : isDataUsedThroughAlias ord_refs (read mblen flt input) fuel k vis = Ok (true, vis') ->
  exists r a, data_by lines_read k r /\ same_address lines_read r a /\ reaches a.
Proof.
  unfold isDataUsedThroughAlias. intros H. apply any_ref_true in H as (r & v & v' & A & B).
  destruct (alias_reaches _ _ _ _ B) as (a & C & D). exists (v_str r), a. split; [|auto]. apply tab_data_read. exists r. auto.
Qed.

(** C41 *)
Lemma C41_used fuel vis s' vis' l : AsmText.run mblen flt ord_refs ord_labels fuel input vis = Ok (s', vis') -> In l (t_lines s') ->
  (lv_is_used l = true -> reaches (v_str (lv_label l))) /\
  (lv_is_used_through_alias l = true -> exists a, same_address lines_read (v_str (lv_label l)) a /\ reaches a) /\
  (lv_is_used_data_through_alias l = true -> exists r a, data_by lines_read (v_str (lv_label l)) r /\ same_address lines_read r a /\ reaches a).
Proof.
  intros H Hin. destruct (run_ok _ _ _ _ _ _ _ _ _ H) as (L & kept & out & [A B C D E F]).
  subst s'. tsimp. apply in_map_iff in Hin as (l1 & <- & Hin). pose proof (subseq_in _ _ B _ Hin) as Hin1.
  destruct (forall2_in_r _ _ _ A _ Hin1) as (l0 & Hl & Hm). rewrite read_lines_eq in Hl.
  assert (Hu : lv_is_used l0 = false /\ lv_is_used_through_alias l0 = false /\ lv_is_used_data_through_alias l0 = false).
  { pose proof (reads_from _ _ _ _ _ (tr_reads _ _ _ _ (read_trace mblen flt input))) as Hf. rewrite Forall_forall in Hf.
    destruct (Hf _ Hl) as [X|(raw & nest & h & x & X1 & X2 & X3)]; [rewrite X; auto|]. rewrite X3. exact (kl_unmarked _ _ _ _ _ _ _ X2). }
  destruct Hu as (U1 & U2 & U3).
  assert (Hs : lv_label (shown (read mblen flt input) l1) = lv_label l0 /\ lv_is_used (shown (read mblen flt input) l1) = lv_is_used l1 /\
     lv_is_used_through_alias (shown (read mblen flt input) l1) = lv_is_used_through_alias l1 /\
     lv_is_used_data_through_alias (shown (read mblen flt input) l1) = lv_is_used_data_through_alias l1).
  { rewrite shown_core. repeat split. destruct Hm as [Hm _ _ _]. rewrite Hm. reflexivity. }
  destruct Hs as (-> & -> & -> & ->). destruct Hm as [_ M1 M2 M3]. split; [|split].
  - intros X. destruct (M1 X) as [Y|(v & v' & Y)]; [congruence|]. eapply search_reaches, Y.
  - intros X. destruct (M2 X) as [Y|(v & v' & Y)]; [congruence|]. eapply alias_reaches, Y.
  - intros X. destruct (M3 X) as [Y|(v & v' & Y)]; [congruence|]. eapply data_alias_reaches, Y.
Qed.

(** *** Termination *)
Definition is_label_name (k : str) : Prop := exists l, In l lines_read /\ lv_is_label l = true /\ v_str (lv_label l) = k.
Hypothesis no_data_refs : forall d k, In d lines_read -> lv_is_data d = true -> mentions d k -> ~ is_label_name k.
Lemma label_after_name ls : label_after ls = [] \/ exists l, In l ls /\ lv_is_label l = true /\ v_str (lv_label l) = label_after ls.
Proof.
  induction ls as [|l ls IH] using rev_ind; [now left|]. rewrite label_after_app. destruct (lv_is_label l) eqn:E.
  - right. exists l. rewrite in_app_iff. cbn. auto.
  - destruct IH as [IH|(x & A & B)]; [now left|]. right. exists x. rewrite in_app_iff. auto.
Qed.
Lemma parent_after_name ls : parent_after ls = [] \/ exists l, In l ls /\ lv_is_label l = true /\ v_str (lv_label l) = parent_after ls.
Proof.
  induction ls as [|l ls IH] using rev_ind; [now left|]. rewrite parent_after_app. destruct (lv_is_label l && _) eqn:E.
  - apply andb_true_iff in E as [E _]. right. exists l. rewrite in_app_iff. cbn. auto.
  - destruct IH as [IH|(x & A & B)]; [now left|]. right. exists x. rewrite in_app_iff. auto.
Qed.
Lemma user_named k r : used_by lines_read lines_aside k r -> r <> [] -> is_label_name r.
Proof.
  intros [pre l post E _ _ _ _|l r' _ _ _ _ [->|(pre & post & E & ->)]] Hr.
  - destruct (parent_after_name pre) as [X|(x & X1 & X2)]; [contradiction|]. exists x. split; [|exact X2].
    rewrite E, in_app_iff. now left.
  - contradiction.
  - destruct (label_after_name pre) as [X|(x & X1 & X2)]; [contradiction|]. exists x. split; [|exact X2]. rewrite E, in_app_iff. now left.
Qed.
Lemma name_no_data k : is_label_name k -> refs_of ord_refs (t_data_used_labels (read mblen flt input)) k = [].
Proof.
  intros Hk. destruct (refs_of ord_refs (t_data_used_labels (read mblen flt input)) k) as [|v t] eqn:E; [reflexivity|]. exfalso.
  assert (Hd : data_by lines_read k (v_str v)).
  { apply tab_data_read. exists v. split; [rewrite E; now left|reflexivity]. }
  destruct Hd as [pre l post r Hls H1 H2 H3 _]. eapply no_data_refs; [|exact H2|exact H3|exact Hk]. rewrite Hls, in_app_iff. cbn. auto.
Qed.
Lemma weak_none k : refs_of ord_refs (t_weakly_used_labels (read mblen flt input)) k = [].
Proof. rewrite weak_read. reflexivity. Qed.
Definition enough : nat := S (S (length (t_used_labels st))).
Lemma fresh_bound vis : (fresh (read mblen flt input) vis <= length (t_used_labels st))%nat.
Proof.
  unfold fresh, keys, read, filterNonLabels. tsimp.
  assert (G : forall {A} (p : A -> bool) l, (length (filter p l) <= length l)%nat).
  { intros A p l. induction l as [|x t IH]; [reflexivity|]. cbn. destruct (p x); cbn; lia. }
  eapply Nat.le_trans; [apply G|]. rewrite map_length. apply G.
Qed.
Lemma search_ends fuel k depth vis : is_label_name k -> 1 <= depth -> (enough <= fuel)%nat ->
  exists r, isUsed ord_refs (read mblen flt input) fuel k depth vis = Ok r.
Proof.
  intros Hk Hd Hf. unfold enough in Hf. destruct fuel as [|n]; [lia|].
  assert (Hne : isUsed ord_refs (read mblen flt input) (S n) k depth vis <> Diverges).
  { apply isUsed_ends with (dom := is_label_name); auto; [|apply name_no_data|intros; apply weak_none| |lia].
    - intros x r _ Hx Hr. eapply user_named; [apply tab_used_read, Hx|exact Hr].
    - pose proof (fresh_bound vis). lia. }
  destruct (isUsed_calm ord_refs (read mblen flt input) (S n) k depth vis) as [H|H]; [exact H|contradiction].
Qed.
Lemma alias_ends fuel k vis : (enough <= fuel)%nat -> exists r, isUsedThroughAlias ord_refs (read mblen flt input) fuel k vis = Ok r.
Proof.
  intros Hf. unfold isUsedThroughAlias. change (t_aliased_labels (read mblen flt input)) with (t_aliased_labels st).
  unfold map_find, option_map. destruct (find _ _) as [[kv a]|] eqn:E; [|eauto]. cbn [snd].
  apply find_some in E as [E1 _]. apply search_ends; [|lia|exact Hf].
  destruct (ai_alias _ _ _ (read_alias mblen flt input) _ _ E1) as (pre & la & mid & lk & post & X & (Y1 & _ & Y3) & _).
  exists la. split; [unfold lines_read, st; rewrite X, in_app_iff; cbn; auto|auto].
Qed.
Lemma mark_ends fuel labels : (enough <= fuel)%nat -> forall s vis,
  (exists L, s = set_t_lines L (read mblen flt input) /\ Forall2 (marked ord_refs (read mblen flt input) fuel) (t_lines st) L) ->
  (forall e, In e labels -> exists l, nth_error (t_lines st) (Z.to_nat (snd e - 1)) = Some l /\ 1 <= snd e /\ lv_is_label l = true) ->
  exists r, mark_loop ord_refs fuel labels s vis = Ok r.
Proof.
  intros Hf. induction labels as [|e t IH]; intros s vis (L & -> & HL) Hl; [eexists; reflexivity|]. cbn [mark_loop].
  destruct (Hl e (or_introl eq_refl)) as (l & E1 & E2 & E3).
  assert (Hone : exists r, mark_one ord_refs (set_t_lines L (read mblen flt input)) fuel (snd e) vis = Ok r).
  { unfold mark_one. tsimp.
    assert (Hlen : length L = length (t_lines st)) by (symmetry; eapply Forall2_length', HL).
    assert (Hlt : (Z.to_nat (snd e - 1) < length (t_lines st))%nat) by (apply nth_error_Some; congruence).
    replace ((snd e <? 1) || (Z.of_nat (length L) <? snd e)) with false by (symmetry; apply orb_false_iff; split; apply Z.ltb_ge; lia).
    destruct (nth_error L (Z.to_nat (snd e - 1))) as [l'|] eqn:E'; [|apply nth_error_None in E'; lia].
    assert (Hm : marked ord_refs (read mblen flt input) fuel l l').
    { clear -HL E1 E'. revert E1 E'. generalize (Z.to_nat (snd e - 1)) as n. induction HL as [|x y xs ys Hxy _ IHf]; intros [|n]; cbn; try discriminate.
      - now intros [= <-] [= <-]. - apply IHf. }
    assert (Hlab : lv_label l' = lv_label l) by (destruct Hm as [Hm _ _ _]; rewrite Hm; reflexivity). rewrite Hlab.
    assert (Hname : is_label_name (v_str (lv_label l))).
    { exists (erase l). split; [apply in_map; eapply nth_error_In, E1|]. split; [exact E3|reflexivity]. }
    rewrite isUsed_lines. destruct (search_ends fuel _ 1 vis Hname ltac:(lia) Hf) as ([u v] & ->). cbn [obind fst snd]. destruct u; [eauto|].
    rewrite data_alias_lines. unfold isDataUsedThroughAlias at 1. rewrite (name_no_data _ Hname). cbn [any_ref obind fst snd].
    rewrite alias_lines. destruct (alias_ends fuel (v_str (lv_label l)) v Hf) as ([u3 v3] & ->). cbn [obind fst snd]. destruct u3; eauto. }
  destruct Hone as ([s1 v1] & E). rewrite E. cbn [obind fst snd].
  destruct (mark_one_ok _ _ _ _ _ _ _ _ (ex_intro _ L eq_refl) E) as (L1 & -> & M). tsimp.
  apply IH; [|intros x Hx; apply Hl; now right]. exists L1. split; [reflexivity|]. eapply marked_list_trans; eassumption.
Qed.
(** C43 *)
Lemma C43_ends fuel vis : Z.of_nat (length input) < two31 -> (enough <= fuel)%nat ->
  exists r, AsmText.run mblen flt ord_refs ord_labels fuel input vis = Ok r.
Proof.
  intros Hlen Hf. unfold AsmText.run, fromStream. fold (read mblen flt input). unfold markLabelUsage.
  destruct (mark_ends fuel (ord_labels (t_labels_defined (read mblen flt input))) Hf (read mblen flt input) vis) as ([s v] & ->).
  - exists (t_lines (read mblen flt input)). split; [symmetry; apply set_lines_id|apply marked_list_refl].
  - intros [k i] Hin. eapply Permutation_in in Hin; [|apply Hlabels]. cbn [snd].
    destruct (table_lines _ _ _ _ _ Hlen Hin) as [(l & A & B & C & _) _]. eauto.
  - cbn [obind fst snd]. eauto.
Qed.
End Parse.

(** A label that no line names is not reached. *)
Definition names (l : asm_line_v) (k : str) : Prop :=
  mentions l k \/ getWeakDefinedLabel (lv_text l) = Some k \/ getGlobalDefinedLabel (lv_text l) = Some k.
Lemma reaches_named mblen flt input k : reaches mblen flt input k ->
  exists l, In l (lines_read mblen flt input ++ lines_aside mblen flt input) /\ names l k.
Proof.
  assert (Hu : forall k r, used_by (lines_read mblen flt input) (lines_aside mblen flt input) k r ->
     exists l, In l (lines_read mblen flt input ++ lines_aside mblen flt input) /\ names l k).
  { intros a r [pre l post H A B C D|l r' A B C D _]; exists l; (split; [|unfold names; tauto]); [|exact A].
    rewrite H, !in_app_iff. cbn. auto. }
  intros [a (l & A & B & C & D)|a H|a r H _|a r [pre l post r' A B C D E] _]; [|eauto..|].
  - exists l. split; [exact A|]. unfold names. tauto.
  - exists l. split; [|now left]. rewrite A, !in_app_iff. cbn. auto.
Qed.
Definition names_b (l : asm_line_v) (k : str) : bool :=
  existsb (fun r => str_eqb (v_str (lbv_name r)) k) (lv_labels l) ||
  match getWeakDefinedLabel (lv_text l) with Some w => str_eqb w k | None => false end ||
  match getGlobalDefinedLabel (lv_text l) with Some w => str_eqb w k | None => false end.
Lemma names_names_b l k : names l k -> names_b l k = true.
Proof.
  unfold names, names_b. intros [H|[-> | ->]]; rewrite ?str_eqb_refl, ?orb_true_r; try reflexivity.
  unfold mentions in H. apply in_map_iff in H as (r & <- & H). rewrite !orb_true_iff. left. left. apply existsb_exists. exists r. split; [exact H|apply str_eqb_refl].
Qed.
Lemma not_named mblen flt input k :
  existsb (fun l => names_b l k) (lines_read mblen flt input ++ lines_aside mblen flt input) = false -> ~ reaches mblen flt input k.
Proof.
  intros H Hr. apply reaches_named in Hr as (l & A & B). apply names_names_b in B.
  assert (X : existsb (fun l => names_b l k) (lines_read mblen flt input ++ lines_aside mblen flt input) = true) by (apply existsb_exists; eauto). congruence.
Qed.
