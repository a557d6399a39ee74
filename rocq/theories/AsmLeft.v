(** The text parser: what a parse leaves in the set [visited] of its thread. *)
From Coq Require Import Permutation.
From Verif Require Import AsmLemmas AsmRead AsmMark AsmTrace AsmThms AsmUse AsmSearch AsmComplete AsmDet AsmViews AsmRemove AsmRoots AsmVisited.

Section Left.
Variables (mblen : str -> Z) (flt : Filter)
          (ord_refs : list view -> list view) (ord_labels : list (view * Z) -> list (view * Z)).
Hypothesis Hrefs : shuffles ord_refs.
Hypothesis Hlabels : forall m, Permutation (ord_labels m) m.
Variables (me : nat) (dead : nat -> bool) (input : str).
Let st := read mblen flt input.
Notation runv := (runV mblen flt ord_refs ord_labels me dead).
Notation plain := (AsmText.run mblen flt ord_refs ord_labels).

(** While no parser of the thread was destroyed the model over names is exact. *)
Lemma run_no_dead fuel vis : (forall e, dead e = false) -> omap (fun r => (fst r, names (snd r))) (runv fuel input vis) = plain fuel input (names vis).
Proof. intros H. destruct (run_sim mblen flt ord_refs ord_labels me dead fuel input vis) as [[_ (e & X)]|X]; [now rewrite H in X|exact X]. Qed.
Lemma run_names fuel vis s vis' : runv fuel input vis = Ok (s, vis') -> plain fuel input (names vis) = Ok (s, names vis').
Proof. intros H. destruct (run_sim mblen flt ord_refs ord_labels me dead fuel input vis) as [[X _]|X]; [congruence|]. rewrite <- X, H. reflexivity. Qed.

(** *** Whose characters the new views point into *)
Lemma refs_in m k r : In r (refs_of ord_refs m k) -> exists e, In e m /\ In r (snd e).
Proof.
  unfold refs_of, map_find, option_map. destruct (find _ m) as [[kv refs]|] eqn:E; [|intros []]. cbn [snd]. intros H.
  apply find_some in E as [E _]. exists (kv, refs). split; [exact E|]. eapply Permutation_in; [apply Hrefs|exact H].
Qed.
Lemma into_alive fuel vis s' vis' : plain fuel input vis = Ok (s', vis') -> forall v, into (ids st) v -> alive s' v.
Proof.
  intros H. destruct (run_ok _ _ _ _ _ _ _ _ _ H) as (L & kept & out & [M K O OI ST LP]). fold st in M, ST, LP.
  assert (HI : map lkey L = map lkey (t_lines st)).
  { clear - M. induction M as [|x y a b Hxy HM IH]; [reflexivity|]. cbn [map]. rewrite IH. f_equal. exact (proj2 (marked_views _ _ _ _ _ Hxy)). }
  assert (HD : incl (ids st) (map lkey (map (shown st) kept) ++ map lkey out ++ map lkey (t_filteredlines st))).
  { unfold ids. rewrite <- HI. intros x. rewrite in_app_iff, in_map_iff. intros [(l & <- & Hl)|Hx].
    - pose proof (remove_ids flt st L (mkR false false false false) l Hl) as Q. rewrite LP in Q. cbn [fst snd] in Q. rewrite !in_app_iff in *. tauto.
    - rewrite !in_app_iff. tauto. }
  intros v. unfold into, alive. destruct (v_own v) as [|i| |]; auto; try contradiction. intros (t & Hi & Hp). apply HD in Hi. rewrite ST. unfold objects. tsimp_goal.
  rewrite !in_app_iff, !in_map_iff in Hi. destruct Hi as [(l & E & I)|[(l & E & I)|(l & E & I)]]; unfold lkey in E; injection E as <- <-;
    exists l; rewrite !in_app_iff; auto.
Qed.
Lemma left_alive fuel vis s vis' : f_comment_only flt = false -> f_library_functions flt = false ->
  runv fuel input vis = Ok (s, vis') -> forall e, In e vis' -> In e vis \/ fst e = me /\ into (ids st) (snd e) /\ alive s (snd e).
Proof.
  intros Hc Hf H. assert (PR : pointing st) by (apply filter_pointing, read_pointing; auto; apply pointing0). destruct PR as [A _].
  assert (T : forall m, Forall (fun e : view * list view => into (ids st) (fst e) /\ Forall (into (ids st)) (snd e)) m -> forall k r, In r (refs_of ord_refs m k) -> into (ids st) r).
  { intros m Hm k r Hr. apply refs_in in Hr as (e & E1 & E2). rewrite Forall_forall in Hm. destruct (Hm e E1) as [_ X]. rewrite Forall_forall in X. auto. }
  assert (Hp : put me (into (ids st)) vis vis').
  { unfold runV in H. cbv zeta in H. fold (read mblen flt input) in H. fold st in H.
    destruct (mark_loopV _ _ _ _ _ _ _) as [[s1 v1]| | |] eqn:E; cbn [obind fst snd] in H; try discriminate. injection H as _ <-.
    rewrite <- (set_lines_id st) in E. eapply mark_loop_put with (s0 := st); [.. |exact E].
    - intros k r _ Hr _. eapply T; [apply (h_used _ _ A)|exact Hr].
    - intros k r _ Hr. eapply T; [apply (h_weak _ _ A)|exact Hr].
    - intros k r _ Hr. eapply T; [apply (h_data _ _ A)|exact Hr].
    - intros k a _. unfold map_find, option_map. destruct (find _ _) as [[kv x]|] eqn:F; [|discriminate]. intros [= <-]. apply find_some in F as [F _].
      pose proof (h_alias _ _ A) as Q. rewrite Forall_forall in Q. now destruct (Q _ F).
    - intros x l Hx Hl. pose proof (h_lines _ _ A) as Q. rewrite Forall_forall in Q. specialize (Q l (nth_error_In _ _ Hl)). rename Q into X. unfold line_held, views_of_line in X. inversion X as [|? ? _ Y]; subst. now inversion Y. }
  intros e He. destruct (Hp e He) as [X|[X1 X2]]; [now left|right]. split; [exact X1|]. split; [exact X2|]. eapply into_alive; [|exact X2]. eapply run_names, H.
Qed.

(** *** Without references from data *)
Hypothesis Hlen : Z.of_nat (length input) < two31.
Hypothesis no_data_refs : forall d k, In d (lines_read mblen flt input) -> lv_is_data d = true -> mentions d k -> ~ is_label_name mblen flt input k.
Let dom := is_label_name mblen flt input.
Lemma dom_used k r : dom k -> tab_used ord_refs st k r -> r <> [] -> dom r.
Proof. intros _ H Hr. eapply user_named; [|exact Hr]. eapply tab_used_read; [exact Hrefs|exact H]. Qed.
Lemma dom_data k : dom k -> refs_of ord_refs (t_data_used_labels st) k = [].
Proof. intros H. eapply name_no_data; eauto. Qed.
Lemma dom_weak k : dom k -> refs_of ord_refs (t_weakly_used_labels st) k = [].
Proof. intros _. apply weak_none. Qed.
Lemma dom_alias k a : dom k -> map_find (t_aliased_labels st) k = Some a -> dom (v_str a).
Proof.
  intros _. unfold map_find, option_map. destruct (find _ _) as [[kv x]|] eqn:F; [|discriminate]. intros [= <-]. apply find_some in F as [F _].
  destruct (ai_alias _ _ _ (read_alias mblen flt input) _ _ F) as (pre & la & mid & lk & post & X & (Y1 & _ & Y3) & _).
  exists la. split; [unfold lines_read; rewrite X, in_app_iff; cbn; auto|auto].
Qed.
Lemma table_dom e l : In e (ord_labels (t_labels_defined st)) -> nth_error (t_lines st) (Z.to_nat (snd e - 1)) = Some l -> dom (v_str (lv_label l)).
Proof.
  destruct e as [k i]. intros H Hl. eapply Permutation_in in H; [|apply Hlabels]. destruct (table_lines _ _ _ _ _ Hlen H) as [(l' & A & B & C & D) _].
  cbn [snd] in Hl. change (t_lines st) with (t_lines (read_lines mblen flt tstate0 input)) in Hl. rewrite A in Hl. injection Hl as <-.
  exists (erase l'). split; [apply in_map; eapply nth_error_In, A|]. split; [exact C|reflexivity].
Qed.
Lemma left_named fuel vis s vis' : runv fuel input vis = Ok (s, vis') -> forall e, In e vis' -> In e vis \/ fst e = me /\ dom (v_str (snd e)).
Proof.
  intros H. unfold runV in H. cbv zeta in H. fold (read mblen flt input) in H. fold st in H.
  destruct (mark_loopV _ _ _ _ _ _ _) as [[s1 v1]| | |] eqn:E; cbn [obind fst snd] in H; try discriminate. injection H as _ <-.
  assert (Hp : put me (fun v => dom (v_str v)) vis v1); [|exact Hp].
  rewrite <- (set_lines_id st) in E. eapply mark_loop_put with (s0 := st); [.. |exact E].
  - intros k r Hk Hr Hn. eapply dom_used; [exact Hk|exists r; split; [exact Hr|reflexivity]|exact Hn].
  - intros k r Hk Hr. unfold ref_of in Hr. now rewrite dom_weak in Hr.
  - intros k r Hk Hr. unfold ref_of in Hr. now rewrite dom_data in Hr.
  - intros k a. apply dom_alias.
  - intros e l. apply table_dom.
Qed.
Lemma left_kept fuel vis s vis' : runv fuel input vis = Ok (s, vis') -> single vis ->
  single vis' /\ (forall e, In e vis -> dead (fst e) = true -> In e vis' /\ ~ dom (v_str (snd e))).
Proof.
  intros H Hs. unfold runV in H. cbv zeta in H. fold (read mblen flt input) in H. fold st in H.
  destruct (mark_loopV _ _ _ _ _ _ _) as [[s1 v1]| | |] eqn:E; cbn [obind fst snd] in H; try discriminate. injection H as _ <-.
  rewrite <- (set_lines_id st) in E.
  apply mark_loop_fine with (dom := dom) in E; [|exact dom_used|exact dom_data|exact dom_weak|exact dom_alias|exact table_dom|exact Hs].
  destruct E as [[A B] C]. split; [now apply B|]. intros e He De. split; [now apply A|]. intros (l & Hl & Hlab & Hn).
  unfold lines_read in Hl. apply in_map_iff in Hl as (l0 & <- & Hl).
  destruct (count_read mblen flt input) as [_ Hci]. destruct Hci as [Hsd Hc Hnd]; [pose proof (read_total mblen flt input); lia|].
  destruct (Hc l0 Hl Hlab) as (k & i & X1 & X2). destruct (Hsd k i X1) as [(l' & Y1 & _ & _ & Y2) _].
  eapply (C (k, i) l' e); [|exact Y1|exact He|exact De|].
  - eapply Permutation_in; [apply Permutation_sym, Hlabels|exact X1].
  - rewrite Y2, X2, <- Hn. reflexivity.
Qed.
(** A name that a destroyed parser left behind and this input defines again: dead
    characters are read. *)
Lemma dead_read vis e : single vis -> In e vis -> dead (fst e) = true -> dom (v_str (snd e)) ->
  exists n, forall fuel, (n <= fuel)%nat -> runv fuel input vis = UB DanglingRead.
Proof.
  intros Hs He De Hd. destruct (ends_always mblen flt ord_refs ord_labels Hrefs Hlabels input no_data_refs Hlen (names vis)) as (r & n & Hn).
  exists n. intros fuel Hf. destruct (run_sim mblen flt ord_refs ord_labels me dead fuel input vis) as [[X _]|X]; [exact X|]. exfalso.
  rewrite (Hn fuel Hf) in X. destruct (runv fuel input vis) as [[s v]| | |] eqn:E; try discriminate X.
  destruct (left_kept _ _ _ _ E Hs) as [_ Y]. exact (proj2 (Y e He De) Hd).
Qed.
(** A parse that marks a label leaves a view of one of its label names. *)
Lemma mark_leaves fuel vis s vis' : runv fuel input vis = Ok (s, vis') -> marks (t_lines s ++ t_filteredlines s) <> 0%nat ->
  exists e, In e vis' /\ fst e = me /\ dom (v_str (snd e)).
Proof.
  intros H Hm. pose proof (run_roots mblen flt ord_refs ord_labels Hrefs Hlabels input Hlen no_data_refs _ _ _ _ (run_names _ _ _ _ H)) as [_ G].
  specialize (G (roots_of (lines_read mblen flt input) (lines_aside mblen flt input)) (fun k => roots_listed _ _ k)).
  set (R := roots_of _ _) in G. clearbody R.
  assert (Hr : exists k, In k (names vis') /\ ~ In k (names vis)).
  { clear -G Hm. revert G. unfold free. generalize (marks (t_lines s ++ t_filteredlines s)) Hm. intros n Hn. induction R as [|k t IH]; cbn [filter length]; [lia|].
    destruct (mem_str k (names vis')) eqn:E1, (mem_str k (names vis)) eqn:E2; cbn [negb length]; intros G; try (apply IH; lia).
    exists k. split; [now apply mem_str_in|]. intros X. apply mem_str_in in X. congruence. }
  destruct Hr as (k & H1 & H2). unfold names in H1. apply in_map_iff in H1 as (e & <- & He). exists e. split; [exact He|].
  destruct (left_named _ _ _ _ H e He) as [X|X]; [|exact X]. exfalso. apply H2. apply (in_map (fun e => v_str (snd e)) vis e X).
Qed.
End Left.
