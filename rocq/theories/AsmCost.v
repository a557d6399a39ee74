(** The text parser: how many calls of isUsed a parse makes. *)
From Coq Require Import Permutation.
From Verif Require Import AsmLemmas AsmRead AsmMark AsmTrace AsmThms AsmUse AsmSearch AsmComplete AsmDet AsmRemove AsmRoots AsmMarking.

(** *** The search with its calls counted *)
Section Count.
Variables (mblen : str -> Z) (flt : Filter)
          (ord_refs : list view -> list view) (ord_labels : list (view * Z) -> list (view * Z)).
Fixpoint any_refC (f : view -> list str -> outcome (bool * list str * nat)) (refs : list view) (vis : list str)
  : outcome (bool * list str * nat) :=
  match refs with
  | [] => Ok (false, vis, 0%nat)
  | r :: t =>
      uv <- f r vis ;;
      if fst (fst uv) then Ok (true, snd (fst uv), snd uv)
      else rest <- any_refC f t (snd (fst uv)) ;; Ok (fst rest, (snd uv + snd rest)%nat)
  end.
(** parser.cpp:599-656; the number is that of the calls of isUsed, this one included. *)
Fixpoint isUsedC (s : tstate) (fuel : nat) (label : str) (depth : Z) (visited : list str) : outcome (bool * list str * nat) :=
  match fuel with
  | O => Diverges
  | S k =>
      let visited := if depth =? 0 then [] else visited in
      if mem_str label visited then Ok (false, visited, 1%nat)
      else
        let visited := label :: visited in
        if set_contains (t_usercode_labels s) label then Ok (true, visited, 1%nat)
        else
          r <- any_refC (fun ref vis =>
                 if is_nil (v_str ref) then Ok (true, vis, 0%nat) else isUsedC s k (v_str ref) (depth + 1) vis)
               (refs_of ord_refs (t_used_labels s) label) visited ;;
          if fst (fst r) then Ok (fst r, S (snd r))
          else
            r' <- (if 0 <? depth then
                    r' <- any_refC (fun ref vis => isUsedC s k (v_str ref) (depth - 1) vis)
                           (refs_of ord_refs (t_weakly_used_labels s) label) (snd (fst r)) ;;
                    if fst (fst r') then Ok r'
                    else r'' <- any_refC (fun ref vis => isUsedC s k (v_str ref) (depth - 1) vis)
                           (refs_of ord_refs (t_data_used_labels s) label) (snd (fst r')) ;;
                         Ok (fst r'', (snd r' + snd r'')%nat)
                  else Ok (fst r, 0%nat)) ;;
            if fst (fst r') then Ok (fst r', S (snd r + snd r'))
            else Ok (false, remove_str label (snd (fst r')), S (snd r + snd r'))
  end.
(** parser.cpp:588-597 *)
Definition aliasC (s : tstate) (fuel : nat) (label : str) (vis : list str) : outcome (bool * list str * nat) :=
  match map_find (t_aliased_labels s) label with
  | Some a => isUsedC s fuel (v_str a) 1 vis
  | None => Ok (false, vis, 0%nat)
  end.
(** parser.cpp:658-672 *)
Definition dataAliasC (s : tstate) (fuel : nat) (label : str) (vis : list str) : outcome (bool * list str * nat) :=
  any_refC (fun ref vis => aliasC s fuel (v_str ref) vis) (refs_of ord_refs (t_data_used_labels s) label) vis.
(** parser.cpp:693-705 *)
Definition mark_oneC (s : tstate) (fuel : nat) (idx : Z) (vis : list str) : outcome (tstate * list str * nat) :=
  if (idx <? 1) || (Z.of_nat (length (t_lines s)) <? idx) then UB IndexRange
  else
    let n := Z.to_nat (idx - 1) in
    match nth_error (t_lines s) n with
    | None => UB IndexRange
    | Some l =>
        let upd f := set_t_lines (update_nth n f (t_lines s)) s in
        r <- isUsedC s fuel (v_str (lv_label l)) 1 vis ;;
        if fst (fst r) then Ok (upd (set_lv_is_used true), snd (fst r), snd r)
        else
          r2 <- dataAliasC s fuel (v_str (lv_label l)) (snd (fst r)) ;;
          if fst (fst r2) then Ok (upd (set_lv_is_used_data_through_alias true), snd (fst r2), (snd r + snd r2)%nat)
          else
            r3 <- aliasC s fuel (v_str (lv_label l)) (snd (fst r2)) ;;
            if fst (fst r3) then Ok (upd (set_lv_is_used_through_alias true), snd (fst r3), (snd r + snd r2 + snd r3)%nat)
            else Ok (s, snd (fst r3), (snd r + snd r2 + snd r3)%nat)
    end.
(** parser.cpp:689-707 *)
Fixpoint mark_loopC (fuel : nat) (labels : list (view * Z)) (s : tstate) (vis : list str) : outcome (tstate * list str * nat) :=
  match labels with
  | [] => Ok (s, vis, 0%nat)
  | e :: t =>
      r <- mark_oneC s fuel (snd e) vis ;;
      r2 <- mark_loopC fuel t (fst (fst r)) (snd (fst r)) ;;
      Ok (fst r2, (snd r + snd r2)%nat)
  end.
(** parser.cpp:807-838, on a fresh parser *)
Definition runC (fuel : nat) (input : str) (vis : list str) : outcome (tstate * list str * nat) :=
  let s := filterNonLabels (read_lines mblen flt tstate0 input) in
  r <- mark_loopC fuel (ord_labels (t_labels_defined s)) s vis ;;
  Ok (removeUnused flt (fst (fst r)), snd (fst r), snd r).

(** *** Without the number it is the search *)
Lemma forget_bind {A B} (o : outcome (A * nat)) (o' : outcome A) (f : A * nat -> outcome (B * nat)) g :
  omap fst o = o' -> (forall a n, o = Ok (a, n) -> omap fst (f (a, n)) = g a) -> omap fst (obind o f) = obind o' g.
Proof. intros <- H. destruct o as [[a n]| | |]; [exact (H a n eq_refl)|reflexivity..]. Qed.
Lemma any_count f g refs : (forall r v, omap fst (f r v) = g r v) -> forall v, omap fst (any_refC f refs v) = any_ref g refs v.
Proof.
  intros H. induction refs as [|r t IH]; intros v; [reflexivity|]. cbn [any_refC any_ref]. apply forget_bind; [apply H|].
  intros [u w] n _. cbn [fst snd]. destruct u; [reflexivity|]. rewrite <- IH. destruct (any_refC f t w) as [[a m]| | |]; reflexivity.
Qed.
Lemma isUsed_count s fuel : forall label depth vis, omap fst (isUsedC s fuel label depth vis) = isUsed ord_refs s fuel label depth vis.
Proof.
  induction fuel as [|k IH]; intros label depth vis; [reflexivity|]. rewrite isUsed_step. cbn [isUsedC]. cbv zeta.
  set (v0 := if depth =? 0 then [] else vis). clearbody v0. destruct (mem_str label v0); [reflexivity|]. destruct (set_contains _ _); [reflexivity|].
  apply forget_bind. { apply any_count. intros r v. destruct (is_nil _); [reflexivity|apply IH]. }
  intros [u v] n _. cbn [fst snd]. destruct u; [reflexivity|]. apply forget_bind.
  - destruct (0 <? depth); [|reflexivity]. apply forget_bind; [apply any_count; intros; apply IH|].
    intros [u2 v2] n2 _. cbn [fst snd]. destruct u2; [reflexivity|].
    rewrite <- (any_count (fun ref vis => isUsedC s k (v_str ref) (depth - 1) vis)) by (intros; apply IH).
    destruct (any_refC _ _ v2) as [[a m]| | |]; reflexivity.
  - intros [u2 v2] n2 _. cbn [fst snd]. destruct u2; reflexivity.
Qed.
Lemma alias_count s fuel label vis : omap fst (aliasC s fuel label vis) = isUsedThroughAlias ord_refs s fuel label vis.
Proof. unfold aliasC, isUsedThroughAlias. destruct (map_find _ _); [apply isUsed_count|reflexivity]. Qed.
Lemma data_alias_count s fuel label vis : omap fst (dataAliasC s fuel label vis) = isDataUsedThroughAlias ord_refs s fuel label vis.
Proof. unfold dataAliasC, isDataUsedThroughAlias. apply any_count. intros. apply alias_count. Qed.
Lemma mark_one_count s fuel idx vis : omap fst (mark_oneC s fuel idx vis) = mark_one ord_refs s fuel idx vis.
Proof.
  unfold mark_oneC, mark_one. destruct (_ || _); [reflexivity|]. cbv zeta. destruct (nth_error _ _) as [l|]; [|reflexivity].
  apply forget_bind; [apply isUsed_count|]. intros [u v] n _. cbn [fst snd]. destruct u; [reflexivity|].
  apply forget_bind; [apply data_alias_count|]. intros [u2 v2] n2 _. cbn [fst snd]. destruct u2; [reflexivity|].
  apply forget_bind; [apply alias_count|]. intros [u3 v3] n3 _. cbn [fst snd]. destruct u3; reflexivity.
Qed.
Lemma mark_loop_count fuel labels : forall s vis, omap fst (mark_loopC fuel labels s vis) = mark_loop ord_refs fuel labels s vis.
Proof.
  induction labels as [|e t IH]; intros s vis; [reflexivity|]. cbn [mark_loopC mark_loop]. apply forget_bind; [apply mark_one_count|].
  intros [s1 v1] n _. cbn [fst snd]. rewrite <- IH. destruct (mark_loopC _ _ _ _) as [[a m]| | |]; reflexivity.
Qed.
Lemma run_count fuel input vis : omap fst (runC fuel input vis) = AsmText.run mblen flt ord_refs ord_labels fuel input vis.
Proof.
  unfold runC, AsmText.run, fromStream, markLabelUsage. cbv zeta. apply forget_bind; [apply mark_loop_count|]. intros [s v] n _. reflexivity.
Qed.
Lemma count_out {A} (o : outcome (A * nat)) o' a n : omap fst o = o' -> o = Ok (a, n) -> o' = Ok a.
Proof. now intros <- ->. Qed.
Lemma count_in {A} (o : outcome (A * nat)) a : omap fst o = Ok a -> exists n, o = Ok (a, n).
Proof. destruct o as [[x n]| | |]; cbn; try discriminate. intros [= <-]. eauto. Qed.
End Count.

(** *** Chains without repetition *)
(** A chain of uses from [k], no name twice and none in [vis]. *)
Section Walk.
Variable used : str -> str -> Prop.
Inductive walk : list str -> str -> list str -> Prop :=
| WK_one vis k : ~ In k vis -> walk vis k [k]
| WK_step vis k r p : ~ In k vis -> used k r -> r <> [] -> walk (k :: vis) r p -> walk vis k (k :: p).
Lemma walk_less a b k p : incl a b -> walk b k p -> walk a k p.
Proof.
  intros H W. revert a H. induction W as [vis k Hk|vis k r p Hk Hu Hr _ IH]; intros a H; [apply WK_one; auto|].
  eapply WK_step; eauto. apply IH. intros x [<-|Hx]; [now left|right; auto].
Qed.
Lemma walk_out vis k p : walk vis k p -> ~ In k vis.
Proof. now destruct 1. Qed.
Lemma walk_head vis k p : walk vis k p -> exists q, p = k :: q.
Proof. destruct 1; eauto. Qed.
End Walk.
Lemma walk_same (u u' : str -> str -> Prop) vis k p : (forall a b, u a b -> u' a b) -> walk u vis k p -> walk u' vis k p.
Proof. intros H. induction 1; [now apply WK_one|eapply WK_step; eauto]. Qed.

Lemma filter_split {A} (f : A -> bool) l : length l = (length (filter f l) + length (filter (fun x => negb (f x)) l))%nat.
Proof. induction l as [|x t IH]; [reflexivity|]. cbn [filter]. destruct (f x); cbn [negb length]; lia. Qed.

(** *** A search without success follows every such chain *)
Section Search.
Variables (ord : list view -> list view) (s : tstate).
Variable dom : str -> Prop.
Hypothesis dom_used : forall k r, dom k -> tab_used ord s k r -> r <> [] -> dom r.
Hypothesis dom_data : forall k, dom k -> refs_of ord (t_data_used_labels s) k = [].
Hypothesis dom_weak : forall k, dom k -> refs_of ord (t_weakly_used_labels s) k = [].
Lemma isUsed_walks : forall fuel k depth vis v c, dom k -> 1 <= depth -> isUsedC ord s fuel k depth vis = Ok (false, v, c) ->
  forall ps, NoDup ps -> (forall p, In p ps -> walk (tab_used ord s) vis k p) -> (length ps <= c)%nat.
Proof.
  induction fuel as [|n IH]; intros k depth vis v c Hk Hd; [discriminate|]. cbn [isUsedC]. cbv zeta.
  replace (depth =? 0) with false by (symmetry; apply Z.eqb_neq; lia).
  destruct (mem_str k vis) eqn:Em.
  { intros [= <- <-] ps _ Hp. destruct ps as [|p t]; [cbn; lia|]. exfalso. apply (walk_out _ _ _ _ (Hp p (or_introl eq_refl))). now apply mem_str_in. }
  destruct (set_contains _ _); [discriminate|].
  set (f := fun ref vis => if is_nil (v_str ref) then Ok (true, vis, 0%nat) else isUsedC ord s n (v_str ref) (depth + 1) vis).
  assert (Hany : forall refs, (forall r, In r refs -> tab_used ord s k (v_str r)) -> forall v1 c1, any_refC f refs (k :: vis) = Ok (false, v1, c1) ->
    forall qs, NoDup qs -> (forall q, In q qs -> exists r, In r refs /\ walk (tab_used ord s) (k :: vis) (v_str r) q) -> (length qs <= c1)%nat).
  { induction refs as [|r t IHr]; intros Hr v1 c1; cbn [any_refC].
    - intros [= <- <-] qs _ Hq. destruct qs as [|q qt]; [cbn; lia|]. destruct (Hq q (or_introl eq_refl)) as (r & [] & _).
    - unfold f at 1. destruct (is_nil (v_str r)) eqn:En; cbn [obind fst snd]; [discriminate|].
      assert (Hne : v_str r <> []) by (intros X; rewrite X in En; discriminate).
      assert (Hdr : dom (v_str r)) by (eapply dom_used; [exact Hk|apply Hr; now left|exact Hne]).
      destruct (isUsedC ord s n (v_str r) (depth + 1) (k :: vis)) as [[[u w] c2]| | |] eqn:E; cbn [obind fst snd]; try discriminate. destruct u; [discriminate|].
      pose proof (count_out _ _ _ _ (isUsed_count ord s n (v_str r) (depth + 1) (k :: vis)) E) as E'.
      destruct (isUsed_exact ord s dom dom_used dom_data dom_weak n (v_str r) (depth + 1) (k :: vis) Hdr ltac:(lia) _ _ E') as [_ B].
      destruct (B eq_refl) as [-> _]. clear B E'.
      destruct (any_refC f t (k :: vis)) as [[[u3 w3] c3]| | |] eqn:E3; cbn [obind fst snd]; try discriminate. intros [= -> -> <-] qs Hn Hq.
      set (h := fun q : list str => match q with x :: _ => str_eqb x (v_str r) | [] => false end).
      rewrite (filter_split h qs).
      assert (L1 : (length (filter h qs) <= c2)%nat).
      { eapply (IH (v_str r) (depth + 1) (k :: vis) _ _ Hdr ltac:(lia) E); [now apply NoDup_filter|]. intros q Hq'. apply filter_In in Hq' as [Q1 Q2].
        destruct (Hq q Q1) as (r' & _ & W). destruct (walk_head _ _ _ _ W) as (q' & ->). cbn [h] in Q2. apply str_eqb_eq in Q2. now rewrite <- Q2. }
      assert (L2 : (length (filter (fun q => negb (h q)) qs) <= c3)%nat).
      { eapply IHr; [intros r' Hr'; apply Hr; now right|reflexivity|now apply NoDup_filter|]. intros q Hq'. apply filter_In in Hq' as [Q1 Q2].
        destruct (Hq q Q1) as (r' & [->|R] & W); [|eauto]. destruct (walk_head _ _ _ _ W) as (q' & ->). cbn [h] in Q2. rewrite str_eqb_refl in Q2. discriminate Q2. }
      lia. }
  specialize (Hany (refs_of ord (t_used_labels s) k) (fun r Hr => ex_intro _ r (conj Hr eq_refl))).
  destruct (any_refC f (refs_of ord (t_used_labels s) k) (k :: vis)) as [[[u w] c1]| | |]; cbn [obind fst snd]; try discriminate.
  destruct u; [discriminate|]. specialize (Hany w c1 eq_refl).
  rewrite (dom_weak _ Hk), (dom_data _ Hk). cbn [any_refC obind fst snd].
  intros H ps Hn Hp.
  assert (c = S (c1 + 0)) as -> by (destruct (0 <? depth); cbn [obind fst snd] in H; injection H; intros; subst; reflexivity). clear H.
  set (h := fun p : list str => match p with [_] => true | _ => false end). rewrite (filter_split h ps).
  assert (L1 : (length (filter h ps) <= 1)%nat).
  { assert (Hone : forall p, In p (filter h ps) -> p = [k]).
    { intros p Hp'. apply filter_In in Hp' as [Q1 Q2]. destruct (walk_head _ _ _ _ (Hp p Q1)) as (q & ->). destruct q; [reflexivity|discriminate Q2]. }
    pose proof (NoDup_filter h Hn) as Hn'. destruct (filter h ps) as [|p [|p' t]]; cbn [length]; [lia..|]. exfalso. inversion Hn' as [|x y N _]; subst. apply N.
    rewrite (Hone p (or_introl eq_refl)), (Hone p' (or_intror (or_introl eq_refl))). now left. }
  assert (L2 : (length (filter (fun p => negb (h p)) ps) <= c1)%nat).
  { rewrite <- (map_length (@tl str)). apply Hany.
    - pose proof (NoDup_filter (fun p => negb (h p)) Hn) as Hn'.
      assert (Hh : forall p, In p (filter (fun p => negb (h p)) ps) -> exists q, p = k :: q) by (intros p Hp'; apply filter_In in Hp' as [Q1 _]; eapply walk_head, Hp, Q1).
      clear -Hn' Hh. induction (filter (fun p => negb (h p)) ps) as [|p t IHt]; [constructor|]. inversion Hn' as [|x y N1 N2]; subst. cbn [map]. constructor; [|apply IHt; [exact N2|intros; apply Hh; now right]].
      intros X. apply in_map_iff in X as (p' & X1 & X2). apply N1. destruct (Hh p (or_introl eq_refl)) as (q & ->), (Hh p' (or_intror X2)) as (q' & E'). subst p'. cbn [tl] in X1. now subst q'.
    - intros q Hq. apply in_map_iff in Hq as (p & <- & Q). apply filter_In in Q as [Q1 Q2]. destruct (Hp p Q1) as [vis k Hout|vis k r p Hout (v0 & V1 & V2) Hr W]; [discriminate Q2|].
      cbn [tl]. exists v0. split; [exact V1|now rewrite V2]. }
  lia.
Qed.
End Search.

(** *** A whole parse *)
Section Parse.
Variables (mblen : str -> Z) (flt : Filter)
          (ord_refs : list view -> list view) (ord_labels : list (view * Z) -> list (view * Z)).
Hypothesis Hrefs : shuffles ord_refs.
Hypothesis Hlabels : forall m, Permutation (ord_labels m) m.
Variable input : str.
Let st := read_lines mblen flt tstate0 input.
Hypothesis Hlen : Z.of_nat (length input) < two31.
Hypothesis no_data_refs : forall d k, In d (lines_read mblen flt input) -> lv_is_data d = true -> mentions d k -> ~ is_label_name mblen flt input k.
Notation tab := (read mblen flt input).
Notation walks := (walk (looked (t_used_labels tab))).

Lemma isUsedC_lines L fuel : forall label depth vis, isUsedC ord_refs (set_t_lines L tab) fuel label depth vis = isUsedC ord_refs tab fuel label depth vis.
Proof.
  assert (X : forall f g refs, (forall r v, f r v = g r v) -> forall v, any_refC f refs v = any_refC g refs v).
  { intros f g refs H. induction refs as [|r t IH]; intros v; [reflexivity|]. cbn [any_refC]. rewrite H. destruct (g r v) as [[[u w] n]| | |]; cbn [obind fst snd]; [|reflexivity..].
    destruct u; [reflexivity|]. now rewrite IH. }
  induction fuel as [|k IH]; intros label depth vis; [reflexivity|]. cbn [isUsedC]. tsimp. cbv zeta. destruct (mem_str _ _); [reflexivity|]. destruct (set_contains _ _); [reflexivity|].
  rewrite (X _ (fun ref v => if is_nil (v_str ref) then Ok (true, v, 0%nat) else isUsedC ord_refs tab k (v_str ref) (depth + 1) v))
    by (intros r v; destruct (is_nil (v_str r)); [reflexivity|apply IH]).
  destruct (any_refC _ _ _) as [[[u w] n]| | |]; cbn [obind fst snd]; [|reflexivity..]. destruct u; [reflexivity|]. destruct (0 <? depth); [|reflexivity].
  rewrite (X _ (fun ref v => isUsedC ord_refs tab k (v_str ref) (depth - 1) v)) by (intros r v; apply IH).
  destruct (any_refC _ _ w) as [[[u2 w2] n2]| | |]; cbn [obind fst snd]; [|reflexivity..]. destruct u2; [reflexivity|].
  rewrite (X _ (fun ref v => isUsedC ord_refs tab k (v_str ref) (depth - 1) v)) by (intros r v; apply IH). reflexivity.
Qed.
Lemma search_walks fuel k vis v c : is_label_name mblen flt input k -> isUsedC ord_refs tab fuel k 1 vis = Ok (false, v, c) ->
  forall ps, NoDup ps -> (forall p, In p ps -> walks vis k p) -> (length ps <= c)%nat.
Proof.
  intros Hk H ps Hn Hp. eapply isUsed_walks with (dom := is_label_name mblen flt input); try exact H; auto; [| | |lia|].
  - intros a r _ Ha Hr. eapply user_named; [|exact Hr]. eapply tab_used_read, Ha. exact Hrefs.
  - intros a Ha. eapply name_no_data; eauto.
  - intros. now apply weak_none.
  - intros p P. eapply walk_same; [|exact (Hp p P)]. intros a b. apply tab_looked. exact Hrefs.
Qed.
Lemma mark_oneC_walks fuel idx l vis s' vis' c L :
  nth_error L (Z.to_nat (idx - 1)) = Some l -> is_label_name mblen flt input (v_str (lv_label l)) ->
  mark_oneC ord_refs (set_t_lines L tab) fuel idx vis = Ok (s', vis', c) ->
  incl vis vis' /\ (forall ps, NoDup ps -> (forall p, In p ps -> walks vis' (v_str (lv_label l)) p) -> (length ps <= c)%nat).
Proof.
  intros E Hname H. pose proof (count_out _ _ _ _ (mark_one_count _ _ _ _ _) H) as H1.
  destruct (mark_one_roots mblen flt ord_refs Hrefs input no_data_refs _ fuel idx l vis s' vis' L eq_refl E Hname H1) as (n & [(q & ->) _] & _).
  assert (Hi : incl vis (q ++ vis)) by (intros x Hx; apply in_app_iff; now right). split; [exact Hi|]. intros ps Hn Hp. clear H1.
  revert H. unfold mark_oneC. tsimp. destruct (_ || _); [discriminate|]. cbv zeta. rewrite E, isUsedC_lines.
  destruct (isUsedC ord_refs tab fuel (v_str (lv_label l)) 1 vis) as [[[u v] c1]| | |] eqn:E1; cbn [obind fst snd]; try discriminate.
  destruct u.
  - intros [= _ Hv <-]. destruct ps as [|p t]; [cbn; lia|]. exfalso. apply (walk_out _ _ _ _ (Hp p (or_introl eq_refl))). rewrite <- Hv.
    apply (count_out _ _ _ _ (isUsed_count _ _ _ _ _ _)) in E1. apply search_both with (flt := flt) in E1; auto. destruct E1 as (tr & Htr & ->).
    destruct (trail_start _ _ _ _ _ Htr) as (q' & ->). rewrite !in_app_iff. left. right. now left.
  - assert (L1 : (length ps <= c1)%nat) by (eapply search_walks; [exact Hname|exact E1|exact Hn|intros p P; eapply walk_less; [exact Hi|exact (Hp p P)]]).
    destruct (dataAliasC _ _ _ _ _) as [[[u2 v2] c2]| | |]; cbn [obind fst snd]; try discriminate. destruct u2; [intros [= _ _ <-]; lia|].
    destruct (aliasC _ _ _ _ _) as [[[u3 v3] c3]| | |]; cbn [obind fst snd]; try discriminate. destruct u3; intros [= _ _ <-]; lia.
Qed.
Lemma mark_loopC_walks fuel labels : forall L vis s' vis' c,
  (forall e, In e labels -> exists l, nth_error L (Z.to_nat (snd e - 1)) = Some l /\ is_label_name mblen flt input (v_str (lv_label l))) ->
  mark_loopC ord_refs fuel labels (set_t_lines L tab) vis = Ok (s', vis', c) ->
  incl vis vis' /\ forall e l, In e labels -> nth_error L (Z.to_nat (snd e - 1)) = Some l ->
    forall ps, NoDup ps -> (forall p, In p ps -> walks vis' (v_str (lv_label l)) p) -> (length ps <= c)%nat.
Proof.
  induction labels as [|e t IH]; intros L vis s' vis' c HL; cbn [mark_loopC]; [intros [= _ <- _]; split; [apply incl_refl|intros e l []]|].
  destruct (mark_oneC _ _ _ _ _) as [[[s1 v1] c1]| | |] eqn:E; cbn [obind fst snd]; try discriminate.
  pose proof (count_out _ _ _ _ (mark_one_count _ _ _ _ _) E) as E1.
  destruct (mark_one_ok _ _ _ _ _ _ _ _ (ex_intro _ L eq_refl) E1) as (L' & -> & M). tsimp.
  destruct (mark_loopC _ _ _ _ _) as [[[s2 v2] c2]| | |] eqn:E2; cbn [obind fst snd]; try discriminate. intros [= <- <- <-].
  assert (N : forall n, match nth_error L n, nth_error L' n with Some a, Some b => lv_label b = lv_label a | None, None => True | _, _ => False end).
  { clear -M. induction M as [|a b la lb [Hab _ _ _] _ IHm]; intros [|n]; cbn; auto; [rewrite Hab; reflexivity|apply IHm]. }
  destruct (HL e (or_introl eq_refl)) as (l & El & Hname).
  destruct (mark_oneC_walks _ _ _ _ _ _ _ _ El Hname E) as [I1 W1].
  destruct (IH L' v1 s2 v2 c2) as [I2 W2]; [|exact E2|].
  - intros e' He'. destruct (HL e' (or_intror He')) as (l' & El' & Hn'). specialize (N (Z.to_nat (snd e' - 1))). rewrite El' in N.
    destruct (nth_error L' (Z.to_nat (snd e' - 1))) as [l2|]; [|contradiction N]. exists l2. split; [reflexivity|now rewrite N].
  - split; [eapply incl_tran; eassumption|]. intros e' l' [<-|He'] Hl' ps Hn Hp.
    + rewrite El in Hl'. injection Hl' as <-. enough (length ps <= c1)%nat by lia. apply W1; [exact Hn|]. intros p P. eapply walk_less; [exact I2|exact (Hp p P)].
    + enough (length ps <= c2)%nat by lia. specialize (N (Z.to_nat (snd e' - 1))). rewrite Hl' in N.
      destruct (nth_error L' (Z.to_nat (snd e' - 1))) as [l2|] eqn:El2; [|contradiction N]. eapply W2; [exact He'|exact El2|exact Hn|]. intros p P. rewrite N. exact (Hp p P).
Qed.
Lemma run_walks fuel vis s' vis' c : runC mblen flt ord_refs ord_labels fuel input vis = Ok (s', vis', c) ->
  t_used_labels s' = t_used_labels tab /\
  forall k, is_label_name mblen flt input k -> forall ps, NoDup ps -> (forall p, In p ps -> walks vis' k p) -> (length ps <= c)%nat.
Proof.
  unfold runC. cbv zeta. fold (read mblen flt input). destruct (mark_loopC _ _ _ _ _) as [[[s1 v1] c1]| | |] eqn:E; cbn [obind fst snd]; try discriminate.
  intros [= <- <- <-].
  assert (Hm : exists L, s1 = set_t_lines L tab).
  { pose proof (count_out _ _ _ _ (mark_loop_count _ _ _ _ _) E) as X. destruct (mark_loop_ok ord_refs tab fuel _ _ _ _ _ (ex_intro _ (t_lines tab) (eq_sym (set_lines_id tab))) X) as (L & -> & _). eauto. }
  split.
  { destruct Hm as (L & ->). unfold removeUnused. destruct (remove_loop _ _ _ _). now tsimp_goal. }
  rewrite <- (set_lines_id tab) in E.
  destruct (count_read mblen flt input) as [_ Hci]. destruct Hci as [Hsd Hc Hnd]; [pose proof (read_total mblen flt input); lia|].
  destruct (mark_loopC_walks fuel (ord_labels (t_labels_defined tab)) (t_lines tab) vis s1 v1 c1) as [_ W]; [|exact E|].
  - intros [k i] Hin. eapply Permutation_in in Hin; [|apply Hlabels]. destruct (Hsd k i Hin) as [(l & A & B & C & D) _]. exists l. split; [exact A|].
    exists (erase l). split; [apply in_map; eapply nth_error_In, A|]. split; [exact C|reflexivity].
  - intros k (l & Hl & Hlab & Hk) ps Hn Hp. unfold lines_read in Hl. apply in_map_iff in Hl as (l0 & <- & Hl).
    destruct (Hc l0 Hl Hlab) as (kv & i & X1 & X2). destruct (Hsd kv i X1) as [(l' & Y1 & _ & _ & Y2) _].
    eapply (W (kv, i) l'); [|exact Y1|exact Hn|].
    + eapply Permutation_in; [apply Permutation_sym, Hlabels|exact X1].
    + intros p P. rewrite Y2, X2. change (v_str (lv_label l0)) with (v_str (lv_label (erase l0))). rewrite Hk. exact (Hp p P).
Qed.
End Parse.
