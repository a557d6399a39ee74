(** The text parser: the set [visited] of isUsed as a set of views, across parser
    objects of one thread. *)
From Coq Require Import Permutation.
From Verif Require Import AsmLemmas AsmRead AsmMark AsmTrace AsmThms AsmUse AsmSearch AsmComplete AsmDet AsmViews AsmRemove AsmRoots.

(** An element of the set (parser.cpp:601: unordered_set<string_view>): the number
    of the parser object during whose parse it was inserted, and the view. *)
Notation seen := (nat * view)%type.
Definition names (vis : list seen) : list str := map (fun e => v_str (snd e)) vis.

Section Visited.
Variables (mblen : str -> Z) (flt : Filter)
          (ord_refs : list view -> list view) (ord_labels : list (view * Z) -> list (view * Z)).
(** [me]: the parser that runs; [dead]: which parsers have been destroyed. *)
Variables (me : nat) (dead : nat -> bool).

(** visited.count(label), parser.cpp:607.  An element of the same value lies in
    the same bucket and is compared character by character; if its characters
    are gone that is undefined.  (An implementation may compare further elements:
    libstdc++ compares with all of them while they are few.) *)
Definition look (k : str) (vis : list seen) : option seen := find (fun e => str_eqb k (v_str (snd e))) vis.
Definition drop (k : str) (vis : list seen) : list seen := filter (fun e => negb (str_eqb (v_str (snd e)) k)) vis.
Fixpoint any_seen (f : view -> list seen -> outcome (bool * list seen)) (refs : list view) (vis : list seen)
  : outcome (bool * list seen) :=
  match refs with
  | [] => Ok (false, vis)
  | r :: t =>
      uv <- f r vis ;;
      if fst uv then Ok (true, snd uv) else any_seen f t (snd uv)
  end.

(** parser.cpp:599-656 *)
Fixpoint isUsedV (s : tstate) (fuel : nat) (label : view) (depth : Z) (visited : list seen) : outcome (bool * list seen) :=
  match fuel with
  | O => Diverges
  | S n =>
      let visited := if depth =? 0 then [] else visited in
      match look (v_str label) visited with
      | Some e => if dead (fst e) then UB DanglingRead else Ok (false, visited)
      | None =>
          let visited := (me, label) :: visited in
          if set_contains (t_usercode_labels s) (v_str label) then Ok (true, visited)
          else
            r <- any_seen (fun ref vis =>
                   if is_nil (v_str ref) then Ok (true, vis) else isUsedV s n ref (depth + 1) vis)
                 (refs_of ord_refs (t_used_labels s) (v_str label)) visited ;;
            if fst r then Ok r
            else
              r <- (if 0 <? depth then
                      r <- any_seen (fun ref vis => isUsedV s n ref (depth - 1) vis)
                             (refs_of ord_refs (t_weakly_used_labels s) (v_str label)) (snd r) ;;
                      if fst r then Ok r
                      else any_seen (fun ref vis => isUsedV s n ref (depth - 1) vis)
                             (refs_of ord_refs (t_data_used_labels s) (v_str label)) (snd r)
                    else Ok r) ;;
              if fst r then Ok r else Ok (false, drop (v_str label) (snd r))
      end
  end.
(** parser.cpp:588-597 *)
Definition aliasV (s : tstate) (fuel : nat) (label : view) (vis : list seen) : outcome (bool * list seen) :=
  match map_find (t_aliased_labels s) (v_str label) with
  | Some a => isUsedV s fuel a 1 vis
  | None => Ok (false, vis)
  end.
(** parser.cpp:658-672 *)
Definition dataAliasV (s : tstate) (fuel : nat) (label : view) (vis : list seen) : outcome (bool * list seen) :=
  any_seen (fun ref vis => aliasV s fuel ref vis) (refs_of ord_refs (t_data_used_labels s) (v_str label)) vis.
(** parser.cpp:693-705 *)
Definition mark_oneV (s : tstate) (fuel : nat) (idx : Z) (vis : list seen) : outcome (tstate * list seen) :=
  if (idx <? 1) || (Z.of_nat (length (t_lines s)) <? idx) then UB IndexRange
  else
    let n := Z.to_nat (idx - 1) in
    match nth_error (t_lines s) n with
    | None => UB IndexRange
    | Some l =>
        let upd f := set_t_lines (update_nth n f (t_lines s)) s in
        r <- isUsedV s fuel (lv_label l) 1 vis ;;
        if fst r then Ok (upd (set_lv_is_used true), snd r)
        else
          r <- dataAliasV s fuel (lv_label l) (snd r) ;;
          if fst r then Ok (upd (set_lv_is_used_data_through_alias true), snd r)
          else
            r <- aliasV s fuel (lv_label l) (snd r) ;;
            if fst r then Ok (upd (set_lv_is_used_through_alias true), snd r)
            else Ok (s, snd r)
    end.
(** parser.cpp:689-707 *)
Fixpoint mark_loopV (fuel : nat) (labels : list (view * Z)) (s : tstate) (vis : list seen) : outcome (tstate * list seen) :=
  match labels with
  | [] => Ok (s, vis)
  | e :: t => r <- mark_oneV s fuel (snd e) vis ;; mark_loopV fuel t (fst r) (snd r)
  end.
(** parser.cpp:807-838, on a fresh parser *)
Definition runV (fuel : nat) (input : str) (vis : list seen) : outcome (tstate * list seen) :=
  let s := filterNonLabels (read_lines mblen flt tstate0 input) in
  r <- mark_loopV fuel (ord_labels (t_labels_defined s)) s vis ;;
  Ok (removeUnused flt (fst r), snd r).

(** *** The same as the search over names, unless a dead view is met *)
Definition sim {A} (o : outcome (A * list seen)) (o' : outcome (A * list str)) : Prop :=
  o = UB DanglingRead /\ (exists e, dead e = true) \/ omap (fun r => (fst r, names (snd r))) o = o'.
Lemma sim_ok {A} (a : A) v : sim (Ok (a, v)) (Ok (a, names v)).
Proof. now right. Qed.
Lemma sim_bind {A B} (o : outcome (A * list seen)) o' (f : A * list seen -> outcome (B * list seen)) f' :
  sim o o' -> (forall a v, o = Ok (a, v) -> sim (f (a, v)) (f' (a, names v))) -> sim (obind o f) (obind o' f').
Proof.
  intros [[-> X]| <-] H; [left; split; [reflexivity|exact X]|]. destruct o as [[a v]| | |]; cbn [omap obind fst snd]; [now apply H|right; reflexivity..].
Qed.
Lemma look_mem k vis : match look k vis with Some e => In e vis /\ v_str (snd e) = k /\ mem_str k (names vis) = true | None => mem_str k (names vis) = false end.
Proof.
  unfold look, mem_str, names. induction vis as [|e t IH]; cbn [find map existsb]; [reflexivity|].
  destruct (str_eqb k (v_str (snd e))) eqn:E; cbn [orb].
  - apply str_eqb_eq in E. split; [now left|]. split; [now symmetry|reflexivity].
  - destruct (find _ t); [|exact IH]. split; [right|]; apply IH.
Qed.
Lemma look_some k vis e : In e vis -> v_str (snd e) = k -> exists e', look k vis = Some e'.
Proof.
  intros H E. unfold look. destruct (find _ vis) eqn:F; [eauto|]. apply find_none with (x := e) in F; [|exact H]. rewrite E, str_eqb_refl in F. discriminate F.
Qed.
Lemma drop_names k vis : names (drop k vis) = remove_str k (names vis).
Proof. unfold names, drop, remove_str. induction vis as [|e t IH]; cbn [filter map]; [reflexivity|]. destruct (str_eqb (v_str (snd e)) k); cbn [negb map]; now rewrite IH. Qed.
Lemma any_sim f g refs : (forall r v, In r refs -> sim (f r v) (g r (names v))) -> forall v, sim (any_seen f refs v) (any_ref g refs (names v)).
Proof.
  induction refs as [|r t IH]; intros H v; cbn [any_seen any_ref]; [apply sim_ok|]. apply sim_bind; [apply H; now left|].
  intros [|] v' _; cbn [fst snd]; [apply sim_ok|]. apply IH. intros. apply H. now right.
Qed.
Lemma isUsed_sim s fuel : forall label depth vis, sim (isUsedV s fuel label depth vis) (isUsed ord_refs s fuel (v_str label) depth (names vis)).
Proof.
  induction fuel as [|n IH]; intros label depth vis; [now right|]. rewrite isUsed_step. cbn [isUsedV]. cbv zeta.
  replace (if depth =? 0 then [] else names vis) with (names (if depth =? 0 then [] else vis)) by now destruct (depth =? 0).
  set (v0 := if depth =? 0 then [] else vis). clearbody v0. pose proof (look_mem (v_str label) v0) as L.
  destruct (look (v_str label) v0) as [e|].
  - destruct L as (_ & _ & ->). destruct (dead (fst e)) eqn:Ed; [left; split; [reflexivity|eauto]|apply sim_ok].
  - rewrite L. change (v_str label :: names v0) with (names ((me, label) :: v0)). destruct (set_contains _ _); [apply sim_ok|].
    apply sim_bind. { apply any_sim. intros r v _. destruct (is_nil _); [apply sim_ok|apply IH]. }
    intros [|] v _; cbn [fst snd]; [apply sim_ok|]. apply sim_bind.
    + destruct (0 <? depth); [|apply sim_ok]. apply sim_bind; [apply any_sim; intros; apply IH|].
      intros [|] v' _; cbn [fst snd]; [apply sim_ok|]. apply any_sim. intros; apply IH.
    + intros [|] v' _; cbn [fst snd]; [apply sim_ok|]. rewrite <- drop_names. apply sim_ok.
Qed.
Lemma alias_sim s fuel label vis : sim (aliasV s fuel label vis) (isUsedThroughAlias ord_refs s fuel (v_str label) (names vis)).
Proof. unfold aliasV, isUsedThroughAlias. destruct (map_find _ _); [apply isUsed_sim|apply sim_ok]. Qed.
Lemma mark_one_sim s fuel idx vis : sim (mark_oneV s fuel idx vis) (mark_one ord_refs s fuel idx (names vis)).
Proof.
  unfold mark_oneV, mark_one. destruct (_ || _); [now right|]. cbv zeta. destruct (nth_error _ _) as [l|]; [|now right].
  apply sim_bind; [apply isUsed_sim|]. intros [|] v _; cbn [fst snd]; [apply sim_ok|].
  apply sim_bind. { unfold dataAliasV, isDataUsedThroughAlias. apply any_sim. intros. apply alias_sim. }
  intros [|] v2 _; cbn [fst snd]; [apply sim_ok|]. apply sim_bind; [apply alias_sim|]. intros [|] v3 _; cbn [fst snd]; apply sim_ok.
Qed.
Lemma mark_loop_sim fuel labels : forall s vis, sim (mark_loopV fuel labels s vis) (mark_loop ord_refs fuel labels s (names vis)).
Proof.
  induction labels as [|e t IH]; intros s vis; cbn [mark_loopV mark_loop]; [apply sim_ok|]. apply sim_bind; [apply mark_one_sim|]. intros s' v _. apply IH.
Qed.
Lemma run_sim fuel input vis : sim (runV fuel input vis) (AsmText.run mblen flt ord_refs ord_labels fuel input (names vis)).
Proof.
  unfold runV, AsmText.run, fromStream, markLabelUsage. cbv zeta. apply sim_bind; [apply mark_loop_sim|]. intros s v _. apply sim_ok.
Qed.

(** *** What is inserted *)
Section Inserted.
Variables (s0 : tstate) (P : view -> Prop).
Definition ref_of (m : list (view * list view)) (k r : view) : Prop := In r (refs_of ord_refs m (v_str k)).
Hypothesis P_used : forall k r, P k -> ref_of (t_used_labels s0) k r -> v_str r <> [] -> P r.
Hypothesis P_weak : forall k r, P k -> ref_of (t_weakly_used_labels s0) k r -> P r.
Hypothesis P_data : forall k r, P k -> ref_of (t_data_used_labels s0) k r -> P r.
Hypothesis P_alias : forall k a, P k -> map_find (t_aliased_labels s0) (v_str k) = Some a -> P a.
Definition put (vis vis' : list seen) : Prop := forall e, In e vis' -> In e vis \/ fst e = me /\ P (snd e).
Lemma put_refl v : put v v. Proof. intros e H. now left. Qed.
Lemma put_trans a b c : put a b -> put b c -> put a c.
Proof. intros H1 H2 e H. apply H2 in H as [H|H]; auto. Qed.
Lemma any_put f refs : (forall r v b v', In r refs -> f r v = Ok (b, v') -> put v v') -> forall v b v', any_seen f refs v = Ok (b, v') -> put v v'.
Proof.
  induction refs as [|r t IH]; intros H v b v'; cbn [any_seen]; [intros [= _ <-]; apply put_refl|].
  destruct (f r v) as [[u w]| | |] eqn:E; cbn [obind fst snd]; try discriminate. apply H in E; [|now left]. destruct u; [now intros [= _ <-]|].
  intros X. eapply put_trans; [exact E|]. eapply IH; [|exact X]. intros. eapply H; [right|]; eassumption.
Qed.
Lemma isUsed_put L fuel : forall label depth vis b vis', P label -> isUsedV (set_t_lines L s0) fuel label depth vis = Ok (b, vis') -> put vis vis'.
Proof.
  induction fuel as [|n IH]; intros label depth vis b vis' HP; [discriminate|]. cbn [isUsedV]. cbv zeta. tsimp.
  assert (H0 : put vis (if depth =? 0 then [] else vis)) by (destruct (depth =? 0); [intros e []|apply put_refl]).
  set (v0 := if depth =? 0 then [] else vis) in *. clearbody v0.
  destruct (look _ v0) as [e|]; [destruct (dead (fst e)); [discriminate|now intros [= _ <-]]|].
  assert (H1 : put vis ((me, label) :: v0)) by (intros e [<-|H]; [right; auto|auto]).
  destruct (set_contains _ _); [now intros [= _ <-]|].
  destruct (any_seen _ _ _) as [[u v]| | |] eqn:E; cbn [obind fst snd]; try discriminate.
  apply any_put in E.
  2: { intros r w b1 w' Hr. destruct (is_nil (v_str r)) eqn:En; [intros [= _ <-]; apply put_refl|]. apply IH. eapply P_used; [exact HP|exact Hr|]. intros X. now rewrite X in En. }
  assert (H2 : put vis v) by (eapply put_trans; eassumption). destruct u; [now intros [= _ <-]|].
  assert (HD : forall w x, put vis w -> Ok (b, vis') = Ok x -> (x = (true, w) \/ x = (false, drop (v_str label) w)) -> put vis vis').
  { intros w x Hw [= <-] [[= -> ->]|[= -> ->]]; [exact Hw|]. intros e He. apply filter_In in He as [He _]. now apply Hw. }
  destruct (0 <? depth); cbn [obind fst snd]; [|intros X; eapply HD; [exact H2|symmetry; exact X|auto]].
  destruct (any_seen _ (refs_of ord_refs (t_weakly_used_labels s0) _) v) as [[u2 v2]| | |] eqn:E2; cbn [obind fst snd]; try discriminate.
  apply any_put in E2; [|intros r w b1 w' Hr; apply IH; eapply P_weak; eassumption].
  assert (H3 : put vis v2) by (eapply put_trans; eassumption). destruct u2; cbn [obind fst snd]; [now intros [= _ <-]|].
  destruct (any_seen _ (refs_of ord_refs (t_data_used_labels s0) _) v2) as [[u3 v3]| | |] eqn:E3; cbn [obind fst snd]; try discriminate.
  apply any_put in E3; [|intros r w b1 w' Hr; apply IH; eapply P_data; eassumption].
  assert (H4 : put vis v3) by (eapply put_trans; eassumption). destruct u3; [now intros [= _ <-]|].
  intros X; eapply HD; [exact H4|symmetry; exact X|auto].
Qed.
Lemma alias_put L fuel label vis b vis' : P label -> aliasV (set_t_lines L s0) fuel label vis = Ok (b, vis') -> put vis vis'.
Proof.
  intros HP. unfold aliasV. tsimp. destruct (map_find _ _) as [a|] eqn:E; [|intros [= _ <-]; apply put_refl]. apply isUsed_put. eapply P_alias; eassumption.
Qed.
Lemma mark_one_put L fuel idx vis s' vis' : (forall l, nth_error L (Z.to_nat (idx - 1)) = Some l -> P (lv_label l)) -> mark_oneV (set_t_lines L s0) fuel idx vis = Ok (s', vis') -> put vis vis'.
Proof.
  intros HL. unfold mark_oneV. tsimp. destruct (_ || _); [discriminate|]. cbv zeta. destruct (nth_error _ _) as [l|] eqn:El; [|discriminate].
  pose proof (HL l eq_refl) as HP.
  destruct (isUsedV _ _ _ _ _) as [[u v]| | |] eqn:E; cbn [obind fst snd]; try discriminate. apply isUsed_put in E; [|exact HP]. destruct u; [now intros [= _ <-]|].
  destruct (dataAliasV _ _ _ _) as [[u2 v2]| | |] eqn:E2; cbn [obind fst snd]; try discriminate. unfold dataAliasV in E2. tsimp.
  apply any_put in E2; [|intros r w b1 w' Hr; apply alias_put; eapply P_data; eassumption]. destruct u2; [intros [= _ <-]; eapply put_trans; eassumption|].
  destruct (aliasV _ _ _ _) as [[u3 v3]| | |] eqn:E3; cbn [obind fst snd]; try discriminate. apply alias_put in E3; [|exact HP].
  destruct u3; intros [= _ <-]; (eapply put_trans; [exact E|eapply put_trans; eassumption]).
Qed.
Lemma sim_out {A} (o : outcome (A * list seen)) o' a v : sim o o' -> o = Ok (a, v) -> o' = Ok (a, names v).
Proof. intros [[-> _]| <-] E; [discriminate|]. now rewrite E. Qed.
Lemma mark_oneV_lines L fuel idx vis s' vis' : mark_oneV (set_t_lines L s0) fuel idx vis = Ok (s', vis') ->
  exists L', s' = set_t_lines L' s0 /\ Forall2 (fun l l' => lv_label l' = lv_label l) L L'.
Proof.
  intros H. pose proof (sim_out _ _ _ _ (mark_one_sim _ _ _ _) H) as E.
  destruct (mark_one_ok _ _ _ _ _ _ _ _ (ex_intro _ L eq_refl) E) as (L' & -> & M). exists L'. split; [reflexivity|]. tsimp.
  clear -M. induction M as [|x y a b [Hx _ _ _] _ IH]; constructor; [rewrite Hx; reflexivity|exact IH].
Qed.
Lemma mark_loop_put fuel labels : forall L vis s' vis', (forall e l, In e labels -> nth_error L (Z.to_nat (snd e - 1)) = Some l -> P (lv_label l)) ->
  mark_loopV fuel labels (set_t_lines L s0) vis = Ok (s', vis') -> put vis vis'.
Proof.
  induction labels as [|e t IH]; intros L vis s' vis' HL; cbn [mark_loopV]; [intros [= _ <-]; apply put_refl|].
  destruct (mark_oneV _ _ _ _) as [[s1 v1]| | |] eqn:E; cbn [obind fst snd]; try discriminate. intros X.
  destruct (mark_oneV_lines _ _ _ _ _ _ E) as (L' & -> & M). apply mark_one_put in E; [|intros; eapply HL; [left; reflexivity|eassumption]].
  eapply put_trans; [exact E|]. eapply IH; [|exact X]. intros x l' Hx Hl'.
  assert (N : exists l, nth_error L (Z.to_nat (snd x - 1)) = Some l /\ lv_label l' = lv_label l).
  { clear -M Hl'. revert Hl'. generalize (Z.to_nat (snd x - 1)) as n. induction M as [|a b la lb Hab _ IHm]; intros [|n]; cbn; try discriminate; [|apply IHm].
    intros [= <-]. eauto. }
  destruct N as (l & Hl & ->). eapply HL; [right; exact Hx|exact Hl].
Qed.
End Inserted.

(** *** Elements of destroyed parsers stay, and are met *)
Section Kept.
Variables (s0 : tstate) (dom : str -> Prop).
Hypothesis dom_used : forall k r, dom k -> tab_used ord_refs s0 k r -> r <> [] -> dom r.
Hypothesis dom_data : forall k, dom k -> refs_of ord_refs (t_data_used_labels s0) k = [].
Hypothesis dom_weak : forall k, dom k -> refs_of ord_refs (t_weakly_used_labels s0) k = [].
Hypothesis dom_alias : forall k a, dom k -> map_find (t_aliased_labels s0) k = Some a -> dom (v_str a).
(** Names are not doubled in a set. *)
Definition stay (vis vis' : list seen) : Prop := forall e, In e vis -> dead (fst e) = true -> In e vis'.
Definition single (vis : list seen) : Prop := NoDup (names vis).
Lemma stay_refl v : stay v v. Proof. intros e H _. exact H. Qed.
Lemma stay_trans a b c : stay a b -> stay b c -> stay a c.
Proof. intros H1 H2 e H D. auto. Qed.
Lemma look_dead k vis e : single vis -> In e vis -> v_str (snd e) = k -> look k vis = Some e.
Proof.
  unfold single, look, names. induction vis as [|x t IH]; intros Hn He E; [destruct He|]. cbn [find map] in *. inversion Hn as [|? ? N1 N2]; subst.
  destruct He as [->|He]; [now rewrite str_eqb_refl|]. destruct (str_eqb (v_str (snd e)) (v_str (snd x))) eqn:X; [|now apply IH].
  exfalso. apply str_eqb_eq in X. apply N1. rewrite <- X. apply (in_map (fun e => v_str (snd e)) t e He).
Qed.
Lemma drop_single k vis : single vis -> single (drop k vis).
Proof.
  unfold single, drop, names. induction vis as [|e t IH]; cbn [filter map]; intros H; [exact H|]. inversion H as [|? ? N1 N2]; subst.
  destruct (negb _); [|now apply IH]. cbn [map]. constructor; [|now apply IH]. intros X. apply N1. apply in_map_iff in X as (y & E & Y). apply filter_In in Y as [Y _].
  rewrite <- E. apply (in_map (fun e => v_str (snd e)) t y Y).
Qed.
Definition fine (vis vis' : list seen) : Prop := stay vis vis' /\ (single vis -> single vis').
Lemma fine_refl v : fine v v. Proof. split; [apply stay_refl|auto]. Qed.
Lemma fine_trans a b c : fine a b -> fine b c -> fine a c.
Proof. intros [A B] [C D]. split; [eapply stay_trans; eassumption|auto]. Qed.
Lemma any_fine f refs : (forall r v b v', In r refs -> f r v = Ok (b, v') -> fine v v') -> forall v b v', any_seen f refs v = Ok (b, v') -> fine v v'.
Proof.
  induction refs as [|r t IH]; intros H v b v'; cbn [any_seen]; [intros [= _ <-]; apply fine_refl|].
  destruct (f r v) as [[u w]| | |] eqn:E; cbn [obind fst snd]; try discriminate. apply H in E; [|now left]. destruct u; [now intros [= _ <-]|].
  intros X. eapply fine_trans; [exact E|]. eapply IH; [|exact X]. intros. eapply H; [right|]; eassumption.
Qed.
Lemma isUsed_fine L fuel : forall label depth vis b vis', dom (v_str label) -> 1 <= depth ->
  isUsedV (set_t_lines L s0) fuel label depth vis = Ok (b, vis') -> fine vis vis'.
Proof.
  induction fuel as [|n IH]; intros label depth vis b vis' Hd Hp; [discriminate|]. cbn [isUsedV]. cbv zeta. tsimp.
  replace (depth =? 0) with false by (symmetry; apply Z.eqb_neq; lia). pose proof (look_mem (v_str label) vis) as LM.
  destruct (look _ vis) as [e|] eqn:El; [destruct (dead (fst e)); [discriminate|intros [= _ <-]; apply fine_refl]|].
  assert (Hno : forall e, In e vis -> v_str (snd e) <> v_str label) by (intros e He E; destruct (look_some _ _ _ He E) as (e' & X); congruence).
  assert (H1 : fine vis ((me, label) :: vis)).
  { split; [intros e H _; now right|]. intros H. unfold single, names. cbn [map snd]. constructor; [|exact H]. intros X. apply in_map_iff in X as (e & X & Y). exact (Hno e Y X). }
  destruct (set_contains _ _); [now intros [= _ <-]|].
  destruct (any_seen _ _ _) as [[u v]| | |] eqn:E; cbn [obind fst snd]; try discriminate.
  apply any_fine in E.
  2: { intros r w b1 w' Hr. destruct (is_nil (v_str r)) eqn:En; [intros [= _ <-]; apply fine_refl|]. apply IH; [|lia].
       eapply dom_used; [exact Hd|exists r; split; [exact Hr|reflexivity]|]. intros X. now rewrite X in En. }
  assert (H2 : fine vis v) by (eapply fine_trans; eassumption). destruct u; [now intros [= _ <-]|].
  rewrite (dom_weak _ Hd), (dom_data _ Hd). cbn [any_seen obind fst snd].
  assert (H3 : fine vis (drop (v_str label) v)).
  { destruct H2 as [A B]. split; [|intros; now apply drop_single, B]. intros e He De. apply filter_In. split; [now apply A|].
    apply negb_true_iff. destruct (str_eqb _ _) eqn:X; [|reflexivity]. exfalso. apply str_eqb_eq in X. exact (Hno e He X). }
  destruct (0 <? depth); cbn [obind fst snd]; now intros [= _ <-].
Qed.
Lemma alias_fine L fuel label vis b vis' : dom (v_str label) -> aliasV (set_t_lines L s0) fuel label vis = Ok (b, vis') -> fine vis vis'.
Proof.
  intros Hd. unfold aliasV. tsimp. destruct (map_find _ _) as [a|] eqn:E; [|intros [= _ <-]; apply fine_refl]. apply isUsed_fine; [|lia]. eapply dom_alias; eassumption.
Qed.
(** A label whose name a destroyed parser left behind is not searched without
    reading the dead characters. *)
Lemma isUsed_dead s fuel label depth vis e b vis' : single vis -> In e vis -> dead (fst e) = true -> v_str (snd e) = v_str label -> 1 <= depth ->
  isUsedV s fuel label depth vis <> Ok (b, vis').
Proof.
  intros Hs He Hd E Hp. destruct fuel as [|n]; [discriminate|]. cbn [isUsedV]. cbv zeta. replace (depth =? 0) with false by (symmetry; apply Z.eqb_neq; lia).
  rewrite (look_dead _ _ _ Hs He E), Hd. discriminate.
Qed.
Lemma mark_one_fine L fuel idx vis s' vis' : (forall l, nth_error L (Z.to_nat (idx - 1)) = Some l -> dom (v_str (lv_label l))) ->
  mark_oneV (set_t_lines L s0) fuel idx vis = Ok (s', vis') ->
  fine vis vis' /\ (single vis -> forall l e, nth_error L (Z.to_nat (idx - 1)) = Some l -> In e vis -> dead (fst e) = true -> v_str (snd e) <> v_str (lv_label l)).
Proof.
  intros HL. unfold mark_oneV. tsimp. destruct (_ || _); [discriminate|]. cbv zeta. destruct (nth_error _ _) as [l|] eqn:El; [|discriminate].
  specialize (HL l eq_refl).
  destruct (isUsedV _ _ _ _ _) as [[u v]| | |] eqn:E; cbn [obind fst snd]; try discriminate. pose proof E as E0. apply isUsed_fine in E; [|exact HL|lia].
  intros H. split.
  2: { intros Hs l' e [= <-] He De X. exact (isUsed_dead _ _ _ 1 _ e _ _ Hs He De X ltac:(lia) E0). }
  revert H. destruct u; [now intros [= _ <-]|].
  unfold dataAliasV. tsimp. rewrite (dom_data _ HL). cbn [any_seen obind fst snd].
  destruct (aliasV _ _ _ _) as [[u3 v3]| | |] eqn:E3; cbn [obind fst snd]; try discriminate. apply alias_fine in E3; [|exact HL].
  destruct u3; intros [= _ <-]; (eapply fine_trans; eassumption).
Qed.
Lemma mark_loop_fine fuel labels : forall L vis s' vis', (forall e l, In e labels -> nth_error L (Z.to_nat (snd e - 1)) = Some l -> dom (v_str (lv_label l))) ->
  mark_loopV fuel labels (set_t_lines L s0) vis = Ok (s', vis') -> single vis ->
  fine vis vis' /\ forall x l e, In x labels -> nth_error L (Z.to_nat (snd x - 1)) = Some l -> In e vis -> dead (fst e) = true -> v_str (snd e) <> v_str (lv_label l).
Proof.
  induction labels as [|x t IH]; intros L vis s' vis' HL; cbn [mark_loopV]; [intros [= _ <-] _; split; [apply fine_refl|intros x l e []]|].
  destruct (mark_oneV _ _ _ _) as [[s1 v1]| | |] eqn:E; cbn [obind fst snd]; try discriminate. intros X Hs.
  destruct (mark_oneV_lines s0 _ _ _ _ _ _ E) as (L' & -> & M). apply mark_one_fine in E; [|intros; eapply HL; [left; reflexivity|eassumption]]. destruct E as [E F]. pose proof E as [E1 E2].
  assert (N : forall n, match nth_error L n, nth_error L' n with Some a, Some b => lv_label b = lv_label a | None, None => True | _, _ => False end).
  { clear -M. induction M as [|a b la lb Hab _ IHm]; intros [|n]; cbn; auto. apply IHm. }
  destruct (IH L' v1 s' vis') as [G H]; [|exact X|now apply E2|].
  - intros e l' He Hl'. specialize (N (Z.to_nat (snd e - 1))). rewrite Hl' in N. destruct (nth_error L (Z.to_nat (snd e - 1))) as [l|] eqn:El; [|contradiction N]. rewrite N. eapply HL; [right; exact He|exact El].
  - split; [eapply fine_trans; eassumption|]. intros y l e [<-|Hy] Hl He De; [now apply (F Hs l e)|].
    specialize (N (Z.to_nat (snd y - 1))). rewrite Hl in N. destruct (nth_error L' (Z.to_nat (snd y - 1))) as [l'|] eqn:El; [|contradiction N]. rewrite <- N.
    apply (H y l' e Hy El); [now apply E1|exact De].
Qed.
End Kept.
End Visited.
