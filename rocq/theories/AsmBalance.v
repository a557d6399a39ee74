(** The text parser: with which references between code and data the search for
    used labels ends. *)
From Coq Require Import Permutation.
From Verif Require Import AsmLemmas AsmRead AsmMark AsmTrace AsmThms AsmUse AsmSearch AsmComplete AsmRemove AsmRoots AsmMarking AsmDet AsmLines AsmWorld AsmCarry AsmWitness.

(** Chains of references, with the number of uses by code less that of uses by data. *)
Inductive hops (u d : str -> str -> Prop) : str -> Z -> str -> Prop :=
| H_use a b : u a b -> hops u d a 1 b
| H_data a b : d a b -> hops u d a (-1) b
| H_more a n b m c : hops u d a n b -> hops u d b m c -> hops u d a (n + m) c.
Lemma hops_impl (u u' d d' : str -> str -> Prop) : (forall a b, u a b -> u' a b) -> (forall a b, d a b -> d' a b) ->
  forall a n b, hops u d a n b -> hops u' d' a n b.
Proof. intros Hu Hd a n b H. induction H; [apply H_use; auto|apply H_data; auto|eapply H_more; eassumption]. Qed.

Lemma any_ref_still f refs v0 : (forall r, In r refs -> f r v0 <> Diverges /\ forall v, f r v0 = Ok (false, v) -> v = v0) ->
  any_ref f refs v0 <> Diverges /\ forall v, any_ref f refs v0 = Ok (false, v) -> v = v0.
Proof.
  induction refs as [|r t IH]; intros H; cbn [any_ref]; [split; [discriminate|now intros v [= <-]]|].
  destruct (H r (or_introl eq_refl)) as [A B]. destruct (f r v0) as [[u w]| | |] eqn:E; cbn [obind fst snd]; try (split; [discriminate|intros; discriminate]); [|now exfalso].
  destruct u; [split; [discriminate|intros; discriminate]|]. rewrite (B w eq_refl). apply IH. intros x X. apply H. now right.
Qed.
Lemma any_ref_ends f refs : (forall r v, In r refs -> f r v <> Diverges) -> forall v, any_ref f refs v <> Diverges.
Proof.
  induction refs as [|r t IH]; intros H v; cbn [any_ref]; [discriminate|].
  pose proof (H r v (or_introl eq_refl)) as A. destruct (f r v) as [[u w]| | |]; cbn [obind fst snd]; try discriminate; [|now exfalso].
  destruct u; [discriminate|]. apply IH. intros x v' X. apply H. now right.
Qed.

Section Search.
Variables (ord : list view -> list view) (s : tstate).
Hypothesis no_weak : forall k, refs_of ord (t_weakly_used_labels s) k = [].
Definition ukeys : list str := map (fun e => v_str (fst e)) (t_used_labels s).
Definition dkeys : list str := map (fun e => v_str (fst e)) (t_data_used_labels s).
Definition akeys : list str := ukeys ++ dkeys.
Lemma refs_key m k : ~ In k (map (fun e => v_str (fst e)) m) -> refs_of ord m k = [].
Proof.
  intros H. unfold refs_of, map_find, option_map. destruct (find _ _) as [[kv r]|] eqn:E; [|reflexivity]. exfalso. apply H.
  apply find_some in E as [E1 E2]. apply same_key_iff in E2. apply in_map_iff. exists (kv, r). auto.
Qed.
Lemma free_cons R k vis : (free R (k :: vis) <= free R vis)%nat.
Proof. exact (free_app R [k] vis). Qed.
Lemma free_take R k vis : In k R -> ~ In k vis -> (free R (k :: vis) < free R vis)%nat.
Proof. intros H N. exact (free_root R [k] vis k H (or_introl eq_refl) N). Qed.

(** *** Far from the ground [visited] is never emptied *)
Lemma high_ends : forall fuel k depth vis, Z.of_nat (free dkeys vis) < depth -> (free akeys vis < fuel)%nat ->
  isUsed ord s fuel k depth vis <> Diverges /\ forall v, isUsed ord s fuel k depth vis = Ok (false, v) -> v = vis.
Proof.
  induction fuel as [|n IH]; intros k depth vis Hd Hf; [lia|]. rewrite isUsed_step. cbv zeta.
  replace (depth =? 0) with false by (symmetry; apply Z.eqb_neq; lia).
  destruct (mem_str k vis) eqn:Em; [split; [discriminate|now intros v [= <-]]|]. destruct (set_contains _ _); [split; [discriminate|intros; discriminate]|].
  assert (Hout : ~ In k vis) by (intros X; apply mem_str_in in X; congruence).
  replace (0 <? depth) with true by (symmetry; apply Z.ltb_lt; lia). rewrite no_weak. cbn [any_ref obind fst snd].
  pose proof (free_cons dkeys k vis) as Fd.
  assert (Fn : In k akeys -> (free akeys (k :: vis) < n)%nat) by (intros X; pose proof (free_take akeys k vis X Hout); lia).
  destruct (any_ref_still (fun ref v => if is_nil (v_str ref) then Ok (true, v) else isUsed ord s n (v_str ref) (depth + 1) v) (refs_of ord (t_used_labels s) k) (k :: vis)) as [A1 B1].
  { intros r Hr. destruct (is_nil (v_str r)); [split; [discriminate|intros; discriminate]|]. apply IH; [lia|]. apply Fn.
    apply in_app_iff. left. destruct (in_dec str_dec k ukeys) as [Y|N]; [exact Y|]. rewrite (refs_key _ _ N) in Hr. destruct Hr. }
  destruct (any_ref _ _ (k :: vis)) as [[u w]| | |]; cbn [obind fst snd]; try (split; [discriminate|intros; discriminate]); [|now exfalso].
  destruct u; [split; [discriminate|intros; discriminate]|]. rewrite (B1 w eq_refl). clear A1 B1 w.
  destruct (any_ref_still (fun ref v => isUsed ord s n (v_str ref) (depth - 1) v) (refs_of ord (t_data_used_labels s) k) (k :: vis)) as [A1 B1].
  { intros r Hr. assert (Y : In k dkeys) by (destruct (in_dec str_dec k dkeys) as [Y|N]; [exact Y|]; rewrite (refs_key _ _ N) in Hr; destruct Hr).
    pose proof (free_take dkeys k vis Y Hout). apply IH; [lia|]. apply Fn. apply in_app_iff. now right. }
  destruct (any_ref _ _ (k :: vis)) as [[u w]| | |]; cbn [obind fst snd]; try (split; [discriminate|intros; discriminate]); [|now exfalso].
  destruct u; [split; [discriminate|intros; discriminate]|]. rewrite (B1 w eq_refl). split; [discriminate|]. intros v [= <-]. now apply remove_fresh.
Qed.

(** *** Near the ground a branch does not come back to the same label at the same depth *)
Definition use (k r : str) : Prop := tab_used ord s k r /\ r <> [].
Hypothesis no_ring : forall k, ~ hops use (tab_data ord s) k 0 k.
Definition spots : list (str * Z) := list_prod akeys (map Z.of_nat (seq 0 (S (length dkeys)))).
Lemma spots_in k d : In k akeys -> 0 <= d <= Z.of_nat (length dkeys) -> In (k, d) spots.
Proof.
  intros H Hd. apply in_prod; [exact H|]. apply in_map_iff. exists (Z.to_nat d). split; [lia|]. apply in_seq. lia.
Qed.
Lemma free_le R vis : (free R vis <= length R)%nat.
Proof. unfold free. induction R as [|x t IH]; cbn; [lia|]. destruct (negb _); cbn; lia. Qed.
Lemma low_ends : forall n p k depth vis fuel, NoDup p -> incl p spots -> (length spots <= n + length p)%nat ->
  (forall a e, In (a, e) p -> hops use (tab_data ord s) a (depth - e) k) -> 0 <= depth -> (n + length akeys + 1 < fuel)%nat ->
  isUsed ord s fuel k depth vis <> Diverges.
Proof.
  induction n as [|n IH]; intros p k depth vis fuel Np Ip Lp Hp Hd Hf.
  all: destruct (Z_lt_le_dec (Z.of_nat (length dkeys)) depth) as [Hi|Lo];
    [apply high_ends; [pose proof (free_le dkeys vis); lia|pose proof (free_le akeys vis); lia]|].
  all: assert (New : ~ In (k, depth) p) by (intros X; apply Hp in X; replace (depth - depth) with 0 in X by lia; exact (no_ring _ X)).
  all: destruct fuel as [|fuel]; [lia|]; rewrite isUsed_step; cbv zeta; rewrite no_weak; cbn [any_ref obind fst snd].
  all: destruct (mem_str _ _); [discriminate|]; destruct (set_contains _ _); [discriminate|].
  - assert (N : ~ In k akeys).
    { intros X. assert (L : (length ((k, depth) :: p) <= length spots)%nat); [|cbn [length] in L; lia].
      apply NoDup_incl_length; [now constructor|]. intros x [<-|Hx]; [|auto]. apply spots_in; auto. }
    assert (Nu : ~ In k ukeys) by (intros X; apply N, in_app_iff; now left). assert (Nd : ~ In k dkeys) by (intros X; apply N, in_app_iff; now right).
    rewrite (refs_key _ _ Nu), (refs_key _ _ Nd). cbn [any_ref obind fst snd]. destruct (0 <? depth); discriminate.
  - assert (Hnext : forall r d', In k akeys -> 0 <= d' -> hops use (tab_data ord s) k (d' - depth) r -> forall v, isUsed ord s fuel r d' v <> Diverges).
    { intros r d' Hk Hd' Hh v. apply (IH ((k, depth) :: p)); [now constructor| |cbn [length]; lia| |exact Hd'|lia].
      - intros x [<-|Hx]; [|auto]. apply spots_in; auto.
      - intros a e [[= <- <-]|H]; [exact Hh|]. replace (d' - e) with ((depth - e) + (d' - depth)) by lia. eapply H_more; [apply Hp, H|exact Hh]. }
    match goal with |- context [any_ref ?f ?l ?v] => pose proof (any_ref_ends f l) as A end.
    match type of A with ?X -> _ => assert (HX : X) end.
    { intros r v Hr. destruct (is_nil (v_str r)) eqn:En; [discriminate|]. apply Hnext; [|lia|].
      - apply in_app_iff. left. destruct (in_dec str_dec k ukeys) as [Y|N]; [exact Y|]. rewrite (refs_key _ _ N) in Hr. destruct Hr.
      - replace (depth + 1 - depth) with 1 by lia. apply H_use. split; [now exists r|]. intros X. rewrite X in En. discriminate. }
    specialize (A HX). match goal with |- context [any_ref _ _ ?v] => specialize (A v) end.
    destruct (any_ref _ _ _) as [[u w]| | |]; cbn [obind fst snd]; try discriminate; [|now exfalso]. destruct u; [discriminate|].
    destruct (0 <? depth) eqn:E0; cbn [obind fst snd]; [|discriminate]. apply Z.ltb_lt in E0.
    assert (B : any_ref (fun ref v => isUsed ord s fuel (v_str ref) (depth - 1) v) (refs_of ord (t_data_used_labels s) k) w <> Diverges).
    { apply any_ref_ends. intros r v Hr. apply Hnext; [|lia|].
      - apply in_app_iff. right. destruct (in_dec str_dec k dkeys) as [Y|N]; [exact Y|]. rewrite (refs_key _ _ N) in Hr. destruct Hr.
      - replace (depth - 1 - depth) with (-1) by lia. apply H_data. now exists r. }
    destruct (any_ref _ _ w) as [[u w']| | |]; cbn [obind fst snd]; try discriminate; [|now exfalso]. destruct u; discriminate.
Qed.
(** How deep a search goes at most. *)
Definition reach : nat := length akeys * S (length dkeys) + length akeys + 2.
Lemma search_depth k depth vis fuel : 0 <= depth -> (reach <= fuel)%nat -> isUsed ord s fuel k depth vis <> Diverges.
Proof.
  intros Hd Hf. apply (low_ends (length spots) []); [constructor|intros x []|cbn; lia|intros a e []|exact Hd|].
  unfold spots. rewrite prod_length, map_length, seq_length. unfold reach in Hf. lia.
Qed.
End Search.

(** *** Rings of references *)
(** Each name is followed by how it refers to the next: by code ([true]) or by data. *)
Definition step_of (x : str * bool) : Z := if snd x then 1 else -1.
Fixpoint weight (l : list (str * bool)) : Z := match l with [] => 0 | x :: t => step_of x + weight t end.
Definition first_of (l : list (str * bool)) (z : str) : str := match l with [] => z | x :: _ => fst x end.
Fixpoint links (u d : str -> str -> Prop) (l : list (str * bool)) (z : str) : Prop :=
  match l with
  | [] => True
  | x :: t => (if snd x then u (fst x) (first_of t z) else d (fst x) (first_of t z)) /\ links u d t z
  end.
(** A ring: different names, back to the first, as many uses by code as by data. *)
Definition ring (u d : str -> str -> Prop) (l : list (str * bool)) : Prop :=
  l <> [] /\ NoDup (map fst l) /\ weight l = 0 /\ links u d l (first_of l []).

Lemma weight_app a b : weight (a ++ b) = weight a + weight b.
Proof. induction a as [|x t IH]; cbn [weight app]; lia. Qed.
Lemma first_app a b z : first_of (a ++ b) z = first_of a (first_of b z).
Proof. destruct a; reflexivity. Qed.
Lemma links_app u d a b z : links u d (a ++ b) z <-> links u d a (first_of b z) /\ links u d b z.
Proof. induction a as [|x t IH]; cbn [links app]; [tauto|]. rewrite IH, first_app. tauto. Qed.
Lemma links_impl (u u' d d' : str -> str -> Prop) l z : (forall a b, In a (map fst l) -> u a b -> u' a b) -> (forall a b, In a (map fst l) -> d a b -> d' a b) ->
  links u d l z -> links u' d' l z.
Proof.
  induction l as [|x t IH]; cbn [links map]; [auto|]. intros Hu Hd [A B]. split.
  - destruct (snd x); [apply Hu|apply Hd]; cbn; auto.
  - apply IH; [intros a b Ha; apply Hu; now right|intros a b Ha; apply Hd; now right|exact B].
Qed.
Lemma lowest l : exists p q, l = p ++ q /\ forall p' q', l = p' ++ q' -> weight p <= weight p'.
Proof.
  induction l as [|a t (p & q & -> & H)]; [exists [], []; split; [reflexivity|]; intros [|? ?] q' E; [reflexivity|discriminate]|].
  destruct (Z_lt_le_dec (weight (a :: p)) 0) as [N|N].
  - exists (a :: p), q. split; [reflexivity|]. intros [|b p'] q' E; [cbn [weight] in *; lia|]. injection E as -> E. cbn [weight]. specialize (H _ _ E). lia.
  - exists [], (a :: p ++ q). split; [reflexivity|]. intros [|b p'] q' E; [reflexivity|]. injection E as -> E. specialize (H _ _ E). cbn [weight] in *. lia.
Qed.
Lemma app_split {A} (a b c d : list A) : a ++ b = c ++ d -> (exists e, a = c ++ e /\ d = e ++ b) \/ (exists e, c = a ++ e /\ b = e ++ d).
Proof.
  revert c. induction a as [|x t IH]; intros c E.
  - right. exists c. auto.
  - destruct c as [|y c]; [left; exists (x :: t); auto|]. injection E as -> E. destruct (IH _ E) as [(e & -> & ->)|(e & -> & ->)]; [left|right]; exists e; auto.
Qed.
(** Such a ring can be entered where no part of it falls below the start. *)
Lemma rotated u d l : ring u d l -> exists m, ring u d m /\ (forall x, In x m <-> In x l) /\ forall pre post, m = pre ++ post -> 0 <= weight pre.
Proof.
  intros (Hne & Hnd & Hw & Hl). destruct (lowest l) as (p & q & -> & Hm). exists (q ++ p). rewrite weight_app in Hw. split; [|split].
  - split; [|split; [|split]].
    + intros E. apply Hne. apply app_eq_nil in E as [-> ->]. reflexivity.
    + rewrite map_app in *. eapply Permutation_NoDup; [apply Permutation_app_comm|exact Hnd].
    + rewrite weight_app. lia.
    + apply links_app in Hl as [A B]. apply links_app. rewrite first_app in *.
      destruct q as [|b q]; [cbn [first_of links app] in *; tauto|]. destruct p as [|a p]; cbn [first_of links app] in *; tauto.
  - intros x. rewrite !in_app_iff. tauto.
  - intros pre post E. destruct (app_split _ _ _ _ E) as [(e & -> & ->)|(e & -> & ->)].
    + specialize (Hm (p ++ pre) e). rewrite weight_app in Hm. rewrite <- app_assoc in Hm. specialize (Hm eq_refl). lia.
    + specialize (Hm e (post ++ q)). rewrite <- app_assoc in Hm. specialize (Hm eq_refl). rewrite weight_app. lia.
Qed.

(** *** What a search leaves behind *)
Lemma any_ref_leaves (P : str -> Prop) f refs : (forall r v b w, In r refs -> f r v = Ok (b, w) -> forall x, In x w -> In x v \/ (b = true /\ P x)) ->
  forall v b w, any_ref f refs v = Ok (b, w) -> forall x, In x w -> In x v \/ (b = true /\ P x).
Proof.
  induction refs as [|r t IH]; intros H v b w; cbn [any_ref]; [intros [= <- <-]; auto|].
  destruct (f r v) as [[u w']| | |] eqn:E; cbn [obind fst snd]; try discriminate. pose proof (H r v u w' (or_introl eq_refl) E) as A. destruct u.
  - intros [= <- <-]. exact A.
  - intros E2 x Hx. destruct (IH (fun r v b w Hr => H r v b w (or_intror Hr)) _ _ _ E2 x Hx) as [B|B]; [|now right]. destruct (A x B) as [C|[C _]]; [now left|discriminate].
Qed.
Lemma any_ref_stuck (Q : list str -> Prop) f refs r0 : In r0 refs -> (forall r v b w, In r refs -> Q v -> f r v = Ok (b, w) -> b = false /\ Q w) ->
  (forall v o, Q v -> f r0 v <> Ok o) -> forall v o, Q v -> any_ref f refs v <> Ok o.
Proof.
  induction refs as [|r t IH]; intros Hin H H0 v o Hv; [destruct Hin|]. cbn [any_ref].
  destruct (f r v) as [[u w]| | |] eqn:E; cbn [obind fst snd]; try discriminate.
  destruct Hin as [-> | Hin]; [now apply H0 in E|]. destruct (H r v u w (or_introl eq_refl) Hv E) as [-> Hw].
  apply IH; auto. intros r' v' b' w' Hr'. apply H. now right.
Qed.

Section Stuck.
Variables (ord : list view -> list view) (s : tstate).
Hypothesis weak : t_weakly_used_labels s = [].
Let found := chain (tab_used ord s) (tab_data ord s) (tab_user s).
Lemma no_weak k : refs_of ord (t_weakly_used_labels s) k = [].
Proof. rewrite weak. reflexivity. Qed.
Lemma found_of fuel k d vis w : isUsed ord s fuel k d vis = Ok (true, w) -> found k.
Proof. apply isUsed_sound. now right. Qed.
Lemma search_leaves : forall fuel k d vis b w, isUsed ord s fuel k d vis = Ok (b, w) -> forall x, In x w -> In x vis \/ (b = true /\ found x).
Proof.
  induction fuel as [|n IH]; intros k d vis b w H x Hx; [discriminate|]. pose proof H as H0. rewrite isUsed_step in H. cbv zeta in H. rewrite no_weak in H. cbn [any_ref] in H.
  assert (Hv : forall y, In y (if d =? 0 then [] else vis) -> In y vis) by (destruct (d =? 0); [intros y []|auto]).
  revert Hv H. generalize (if d =? 0 then [] else vis) as v0. intros v0 Hv. destruct (mem_str k v0); [intros [= <- <-]; auto|].
  assert (Hk : b = true -> In x (k :: v0) -> In x vis \/ (b = true /\ found x)).
  { intros -> [<-|Hy]; [right; split; [reflexivity|eapply found_of, H0]|auto]. }
  assert (Hk' : forall b' : bool, (b' = true -> b = true) -> In x (k :: v0) \/ (b' = true /\ found x) -> b' = true -> In x vis \/ (b = true /\ found x)).
  { intros b' Hb [A|[_ A]] E; [apply Hk; auto|right; auto]. }
  destruct (set_contains _ _); [intros [= <- <-]; apply Hk; auto|].
  destruct (any_ref _ (refs_of ord (t_used_labels s) k) (k :: v0)) as [[u1 w1]| | |] eqn:E1; cbn [obind fst snd]; try discriminate.
  assert (A1 : forall y, In y w1 -> In y (k :: v0) \/ (u1 = true /\ found y)).
  { eapply any_ref_leaves; [|exact E1]. intros r v b' w' _. cbn beta. destruct (is_nil _); [intros [= <- <-]; auto|apply IH]. }
  destruct u1; [intros [= <- <-]; exact (Hk' true (fun e => e) (A1 _ Hx) eq_refl)|].
  assert (R : forall u w', b = u -> (forall y, In y w' -> In y (k :: v0) \/ (u = true /\ found y)) ->
     (if u then Ok (u, w') else Ok (false, remove_str k w')) = Ok (b, w) -> In x vis \/ (b = true /\ found x)).
  { intros [|] w' -> A [= <-]; [exact (Hk' true (fun e => e) (A _ Hx) eq_refl)|]. left. unfold remove_str in Hx. apply filter_In in Hx as [Hx Hne].
    apply negb_true_iff in Hne. destruct (A _ Hx) as [[<-|Hy]|[X _]]; [now rewrite str_eqb_refl in Hne|auto|discriminate]. }
  destruct (0 <? d); cbn [obind fst snd].
  - destruct (any_ref _ (refs_of ord (t_data_used_labels s) k) w1) as [[u2 w2]| | |] eqn:E2; cbn [obind fst snd]; try discriminate.
    intros H. apply (R u2 w2); [destruct u2; congruence| |exact H].
    intros y Hy. assert (B : In y w1 \/ (u2 = true /\ found y)) by (revert y Hy; eapply any_ref_leaves; [|exact E2]; intros r v b' w' _; apply IH).
    destruct B as [B|B]; [|now right]. destruct (A1 _ B) as [C|[C _]]; [now left|discriminate].
  - intros H. apply (R false w1); [congruence|exact A1|exact H].
Qed.

Variable l : list (str * bool).
Hypothesis l_ring : ring (use ord s) (tab_data ord s) l.
Hypothesis l_high : forall pre post, l = pre ++ post -> 0 <= weight pre.
Hypothesis l_dead : forall x, In x l -> ~ found (fst x).
Lemma round : forall fuel pre a post vis, l = pre ++ a :: post -> (weight pre = 0 \/ forall x, In x (a :: post) -> ~ In (fst x) vis) ->
  forall o, isUsed ord s fuel (fst a) (weight pre) vis <> Ok o.
Proof.
  destruct l_ring as (Hne & Hnd & Hw & Hl).
  induction fuel as [|n IH]; intros pre a post vis E Hv o; [discriminate|]. rewrite isUsed_step. cbv zeta. rewrite no_weak. cbn [any_ref].
  assert (Ha : In a l) by (rewrite E, in_app_iff; cbn; auto).
  assert (Hp0 : 0 <= weight pre) by (eapply l_high, E).
  assert (Hp1 : 0 <= weight pre + step_of a) by (specialize (l_high (pre ++ [a]) post); rewrite weight_app, <- app_assoc in l_high; cbn [weight app] in l_high; specialize (l_high E); lia).
  assert (Hpo : ~ In (fst a) (map fst post)).
  { rewrite E, map_app in Hnd. cbn [map] in Hnd. apply NoDup_remove_2 in Hnd. intros X. apply Hnd, in_app_iff. now right. }
  assert (Hout : forall x, In x (a :: post) -> ~ In (fst x) (if weight pre =? 0 then [] else vis)).
  { intros x Hx. destruct (weight pre =? 0) eqn:E0; [intros []|]. apply Z.eqb_neq in E0. destruct Hv as [Hv|Hv]; [contradiction|auto]. }
  revert Hout. generalize (if weight pre =? 0 then [] else vis) as v0. clear vis Hv. intros v0 Hout.
  assert (Em : mem_str (fst a) v0 = false) by (destruct (mem_str _ _) eqn:X; [|reflexivity]; apply mem_str_in in X; destruct (Hout a (or_introl eq_refl) X)). rewrite Em.
  assert (Es : set_contains (t_usercode_labels s) (fst a) = false) by (destruct (set_contains _ _) eqn:X; [|reflexivity]; destruct (l_dead a Ha); now apply CH_user). rewrite Es.
  set (Q := fun v : list str => forall x, In x post -> ~ In (fst x) v).
  assert (Q0 : Q (fst a :: v0)).
  { intros x Hx [X|X]; [apply Hpo; rewrite X; now apply in_map|]. apply (Hout x); [now right|exact X]. }
  assert (Next : forall v o', Q v -> isUsed ord s n (first_of post (first_of l [])) (weight pre + step_of a) v <> Ok o').
  { intros v o' HQ. destruct post as [|b post].
    - assert (W : weight pre + step_of a = 0) by (rewrite E, weight_app in Hw; cbn [weight] in Hw; lia). rewrite W. cbn [first_of].
      destruct l as [|h t] eqn:El; [now destruct Hne|]. cbn [first_of]. apply (IH [] h t v); [reflexivity|now left].
    - cbn [first_of]. replace (weight pre + step_of a) with (weight (pre ++ [a])) by (rewrite weight_app; cbn [weight]; lia).
      apply (IH (pre ++ [a]) b post v); [rewrite E, <- app_assoc; reflexivity|right; exact HQ]. }
  assert (Edge : if snd a then use ord s (fst a) (first_of post (first_of l [])) else tab_data ord s (fst a) (first_of post (first_of l []))).
  { rewrite E in Hl at 1. apply links_app in Hl as [_ [X _]]. exact X. }
  set (f1 := fun ref vis => if is_nil (v_str ref) then Ok (true, vis) else isUsed ord s n (v_str ref) (weight pre + 1) vis).
  set (f2 := fun ref vis => isUsed ord s n (v_str ref) (weight pre - 1) vis).
  assert (F1 : forall r v b w, In r (refs_of ord (t_used_labels s) (fst a)) -> Q v -> f1 r v = Ok (b, w) -> b = false /\ Q w).
  { intros r v b w Hr HQ. unfold f1. destruct (v_str r) as [|c rs] eqn:Er.
    - exfalso. apply (l_dead a Ha). apply CH_free. now exists r.
    - cbn [is_nil]. rewrite <- Er. intros X. assert (b = false) as ->.
      { destruct b; [|reflexivity]. exfalso. apply (l_dead a Ha). apply CH_used with (r := v_str r); [now exists r|eapply found_of, X]. }
      split; [reflexivity|]. intros x Hx Hin. destruct (search_leaves _ _ _ _ _ _ X _ Hin) as [Y|[Y _]]; [exact (HQ x Hx Y)|discriminate]. }
  assert (F2 : forall r v b w, In r (refs_of ord (t_data_used_labels s) (fst a)) -> Q v -> f2 r v = Ok (b, w) -> b = false /\ Q w).
  { intros r v b w Hr HQ. unfold f2. intros X. assert (b = false) as ->.
    { destruct b; [|reflexivity]. exfalso. apply (l_dead a Ha). apply CH_data with (r := v_str r); [now exists r|eapply found_of, X]. }
    split; [reflexivity|]. intros x Hx Hin. destruct (search_leaves _ _ _ _ _ _ X _ Hin) as [Y|[Y _]]; [exact (HQ x Hx Y)|discriminate]. }
  unfold step_of in *. destruct (snd a).
  - destruct Edge as [(r & Hr & Er) Hnn].
    pose proof (any_ref_stuck Q f1 _ r Hr F1) as S1. specialize (S1 ltac:(intros v o' HQ; unfold f1; rewrite Er; destruct (first_of post (first_of l [])) eqn:En; [now destruct Hnn|]; cbn [is_nil]; now apply Next)).
    specialize (S1 (fst a :: v0)). destruct (any_ref f1 _ _) as [o1| | |]; cbn [obind]; try discriminate. now destruct (S1 o1 Q0).
  - destruct Edge as (r & Hr & Er).
    destruct (any_ref f1 _ (fst a :: v0)) as [[u1 w1]| | |] eqn:E1; cbn [obind fst snd]; try discriminate.
    assert (G : u1 = false /\ Q w1).
    { revert E1 Q0. generalize (fst a :: v0) as v. revert F1. generalize (refs_of ord (t_used_labels s) (fst a)) as refs. induction refs as [|q t IHt]; intros F1 v; cbn [any_ref]; [now intros [= <- <-]|].
      destruct (f1 q v) as [[u2 w2]| | |] eqn:Eq; cbn [obind fst snd]; try discriminate. intros X HQ. destruct (F1 q v u2 w2 (or_introl eq_refl) HQ Eq) as [-> HQ2].
      eapply IHt; [|exact X|exact HQ2]. intros r' v' b' w' Hr'. apply F1. now right. }
    destruct G as [-> Q1]. replace (0 <? weight pre) with true by (symmetry; apply Z.ltb_lt; lia). cbn [obind fst snd].
    pose proof (any_ref_stuck Q f2 _ r Hr F2) as S1. specialize (S1 ltac:(intros v o' HQ; unfold f2; rewrite Er; now apply Next)).
    specialize (S1 w1). destruct (any_ref f2 _ _) as [o1| | |]; cbn [obind]; try discriminate. now destruct (S1 o1 Q1).
Qed.
(** The search for one of the names is endless. *)
Lemma stuck : exists z, In z l /\ forall fuel vis o, ~ In (fst z) vis -> isUsed ord s fuel (fst z) 1 vis <> Ok o.
Proof.
  destruct l_ring as (Hne & Hnd & Hw & Hl). destruct (exists_last Hne) as (pre & z & E). exists z. split; [rewrite E, in_app_iff; cbn; auto|].
  intros fuel vis o Hz. assert (W : weight pre + step_of z = 0) by (rewrite E, weight_app in Hw; cbn [weight] in Hw; lia).
  pose proof (l_high _ _ E) as Hp. unfold step_of in W. destruct (snd z); [lia|]. replace 1 with (weight pre) by lia.
  apply (round fuel pre z [] vis E). right. intros x [<-|[]]. exact Hz.
Qed.
End Stuck.

(** *** Whole parses *)
Section Parse.
Variables (mblen : str -> Z) (flt : Filter)
          (ord_refs : list view -> list view) (ord_labels : list (view * Z) -> list (view * Z)).
Hypothesis Hrefs : shuffles ord_refs.
Hypothesis Hlabels : forall m, Permutation (ord_labels m) m.
Variable input : str.
Hypothesis Hlen : Z.of_nat (length input) < two31.
Let st := read_lines mblen flt tstate0 input.
Let rd := read mblen flt input.
Lemma rd_weak : t_weakly_used_labels rd = [].
Proof. apply weak_read. Qed.
Lemma name_listed k : is_label_name mblen flt input k -> map_contains (t_labels_defined rd) k = true.
Proof.
  intros (l & Hl & A & B). unfold lines_read in Hl. apply in_map_iff in Hl as (l0 & <- & Hl).
  destruct (count_read mblen flt input) as [_ H]. destruct H as [_ H _]; [pose proof (read_total mblen flt input); lia|].
  destruct (H l0 Hl A) as (v & i & H1 & H2). apply map_contains_in. exists v, i. split; [exact H1|]. rewrite H2. exact B.
Qed.
Lemma entry_lines labels : labels = ord_labels (t_labels_defined rd) -> forall e, In e labels ->
  exists l, nth_error (t_lines st) (Z.to_nat (snd e - 1)) = Some l /\ 1 <= snd e /\ lv_is_label l = true /\ v_str (lv_label l) = v_str (fst e).
Proof.
  intros -> [k i] Hin. eapply Permutation_in in Hin; [|apply Hlabels]. cbn [snd fst].
  destruct (table_lines mblen flt _ _ _ Hlen Hin) as [(l & A & B & C & D) _]. exists l. auto.
Qed.

Section Ends.
Hypothesis no_ring : forall k, ~ hops (use ord_refs rd) (tab_data ord_refs rd) k 0 k.
Lemma depth_ends fuel k d vis : 0 <= d -> (reach rd <= fuel)%nat -> exists r, isUsed ord_refs rd fuel k d vis = Ok r.
Proof.
  intros Hd Hf. destruct (isUsed_calm ord_refs rd fuel k d vis) as [H|H]; [exact H|]. exfalso. revert H. apply search_depth; auto.
  intros k'. rewrite rd_weak. reflexivity.
Qed.
Lemma alias_depth fuel k vis : (reach rd <= fuel)%nat -> exists r, isUsedThroughAlias ord_refs rd fuel k vis = Ok r.
Proof. intros Hf. unfold isUsedThroughAlias. destruct (map_find _ _); [apply depth_ends; [lia|exact Hf]|eauto]. Qed.
Lemma data_alias_depth fuel k vis : (reach rd <= fuel)%nat -> exists r, isDataUsedThroughAlias ord_refs rd fuel k vis = Ok r.
Proof.
  intros Hf. unfold isDataUsedThroughAlias. generalize (refs_of ord_refs (t_data_used_labels rd) k) as refs. revert vis.
  intros vis refs. revert vis. induction refs as [|r t IH]; intros vis; cbn [any_ref]; [eauto|].
  destruct (alias_depth fuel (v_str r) vis Hf) as ([u w] & ->). cbn [obind fst snd]. destruct u; [eauto|apply IH].
Qed.
Lemma marks_end fuel labels : (reach rd <= fuel)%nat -> forall L vis, length L = length (t_lines st) ->
  (forall e, In e labels -> exists l, nth_error (t_lines st) (Z.to_nat (snd e - 1)) = Some l /\ 1 <= snd e) ->
  exists r, mark_loop ord_refs fuel labels (set_t_lines L rd) vis = Ok r.
Proof.
  intros Hf. induction labels as [|e t IH]; intros L vis HL Hl; [eexists; reflexivity|]. cbn [mark_loop].
  destruct (Hl e (or_introl eq_refl)) as (l & E1 & E2).
  assert (Hone : exists r, mark_one ord_refs (set_t_lines L rd) fuel (snd e) vis = Ok r).
  { unfold mark_one. tsimp. assert (Hlt : (Z.to_nat (snd e - 1) < length (t_lines st))%nat) by (apply nth_error_Some; congruence).
    replace ((snd e <? 1) || (Z.of_nat (length L) <? snd e)) with false by (symmetry; apply orb_false_iff; split; apply Z.ltb_ge; lia).
    destruct (nth_error L (Z.to_nat (snd e - 1))) as [l'|] eqn:E'; [|apply nth_error_None in E'; lia].
    rewrite isUsed_lines. destruct (depth_ends fuel (v_str (lv_label l')) 1 vis ltac:(lia) Hf) as ([u v] & ->). cbn [obind fst snd]. destruct u; [eauto|].
    rewrite data_alias_lines. destruct (data_alias_depth fuel (v_str (lv_label l')) v Hf) as ([u2 v2] & ->). cbn [obind fst snd]. destruct u2; [eauto|].
    rewrite alias_lines. destruct (alias_depth fuel (v_str (lv_label l')) v2 Hf) as ([u3 v3] & ->). cbn [obind fst snd]. destruct u3; eauto. }
  destruct Hone as ([s1 v1] & E). rewrite E. cbn [obind fst snd].
  destruct (mark_one_ok _ _ _ _ _ _ _ _ (ex_intro _ L eq_refl) E) as (L1 & -> & M). tsimp. apply Forall2_length' in M. revert M. tsimp. intros M.
  apply IH; [congruence|]. intros x Hx. apply Hl. now right.
Qed.
Lemma unringed_ends vis : exists r n, forall fuel, (n <= fuel)%nat -> AsmText.run mblen flt ord_refs ord_labels fuel input vis = Ok r.
Proof.
  assert (H : exists r, AsmText.run mblen flt ord_refs ord_labels (reach rd) input vis = Ok r).
  { unfold AsmText.run, fromStream. fold (read mblen flt input). change (read mblen flt input) with rd. unfold markLabelUsage.
    destruct (marks_end (reach rd) (ord_labels (t_labels_defined rd)) (le_n _) (t_lines rd) vis eq_refl) as ([s v] & E).
    - intros e He. destruct (entry_lines _ eq_refl e He) as (l & A & B & _). eauto.
    - rewrite set_lines_id in E. rewrite E. cbn [obind fst snd]. eauto. }
  destruct H as (r & E). exists r, (reach rd). intros fuel Hf. eapply run_more; eassumption.
Qed.
End Ends.

Section Stuck.
Variable l : list (str * bool).
Hypothesis l_ring : ring (use ord_refs rd) (tab_data ord_refs rd) l.
Hypothesis l_dead : forall x, In x l -> ~ chain (tab_used ord_refs rd) (tab_data ord_refs rd) (tab_user rd) (fst x).
Hypothesis l_named : forall x, In x l -> is_label_name mblen flt input (fst x).
Let clean_of (vis : list str) := forall x, In x l -> ~ In (fst x) vis.
Lemma clean_search fuel k d vis b w : clean_of vis -> isUsed ord_refs rd fuel k d vis = Ok (b, w) -> clean_of w.
Proof.
  intros Hv H x Hx Hin. destruct (search_leaves ord_refs rd rd_weak _ _ _ _ _ _ H _ Hin) as [A|[_ A]]; [exact (Hv x Hx A)|exact (l_dead x Hx A)].
Qed.
Lemma clean_alias fuel k vis b w : clean_of vis -> isUsedThroughAlias ord_refs rd fuel k vis = Ok (b, w) -> clean_of w.
Proof. intros Hv. unfold isUsedThroughAlias. destruct (map_find _ _); [now apply clean_search|now intros [= <- <-]]. Qed.
Lemma clean_data_alias fuel k vis b w : clean_of vis -> isDataUsedThroughAlias ord_refs rd fuel k vis = Ok (b, w) -> clean_of w.
Proof.
  unfold isDataUsedThroughAlias. generalize (refs_of ord_refs (t_data_used_labels rd) k) as refs. intros refs. revert vis.
  induction refs as [|r t IH]; intros vis Hv; cbn [any_ref]; [now intros [= <- <-]|].
  destruct (isUsedThroughAlias ord_refs rd fuel (v_str r) vis) as [[u w']| | |] eqn:E; cbn [obind fst snd]; try discriminate.
  apply clean_alias in E; [|exact Hv]. destruct u; [now intros [= <- <-]|now apply IH].
Qed.
Lemma clean_marks z fuel labels : (forall vis o, ~ In z vis -> isUsed ord_refs rd fuel z 1 vis <> Ok o) -> (exists x, In x l /\ fst x = z) -> forall L vis o, clean_of vis ->
  map (fun x => v_str (lv_label x)) L = map (fun x => v_str (lv_label x)) (t_lines st) ->
  (exists e, In e labels /\ v_str (fst e) = z) ->
  (forall e, In e labels -> exists l, nth_error (t_lines st) (Z.to_nat (snd e - 1)) = Some l /\ v_str (lv_label l) = v_str (fst e)) ->
  mark_loop ord_refs fuel labels (set_t_lines L rd) vis <> Ok o.
Proof.
  intros Hz (x & Hx & Ex). induction labels as [|e t IH]; intros L vis o Hv HL (e0 & He0 & Ee0) Hl; [destruct He0|]. cbn [mark_loop].
  destruct (mark_one ord_refs (set_t_lines L rd) fuel (snd e) vis) as [[s1 v1]| | |] eqn:E; cbn [obind fst snd]; try discriminate.
  destruct (mark_one_ok _ _ _ _ _ _ _ _ (ex_intro _ L eq_refl) E) as (L1 & -> & M). revert M. tsimp. intros M.
  assert (HL1 : map (fun x => v_str (lv_label x)) L1 = map (fun x => v_str (lv_label x)) (t_lines st)).
  { rewrite <- HL. clear -M. induction M as [|a b ta tb Hm _ IHm]; [reflexivity|]. cbn [map]. rewrite IHm. f_equal. destruct Hm as [Hm _ _ _]. now rewrite Hm. }
  revert E. unfold mark_one. tsimp. destruct (_ || _); [discriminate|]. destruct (nth_error L (Z.to_nat (snd e - 1))) as [l'|] eqn:En; [|discriminate].
  destruct (Hl e (or_introl eq_refl)) as (l0 & El0 & Nl0).
  assert (Hn : v_str (lv_label l') = v_str (fst e)).
  { rewrite <- Nl0. apply (map_nth_error (fun x => v_str (lv_label x))) in En. apply (map_nth_error (fun x => v_str (lv_label x))) in El0. rewrite HL in En. congruence. }
  rewrite isUsed_lines, Hn.
  destruct (isUsed ord_refs rd fuel (v_str (fst e)) 1 vis) as [[u v]| | |] eqn:E1; cbn [obind fst snd]; try discriminate.
  assert (Hne : v_str (fst e) <> z).
  { intros X. rewrite X in E1. apply Hz in E1; [exact E1|]. rewrite <- Ex. now apply Hv. }
  assert (Ht : exists e, In e t /\ v_str (fst e) = z) by (destruct He0 as [->|He0]; [contradiction|eauto]).
  assert (Hl' : forall e, In e t -> exists l, nth_error (t_lines st) (Z.to_nat (snd e - 1)) = Some l /\ v_str (lv_label l) = v_str (fst e)) by (intros e' He'; apply Hl; now right).
  pose proof (clean_search _ _ _ _ _ _ Hv E1) as C1. destruct u; [intros [= _ <-]; now apply IH|]. rewrite data_alias_lines.
  destruct (isDataUsedThroughAlias ord_refs rd fuel (v_str (fst e)) v) as [[u2 v2]| | |] eqn:E2; cbn [obind fst snd]; try discriminate.
  pose proof (clean_data_alias _ _ _ _ _ C1 E2) as C2. destruct u2; [intros [= _ <-]; now apply IH|]. rewrite alias_lines.
  destruct (isUsedThroughAlias ord_refs rd fuel (v_str (fst e)) v2) as [[u3 v3]| | |] eqn:E3; cbn [obind fst snd]; try discriminate.
  pose proof (clean_alias _ _ _ _ _ C2 E3) as C3. destruct u3; intros [= _ <-]; now apply IH.
Qed.
Lemma ring_endless fuel vis : clean_of vis -> AsmText.run mblen flt ord_refs ord_labels fuel input vis = Diverges.
Proof.
  intros Hv. destruct (C45_run mblen flt ord_refs ord_labels fuel input vis Hlabels Hlen) as [(r & H)|H]; [|exact H]. exfalso.
  destruct (rotated _ _ _ l_ring) as (m & Hm & Hin & Hhigh).
  destruct (stuck ord_refs rd rd_weak m Hm Hhigh (fun x Hx => l_dead x (proj1 (Hin x) Hx))) as (z & Hz & Hstuck). apply Hin in Hz.
  revert H. unfold AsmText.run, fromStream. fold (read mblen flt input). change (read mblen flt input) with rd. unfold markLabelUsage.
  pose proof (clean_marks (fst z) fuel (ord_labels (t_labels_defined rd)) (fun vis o => Hstuck fuel vis o) (ex_intro _ z (conj Hz eq_refl)) (t_lines rd) vis) as X.
  rewrite set_lines_id in X. destruct (mark_loop _ _ _ _ _) as [o| | |]; cbn [obind]; try discriminate. intros _. refine (X o Hv eq_refl _ _ eq_refl).
  - pose proof (name_listed (fst z) (l_named z Hz)) as D. apply map_contains_in in D as (e & i & A & B). exists (e, i). split; [|exact B].
    eapply Permutation_in; [apply Permutation_sym, Hlabels|exact A].
  - intros e He. destruct (entry_lines _ eq_refl e He) as (l0 & A & _ & _ & B). eauto.
Qed.
End Stuck.

(** *** ... by what the lines say *)
Lemma hops_read k n r : hops (use ord_refs rd) (tab_data ord_refs rd) k n r -> hops (used_by (lines_read mblen flt input) (lines_aside mblen flt input)) (data_by (lines_read mblen flt input)) k n r.
Proof.
  apply hops_impl; intros a b H.
  - destruct H as [H _]. eapply tab_used_read; [exact Hrefs|exact H].
  - eapply tab_data_read; [exact Hrefs|exact H].
Qed.
Section Made.
Hypothesis Hlib : f_library_functions flt = false.
Let cs := scan_input flt input.
Definition code_ref (k r : str) : Prop := made flt (used_at mblen flt) (scan_input flt input) (k, r).
Definition data_ref (k r : str) : Prop := made flt (data_at mblen flt) (scan_input flt input) (k, r).
Definition user_ref (k : str) : Prop := made flt (global_at flt) (scan_input flt input) k.
Lemma refs_looked m k r : (exists v, In v (refs_of ord_refs m k) /\ v_str v = r) <-> looked m k r.
Proof.
  split; [|now apply looked_refs]. intros (v & A & B). unfold refs_of in A. destruct (map_find _ k) as [refs|] eqn:E; [|destruct A]. exists refs, v.
  split; [exact E|]. split; [|exact B]. eapply Permutation_in; [apply Hrefs|exact A].
Qed.
Lemma used_made k r : tab_used ord_refs rd k r <-> map_contains (t_labels_defined rd) k = true /\ code_ref k r.
Proof.
  unfold tab_used. rewrite refs_looked. destruct (read_world mblen flt Hlib input) as [_ A _ _ _]. unfold rd, read, filterNonLabels. tsimp_goal.
  rewrite (looked_filter_iff (fun x => map_contains _ x)). now rewrite A.
Qed.
Lemma data_made k r : tab_data ord_refs rd k r <-> data_ref k r.
Proof.
  unfold tab_data. rewrite refs_looked. destruct (read_world mblen flt Hlib input) as [_ _ B _ _]. apply B.
Qed.
Lemma user_made k : tab_user rd k <-> user_ref k.
Proof. destruct (read_world mblen flt Hlib input) as [_ _ _ C _]. apply C. Qed.
Lemma made_ends : (forall k, ~ hops (fun k r => code_ref k r /\ r <> []) data_ref k 0 k) -> forall vis,
  exists r n, forall fuel, (n <= fuel)%nat -> AsmText.run mblen flt ord_refs ord_labels fuel input vis = Ok r.
Proof.
  intros H vis. apply unringed_ends. intros k Hk. apply (H k). revert Hk. apply hops_impl.
  - intros a b [A B]. split; [apply used_made in A; tauto|exact B].
  - intros a b A. now apply data_made.
Qed.
Lemma made_endless l : ring (fun k r => code_ref k r /\ r <> []) data_ref l ->
  (forall x, In x l -> is_label_name mblen flt input (fst x) /\ ~ chain code_ref data_ref user_ref (fst x)) ->
  forall fuel vis, (forall x, In x l -> ~ In (fst x) vis) -> AsmText.run mblen flt ord_refs ord_labels fuel input vis = Diverges.
Proof.
  intros (A & B & C & D) H fuel vis Hv. apply ring_endless with (l := l); [| | |exact Hv].
  - split; [exact A|]. split; [exact B|]. split; [exact C|]. revert D. apply links_impl; intros a b Ha.
    + intros [X Y]. split; [|exact Y]. apply used_made. split; [|exact X]. apply in_map_iff in Ha as (x & <- & Hx). apply name_listed. now apply H.
    + apply data_made.
  - intros x Hx X. destruct (H x Hx) as [_ N]. apply N. revert X. apply chain_impl; intros; [now apply used_made|now apply data_made|now apply user_made].
  - intros x Hx. now apply H.
Qed.
End Made.
Lemma read_ends : (forall k, ~ hops (used_by (lines_read mblen flt input) (lines_aside mblen flt input)) (data_by (lines_read mblen flt input)) k 0 k) -> forall vis,
  exists r n, forall fuel, (n <= fuel)%nat -> AsmText.run mblen flt ord_refs ord_labels fuel input vis = Ok r.
Proof. intros H vis. apply unringed_ends. intros k Hk. exact (H k (hops_read _ _ _ Hk)). Qed.
End Parse.
