(** Tab expansion, white space squashing, comment stripping. *)
From Verif Require Export Lemmas Utils.
Local Open Scope nat_scope.

(** *** C52, C53: tab expansion *)

(** [expanded n line out]: [out] is [line] with each tab replaced by
    8 - (k mod 8) spaces, where k is [n] plus the number of characters other
    than tabs before it. *)
Inductive expanded : nat -> str -> str -> Prop :=
| expanded_nil : forall n, expanded n [] []
| expanded_char : forall n c t o, c <> TAB -> expanded (S n) t o -> expanded n (c :: t) (c :: o)
| expanded_tab : forall n t o, expanded n t o -> expanded n (TAB :: t) (repeat SP (8 - n mod 8) ++ o).

(** What tab expansion means: a tab moves to the next multiple of 8. *)
Inductive tab_stops : nat -> str -> str -> Prop :=
| tab_stops_nil : forall n, tab_stops n [] []
| tab_stops_char : forall n c t o, c <> TAB -> tab_stops (S n) t o -> tab_stops n (c :: t) (c :: o)
| tab_stops_tab : forall n t o, tab_stops (n + (8 - n mod 8)) t o ->
    tab_stops n (TAB :: t) (repeat SP (8 - n mod 8) ++ o).

Lemma eight_spaces k : k <= 8 -> skipn k (lit "        ") = repeat SP (8 - k).
Proof. intros H. do 9 (destruct k as [|k]; [reflexivity|]). lia. Qed.

Lemma land7 x : (0 <= x)%Z -> Z.land (x + 8) 7 = (x mod 8)%Z.
Proof.
  intros H. change 7%Z with (Z.ones 3). rewrite Z.land_ones by lia. change (2 ^ 3)%Z with 8%Z.
  rewrite <- (Z_mod_plus_full x 1 8). reflexivity.
Qed.

Lemma expand_loop s : forall out extra n, (0 <= extra)%Z ->
  ((Z.of_nat (length out) + extra) mod 8 = Z.of_nat n mod 8)%Z ->
  exists o, expandTabs_loop s out extra = out ++ o /\ expanded n s o.
Proof.
  induction s as [|c t IH]; intros out extra n He Hn; cbn [expandTabs_loop].
  - exists []. rewrite app_nil_r. split; [reflexivity|constructor].
  - destruct (ceq c TAB) eqn:Ec.
    + apply ceq_true in Ec. subst c. rewrite land7 by lia.
      assert (Hm : Z.to_nat ((Z.of_nat (length out) + extra) mod 8) = n mod 8).
      { rewrite Hn. change 8%Z with (Z.of_nat 8). rewrite <- (Nat2Z.inj_mod n 8). apply Nat2Z.id. }
      pose proof (Nat.mod_upper_bound n 8 ltac:(lia)) as Hb.
      assert (Hm' : ((Z.of_nat (length out) + extra) mod 8 = Z.of_nat (n mod 8))%Z).
      { rewrite <- Hm. rewrite Z2Nat.id; [reflexivity|]. apply Z.mod_pos_bound. lia. }
      rewrite Hm, eight_spaces by lia.
      destruct (IH (out ++ repeat SP (8 - n mod 8))
                   (extra + (Z.of_nat (length out) + extra) mod 8)%Z n) as (o & Ho & Hx).
      * rewrite Hm'. lia.
      * rewrite Hm', app_length, repeat_length.
        replace (Z.of_nat (length out + (8 - n mod 8)) + (extra + Z.of_nat (n mod 8)))%Z
          with (Z.of_nat (length out) + extra + 1 * 8)%Z by lia.
        rewrite Z_mod_plus_full. exact Hn.
      * exists (repeat SP (8 - n mod 8) ++ o). split; [rewrite Ho; symmetry; apply app_assoc|now constructor].
    + apply ceq_false in Ec. destruct (IH (out ++ [c]) extra (S n) He) as (o & Ho & Hx).
      * rewrite app_length. cbn [length]. clear -Hn. Z.div_mod_to_equations. lia.
      * exists (c :: o). split; [rewrite Ho, <- app_assoc; reflexivity|now constructor].
Qed.

Lemma C52_expanded line : expanded 0 line (expandTabs line).
Proof.
  destruct (expand_loop line [] 0%Z 0) as (o & Ho & Hx); [lia|reflexivity|].
  unfold expandTabs. rewrite Ho. exact Hx.
Qed.

Lemma expanded_no_tab n s o : expanded n s o -> ~ In TAB o.
Proof.
  induction 1; cbn; [tauto|intuition|]. intros H1. apply in_app_or in H1 as [H1|H1]; [|tauto].
  apply repeat_spec in H1. discriminate.
Qed.
Lemma expanded_fun n s o : expanded n s o -> forall o', expanded n s o' -> o = o'.
Proof. induction 1; intros o' H'; inversion H'; subst; try congruence; f_equal; auto. Qed.
Lemma tab_stops_fun n s o : tab_stops n s o -> forall o', tab_stops n s o' -> o = o'.
Proof. induction 1; intros o' H'; inversion H'; subst; try congruence; f_equal; auto. Qed.

(** The number of characters other than tabs. *)
Definition nontabs (s : str) : nat := length (filter (fun c => negb (ceq c TAB)) s).

Lemma nontabs_id a : ~ In TAB a -> nontabs a = length a.
Proof.
  unfold nontabs. induction a as [|c a IH]; intros H; [reflexivity|]. cbn.
  destruct (ceq c TAB) eqn:E; [apply ceq_true in E; subst; cbn in H; tauto|].
  cbn. rewrite IH; [reflexivity|]. cbn in H. tauto.
Qed.
Lemma nontabs_cons c t : nontabs (c :: t) = if ceq c TAB then nontabs t else S (nontabs t).
Proof. unfold nontabs. cbn. destruct (ceq c TAB); reflexivity. Qed.

Lemma expanded_app n a o : expanded n a o -> forall b p, expanded (n + nontabs a) b p -> expanded n (a ++ b) (o ++ p).
Proof.
  induction 1; intros b p Hp.
  - rewrite Nat.add_0_r in Hp. exact Hp.
  - cbn. constructor; [assumption|]. apply IHexpanded. rewrite nontabs_cons in Hp.
    apply ceq_false in H. rewrite H in Hp. replace (S n + nontabs t) with (n + S (nontabs t)) by lia. exact Hp.
  - rewrite <- app_assoc. cbn [app]. constructor. apply IHexpanded. exact Hp.
Qed.
Lemma expanded_plain n a : ~ In TAB a -> expanded n a a.
Proof.
  revert n. induction a as [|c a IH]; intros n H; constructor; [cbn in H; intuition congruence|].
  apply IH. cbn in H. tauto.
Qed.
Lemma expanded_total n s : exists o, expanded n s o.
Proof.
  revert n. induction s as [|c t IH]; intros n; [exists []; constructor|].
  destruct (ceq c TAB) eqn:E.
  - apply ceq_true in E. subst. destruct (IH n) as (o & H). eexists. apply expanded_tab. exact H.
  - apply ceq_false in E. destruct (IH (S n)) as (o & H). eexists. constructor; eassumption.
Qed.

(** First tab. *)
Lemma C52_first a b : ~ In TAB a ->
  exists k o, expandTabs (a ++ TAB :: b) = a ++ repeat SP k ++ o /\ 1 <= k <= 8 /\ (length a + k) mod 8 = 0.
Proof.
  intros Ha. destruct (expanded_total (length a) b) as (o & Ho).
  exists (8 - length a mod 8), o.
  assert (E : expanded 0 (a ++ TAB :: b) (a ++ repeat SP (8 - length a mod 8) ++ o)).
  { apply expanded_app; [now apply expanded_plain|]. rewrite nontabs_id by assumption.
    cbn [Nat.add]. now constructor. }
  split; [exact (expanded_fun _ _ _ (C52_expanded _) _ E)|].
  pose proof (Nat.mod_upper_bound (length a) 8 ltac:(lia)).
  split; [lia|]. pose proof (Nat.div_mod (length a) 8 ltac:(lia)) as Hd.
  replace (length a + (8 - length a mod 8)) with (0 + (length a / 8 + 1) * 8) by lia.
  now rewrite Nat.mod_add.
Qed.

(** The second tab misses its stop whenever the first was not at one. *)
Lemma C53_second a b c : ~ In TAB a -> ~ In TAB b -> length a mod 8 <> 0 ->
  exists u v, expandTabs (a ++ TAB :: b ++ TAB :: c) = u ++ v /\ expandTabs (a ++ TAB :: b ++ [TAB]) = u /\
    length u mod 8 <> 0.
Proof.
  intros Ha Hb Hm. destruct (expanded_total (length a + length b) c) as (o & Ho).
  set (u := a ++ repeat SP (8 - length a mod 8) ++ b ++ repeat SP (8 - (length a + length b) mod 8)).
  exists u, o.
  assert (E : forall c o, expanded (length a + length b) c o -> expanded 0 (a ++ TAB :: b ++ TAB :: c) (u ++ o)).
  { clear c o Ho. intros c o Ho. subst u. rewrite <- !app_assoc.
    apply expanded_app; [now apply expanded_plain|]. rewrite nontabs_id by assumption. cbn [Nat.add].
    constructor. apply expanded_app; [now apply expanded_plain|]. rewrite nontabs_id by assumption.
    now constructor. }
  split; [exact (expanded_fun _ _ _ (C52_expanded _) _ (E c o Ho))|].
  split.
  - rewrite <- (app_nil_r u). exact (expanded_fun _ _ _ (C52_expanded _) _ (E [] [] (expanded_nil _))).
  - subst u. rewrite !app_length, !repeat_length.
    pose proof (Nat.mod_upper_bound (length a) 8 ltac:(lia)).
    pose proof (Nat.mod_upper_bound (length a + length b) 8 ltac:(lia)).
    intros Hz. zify. Z.div_mod_to_equations. lia.
Qed.

(** When each tab but the last comes after a multiple of 8 other characters, every tab reaches its stop. *)
Lemma tab_stops_ok s : forall n m o, n mod 8 = m mod 8 -> expanded n s o ->
  (forall a b, s = a ++ TAB :: b -> In TAB b -> (n + nontabs a) mod 8 = 0) -> tab_stops m s o.
Proof.
  induction s as [|c t IH]; intros n m o Hnm He H; inversion He; subst.
  - constructor.
  - constructor; [assumption|]. apply (IH (S n) (S m)); [|assumption|].
    + clear -Hnm. zify. Z.div_mod_to_equations. lia.
    + intros a b -> Hb. specialize (H (c :: a) b eq_refl Hb). rewrite nontabs_cons in H.
      match goal with Hc : c <> TAB |- _ => apply ceq_false in Hc; rewrite Hc in H end.
      replace (S n + nontabs a) with (n + S (nontabs a)) by lia. exact H.
  - rewrite Hnm. constructor. rewrite <- Hnm.
    assert (Ho : expanded n t o0 /\ True) by auto.
    destruct (in_dec ascii_dec TAB t) as [Hin|Hin].
    + pose proof (H [] t eq_refl Hin) as H0. change (nontabs []) with 0 in H0. rewrite Nat.add_0_r in H0.
      apply (IH n); [|assumption|].
      * rewrite H0 in Hnm |- *. rewrite Nat.sub_0_r. clear -Hnm. zify. Z.div_mod_to_equations. lia.
      * intros a b -> Hb. specialize (H (TAB :: a) b eq_refl Hb). exact H.
    + replace o0 with t; [|apply (expanded_fun n t); [now apply expanded_plain|assumption]].
      clear -Hin. generalize (m + (8 - n mod 8)) as k. induction t as [|c t IH]; intros k; constructor.
      * cbn in Hin. intuition congruence.
      * apply IH. cbn in Hin. tauto.
Qed.
Lemma C53_ok line : (forall a b, line = a ++ TAB :: b -> In TAB b -> nontabs a mod 8 = 0) ->
  tab_stops 0 line (expandTabs line).
Proof. intros H. apply (tab_stops_ok line 0 0); [reflexivity|apply C52_expanded|exact H]. Qed.
