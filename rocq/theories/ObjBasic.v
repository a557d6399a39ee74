(** Proofs for the objdump properties C01-C07, C21-C24. *)
From Verif Require Export ObjInv ObjSpec.

Lemma step_inv mb flt (P : ostate -> Prop) :
  (forall s c s', c <> LF -> P s -> trans mb flt s c s' -> P s') ->
  (forall s x, P s -> o_stopParsing s = false -> eol_trans flt s x -> P (next_line x)) ->
  forall s c s', P s -> step mb flt s c = Ok s' -> P s'.
Proof.
  intros H1 H2 s c s' HP H. destruct (Ascii.eqb c LF) eqn:E.
  - apply Ascii.eqb_eq in E. subst. apply step_LF in H as [[_ ->]|(Hs & x & Hx & ->)]; eauto.
  - apply Ascii.eqb_neq in E. eapply H1; eauto using step_trans.
Qed.

Lemma reachable_inv mb flt (P : ostate -> Prop) :
  P ostate0 ->
  (forall s, P s -> P (set_o_inAddress true (set_o_total_lines 0 s))) ->
  (forall s c s', c <> LF -> P s -> trans mb flt s c s' -> P s') ->
  (forall s x, P s -> o_stopParsing s = false -> eol_trans flt s x -> P (next_line x)) ->
  forall s, reachable mb flt s -> P s.
Proof.
  intros H0 Hset H1 H2 s Hr. induction Hr as [|s input s' _ IH H]; [exact H0|].
  unfold fromStream in H. revert H. apply feed_inv; [|now apply Hset]. now apply step_inv.
Qed.

Lemma run_inv mb flt (P : ostate -> Prop) :
  P (set_o_inAddress true ostate0) ->
  (forall s c s', c <> LF -> P s -> trans mb flt s c s' -> P s') ->
  (forall s x, P s -> o_stopParsing s = false -> eol_trans flt s x -> P (next_line x)) ->
  forall input s, run mb flt input = Ok s -> P s.
Proof.
  intros H0 H1 H2 input s H. unfold run, fromStream in H. revert H. apply feed_inv; [|exact H0]. now apply step_inv.
Qed.

Lemma trans_out mb flt s c s' : c <> LF -> trans mb flt s c s' ->
  o_lines s' = o_lines s /\ o_labels s' = o_labels s /\ o_total_lines s' = o_total_lines s
  /\ o_stopParsing s' = o_stopParsing s /\ o_ignoreUntilNextLabel s' = o_ignoreUntilNextLabel s.
Proof.
  intros Hc H. destruct H; try solve [repeat split];
    match goal with H : addr_trans _ _ |- _ => destruct H end; repeat split.
Qed.

(** ** C01 *)
Lemma feed_drop_cr mb flt input : forall s, feed mb flt s (drop_cr input) = feed mb flt s input.
Proof.
  induction input as [|c t IH]; intros s; [reflexivity|]. cbn [drop_cr filter feed].
  change (Ascii.eqb c CR) with (ceq c CR). destruct (ceq c CR) eqn:E; cbn [negb].
  - unfold step. rewrite E. destruct (o_stopParsing s); cbn [obind]; apply IH.
  - cbn [feed]. destruct (step mb flt s c); cbn [obind]; auto.
Qed.

(** ** C02 *)
Lemma feed_tail mb flt tail : ~ In LF tail -> forall s s', feed mb flt s tail = Ok s' -> same_out s s'.
Proof.
  induction tail as [|c t IH]; intros Hn s s' H; cbn [feed] in H.
  - injection H as <-. apply same_out_refl.
  - apply obind_Ok in H as (s1 & H1 & H2). cbn [In] in Hn.
    eapply same_out_trans; [eapply step_out; [|eassumption]; tauto|]. apply IH; tauto.
Qed.

Lemma fromStream_app_Ok mb flt s a b s2 : fromStream mb flt s (a ++ b) = Ok s2 ->
  exists s1, fromStream mb flt s a = Ok s1 /\ feed mb flt s1 b = Ok s2.
Proof. unfold fromStream. rewrite feed_app. intros H. apply obind_Ok in H as (s1 & H1 & H2). eauto. Qed.

(** ** C03 *)
Definition Cap (s : ostate) : Prop :=
  (o_stopParsing s = false /\ Z.of_nat (length (o_lines s)) <= 5000)
  \/ (o_stopParsing s = true /\ exists pre, o_lines s = pre ++ [truncated_line] /\ Z.of_nat (length pre) = 5000).

Lemma push_line_cap l s : o_stopParsing s = false -> Z.of_nat (length (o_lines s)) <= 5000 -> Cap (push_line l s).
Proof.
  intros Hs Hl. unfold push_line, Cap. destruct (_ <? _) eqn:E; osimp.
  - left. rewrite app_length. cbn [length]. lia.
  - right. split; [reflexivity|]. eexists. split; [reflexivity|]. lia.
Qed.

Lemma rm_Ok flt s ls lb : rm flt s = Ok (ls, lb) ->
  (ls = o_lines s /\ lb = o_labels s) \/
  (f_library_functions flt = true /\ exists name n before, o_labels s = before ++ [(name, n)] /\ 1 <= n <= Z.of_nat (length (o_lines s)) + 1
     /\ existsb (fun l => s_is_usercode (l_source l)) (skipn (Z.to_nat (n - 1)) (o_lines s)) = false
     /\ ls = firstn (Z.to_nat (n - 1)) (o_lines s) /\ lb = before).
Proof.
  unfold rm, rm_last. destruct (f_library_functions flt); [|intros [= <- <-]; now left].
  destruct (rev (o_labels s)) as [|[nm k] b] eqn:Er; [intros [= <- <-]; now left|].
  apply (f_equal (@rev _)) in Er. rewrite rev_involutive in Er. cbn [rev] in Er.
  destruct (_ || _) eqn:E; [discriminate|]. destruct (existsb _ _) eqn:Ex; intros [= <- <-]; [now left|].
  right. split; [reflexivity|]. exists nm, k, (rev b). repeat split; auto; lia.
Qed.
Lemma rm_length flt s ls lb : rm flt s = Ok (ls, lb) -> (length ls <= length (o_lines s))%nat.
Proof.
  intros H. apply rm_Ok in H as [[-> ->]|(_ & nm & n & b & _ & _ & _ & -> & _)]; [lia|].
  rewrite firstn_length. lia.
Qed.

Lemma Cap_eol flt s x : Cap s -> o_stopParsing s = false -> eol_trans flt s x -> Cap (next_line x).
Proof.
  intros [[Hs Hl]|[Hs _]] Hs' H; [|congruence].
  assert (HH : forall x, Cap x -> Cap (next_line x)) by (intros y Hy; exact Hy). apply HH; clear HH.
  destruct H as [ls lb _ _ _ Hrm|ls lb _ _ _ Hrm|ls lb n _ _ _ Hrm| | | |]; try apply rm_length in Hrm.
  - left. osimp. split; [exact Hs|lia].
  - apply push_line_cap; osimp; [exact Hs|lia].
  - left. osimp. split; [exact Hs|lia].
  - now left.
  - now left.
  - now apply push_line_cap.
  - now left.
Qed.
Lemma Cap_trans mb flt s c s' : c <> LF -> Cap s -> trans mb flt s c s' -> Cap s'.
Proof. intros Hc HC H. apply trans_out in H as (H1 & _ & _ & H4 & _); [|exact Hc]. unfold Cap. now rewrite H1, H4. Qed.
Lemma Cap_reachable mb flt s : reachable mb flt s -> Cap s.
Proof.
  apply reachable_inv; [left; cbn; split; [reflexivity|lia] | intros x Hx; exact Hx | apply Cap_trans | apply Cap_eol].
Qed.

Lemma fromStream_stopped mb flt s input : o_stopParsing s = true ->
  fromStream mb flt s input = Ok (set_o_inAddress true (set_o_total_lines 0 s)).
Proof. intros H. apply feed_stopped. exact H. Qed.

(** ** C04 *)
Lemma count_lf_app a b : count_lf (a ++ b) = count_lf a + count_lf b.
Proof. induction a as [|c a IH]; [reflexivity|]. cbn [app count_lf]. rewrite IH. lia. Qed.
Lemma count_lf_nonneg a : 0 <= count_lf a.
Proof. induction a as [|c a IH]; cbn [count_lf]; [lia|]. destruct (Ascii.eqb c LF); lia. Qed.

Lemma push_line_total l s : o_total_lines (push_line l s) = o_total_lines s.
Proof. unfold push_line. destruct (_ <? _); reflexivity. Qed.
Lemma eol_total flt s x : eol_trans flt s x -> o_total_lines (next_line x) = o_total_lines s + 1.
Proof.
  intros H. unfold next_line, commonReset. osimp. f_equal.
  destruct H; osimp; rewrite ?push_line_total; reflexivity.
Qed.

Lemma feed_split mb flt input : forall s s', o_stopParsing s = false -> feed mb flt s input = Ok s' ->
  (o_stopParsing s' = false /\ o_total_lines s' = o_total_lines s + count_lf input)
  \/ (exists a b s0, input = a ++ LF :: b /\ feed mb flt s a = Ok s0 /\ o_stopParsing s0 = false
        /\ step mb flt s0 LF = Ok s' /\ o_stopParsing s' = true /\ o_total_lines s' = o_total_lines s + count_lf a + 1).
Proof.
  induction input as [|c t IH]; intros s s' Hs H; cbn [feed] in H.
  - injection H as <-. left. cbn [count_lf]. split; [exact Hs|lia].
  - apply obind_Ok in H as (s1 & H1 & H2).
    destruct (o_stopParsing s1) eqn:Hs1.
    + rewrite feed_stopped in H2 by exact Hs1. injection H2 as <-. right.
      destruct (Ascii.eqb c LF) eqn:E.
      * apply Ascii.eqb_eq in E. subst. exists [], t, s. repeat split; auto.
        pose proof H1 as H3. apply step_LF in H3 as [[? ->]|(_ & x & Hx & ->)]; [congruence|].
        rewrite (eol_total _ _ _ Hx). cbn [count_lf]. lia.
      * apply Ascii.eqb_neq in E. pose proof (step_out _ _ _ _ _ E H1) as (_ & _ & _ & H5 & _). congruence.
    + assert (Ht : o_total_lines s1 = o_total_lines s + (if Ascii.eqb c LF then 1 else 0)).
      { destruct (Ascii.eqb c LF) eqn:E.
        - apply Ascii.eqb_eq in E. subst. apply step_LF in H1 as [[? ->]|(_ & x & Hx & ->)]; [congruence|].
          now rewrite (eol_total _ _ _ Hx).
        - apply Ascii.eqb_neq in E. pose proof (step_out _ _ _ _ _ E H1) as (_ & _ & H5 & _). lia. }
      destruct (IH s1 s' Hs1 H2) as [[A B]|(a & b & s0 & A & B & C & D & E & F)].
      * left. split; [exact A|]. cbn [count_lf]. lia.
      * right. exists (c :: a), b, s0. subst t. cbn [feed]. rewrite H1. cbn [obind count_lf app]. repeat split; auto. lia.
Qed.

Lemma push_line_len l s : length (o_lines (push_line l s)) = S (length (o_lines s)).
Proof. unfold push_line. destruct (_ <? _); osimp; rewrite app_length; cbn [length]; lia. Qed.
Lemma eol_len flt s x : eol_trans flt s x -> (length (o_lines (next_line x)) <= S (length (o_lines s)))%nat.
Proof.
  rewrite next_line_lines. intros H.
  destruct H as [ls lb _ _ _ Hrm|ls lb _ _ _ Hrm|ls lb n _ _ _ Hrm| | | |]; try apply rm_length in Hrm;
    rewrite ?push_line_len; osimp; lia.
Qed.
Lemma total_ge mb flt input s : run mb flt input = Ok s -> Z.of_nat (length (o_lines s)) <= o_total_lines s.
Proof.
  apply (run_inv mb flt (fun s => Z.of_nat (length (o_lines s)) <= o_total_lines s)).
  - cbn. lia.
  - intros x c x' Hc HP H. apply trans_out in H as (H1 & _ & H3 & _); [|exact Hc]. rewrite H1, H3. exact HP.
  - intros x y HP _ H. rewrite (eol_total _ _ _ H). apply eol_len in H. lia.
Qed.
