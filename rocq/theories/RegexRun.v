(** Explicit results of the matcher on runs of a character class, and first
    results of sequences. *)
From Verif Require Export RegexCaps Utils.
Local Open Scope nat_scope.

Definition advance (st : mstate) (k : nat) : mstate := mkM (m_pos st + k) (skipn k (m_rest st)) (m_caps st).
Definition span (p : char -> bool) (s : str) : nat := length (take_while p s).

Lemma advance_0 st : advance st 0 = st.
Proof. destruct st; unfold advance; cbn. now rewrite Nat.add_0_r. Qed.

Lemma star_cls_step p g k st : star_iter (m (Cls p)) g (S k) st =
  match m_rest st with
  | c :: t => if p c then
                (if g then star_iter (m (Cls p)) g k (advance st 1) ++ [st]
                 else st :: star_iter (m (Cls p)) g k (advance st 1))
              else [st]
  | [] => [st]
  end.
Proof.
  cbn [star_iter m]. destruct st as [pos rest caps]. cbn [m_rest m_pos m_caps].
  destruct rest as [|c t]; [cbn; now destruct g|].
  destruct (p c); [|cbn; now destruct g].
  cbn [filter m_rest length]. replace (Nat.ltb (length t) (S (length t))) with true by (symmetry; apply Nat.ltb_lt; lia).
  cbn [flat_map]. rewrite app_nil_r. unfold advance. cbn [m_pos m_rest m_caps skipn].
  replace (pos + 1) with (S pos) by lia. now destruct g.
Qed.

Lemma map_advance st l : map (advance (advance st 1)) l = map (advance st) (map S l).
Proof.
  rewrite map_map. apply map_ext. intros k. unfold advance. cbn [m_pos m_rest m_caps].
  destruct (m_rest st); cbn; [rewrite ?skipn_nil|]; f_equal; lia.
Qed.

Lemma star_cls_iter p (g : bool) : forall fuel st, length (m_rest st) <= fuel ->
  star_iter (m (Cls p)) g fuel st =
  map (advance st) (let l := seq 0 (S (span p (m_rest st))) in if g then rev l else l).
Proof.
  induction fuel as [|k IH]; intros st Hl.
  - destruct (m_rest st) eqn:E; [|cbn in Hl; lia]. cbn. destruct g; cbn; now rewrite advance_0.
  - rewrite star_cls_step. destruct (m_rest st) as [|c t] eqn:E.
    + cbn. destruct g; cbn; now rewrite advance_0.
    + unfold span. cbn [take_while]. destruct (p c) eqn:Ep; [|cbn; destruct g; cbn; now rewrite advance_0].
      rewrite IH by (unfold advance; cbn; rewrite E; cbn in *; lia).
      replace (m_rest (advance st 1)) with t by (unfold advance; cbn; now rewrite E).
      rewrite map_advance. fold (span p t). cbn [length]. set (n := length (take_while p t)).
      assert (Hs : seq 0 (S (S n)) = 0 :: map S (seq 0 (S n))) by (rewrite seq_shift; reflexivity).
      fold (span p t). change (span p t) with n. cbv zeta.
      destruct g.
      * rewrite Hs. cbn [rev]. rewrite map_app, map_rev. cbn [map]. rewrite advance_0. rewrite ?map_rev. reflexivity.
      * rewrite Hs. cbn [map]. now rewrite advance_0.
Qed.
Lemma m_star_cls p (g : bool) st : m (Star g (Cls p)) st =
  map (advance st) (let l := seq 0 (S (span p (m_rest st))) in if g then rev l else l).
Proof. cbn [m]. apply star_cls_iter. lia. Qed.

Lemma m_star_greedy p st : exists l, m (Star true (Cls p)) st = advance st (span p (m_rest st)) :: l /\
  forall x, In x l -> exists k, k < span p (m_rest st) /\ x = advance st k.
Proof.
  rewrite m_star_cls. cbv zeta. rewrite seq_S, rev_app_distr. cbn [rev app Nat.add map].
  eexists. split; [reflexivity|]. intros x Hx. apply in_map_iff in Hx as (k & <- & Hk).
  apply in_rev, in_seq in Hk. exists k. split; [lia|reflexivity].
Qed.

Lemma flat_map_head {A B} (f : A -> list B) l x r : flat_map f l = x :: r ->
  exists l1 a l2 r', l = l1 ++ a :: l2 /\ (forall b, In b l1 -> f b = []) /\ f a = x :: r'.
Proof.
  induction l as [|a l IH]; cbn; [discriminate|]. destruct (f a) as [|y s] eqn:E; cbn.
  - intros H. destruct (IH H) as (l1 & b & l2 & r' & -> & H1 & H2).
    exists (a :: l1), b, l2, r'. split; [reflexivity|]. split; [|exact H2].
    intros z [<-|Hz]; auto.
  - intros H. injection H as -> _. exists [], a, l, s. split; [reflexivity|]. split; [intros b []|exact E].
Qed.
Lemma flat_map_nil {A B} (f : A -> list B) l : flat_map f l = [] <-> forall a, In a l -> f a = [].
Proof.
  induction l as [|a l IH]; cbn; [firstorder|]. destruct (f a) eqn:E; cbn.
  - rewrite IH. split; [|auto]. intros H b [<-|Hb]; [exact E|now apply H].
  - split; [discriminate|]. intros H. exfalso. specialize (H a (or_introl eq_refl)). congruence.
Qed.

Lemma span_split p s : s = firstn (span p s) s ++ skipn (span p s) s.
Proof. symmetry. apply firstn_skipn. Qed.
Lemma span_prefix p s : Forall (fun c => p c = true) (firstn (span p s) s).
Proof. unfold span. induction s as [|c s IH]; cbn; [constructor|]. destruct (p c) eqn:E; cbn; constructor; auto. Qed.
Lemma span_stop p s c t : skipn (span p s) s = c :: t -> p c = false.
Proof.
  unfold span. induction s as [|d s IH]; cbn; [discriminate|]. destruct (p d) eqn:E; cbn; [apply IH|].
  intros H. injection H as -> _. exact E.
Qed.
Lemma span_app p a c t : Forall (fun c => p c = true) a -> p c = false -> span p (a ++ c :: t) = length a.
Proof. unfold span. induction 1 as [|d a Hd Ha IH]; intros Hc; cbn; [now rewrite Hc|]. rewrite Hd. cbn. auto. Qed.
Lemma span_all p a : Forall (fun c => p c = true) a -> span p a = length a.
Proof. unfold span. induction 1 as [|d a Hd Ha IH]; cbn; [reflexivity|]. rewrite Hd. cbn. auto. Qed.
Lemma span_le p s : span p s <= length s.
Proof. unfold span. induction s as [|c s IH]; cbn; [lia|]. destruct (p c); cbn; lia. Qed.

Lemma nth_skip_first {A} (l : list A) : forall k n c t, k < n -> skipn k l = c :: t -> nth_error (firstn n l) k = Some c.
Proof.
  induction l as [|x l IH]; intros [|k] [|n] c t Hk H; cbn in *; try discriminate; try lia.
  - now injection H as -> _.
  - apply (IH k n c t); [lia|exact H].
Qed.

(** When what follows a greedy span cannot begin with a character of the class,
    the span is taken whole. *)
Lemma star_then p b st :
  (forall st' c t, m_rest st' = c :: t -> p c = true -> m b st' = []) ->
  m (Seq (Star true (Cls p)) b) st = m b (advance st (span p (m_rest st))).
Proof.
  intros H. change (m (Seq (Star true (Cls p)) b) st) with (flat_map (m b) (m (Star true (Cls p)) st)).
  rewrite m_star_cls. cbv zeta. rewrite seq_S, rev_app_distr. cbn [rev app Nat.add map flat_map].
  replace (flat_map (m b) (map (advance st) (rev (seq 0 (span p (m_rest st)))))) with (@nil mstate); [apply app_nil_r|].
  symmetry. apply flat_map_nil. intros a Ha. apply in_map_iff in Ha as (k & <- & Hk).
  apply in_rev, in_seq in Hk. pose proof (span_prefix p (m_rest st)) as HF.
  pose proof (span_le p (m_rest st)) as HL.
  destruct (skipn k (m_rest st)) as [|c t] eqn:E.
  - apply (f_equal (@length _)) in E. rewrite skipn_length in E. cbn in E. lia.
  - apply (H _ c t); [exact E|].
    assert (Hn : nth_error (firstn (span p (m_rest st)) (m_rest st)) k = Some c).
    { apply (nth_skip_first _ k _ c t); [lia|exact E]. }
    apply nth_error_In in Hn. rewrite Forall_forall in HF. exact (HF c Hn).
Qed.
