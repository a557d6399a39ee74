(** Captures: what each recorded group holds. *)
From Verif Require Export RegexLemmas.

Fixpoint groups (r : re) : list (nat * re) :=
  match r with
  | Eps | Cls _ | Bol | Eol => []
  | Seq a b | Alt a b => groups a ++ groups b
  | Star _ a | Opt a => groups a
  | Grp n a => (n, a) :: groups a
  end.

(** Groups that every match records. *)
Fixpoint always (n : nat) (r : re) : bool :=
  match r with
  | Seq a b => always n a || always n b
  | Alt a b => always n a && always n b
  | Grp k a => Nat.eqb k n || always n a
  | _ => false
  end.

(** [whole] is the subject; the entry's text sits at its offset and is a match of
    the body of one of the groups with its number. *)
Definition cap_entry (gs : list (nat * re)) (whole : str) (e : nat * (nat * str)) : Prop :=
  exists a pre post, In (fst e, a) gs /\ length pre = fst (snd e) /\
    whole = pre ++ snd (snd e) ++ post /\ den a pre (snd (snd e)) post.

Lemma cap_entry_incl gs gs' whole e : incl gs gs' -> cap_entry gs whole e -> cap_entry gs' whole e.
Proof. intros H (a & pre & post & Hin & HH). exists a, pre, post. split; [now apply H|exact HH]. Qed.

Definition caps_sound (gs : list (nat * re)) (st st' : mstate) (pre : str) : Prop :=
  exists new, m_caps st' = new ++ m_caps st /\ Forall (cap_entry gs (pre ++ m_rest st)) new.

Lemma caps_sound_refl gs st pre : caps_sound gs st st pre.
Proof. exists []. split; [reflexivity|constructor]. Qed.
Lemma caps_sound_trans gs st mid st' pre u :
  reads st mid u -> caps_sound gs st mid pre -> caps_sound gs mid st' (pre ++ u) -> caps_sound gs st st' pre.
Proof.
  intros [Hr _] (n1 & E1 & F1) (n2 & E2 & F2). exists (n2 ++ n1). split; [rewrite E2, E1; apply app_assoc|].
  apply Forall_app. split; [|exact F1]. rewrite Hr, app_assoc. exact F2.
Qed.
Lemma caps_sound_incl gs gs' st st' pre : incl gs gs' -> caps_sound gs st st' pre -> caps_sound gs' st st' pre.
Proof.
  intros Hi (n & E & F). exists n. split; [exact E|]. eapply Forall_impl; [|exact F].
  intros e. now apply cap_entry_incl.
Qed.

Lemma m_caps_sound r : forall st st' pre, m_pos st = length pre -> In st' (m r st) ->
  caps_sound (groups r) st st' pre.
Proof.
  induction r as [|p|a IHa b IHb|a IHa b IHb|g a IHa|a IHa|n a IHa| |]; intros st st' pre Hp Hin; cbn in Hin.
  - destruct Hin as [<-|[]]. apply caps_sound_refl.
  - destruct (m_rest st) as [|c t] eqn:E; [destruct Hin|]. destruct (p c) eqn:Ep; [|destruct Hin].
    destruct Hin as [<-|[]]. exists []. split; [reflexivity|constructor].
  - apply in_flat_map in Hin as (mid & H1 & H2).
    destruct (m_sound a st mid pre Hp H1) as (u & Hr & _).
    apply caps_sound_trans with (mid := mid) (u := u); [exact Hr| |].
    + apply caps_sound_incl with (gs := groups a); [apply incl_appl, incl_refl|]. now apply IHa.
    + apply caps_sound_incl with (gs := groups b); [apply incl_appr, incl_refl|]. apply IHb; [|exact H2].
      destruct Hr as [_ Hr]. rewrite app_length. lia.
  - apply in_app_or in Hin as [H|H].
    + apply caps_sound_incl with (gs := groups a); [apply incl_appl, incl_refl|]. now apply IHa.
    + apply caps_sound_incl with (gs := groups b); [apply incl_appr, incl_refl|]. now apply IHb.
  - cbn [groups]. revert Hin. generalize (length (m_rest st)) as fuel. intros fuel. revert st pre Hp.
    induction fuel as [|k IH]; intros st pre Hp Hin; cbn in Hin.
    + destruct Hin as [<-|[]]. apply caps_sound_refl.
    + assert (Hcase : st' = st \/ In st' (flat_map (star_iter (m a) g k)
          (filter (fun st' => Nat.ltb (length (m_rest st')) (length (m_rest st))) (m a st)))).
      { destruct g; [apply in_app_or in Hin; cbn in Hin; intuition | destruct Hin; auto]. }
      destruct Hcase as [->|Hm]; [apply caps_sound_refl|].
      apply in_flat_map in Hm as (mid & Hmid & Hin').
      apply filter_In in Hmid as [Hmid _].
      destruct (m_sound a st mid pre Hp Hmid) as (u & Hr & _).
      apply caps_sound_trans with (mid := mid) (u := u); [exact Hr|now apply IHa|].
      apply IH; [|exact Hin']. destruct Hr as [_ Hr]. rewrite app_length. lia.
  - apply in_app_or in Hin as [H|H]; [now apply IHa|].
    destruct H as [<-|[]]. apply caps_sound_refl.
  - apply in_map_iff in Hin as (mid & <- & H).
    destruct (m_sound a st mid pre Hp H) as (u & [Hr Hpos] & Hd).
    destruct (IHa st mid pre Hp H) as (new & E & F).
    eexists (_ :: new). split; [cbn; rewrite E; reflexivity|]. constructor.
    + exists a, pre, (m_rest mid). cbn [fst snd groups]. split; [now left|]. split; [now rewrite Hp|].
      rewrite Hr. replace (m_pos mid - m_pos st)%nat with (length u) by lia.
      rewrite firstn_len_app. split; [reflexivity|exact Hd].
    + eapply Forall_impl; [|exact F]. intros e. apply cap_entry_incl. apply incl_tl, incl_refl.
  - destruct (Nat.eqb_spec (m_pos st) 0) as [E|E]; [|destruct Hin]. destruct Hin as [<-|[]]. apply caps_sound_refl.
  - destruct (m_rest st) eqn:E; [|destruct Hin]. destruct Hin as [<-|[]]. apply caps_sound_refl.
Qed.

Lemma m_caps_grow r st st' : In st' (m r st) -> exists new, m_caps st' = new ++ m_caps st.
Proof.
  intros H. destruct (m_caps_sound r st st' (repeat SP (m_pos st))) as (new & E & _);
    [now rewrite repeat_length|exact H|]. eauto.
Qed.

Lemma m_always n r : forall st st', always n r = true -> In st' (m r st) -> exists v, In (n, v) (m_caps st').
Proof.
  induction r as [|p|a IHa b IHb|a IHa b IHb|g a IHa|a IHa|k a IHa| |]; intros st st' Ha Hin; cbn in Ha; try discriminate.
  - cbn in Hin. apply in_flat_map in Hin as (mid & H1 & H2). apply orb_true_iff in Ha as [Ha|Ha].
    + destruct (IHa _ _ Ha H1) as (v & Hv). destruct (m_caps_grow b mid st' H2) as (new & ->).
      exists v. apply in_or_app. now right.
    + exact (IHb _ _ Ha H2).
  - apply andb_true_iff in Ha as [H1 H2]. cbn in Hin. apply in_app_or in Hin as [H|H]; eauto.
  - cbn in Hin. apply in_map_iff in Hin as (mid & <- & H). apply orb_true_iff in Ha as [Ha|Ha].
    + apply Nat.eqb_eq in Ha. subst. eexists. now left.
    + destruct (IHa _ _ Ha H) as (v & Hv). exists v. now right.
Qed.

(** The text of a group after a search or a match. *)
Definition caps_of (r : re) (s : str) (st : mstate) : Prop :=
  (forall n v, get_group n st = Some v -> cap_entry (groups r) s (n, v)) /\
  (forall n, always n r = true -> exists v, get_group n st = Some v).

Lemma get_group_In n st v : get_group n st = Some v -> In (n, v) (m_caps st).
Proof.
  unfold get_group. intros H. destruct (find _ (m_caps st)) as [[k w]|] eqn:E; cbn in H; [|discriminate].
  injection H as ->. apply find_some in E as [H1 H2]. cbn in H2. apply Nat.eqb_eq in H2. now subst.
Qed.
Lemma In_get_group n st v : In (n, v) (m_caps st) -> exists w, get_group n st = Some w.
Proof.
  intros H. unfold get_group. destruct (find _ (m_caps st)) as [[k w]|] eqn:E; cbn; [eauto|].
  pose proof (find_none _ _ E (n, v) H) as H1. cbn in H1. rewrite Nat.eqb_refl in H1. discriminate.
Qed.

Lemma m_caps_of r pre rest st' : In st' (m r (mkM (length pre) rest [])) -> caps_of r (pre ++ rest) st'.
Proof.
  intros H. split.
  - intros n v Hg. apply get_group_In in Hg.
    destruct (m_caps_sound r (mkM (length pre) rest []) st' pre eq_refl H) as (new & E & F). cbn in E.
    rewrite app_nil_r in E. rewrite E in Hg. rewrite Forall_forall in F. exact (F _ Hg).
  - intros n Ha. destruct (m_always n r _ _ Ha H) as (v & Hv). now apply In_get_group in Hv.
Qed.

Lemma search_caps r s st : re_search r s = Some st -> caps_of r s st.
Proof.
  intros H. destruct (re_search_some r s st H) as (a & u & Hs & _ & _ & (l & Hm) & _).
  rewrite Hs. apply m_caps_of. rewrite Hm. now left.
Qed.
Lemma match_caps r s st : re_match r s = Some st -> caps_of r s st.
Proof.
  intros H. unfold re_match in H. apply find_some in H as [H _].
  change s with ([] ++ s). now apply m_caps_of.
Qed.

Lemma caps_of_cap r s st n : caps_of r s st -> always n r = true ->
  exists a pre post, In (n, a) (groups r) /\ s = pre ++ cap n st ++ post /\ den a pre (cap n st) post.
Proof.
  intros [H1 H2] Ha. destruct (H2 n Ha) as ([p t] & Hg). unfold cap. rewrite Hg.
  destruct (H1 _ _ Hg) as (a & pre & post & Hin & _ & Hs & Hd). cbn in *. eauto 6.
Qed.
