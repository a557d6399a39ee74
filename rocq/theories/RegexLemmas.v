(** The matcher of Regex.v finds exactly the matches of RegexSpec.v. *)
From Verif Require Export RegexSpec Lemmas.

Lemma den_app_inv_nil g a pre u post : den (Star g a) pre u post ->
  u = [] \/ exists x v, u = x ++ v /\ x <> [] /\ den a pre x (v ++ post) /\ den (Star g a) (pre ++ x) v post.
Proof.
  intros H. remember (Star g a) as r eqn:E. revert E.
  induction H; intros E; try discriminate; [now left|].
  injection E as -> ->.
  destruct u as [|c u].
  - rewrite app_nil_r in IHden2. exact (IHden2 eq_refl).
  - right. exists (c :: u), v. repeat split; [discriminate|exact H|exact H0].
Qed.

(** A state reached from [st] has read some text. *)
Definition reads (st st' : mstate) (u : str) : Prop :=
  m_rest st = u ++ m_rest st' /\ m_pos st' = (m_pos st + length u)%nat.

Lemma star_sound (f : mstate -> list mstate) (a : re) g
  (Hf : forall st st' pre, m_pos st = length pre -> In st' (f st) ->
        exists u, reads st st' u /\ den a pre u (m_rest st')) :
  forall fuel st st' pre, m_pos st = length pre -> In st' (star_iter f g fuel st) ->
  exists u, reads st st' u /\ den (Star g a) pre u (m_rest st').
Proof.
  induction fuel as [|k IH]; intros st st' pre Hp Hin; cbn in Hin.
  - destruct Hin as [<-|[]]. exists []. split; [split; [reflexivity|cbn;lia]|constructor].
  - assert (Hcase : st' = st \/ In st' (flat_map (star_iter f g k)
        (filter (fun st' => Nat.ltb (length (m_rest st')) (length (m_rest st))) (f st)))).
    { destruct g; [apply in_app_or in Hin; cbn in Hin; intuition | destruct Hin; auto]. }
    destruct Hcase as [->|Hm].
    + exists []. split; [split; [reflexivity|cbn;lia]|constructor].
    + apply in_flat_map in Hm as (mid & Hmid & Hin').
      apply filter_In in Hmid as [Hmid _].
      destruct (Hf st mid pre Hp Hmid) as (u & [Hr1 Hp1] & Hd1).
      destruct (IH mid st' (pre ++ u)) as (v & [Hr2 Hp2] & Hd2); [rewrite app_length; lia|exact Hin'|].
      exists (u ++ v). split.
      * split; [rewrite Hr1, Hr2; apply app_assoc | rewrite app_length; lia].
      * apply den_star_cons; [rewrite <- Hr2; exact Hd1|exact Hd2].
Qed.

Lemma m_sound r : forall st st' pre, m_pos st = length pre -> In st' (m r st) ->
  exists u, reads st st' u /\ den r pre u (m_rest st').
Proof.
  induction r as [|p|a IHa b IHb|a IHa b IHb|g a IHa|a IHa|n a IHa| |]; intros st st' pre Hp Hin; cbn in Hin.
  - destruct Hin as [<-|[]]. exists []. split; [split; [reflexivity|cbn;lia]|constructor].
  - destruct (m_rest st) as [|c t] eqn:E; [destruct Hin|]. destruct (p c) eqn:Ep; [|destruct Hin].
    destruct Hin as [<-|[]]. exists [c]. split; [split; [cbn; exact E|cbn;lia]|now constructor].
  - apply in_flat_map in Hin as (mid & H1 & H2).
    destruct (IHa st mid pre Hp H1) as (u & [Hr1 Hp1] & Hd1).
    destruct (IHb mid st' (pre ++ u)) as (v & [Hr2 Hp2] & Hd2); [rewrite app_length; lia|exact H2|].
    exists (u ++ v). split.
    + split; [rewrite Hr1, Hr2; apply app_assoc | rewrite app_length; lia].
    + constructor; [rewrite <- Hr2; exact Hd1|exact Hd2].
  - apply in_app_or in Hin as [H|H].
    + destruct (IHa _ _ _ Hp H) as (u & Hr & Hd). exists u. split; [exact Hr|now apply den_alt_l].
    + destruct (IHb _ _ _ Hp H) as (u & Hr & Hd). exists u. split; [exact Hr|now apply den_alt_r].
  - apply (star_sound (m a) a g) with (fuel := length (m_rest st)); assumption.
  - apply in_app_or in Hin as [H|H].
    + destruct (IHa _ _ _ Hp H) as (u & Hr & Hd). exists u. split; [exact Hr|now apply den_opt_some].
    + destruct H as [<-|[]]. exists []. split; [split; [reflexivity|cbn;lia]|constructor].
  - apply in_map_iff in Hin as (mid & <- & H).
    destruct (IHa _ _ _ Hp H) as (u & Hr & Hd). exists u. split; [exact Hr|now constructor].
  - destruct (Nat.eqb_spec (m_pos st) 0) as [E|E]; [|destruct Hin]. destruct Hin as [<-|[]].
    rewrite E in Hp. destruct pre; [|discriminate].
    exists []. split; [split; [reflexivity|cbn;lia]|constructor].
  - destruct (m_rest st) eqn:E; [|destruct Hin]. destruct Hin as [<-|[]].
    exists []. rewrite E. split; [split; [cbn; now rewrite E|cbn;lia]|constructor].
Qed.

Lemma star_complete (f : mstate -> list mstate) (a : re) g
  (Hf : forall st pre u post, m_pos st = length pre -> m_rest st = u ++ post -> den a pre u post ->
        exists st', In st' (f st) /\ m_rest st' = post /\ m_pos st' = (m_pos st + length u)%nat) :
  forall fuel st pre u post, m_pos st = length pre -> m_rest st = u ++ post -> (length u <= fuel)%nat ->
  den (Star g a) pre u post ->
  exists st', In st' (star_iter f g fuel st) /\ m_rest st' = post /\ m_pos st' = (m_pos st + length u)%nat.
Proof.
  induction fuel as [|k IH]; intros st pre u post Hp Hr Hl Hd.
  - destruct u; [|cbn in Hl; lia]. exists st. cbn. repeat split; [now left|exact Hr|lia].
  - apply den_app_inv_nil in Hd as [->|(x & v & -> & Hx & Hd1 & Hd2)].
    + exists st. repeat split; [|exact Hr|cbn;lia]. cbn. destruct g; [apply in_or_app; right; now left|now left].
    + rewrite <- app_assoc in Hr. destruct (Hf st pre x (v ++ post) Hp Hr Hd1) as (mid & Hm & Hmr & Hmp).
      assert (Hxl : (0 < length x)%nat) by (destruct x; [congruence|cbn; lia]).
      rewrite app_length in Hl.
      destruct (IH mid (pre ++ x) v post) as (st' & Hin & Hr' & Hp');
        [rewrite app_length; lia|exact Hmr|lia|exact Hd2|].
      exists st'. repeat split; [|exact Hr'|rewrite app_length; lia].
      assert (HH : In st' (flat_map (star_iter f g k)
        (filter (fun st' => Nat.ltb (length (m_rest st')) (length (m_rest st))) (f st)))).
      { apply in_flat_map. exists mid. split; [|exact Hin]. apply filter_In. split; [exact Hm|].
        apply Nat.ltb_lt. rewrite Hmr, Hr, !app_length. lia. }
      cbn. destruct g; [apply in_or_app; now left|now right].
Qed.

Lemma m_complete r : forall st pre u post, m_pos st = length pre -> m_rest st = u ++ post -> den r pre u post ->
  exists st', In st' (m r st) /\ m_rest st' = post /\ m_pos st' = (m_pos st + length u)%nat.
Proof.
  induction r as [|p|a IHa b IHb|a IHa b IHb|g a IHa|a IHa|n a IHa| |]; intros st pre u post Hp Hr Hd.
  - inversion Hd; subst. exists st. cbn. repeat split; [now left|exact Hr|lia].
  - inversion Hd; subst. cbn in Hr. cbn. rewrite Hr, H0.
    eexists; repeat split; [now left|reflexivity|cbn; lia].
  - inversion Hd; subst. rewrite <- app_assoc in Hr.
    destruct (IHa st pre u0 (v ++ post) Hp Hr) as (mid & Hm & Hmr & Hmp); [assumption|].
    destruct (IHb mid (pre ++ u0) v post) as (st' & Hin & Hr' & Hp'); [rewrite app_length; lia|assumption|assumption|].
    exists st'. repeat split; [cbn; apply in_flat_map; eauto|exact Hr'|rewrite app_length; lia].
  - inversion Hd; subst.
    + destruct (IHa st pre u post Hp Hr) as (st' & Hin & H1 & H2); [assumption|].
      exists st'. repeat split; auto. cbn. apply in_or_app. now left.
    + destruct (IHb st pre u post Hp Hr) as (st' & Hin & H1 & H2); [assumption|].
      exists st'. repeat split; auto. cbn. apply in_or_app. now right.
  - cbn. apply (star_complete (m a) a g) with (pre := pre); auto. rewrite Hr, app_length. lia.
  - inversion Hd; subst.
    + exists st. cbn. repeat split; [apply in_or_app; right; now left|exact Hr|lia].
    + destruct (IHa st pre u post Hp Hr) as (st' & Hin & H1 & H2); [assumption|].
      exists st'. repeat split; auto. cbn. apply in_or_app. now left.
  - inversion Hd; subst.
    destruct (IHa st pre u post Hp Hr) as (st' & Hin & H1 & H2); [assumption|].
    exists (close_group n st st'). repeat split; auto. cbn. now apply in_map.
  - inversion Hd; subst. cbn in Hp. exists st. cbn. rewrite Hp. cbn. repeat split; [now left|exact Hr].
  - inversion Hd; subst. cbn in Hr. exists st. cbn. rewrite Hr. cbn. repeat split; [now left|lia].
Qed.

Lemma find_is_some {A} (f : A -> bool) l : is_some (find f l) = true <-> exists x, In x l /\ f x = true.
Proof.
  destruct (find f l) as [x|] eqn:E; cbn.
  - apply find_some in E. split; [intros _; now exists x|reflexivity].
  - split; [discriminate|]. intros (x & Hx & Hf). pose proof (find_none _ _ E x Hx). congruence.
Qed.

Lemma re_match_den r s : is_some (re_match r s) = true <-> den r [] s [].
Proof.
  unfold re_match. rewrite find_is_some. split.
  - intros (st' & Hin & Hn). apply is_nil_true in Hn.
    destruct (m_sound r (mkM 0 s []) st' [] eq_refl Hin) as (u & [Hr _] & Hd).
    cbn in Hr. rewrite Hn, app_nil_r in *. now subst.
  - intros Hd. destruct (m_complete r (mkM 0 s []) [] s [] eq_refl) as (st' & Hin & Hr & _);
      [cbn; now rewrite app_nil_r|exact Hd|].
    exists st'. split; [exact Hin|now rewrite Hr].
Qed.

(** A search stops at the leftmost place where the pattern matches. *)
Lemma search_from_some r : forall rest pre i st, search_from r (length pre) rest = Some (i, st) ->
  exists skip u, rest = skip ++ u ++ m_rest st /\ i = (length pre + length skip)%nat /\
    m_pos st = (i + length u)%nat /\
    den r (pre ++ skip) u (m_rest st) /\
    (exists l, m r (mkM i (u ++ m_rest st) []) = st :: l) /\
    forall s1 v w, rest = s1 ++ v ++ w -> (length s1 < length skip)%nat -> ~ den r (pre ++ s1) v w.
Proof.
  induction rest as [|c t IH]; intros pre i st H; cbn in H;
    destruct (m r (mkM (length pre) _ [])) as [|x l] eqn:E.
  - discriminate.
  - injection H as <- <-. destruct (m_sound r (mkM (length pre) [] []) x pre eq_refl) as (u & [Hr Hp] & Hd);
      [rewrite E; now left|]. cbn in Hr, Hp.
    exists [], u. rewrite app_nil_r. cbn. repeat split; auto; try lia.
    rewrite <- Hr, E. eauto.
  - specialize (IH (pre ++ [c]) i st). rewrite app_length in IH. cbn in IH.
    replace (length pre + 1)%nat with (S (length pre)) in IH by lia.
    destruct (IH H) as (skip & u & -> & -> & Hp & Hd & Hm & Hleft).
    exists (c :: skip), u. cbn. repeat split; auto; try lia.
    + rewrite <- app_assoc in Hd. exact Hd.
    + intros s1 v w Heq Hl Hd1. destruct s1 as [|c1 s1].
      * rewrite app_nil_r in Hd1.
        destruct (m_complete r (mkM (length pre) (c :: skip ++ u ++ m_rest st) []) pre v w eq_refl Heq Hd1)
          as (z & Hz & _). rewrite E in Hz. destruct Hz.
      * cbn in Heq. injection Heq as <- Heq. apply (Hleft s1 v w Heq); [cbn in Hl; lia|].
        now rewrite <- app_assoc.
  - injection H as <- <-. destruct (m_sound r (mkM (length pre) (c :: t) []) x pre eq_refl) as (u & [Hr Hp] & Hd);
      [rewrite E; now left|]. cbn in Hr, Hp.
    exists [], u. rewrite app_nil_r. cbn. repeat split; auto; try lia.
    rewrite <- Hr, E. eauto.
Qed.

Lemma search_from_none r : forall rest pre, search_from r (length pre) rest = None ->
  forall s1 v w, rest = s1 ++ v ++ w -> ~ den r (pre ++ s1) v w.
Proof.
  induction rest as [|c t IH]; intros pre H s1 v w Heq Hd; cbn in H;
    destruct (m r (mkM (length pre) _ [])) as [|x l] eqn:E; try discriminate.
  - destruct s1; [|discriminate]. rewrite app_nil_r in Hd.
    destruct (m_complete r (mkM (length pre) [] []) pre v w eq_refl Heq Hd) as (z & Hz & _).
    rewrite E in Hz. destruct Hz.
  - destruct s1 as [|c1 s1].
    + rewrite app_nil_r in Hd.
      destruct (m_complete r (mkM (length pre) (c :: t) []) pre v w eq_refl Heq Hd) as (z & Hz & _).
      rewrite E in Hz. destruct Hz.
    + cbn in Heq. injection Heq as <- Heq. specialize (IH (pre ++ [c])). rewrite app_length in IH.
      cbn in IH. replace (length pre + 1)%nat with (S (length pre)) in IH by lia.
      apply (IH H s1 v w Heq). now rewrite <- app_assoc.
Qed.

Lemma re_search_den r s : is_some (re_search r s) = true <-> exists a u b, s = a ++ u ++ b /\ den r a u b.
Proof.
  unfold re_search. destruct (search_from r 0 s) as [[i st]|] eqn:E; cbn.
  - split; [intros _|reflexivity].
    destruct (search_from_some r s [] i st E) as (a & u & Hs & _ & _ & Hd & _).
    exists a, u, (m_rest st). split; [exact Hs|exact Hd].
  - split; [discriminate|]. intros (a & u & b & Hs & Hd).
    exfalso. exact (search_from_none r s [] E a u b Hs Hd).
Qed.

Lemma re_search_some r s st : re_search r s = Some st ->
  exists a u, s = a ++ u ++ m_rest st /\ m_pos st = length (a ++ u) /\ den r a u (m_rest st) /\
    (exists l, m r (mkM (length a) (u ++ m_rest st) []) = st :: l) /\
    forall a' v w, s = a' ++ v ++ w -> (length a' < length a)%nat -> ~ den r a' v w.
Proof.
  unfold re_search. destruct (search_from r 0 s) as [[i st']|] eqn:E; cbn; [|discriminate].
  intros H; injection H as ->.
  destruct (search_from_some r s [] i st E) as (a & u & Hs & Hi & Hp & Hd & Hm & Hl). cbn in Hi. subst i.
  exists a, u. rewrite app_length. auto.
Qed.

(** *** Reading patterns *)
Lemma den_eps_iff pre u post : den Eps pre u post <-> u = [].
Proof. split; [intros H; now inversion H|intros ->; constructor]. Qed.
Lemma den_cls_iff p pre u post : den (Cls p) pre u post <-> exists c, u = [c] /\ p c = true.
Proof. split; [intros H; inversion H; eauto|intros (c & -> & H); now constructor]. Qed.
Lemma den_seq_iff a b pre u post : den (Seq a b) pre u post <->
  exists x y, u = x ++ y /\ den a pre x (y ++ post) /\ den b (pre ++ x) y post.
Proof. split; [intros H; inversion H; subst; eauto 6|intros (x & y & -> & H1 & H2); now constructor]. Qed.
Lemma den_alt_iff a b pre u post : den (Alt a b) pre u post <-> den a pre u post \/ den b pre u post.
Proof. split; [intros H; inversion H; auto|intros [H|H]; [now apply den_alt_l|now apply den_alt_r]]. Qed.
Lemma den_opt_iff a pre u post : den (Opt a) pre u post <-> u = [] \/ den a pre u post.
Proof. split; [intros H; inversion H; auto|intros [->|H]; [constructor|now apply den_opt_some]]. Qed.
Lemma den_grp_iff n a pre u post : den (Grp n a) pre u post <-> den a pre u post.
Proof. split; [intros H; now inversion H|apply den_grp]. Qed.
Lemma den_bol_iff pre u post : den Bol pre u post <-> pre = [] /\ u = [].
Proof. split; [intros H; now inversion H|intros [-> ->]; constructor]. Qed.
Lemma den_eol_iff pre u post : den Eol pre u post <-> post = [] /\ u = [].
Proof. split; [intros H; now inversion H|intros [-> ->]; constructor]. Qed.
Lemma den_chr_iff c pre u post : den (Chr c) pre u post <-> u = [c].
Proof.
  unfold Chr. rewrite den_cls_iff. split.
  - intros (d & -> & H). apply ceq_true in H. now subst.
  - intros ->. exists c. split; [reflexivity|apply ceq_refl].
Qed.
Lemma den_star_cls_iff g p pre u post : den (Star g (Cls p)) pre u post <-> Forall (fun c => p c = true) u.
Proof.
  split.
  - remember (Star g (Cls p)) as r eqn:E. intros H. revert E. induction H; intros E; try discriminate; [constructor|].
    injection E as -> ->. apply den_cls_iff in H as (c & -> & Hc). constructor; auto.
  - revert pre. induction u as [|c u IH]; intros pre H; [constructor|].
    inversion H; subst. change (c :: u) with ([c] ++ u). apply den_star_cons; [now constructor|now apply IH].
Qed.
Lemma den_plus_iff p pre u post : den (Plus (Cls p)) pre u post <-> u <> [] /\ Forall (fun c => p c = true) u.
Proof.
  unfold Plus. rewrite den_seq_iff. split.
  - intros (x & y & -> & Hx & Hy). apply den_cls_iff in Hx as (c & -> & Hc). apply den_star_cls_iff in Hy.
    split; [discriminate|now constructor].
  - intros [Hn H]. destruct u as [|c u]; [congruence|]. inversion H; subst.
    exists [c], u. repeat split; [now constructor|now apply den_star_cls_iff].
Qed.
Lemma den_lit_iff s pre u post : den (Lit s) pre u post <-> u = s.
Proof.
  revert pre u. induction s as [|c s IH]; intros pre u.
  - cbn. apply den_eps_iff.
  - destruct s as [|d s]; [cbn; apply den_chr_iff|].
    change (Lit (c :: d :: s)) with (Seq (Chr c) (Lit (d :: s))). rewrite den_seq_iff. split.
    + intros (x & y & -> & Hx & Hy). apply den_chr_iff in Hx. apply IH in Hy. now subst.
    + intros ->. exists [c], (d :: s). repeat split; [now apply den_chr_iff|now apply IH].
Qed.
Lemma den_L_iff s pre u post : den (L s) pre u post <-> u = lit s.
Proof. apply den_lit_iff. Qed.
Lemma den_anystar_iff pre u post : den AnyStar pre u post <-> True.
Proof. unfold AnyStar, AnyChar. rewrite den_star_cls_iff. split; [auto|]. intros _. now apply Forall_forall. Qed.
Lemma den_any_iff pre u post : den AnyChar pre u post <-> exists c, u = [c].
Proof. unfold AnyChar. rewrite den_cls_iff. split; intros (c & H); exists c; intuition. Qed.
Lemma den_hs_iff pre u post : den HS pre u post <-> Forall (fun c => is_hspace c = true) u.
Proof. apply den_star_cls_iff. Qed.
Lemma den_hp_iff pre u post : den HP pre u post <-> u <> [] /\ Forall (fun c => is_hspace c = true) u.
Proof. apply den_plus_iff. Qed.

(** A literal followed by any pattern, and anchors in front. *)
Lemma den_bol_seq b pre u post : den (Seq Bol b) pre u post <-> pre = [] /\ den b [] u post.
Proof.
  rewrite den_seq_iff. split.
  - intros (x & y & -> & Hx & Hy). apply den_bol_iff in Hx as [-> ->]. auto.
  - intros [-> H]. exists [], u. repeat split; [constructor|exact H].
Qed.
Lemma den_seq_eol a pre u post : den (Seq a Eol) pre u post <-> post = [] /\ den a pre u [].
Proof.
  rewrite den_seq_iff. split.
  - intros (x & y & -> & Hx & Hy). apply den_eol_iff in Hy as [-> ->]. rewrite app_nil_r. auto.
  - intros [-> H]. exists u, []. rewrite app_nil_r. repeat split; [exact H|constructor].
Qed.
