(** The first result of the matcher, piece by piece; used to show what the
    recognisers of the text parser read on lines of a given form. *)
From Verif Require Export RegexRun.
Local Open Scope nat_scope.

(** [r] consumes [u], and that is the first way to match. *)
Definition heads (r : re) (st st' : mstate) : Prop := exists l, m r st = st' :: l.
Lemma heads_seq a b st st1 st2 : heads a st st1 -> heads b st1 st2 -> heads (Seq a b) st st2.
Proof. intros [l H] [k K]. unfold heads. cbn [m]. rewrite H. cbn [flat_map]. rewrite K. cbn. eauto. Qed.
Lemma heads_cls (p : char -> bool) pos c t caps : p c = true -> heads (Cls p) (mkM pos (c :: t) caps) (mkM (S pos) t caps).
Proof. intros H. unfold heads. cbn [m m_rest m_pos m_caps]. rewrite H. eauto. Qed.
Lemma heads_bol t caps : heads Bol (mkM 0 t caps) (mkM 0 t caps).
Proof. unfold heads. cbn. eauto. Qed.
Lemma heads_star (p : char -> bool) pos u t caps : Forall (fun c => p c = true) u -> match t with c :: _ => p c = false | [] => True end ->
  heads (Star true (Cls p)) (mkM pos (u ++ t) caps) (mkM (pos + length u) t caps).
Proof.
  intros Hu Ht. destruct (m_star_greedy p (mkM pos (u ++ t) caps)) as (l & E & _). exists l. rewrite E. f_equal.
  cbn [m_rest]. assert (Hs : span p (u ++ t) = length u).
  { destruct t as [|c t]; [rewrite app_nil_r; now apply span_all|now apply span_app]. }
  rewrite Hs. unfold advance. cbn [m_pos m_rest m_caps]. f_equal. rewrite skipn_app, skipn_all, Nat.sub_diag. reflexivity.
Qed.
Lemma heads_plus (p : char -> bool) pos u t caps : u <> [] -> Forall (fun c => p c = true) u -> match t with c :: _ => p c = false | [] => True end ->
  heads (Plus (Cls p)) (mkM pos (u ++ t) caps) (mkM (pos + length u) t caps).
Proof.
  intros Hn Hu Ht. destruct u as [|c u]; [congruence|]. inversion Hu; subst. cbn [app].
  eapply heads_seq; [now apply heads_cls|]. replace (pos + length (c :: u)) with (S pos + length u) by (cbn; lia). now apply heads_star.
Qed.
Lemma ceq_same c : ceq c c = true.
Proof. apply ceq_true. reflexivity. Qed.
Lemma heads_lit s : forall pos t caps, heads (Lit s) (mkM pos (s ++ t) caps) (mkM (pos + length s) t caps).
Proof.
  induction s as [|c s IH]; intros pos t caps.
  - unfold heads. cbn. rewrite Nat.add_0_r. eauto.
  - destruct s as [|d s].
    + cbn [Lit app length]. rewrite Nat.add_1_r. apply heads_cls, ceq_same.
    + change (Lit (c :: d :: s)) with (Seq (Chr c) (Lit (d :: s))). cbn [app]. eapply heads_seq; [apply heads_cls, ceq_same|].
      replace (pos + length (c :: d :: s)) with (S pos + length (d :: s)) by (cbn; lia). apply (IH (S pos)).
Qed.
Lemma heads_L s pos t caps : heads (L s) (mkM pos (lit s ++ t) caps) (mkM (pos + length (lit s)) t caps).
Proof. apply heads_lit. Qed.
Lemma heads_grp n a pos u t caps caps' : heads a (mkM pos (u ++ t) caps) (mkM (pos + length u) t caps') ->
  heads (Grp n a) (mkM pos (u ++ t) caps) (mkM (pos + length u) t ((n, (pos, u)) :: caps')).
Proof.
  intros [l H]. unfold heads. cbn [m]. rewrite H. cbn [map]. eexists. f_equal. unfold close_group. cbn [m_pos m_rest m_caps].
  replace (pos + length u - pos) with (length u) by lia. rewrite firstn_app, Nat.sub_diag, firstn_all. cbn [firstn]. now rewrite app_nil_r.
Qed.
Lemma heads_any pos t caps : heads AnyStar (mkM pos t caps) (mkM (pos + length t) [] caps).
Proof.
  rewrite <- (app_nil_r t) at 1. apply heads_star; [|exact I]. induction t; constructor; auto.
Qed.
Lemma heads_opt a st st' : heads a st st' -> heads (Opt a) st st'.
Proof. intros [l H]. unfold heads. cbn [m]. rewrite H. cbn. eauto. Qed.
Lemma heads_opt_none a st : m a st = [] -> heads (Opt a) st st.
Proof. intros H. unfold heads. cbn [m]. rewrite H. cbn. eauto. Qed.
Lemma heads_match r s st' : heads r (mkM 0 s []) st' -> m_rest st' = [] -> re_match r s = Some st'.
Proof. intros [l H] E. unfold re_match. rewrite H. cbn [find]. now rewrite E. Qed.
Lemma heads_whole r s pos caps : heads r (mkM 0 s []) (mkM pos [] caps) -> re_match r s = Some (mkM pos [] caps).
Proof. intros H. now apply heads_match. Qed.
Lemma heads_search r s st' : heads r (mkM 0 s []) st' -> re_search r s = Some st'.
Proof. intros [l H]. unfold re_search. destruct s; cbn [search_from]; rewrite H; reflexivity. Qed.
Ltac hseq := cbn [Seqs]; eapply heads_seq.

(** *** Splitting off a run of a class *)
Lemma run_unique {A} (p : A -> bool) u : forall v s t, Forall (fun c => p c = true) u -> Forall (fun c => p c = true) v ->
  match s with c :: _ => p c = false | [] => True end -> match t with c :: _ => p c = false | [] => True end ->
  u ++ s = v ++ t -> u = v /\ s = t.
Proof.
  induction u as [|a u IH]; intros [|b v] s t Hu Hv Hs Ht E; cbn [app] in E.
  - now split.
  - inversion Hv; subst. congruence.
  - inversion Hu; subst. congruence.
  - injection E as -> E. inversion Hu; subst. inversion Hv; subst. destruct (IH v s t) as [-> ->]; auto.
Qed.
(** [r] begins with ^\h* followed by the given literal. *)
Lemma bol_hs_match w r s : is_some (re_match (Seqs [Bol; HS; L w; r]) s) = true ->
  exists u t, s = u ++ lit w ++ t /\ Forall (fun c => is_hspace c = true) u /\ den r (u ++ lit w) t [].
Proof.
  rewrite re_match_den. cbn [Seqs]. rewrite den_bol_seq. intros (_ & H).
  rewrite den_seq_iff in H. destruct H as (u & v & -> & Hu & H). rewrite den_hs_iff in Hu.
  rewrite den_seq_iff in H. destruct H as (x & t & -> & Hx & H). rewrite den_L_iff in Hx. subst x. eauto 10.
Qed.
