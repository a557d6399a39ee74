(** Patterns that the matcher cannot tell apart: sequences nested differently,
    classes written differently. *)
From Verif Require Export RegexSyntax.

(** Sequences nested to the right, without empty parts. *)
Fixpoint app_re (a b : re) : re :=
  match a with
  | Eps => b
  | Seq x y => Seq x (app_re y b)
  | _ => match b with Eps => a | _ => Seq a b end
  end.
Fixpoint nf (r : re) : re :=
  match r with
  | Seq a b => app_re (nf a) (nf b)
  | Alt a b => Alt (nf a) (nf b)
  | Star g a => Star g (nf a)
  | Opt a => Opt (nf a)
  | Grp n a => Grp n (nf a)
  | _ => r
  end.

Definition alike (a b : re) : Prop := forall st, m a st = m b st.
Lemma alike_seq a a' b b' : alike a a' -> alike b b' -> alike (Seq a b) (Seq a' b').
Proof. intros Ha Hb st. cbn [m]. rewrite Ha. apply flat_map_ext. exact Hb. Qed.
Lemma flat_map_flat {A B C} (f : A -> list B) (g : B -> list C) l : flat_map g (flat_map f l) = flat_map (fun x => flat_map g (f x)) l.
Proof. induction l as [|x l IH]; [reflexivity|]. cbn [flat_map]. now rewrite flat_map_app, IH. Qed.
Lemma flat_map_one {A} (l : list A) : flat_map (fun x => [x]) l = l.
Proof. induction l as [|x l IH]; [reflexivity|]. cbn [flat_map app]. now rewrite IH. Qed.
Lemma app_re_alike a : forall b, alike (app_re a b) (Seq a b).
Proof.
  induction a; intros b st; try (destruct b; [cbn [app_re m]; symmetry; apply flat_map_one|reflexivity..]).
  - cbn [app_re m flat_map]. now rewrite app_nil_r.
  - cbn [app_re]. cbn [m]. rewrite flat_map_flat. apply flat_map_ext. intros x. apply (IHa2 b x).
Qed.
Lemma star_ext f f' g : (forall st, f st = f' st) -> forall k st, star_iter f g k st = star_iter f' g k st.
Proof.
  intros H. induction k as [|k IH]; intros st; [reflexivity|]. cbn [star_iter]. rewrite H, (flat_map_ext _ _ IH). reflexivity.
Qed.
Lemma nf_alike r : alike (nf r) r.
Proof.
  induction r as [|p|a IHa b IHb|a IHa b IHb|g a IHa|a IHa|n a IHa| |]; intros st; try reflexivity; cbn [nf].
  - rewrite app_re_alike. now apply alike_seq.
  - cbn [m]. now rewrite IHa, IHb.
  - cbn [m]. now apply star_ext.
  - cbn [m]. now rewrite IHa.
  - cbn [m]. now rewrite IHa.
Qed.

(** Classes compared on all bytes. *)
Definition all_bytes : str := map ascii_of_nat (seq 0 256).
Lemma all_bytes_all c : In c all_bytes.
Proof.
  rewrite <- (ascii_nat_embedding c). apply in_map. apply in_seq. pose proof (nat_ascii_bounded c). lia.
Qed.
Fixpoint eqv (a b : re) : bool :=
  match a, b with
  | Eps, Eps | Bol, Bol | Eol, Eol => true
  | Cls p, Cls q => forallb (fun c => Bool.eqb (p c) (q c)) all_bytes
  | Seq a b, Seq a' b' | Alt a b, Alt a' b' => eqv a a' && eqv b b'
  | Star g a, Star g' a' => Bool.eqb g g' && eqv a a'
  | Opt a, Opt a' => eqv a a'
  | Grp n a, Grp n' a' => Nat.eqb n n' && eqv a a'
  | _, _ => false
  end.
Lemma eqv_alike a : forall b, eqv a b = true -> alike a b.
Proof.
  induction a as [|p|a IHa a' IHa'|a IHa a' IHa'|g a IHa|a IHa|n a IHa| |]; intros [|q|b b'|b b'|g' b|b|n' b| |] H st; try discriminate H; cbn [eqv] in H; cbn [m].
  - reflexivity.
  - destruct (m_rest st) as [|c t]; [reflexivity|]. rewrite forallb_forall in H. specialize (H c (all_bytes_all c)). apply eqb_prop in H. now rewrite H.
  - apply andb_true_iff in H as [H1 H2]. rewrite (IHa b H1). apply flat_map_ext. apply (IHa' b' H2).
  - apply andb_true_iff in H as [H1 H2]. now rewrite (IHa b H1), (IHa' b' H2).
  - apply andb_true_iff in H as [H1 H2]. apply eqb_prop in H1. subst g'. apply star_ext. apply (IHa b H2).
  - now rewrite (IHa b H).
  - apply andb_true_iff in H as [H1 H2]. apply Nat.eqb_eq in H1. subst n'. now rewrite (IHa b H2).
  - reflexivity.
  - reflexivity.
Qed.
(** The text [p] is read as a pattern equivalent to [r]. *)
Definition reads_as (p : string) (r : re) : bool := match parse_re p with Some r' => eqv (nf r') (nf r) | None => false end.
Lemma reads_alike p r : reads_as p r = true -> exists r', parse_re p = Some r' /\ alike r' r.
Proof.
  unfold reads_as. destruct (parse_re p) as [r'|]; [|discriminate]. intros H. exists r'. split; [reflexivity|].
  intros st. rewrite <- (nf_alike r'), <- (nf_alike r). now apply eqv_alike.
Qed.
Lemma alike_match a b s : alike a b -> re_match a s = re_match b s.
Proof. intros H. unfold re_match. now rewrite H. Qed.
Lemma alike_search_from a b : alike a b -> forall s pos, search_from a pos s = search_from b pos s.
Proof. intros H. induction s as [|c s IH]; intros pos; cbn [search_from]; rewrite (H _); destruct (m b _); auto. Qed.
Lemma alike_search a b s : alike a b -> re_search a s = re_search b s.
Proof. intros H. unfold re_search. now rewrite (alike_search_from a b H). Qed.
