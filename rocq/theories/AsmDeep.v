(** The text parser: how deep the recursion of isUsed goes. *)
From Coq Require Import Permutation.
From Verif Require Import AsmLemmas AsmRead AsmMark AsmTrace AsmThms AsmUse AsmSearch AsmComplete AsmRemove AsmRoots AsmMarking AsmDet AsmPlace AsmWorld AsmCarry AsmCost AsmLadder.

(** *** A search without success goes to the end of every chain *)
Section Search.
Variables (ord : list view -> list view) (s : tstate).
Variable dom : str -> Prop.
Hypothesis dom_used : forall k r, dom k -> tab_used ord s k r -> r <> [] -> dom r.
Hypothesis dom_data : forall k, dom k -> refs_of ord (t_data_used_labels s) k = [].
Hypothesis dom_weak : forall k, dom k -> refs_of ord (t_weakly_used_labels s) k = [].
Lemma isUsed_deep : forall fuel k depth vis v, dom k -> 1 <= depth -> isUsed ord s fuel k depth vis = Ok (false, v) ->
  forall p, walk (tab_used ord s) vis k p -> (length p <= fuel)%nat.
Proof.
  induction fuel as [|n IH]; intros k depth vis v Hk Hd; [discriminate|]. cbn [isUsed]. cbv zeta.
  replace (depth =? 0) with false by (symmetry; apply Z.eqb_neq; lia).
  destruct (mem_str k vis) eqn:Em.
  { intros _ p W. exfalso. apply (walk_out _ _ _ _ W). now apply mem_str_in. }
  destruct (set_contains _ _); [discriminate|].
  set (f := fun ref vis => if is_nil (v_str ref) then Ok (true, vis) else isUsed ord s n (v_str ref) (depth + 1) vis).
  assert (Hany : forall refs, (forall r, In r refs -> tab_used ord s k (v_str r)) -> forall v1, any_ref f refs (k :: vis) = Ok (false, v1) ->
    forall r, In r refs -> v_str r <> [] -> exists w, isUsed ord s n (v_str r) (depth + 1) (k :: vis) = Ok (false, w)).
  { induction refs as [|r t IHr]; intros Hr v1; cbn [any_ref]; [intros _ r []|].
    unfold f at 1. destruct (is_nil (v_str r)) eqn:En; cbn [obind fst snd]; [discriminate|].
    assert (Hne : v_str r <> []) by (intros X; rewrite X in En; discriminate).
    assert (Hdr : dom (v_str r)) by (eapply dom_used; [exact Hk|apply Hr; now left|exact Hne]).
    destruct (isUsed ord s n (v_str r) (depth + 1) (k :: vis)) as [[u w]| | |] eqn:E; cbn [obind fst snd]; try discriminate. destruct u; [discriminate|].
    destruct (isUsed_exact ord s dom dom_used dom_data dom_weak n (v_str r) (depth + 1) (k :: vis) Hdr ltac:(lia) _ _ E) as [_ B].
    destruct (B eq_refl) as [-> _]. intros H r' [<-|R] N; [eauto|]. eapply IHr; eauto. intros x X. apply Hr. now right. }
  specialize (Hany (refs_of ord (t_used_labels s) k) (fun r Hr => ex_intro _ r (conj Hr eq_refl))).
  destruct (any_ref f (refs_of ord (t_used_labels s) k) (k :: vis)) as [[u w]| | |]; cbn [obind fst snd]; try discriminate.
  destruct u; [discriminate|]. specialize (Hany w eq_refl). intros _ p W.
  destruct W as [vis k _|vis k r p _ (x & X1 & X2) Hr W]; [cbn; lia|]. subst r.
  destruct (Hany x X1 Hr) as (w' & E). cbn [length]. apply le_n_S. eapply (IH (v_str x) (depth + 1) (k :: vis) w'); [|lia|exact E|exact W].
  eapply dom_used; [exact Hk| |exact Hr]. now exists x.
Qed.
End Search.

Section Parse.
Variables (mblen : str -> Z) (flt : Filter)
          (ord_refs : list view -> list view) (ord_labels : list (view * Z) -> list (view * Z)).
Hypothesis Hrefs : shuffles ord_refs.
Hypothesis Hlabels : forall m, Permutation (ord_labels m) m.
Variable input : str.
Hypothesis Hlen : Z.of_nat (length input) < two31.
Hypothesis no_data_refs : forall d k, In d (lines_read mblen flt input) -> lv_is_data d = true -> mentions d k -> ~ is_label_name mblen flt input k.
Notation tab := (read mblen flt input).
(** Every label is tried, with names already taken that stay so. *)
Definition tried (fuel : nat) (k : str) (vis' : list str) : Prop :=
  exists v b w, incl v w /\ incl w vis' /\ isUsed ord_refs tab fuel k 1 v = Ok (b, w).
Lemma loop_tries fuel labels : forall L vis s' vis',
  (forall e, In e labels -> exists l, nth_error L (Z.to_nat (snd e - 1)) = Some l /\ is_label_name mblen flt input (v_str (lv_label l))) ->
  mark_loop ord_refs fuel labels (set_t_lines L tab) vis = Ok (s', vis') ->
  incl vis vis' /\ forall e l, In e labels -> nth_error L (Z.to_nat (snd e - 1)) = Some l -> tried fuel (v_str (lv_label l)) vis'.
Proof.
  induction labels as [|e t IH]; intros L vis s' vis' HL; cbn [mark_loop]; [intros [= _ <-]; split; [apply incl_refl|intros e l []]|].
  destruct (mark_one _ _ _ _ _) as [[s1 v1]| | |] eqn:E; cbn [obind fst snd]; try discriminate.
  destruct (HL e (or_introl eq_refl)) as (l & El & Hname).
  destruct (mark_one_roots mblen flt ord_refs Hrefs input no_data_refs _ fuel (snd e) l vis s1 v1 L eq_refl El Hname E) as (n & [(q & Eq) _] & _).
  destruct (mark_one_ok _ _ _ _ _ _ _ _ (ex_intro _ L eq_refl) E) as (L' & -> & M). tsimp. intros H.
  assert (N : forall n, match nth_error L n, nth_error L' n with Some a, Some b => lv_label b = lv_label a | None, None => True | _, _ => False end).
  { clear -M. induction M as [|a b la lb [Hab _ _ _] _ IHm]; intros [|n]; cbn; auto; [rewrite Hab; reflexivity|apply IHm]. }
  destruct (IH L' v1 s' vis') as [I2 W2]; [|exact H|].
  - intros e' He'. destruct (HL e' (or_intror He')) as (l' & El' & Hn'). specialize (N (Z.to_nat (snd e' - 1))). rewrite El' in N.
    destruct (nth_error L' (Z.to_nat (snd e' - 1))) as [l2|]; [|contradiction N]. exists l2. split; [reflexivity|now rewrite N].
  - assert (I1 : incl vis v1) by (rewrite Eq; intros x Hx; apply in_app_iff; now right). split; [eapply incl_tran; eassumption|]. intros e' l' [<-|He'] Hl'.
    + rewrite El in Hl'. injection Hl' as <-. clear -E El Hname I1 I2 Hrefs no_data_refs. revert E. unfold mark_one. tsimp. destruct (_ || _); [discriminate|]. rewrite El, isUsed_lines.
      destruct (isUsed ord_refs tab fuel (v_str (lv_label l)) 1 vis) as [[u w]| | |] eqn:E1; cbn [obind fst snd]; try discriminate. intros E.
      pose proof (search_both mblen flt ord_refs Hrefs input no_data_refs _ _ _ _ _ Hname E1) as S. destruct u.
      * injection E as _ <-. destruct S as (p & _ & ->). exists vis, true, (p ++ vis). split; [intros x X; apply in_app_iff; now right|]. split; [exact I2|exact E1].
      * destruct S as [-> _]. exists vis, false, vis. split; [apply incl_refl|]. split; [eapply incl_tran; eassumption|exact E1].
    + specialize (N (Z.to_nat (snd e' - 1))). rewrite Hl' in N.
      destruct (nth_error L' (Z.to_nat (snd e' - 1))) as [l2|] eqn:El2; [|contradiction N]. rewrite <- N. eapply W2; eassumption.
Qed.
Lemma run_deep fuel vis s' vis' : AsmText.run mblen flt ord_refs ord_labels fuel input vis = Ok (s', vis') ->
  forall k, is_label_name mblen flt input k -> forall p, walk (looked (t_used_labels s')) vis' k p -> (length p <= fuel)%nat.
Proof.
  intros H k (l & Hl & Hlab & Hk) p W. destruct (run_ok _ _ _ _ _ _ _ _ _ H) as (L & kept & out & [_ _ _ _ Es _]).
  assert (Eu : t_used_labels s' = t_used_labels tab) by (subst s'; reflexivity). rewrite Eu in W. clear Es Eu L kept out.
  revert H. unfold AsmText.run, fromStream. fold tab. unfold markLabelUsage.
  destruct (mark_loop _ _ _ _ _) as [[s1 v1]| | |] eqn:E; cbn [obind fst snd]; try discriminate. intros [= <- <-].
  rewrite <- (set_lines_id tab) in E.
  destruct (count_read mblen flt input) as [_ Hci]. destruct Hci as [Hsd Hc Hnd]; [pose proof (read_total mblen flt input); lia|].
  destruct (loop_tries fuel (ord_labels (t_labels_defined tab)) (t_lines tab) vis s1 v1) as [_ T]; [|exact E|].
  - intros [k' i] Hin. eapply Permutation_in in Hin; [|apply Hlabels]. destruct (Hsd k' i Hin) as [(l' & A & B & C & D) _]. exists l'. split; [exact A|].
    exists (erase l'). split; [apply in_map; eapply nth_error_In, A|]. split; [exact C|reflexivity].
  - unfold lines_read in Hl. apply in_map_iff in Hl as (l0 & <- & Hl).
    destruct (Hc l0 Hl Hlab) as (kv & i & X1 & X2). destruct (Hsd kv i X1) as [(l' & Y1 & _ & _ & Y2) _].
    destruct (T (kv, i) l') as (v & b & w & T1 & T2 & T3); [eapply Permutation_in; [apply Permutation_sym, Hlabels|exact X1]|exact Y1|].
    assert (Ek : v_str (lv_label l') = k) by (rewrite Y2, X2; exact Hk). rewrite Ek in T3.
    assert (Hname : is_label_name mblen flt input k) by (exists (erase l0); split; [unfold lines_read; now apply in_map|split; [exact Hlab|exact Hk]]).
    destruct b.
    + exfalso. apply (walk_out _ _ _ _ W). apply T2. pose proof (search_both mblen flt ord_refs Hrefs input no_data_refs _ _ _ _ _ Hname T3) as (q & Q & ->).
      destruct (trail_start _ _ _ _ _ Q) as (q' & ->). rewrite !in_app_iff. left. right. now left.
    + eapply isUsed_deep with (dom := is_label_name mblen flt input); try exact T3; auto; [| | |lia|].
      * intros a r _ Ha Hr. eapply user_named; [|exact Hr]. eapply tab_used_read, Ha. exact Hrefs.
      * intros a Ha. eapply name_no_data; eauto.
      * intros. now apply weak_none.
      * eapply walk_less; [eapply incl_tran; eassumption|]. eapply walk_same; [|exact W]. intros a c. apply tab_looked. exact Hrefs.
Qed.
End Parse.

(** *** A chain of functions *)
Fixpoint links (ns : list str) : list (str * list str) :=
  match ns with
  | [] => []
  | a :: t => (a, match t with b :: _ => [b] | [] => [] end) :: links t
  end.
Definition chain_input (ns : list str) : str := join_lines (program ((lit "m", []) :: links ns)).
Lemma links_in ns f ks : In (f, ks) (links ns) -> In f ns /\ forall k, In k ks -> In k ns.
Proof.
  induction ns as [|a t IH]; [intros []|]. intros [E|H].
  - injection E as <- <-. split; [now left|]. destruct t as [|b t]; [intros k []|]. intros k [<-|[]]. right. now left.
  - destruct (IH H) as [A B]. split; [now right|]. intros k Hk. right. auto.
Qed.
Lemma links_names ns a : In a ns -> exists ks, In (a, ks) (links ns).
Proof. induction ns as [|b t IH]; [intros []|]. intros [<-|H]; [eexists; now left|]. destruct (IH H) as (ks & K). exists ks. now right. Qed.
Lemma links_next pre a b post : In (a, [b]) (links (pre ++ a :: b :: post)).
Proof. induction pre as [|x pre IH]; [now left|]. now right. Qed.

Section Chain.
Variables (mb : str -> Z) (flt : Filter)
          (ord_refs : list view -> list view) (ord_labels : list (view * Z) -> list (view * Z)).
Hypothesis Hrefs : shuffles ord_refs.
Hypothesis Hlabels : forall m, Permutation (ord_labels m) m.
Hypothesis Hw : f_whitespace flt = false.
Hypothesis Hf : f_library_functions flt = false.
Variable ns : list str.
Hypothesis Hn : NoDup ns.
Hypothesis Hg : Forall good ns.
Hypothesis Hm : ~ In (lit "m") ns.
Notation P := ((lit "m", []) :: links ns).
Notation input := (chain_input ns).
Hypothesis Hlen : Z.of_nat (length input) < two31.
Lemma chain_fine : Forall fine P.
Proof.
  apply Forall_forall. intros [f ks] H. rewrite Forall_forall in Hg. split; cbn [fst snd].
  - destruct H as [E|H]; [assert (f = lit "m") as -> by congruence; apply (nm_good "m"%char 0); reflexivity|]. apply Hg, (proj1 (links_in ns f ks H)).
  - apply Forall_forall. intros k Hk. split.
    + destruct H as [E|H]; [replace ks with (@nil str) in Hk by congruence; destruct Hk|]. apply Hg, (proj2 (links_in ns f ks H)), Hk.
    + assert (I : In (call k) (program P)) by (right; apply in_flat_map; exists (f, ks); split; [exact H|]; right; now apply in_map).
      apply line_length in I. unfold chain_input, two31 in Hlen. change (2 ^ 64) with 18446744073709551616. slia.
Qed.
Lemma chain_no_data d k : In d (lines_read mb flt input) -> lv_is_data d = true -> mentions d k -> ~ is_label_name mb flt input k.
Proof.
  intros Hd D. exfalso. unfold chain_input in Hd. rewrite (program_no_data mb flt Hw Hf P chain_fine d Hd) in D. discriminate.
Qed.
Lemma chain_calls k r : In (k, r) (flat_map calls_of P) -> In k ns /\ In r ns.
Proof.
  intros H. apply in_flat_map in H as ([f ks] & H & I). unfold calls_of, pairs in I. cbn [fst snd] in I. apply in_map_iff in I as (x & E & I). injection E as <- <-.
  apply filter_In in I as [I _]. destruct H as [E|H]; [replace ks with (@nil str) in I by congruence; destruct I|]. destruct (links_in _ _ _ H) as [A B]. auto.
Qed.
Lemma chain_deep fuel s vis' : AsmText.run mb flt ord_refs ord_labels fuel input [] = Ok (s, vis') -> (length ns <= fuel)%nat.
Proof.
  intros H. destruct ns as [|a0 t0] eqn:Ens; [cbn; lia|]. rewrite <- Ens in *.
  pose proof chain_fine as F. pose proof (program_looked mb flt Hw Hf P F Hlen) as Lk. fold input in Lk.
  destruct (run_marking mb flt ord_refs ord_labels Hrefs Hlabels input Hlen chain_no_data _ _ _ _ H) as (ms & _ & _ & _ & M & _).
  assert (Eu : t_used_labels s = t_used_labels (read mb flt input)) by (destruct (run_ok _ _ _ _ _ _ _ _ _ H) as (L & kept & out & [_ _ _ _ Es _]); subst s; reflexivity).
  unfold table_marking in M. rewrite Eu in M.
  destruct (run_tables mb flt ord_refs ord_labels Hf _ _ _ _ _ H) as (_ & _ & Us & _).
  assert (Rt : forall a, set_contains (t_usercode_labels s) a = true \/ looked (t_used_labels (read mb flt input)) a [] -> a = lit "m").
  { intros a [X|X].
    - apply Us in X. unfold chain_input in X. rewrite (program_cands mb flt Hw Hf _ F) in X. now apply (program_user mb flt Hw Hf _ F) in X.
    - apply Lk in X as [_ [[-> _]|X]]; [reflexivity|]. apply chain_calls in X as [_ X]. rewrite Forall_forall in Hg. apply Hg in X as [X _]. contradiction. }
  assert (Tr : forall vis k p, trail (looked (t_used_labels (read mb flt input))) (fun k => set_contains (t_usercode_labels s) k = true) vis k p -> k = lit "m" /\ p = [lit "m"]).
  { intros vis k p T. induction T as [vis k _ R|vis k r p _ U Nr _ [-> ->]]; [rewrite (Rt k R); auto|]. exfalso. apply Lk in U as [_ [[_ U]|U]]; [contradiction|].
    apply chain_calls in U as [_ U]. contradiction. }
  assert (Fr : forall x, In x ns -> ~ In x vis').
  { intros x Hx I. destruct (marking_one _ _ _ (lit "m") Rt _ _ _ M (or_introl eq_refl)) as [->|(k & p & T & ->)]; [destruct I|].
    destruct (Tr _ _ _ T) as [_ ->]. destruct I as [<-|[]]. contradiction. }
  assert (Nm : forall x, In x ns -> is_label_name mb flt input x).
  { intros x Hx. destruct (links_names ns x Hx) as (ks & K). apply (program_name mb flt Hw Hf P F (x, ks)). now right. }
  assert (W : forall pre a post, ns = rev pre ++ a :: post -> exists p, walk (looked (t_used_labels (read mb flt input))) (post ++ vis') a p /\ length p = S (length pre)).
  { induction pre as [|b pre IH]; intros a post E.
    - exists [a]. split; [|reflexivity]. apply WK_one. cbn [rev app] in E. rewrite in_app_iff. intros [X|X]; [|apply (Fr a); [rewrite E; now left|exact X]].
      rewrite E in Hn. inversion Hn; contradiction.
    - cbn [rev] in E. rewrite <- app_assoc in E. cbn [app] in E. destruct (IH b (a :: post) E) as (p & W & Lp). exists (a :: p). split; [|cbn [length]; lia].
      assert (Nd : ~ In a post /\ b <> a).
      { rewrite E in Hn. apply NoDup_remove in Hn as [Hn1 Hn2]. split.
        - apply NoDup_remove in Hn1 as [_ Hn1]. intros X. apply Hn1, in_app_iff. now right.
        - intros ->. apply Hn2. apply in_app_iff. right. now left. }
      eapply WK_step with (r := b).
      + rewrite in_app_iff. intros [X|X]; [exact (proj1 Nd X)|]. apply (Fr a); [rewrite E, in_app_iff; right; right; left; reflexivity|exact X].
      + apply Lk. split; [apply Nm; rewrite E, in_app_iff; right; right; left; reflexivity|]. right. apply in_flat_map. exists (b, [a]). split; [right; rewrite E; apply links_next|].
        unfold calls_of, pairs. cbn [fst snd filter]. destruct (str_eqb a b) eqn:Eab; [apply str_eqb_eq in Eab; exfalso; apply (proj2 Nd); symmetry; exact Eab|]. left. reflexivity.
      + rewrite Forall_forall in Hg. assert (X : In b ns) by (rewrite E, in_app_iff; right; left; reflexivity). exact (proj1 (Hg b X)).
      + exact W. }
  destruct (exists_last (l := ns)) as (q & z & Eq); [rewrite Ens; discriminate|].
  destruct (W (rev q) z []) as (p & Wp & Lp); [rewrite rev_involutive; exact Eq|]. cbn [app] in Wp. rewrite <- Eu in Wp.
  pose proof (run_deep mb flt ord_refs ord_labels Hrefs Hlabels input Hlen chain_no_data _ _ _ _ H z) as D.
  assert (X : (length p <= fuel)%nat) by (apply D; [apply Nm; rewrite Eq, in_app_iff; right; left; reflexivity|exact Wp]).
  rewrite Eq, app_length. rewrite rev_length in Lp. cbn [length]. slia.
Qed.
End Chain.
