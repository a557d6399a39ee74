(** The text parser: exactly which lines of the input are stored, which are set
    aside, and what a stored line holds. *)
From Coq Require Import Sorted.
From Verif Require Import AsmLemmas AsmRead AsmMark AsmTrace AsmThms AsmUse AsmComplete AsmPlace AsmWorld.

(** What a stored line holds.  As [line_says], but label lines take the location
    that follows them. *)
Record line_holds (mblen : str -> Z) (h d : bool) (nest : Z) (t : str) (w : world) (l : asm_line_v) : Prop := {
  lh_text : lv_text l = t;
  lh_section : v_str (lv_section l) = w_sect w;
  lh_source : found h t = None -> spot_of (lv_source l) = pl_spot (w_place w);
  lh_is_label : lv_is_label l = is_some (found h t);
  lh_label : v_str (lv_label l) = match found h t with Some (n, _) => n | None => [] end;
  lh_internal : lv_is_internal_label l = match found h t with Some (n, _) => isInternalLabel n | None => false end;
  lh_assignment : lv_is_assignment l = match found h t with Some (_, (a, _)) => a | None => false end;
  lh_data : lv_is_data l = data_line h t;
  lh_directive : lv_is_directive l = directive_line h d t;
  lh_opcode : lv_has_opcode l = hasOpcode t (pl_cuda (w_place w));
  lh_inline : lv_is_inline_asm l = (0 <? nest);
  lh_parent : lv_closest_parent_label l =
    if lv_is_assignment l || str_eqb (v_str (lv_label l)) (w_parent w) then [] else w_parent w;
  lh_refs : map (fun r => (v_str (lbv_name r), lbv_range r)) (lv_labels l) =
    if negb (is_some (found h t)) && (hasOpcode t (pl_cuda (w_place w)) || data_line h t)
    then map (fun r => (lb_name r, lb_range r)) (getUsedLabelsInLine mblen t) else [] }.
Lemma says_holds mblen h d nest t w l : line_says mblen h d nest t w l -> line_holds mblen h d nest t w l.
Proof. intros []. split; auto. Qed.
Lemma holds_keeps mblen h d nest t w l l' : keeps l l' -> line_holds mblen h d nest t w l -> line_holds mblen h d nest t w l'.
Proof.
  intros [S K] [H1 H2 H3 H4 H5 H6 H7 H8 H9 H10 H11 H12 H13]. unfold same_line in S. 
  assert (Hs : found h t = None -> l' = l) by (intros E; apply K; rewrite H4, E; reflexivity).
  rewrite S. split; vsimp; auto. intros E. rewrite (Hs E). auto.
Qed.

Section Stored.
Variables (mblen : str -> Z) (flt : Filter).
Hypothesis Hlib : f_library_functions flt = false.
Definition cand_text (c : cand) : str := match c with CText raw nest => clean flt nest raw | _ => [] end.
Definition text_at (cs : list cand) (k : nat) : str := match nth_error cs k with Some c => cand_text c | None => [] end.
Definition verdict_at (cs : list cand) (k : nat) : verdict :=
  match nth_error cs k with
  | Some (CText raw nest) => verdict_of flt (worlds flt (firstn k cs)) raw (clean flt nest raw)
  | _ => Dropped
  end.
(** Line [k] is stored, [ks] being the stored lines: text that is kept, or a
    blank line when the stored line before it is not blank. *)
Definition stored_at (cs : list cand) (ks : list nat) (k : nat) : Prop :=
  match nth_error cs k with
  | Some (CText _ _) => verdict_at cs k = Kept
  | Some (CBlank _) => exists j, In j ks /\ (j < k)%nat /\ text_at cs j <> [] /\ (forall i, In i ks -> ~ (j < i < k)%nat)
  | _ => False
  end.
Definition srow (cs : list cand) (k : nat) (l : asm_line_v) : Prop :=
  match nth_error cs k with
  | Some (CText raw nest) =>
      let w := worlds flt (firstn k cs) in let t := clean flt nest raw in
      line_holds mblen (locates w t) (w_def w) nest t (worlds flt (firstn (S k) cs)) l
  | Some (CBlank _) => exists i, l = line_v0 i
  | _ => False
  end.
Definition arow (cs : list cand) (k : nat) (l : asm_line_v) : Prop := lv_text l = text_at cs k /\ lv_is_directive l = true /\ lv_is_label l = false.
Record stored_inv (cs : list cand) (s : tstate) (ks js : list nat) : Prop := {
  si_world : world_of s = worlds flt cs;
  si_sorted : StronglySorted lt ks;
  si_bound : Forall (fun k => k < length cs)%nat ks;
  si_rows : Forall2 (srow cs) ks (t_lines s);
  si_which : forall k, In k ks <-> stored_at cs ks k;
  si_asorted : StronglySorted lt js;
  si_abound : Forall (fun k => k < length cs)%nat js;
  si_arows : Forall2 (arow cs) js (t_filteredlines s);
  si_awhich : forall k, In k js <-> verdict_at cs k = Aside }.
Lemma nth_more (cs : list cand) c k : (k < length cs)%nat -> nth_error (cs ++ [c]) k = nth_error cs k.
Proof. intros H. now apply nth_error_app1. Qed.
Lemma nth_new (cs : list cand) c : nth_error (cs ++ [c]) (length cs) = Some c.
Proof. now rewrite nth_error_app2, Nat.sub_diag by lia. Qed.
Lemma nth_past (cs : list cand) c k : (length cs < k)%nat -> nth_error (cs ++ [c]) k = None.
Proof. intros H. apply nth_error_None. rewrite app_length. cbn. lia. Qed.
Lemma firstn_more (cs : list cand) c k : (k <= length cs)%nat -> firstn k (cs ++ [c]) = firstn k cs.
Proof. intros H. rewrite firstn_app. replace (k - length cs)%nat with 0%nat by lia. cbn [firstn]. now rewrite app_nil_r. Qed.
Lemma firstn_new (cs : list cand) c : firstn (length cs) (cs ++ [c]) = cs /\ firstn (S (length cs)) (cs ++ [c]) = cs ++ [c].
Proof. split; [rewrite firstn_more by lia; apply firstn_all|]. apply firstn_all2. rewrite app_length. cbn. lia. Qed.
Lemma text_more cs c k : (k < length cs)%nat -> text_at (cs ++ [c]) k = text_at cs k.
Proof. intros H. unfold text_at. now rewrite nth_more. Qed.
Lemma verdict_more cs c k : (k < length cs)%nat -> verdict_at (cs ++ [c]) k = verdict_at cs k.
Proof. intros H. unfold verdict_at. rewrite nth_more by exact H. now rewrite firstn_more by lia. Qed.
Lemma verdict_new cs c : verdict_at (cs ++ [c]) (length cs) =
  match c with CText raw nest => verdict_of flt (worlds flt cs) raw (clean flt nest raw) | _ => Dropped end.
Proof. unfold verdict_at. rewrite nth_new. destruct c; try reflexivity. now rewrite (proj1 (firstn_new cs _)). Qed.
Lemma verdict_past cs k : (length cs <= k)%nat -> verdict_at cs k = Dropped.
Proof. intros H. unfold verdict_at. now rewrite (proj2 (nth_error_None cs k) H). Qed.
Lemma srow_more cs c k l : (k < length cs)%nat -> srow cs k l -> srow (cs ++ [c]) k l.
Proof. intros H. unfold srow. rewrite nth_more by exact H. rewrite !firstn_more by lia. auto. Qed.
Lemma srow_keeps cs k l l' : keeps l l' -> srow cs k l -> srow cs k l'.
Proof.
  intros K H. unfold srow in *. destruct (nth_error cs k) as [[raw|raw|raw nest]|]; auto.
  - destruct H as [i ->]. exists i. apply K. reflexivity.
  - eapply holds_keeps; eassumption.
Qed.
Lemma srows_more cs c ks ls ls' : Forall (fun k => k < length cs)%nat ks -> Forall2 (srow cs) ks ls -> Forall2 keeps ls ls' -> Forall2 (srow (cs ++ [c])) ks ls'.
Proof.
  intros B H. revert ls'. induction H as [|k l ks ls H _ IH]; intros ls' K; inversion K; subst; inversion B; subst; constructor; auto.
  apply srow_more; [assumption|]. eapply srow_keeps; eassumption.
Qed.
Lemma arows_more cs c js fs : Forall (fun k => k < length cs)%nat js -> Forall2 (arow cs) js fs -> Forall2 (arow (cs ++ [c])) js fs.
Proof. intros B H. induction H as [|k l ks ls H _ IH]; inversion B; subst; constructor; auto. unfold arow in *. now rewrite text_more. Qed.
Lemma bound_more (cs : list cand) (c : cand) ks : Forall (fun k => k < length cs)%nat ks -> Forall (fun k => k < length (cs ++ [c]))%nat ks.
Proof. intros H. eapply Forall_impl; [|exact H]. cbn beta. intros k Hk. rewrite app_length. cbn. lia. Qed.
Lemma bound_in (cs : list cand) ks k : Forall (fun k => k < length cs)%nat ks -> In k ks -> (k < length cs)%nat.
Proof. intros H. rewrite Forall_forall in H. auto. Qed.
Lemma bound_new (cs : list cand) (c : cand) ks : Forall (fun k => k < length cs)%nat ks -> Forall (fun k => k < length (cs ++ [c]))%nat (ks ++ [length cs]).
Proof. intros H. apply Forall_app. split; [now apply bound_more|]. constructor; [rewrite app_length; cbn; lia|constructor]. Qed.

(** Adding line [c] to the input: the old lines stay stored or not. *)
Lemma which_old cs c ks ks' k : (k < length cs)%nat -> (forall i, (i < length cs)%nat -> In i ks' <-> In i ks) ->
  stored_at (cs ++ [c]) ks' k <-> stored_at cs ks k.
Proof.
  intros Hk Hks. unfold stored_at. rewrite nth_more, verdict_more by exact Hk. destruct (nth_error cs k) as [[raw|raw|raw nest]|]; try tauto.
  split; intros (j & A & B & C & D); (exists j; split; [apply Hks; [lia|exact A]|split; [exact B|split]]).
  - now rewrite text_more in C by lia.
  - intros i Hi [X Y]. apply (D i); [apply Hks; [lia|exact Hi]|lia].
  - rewrite text_more by lia. exact C.
  - intros i Hi [X Y]. apply (D i); [apply Hks; [lia|exact Hi]|lia].
Qed.
Lemma which_same cs c ks : Forall (fun k => k < length cs)%nat ks -> (forall k, In k ks <-> stored_at cs ks k) -> ~ stored_at (cs ++ [c]) ks (length cs) ->
  forall k, In k ks <-> stored_at (cs ++ [c]) ks k.
Proof.
  intros B W N k. destruct (lt_eq_lt_dec k (length cs)) as [[H|H]|H].
  - rewrite (which_old cs c ks ks k H); [apply W|tauto].
  - subst k. split; [intros X; apply (bound_in _ _ _ B) in X; lia|tauto].
  - split; [intros X; apply (bound_in _ _ _ B) in X; lia|]. unfold stored_at. rewrite nth_past by exact H. tauto.
Qed.
Lemma which_snoc cs c ks : Forall (fun k => k < length cs)%nat ks -> (forall k, In k ks <-> stored_at cs ks k) -> stored_at (cs ++ [c]) (ks ++ [length cs]) (length cs) ->
  forall k, In k (ks ++ [length cs]) <-> stored_at (cs ++ [c]) (ks ++ [length cs]) k.
Proof.
  intros B W N k. rewrite in_app_iff. cbn [In]. destruct (lt_eq_lt_dec k (length cs)) as [[H|H]|H].
  - rewrite (which_old cs c ks _ k H); [rewrite <- W; intuition lia|]. intros i Hi. rewrite in_app_iff. cbn [In]. intuition lia.
  - subst k. tauto.
  - split; [intros [X|[X|[]]]; [apply (bound_in _ _ _ B) in X; lia|lia]|]. unfold stored_at. rewrite nth_past by exact H. tauto.
Qed.
Lemma awhich_same cs c js : Forall (fun k => k < length cs)%nat js -> (forall k, In k js <-> verdict_at cs k = Aside) -> verdict_at (cs ++ [c]) (length cs) <> Aside ->
  forall k, In k js <-> verdict_at (cs ++ [c]) k = Aside.
Proof.
  intros B W N k. destruct (lt_eq_lt_dec k (length cs)) as [[H|H]|H].
  - now rewrite verdict_more.
  - subst k. split; [intros X; apply (bound_in _ _ _ B) in X; lia|tauto].
  - split; [intros X; apply (bound_in _ _ _ B) in X; lia|]. rewrite verdict_past; [discriminate|]. rewrite app_length. cbn. lia.
Qed.
Lemma awhich_snoc cs c js : Forall (fun k => k < length cs)%nat js -> (forall k, In k js <-> verdict_at cs k = Aside) -> verdict_at (cs ++ [c]) (length cs) = Aside ->
  forall k, In k (js ++ [length cs]) <-> verdict_at (cs ++ [c]) k = Aside.
Proof.
  intros B W N k. rewrite in_app_iff. cbn [In]. destruct (lt_eq_lt_dec k (length cs)) as [[H|H]|H].
  - rewrite verdict_more by exact H. rewrite <- W. intuition lia.
  - subst k. tauto.
  - split; [intros [X|[X|[]]]; [apply (bound_in _ _ _ B) in X; lia|lia]|]. rewrite verdict_past; [discriminate|]. rewrite app_length. cbn. lia.
Qed.
Lemma sorted_last ks : StronglySorted lt ks -> forall q x i, ks = q ++ [x] -> In i ks -> (i <= x)%nat.
Proof.
  induction 1 as [|a ks H IH F]; intros q x i E Hi; [destruct q; discriminate|].
  destruct q as [|b q]; cbn in E; injection E as -> E; subst.
  - destruct Hi as [->|[]]. lia.
  - destruct Hi as [->|Hi]; [|now apply (IH q x)]. rewrite Forall_forall in F. specialize (F x). rewrite in_app_iff in F. cbn in F. specialize (F (or_intror (or_introl eq_refl))). lia.
Qed.
Lemma rows_last cs ks ls : Forall2 (srow cs) ks ls -> forall x q, rev ls = x :: q -> exists ks0 k, ks = ks0 ++ [k] /\ srow cs k x.
Proof.
  intros H x q E. assert (ls = rev q ++ [x]) as -> by (rewrite <- (rev_involutive ls), E; reflexivity).
  apply Forall2_app_inv_r in H as (a & b & _ & H2 & ->). inversion H2 as [|k y b' ? Hk Hb]; subst. inversion Hb; subst. exists a, k. auto.
Qed.
Lemma srow_text cs k x : srow cs k x -> lv_text x = text_at cs k.
Proof.
  unfold srow, text_at, cand_text. destruct (nth_error cs k) as [[raw|raw|raw nest]|]; [intros []| | |intros []].
  - intros [i ->]. reflexivity.
  - intros []. assumption.
Qed.
Lemma stored_line cs s ks js : stored_inv cs s ks js ->
  exists ks' js', (ks' = ks \/ ks' = ks ++ [length cs]) /\ stored_inv (cs ++ [fst (scan_line flt (scan_of s) [])]) (eol mblen flt s) ks' js'.
Proof.
  intros [I1 I2 I3 I4 I5 I6 I7 I8 I9]. pose proof (proj1 (eol_tables mblen flt Hlib s)) as HW. pose proof (eol_world mblen flt Hlib s) as H.
  set (c := fst (scan_line flt (scan_of s) [])) in *. clearbody c. rewrite I1 in HW. rewrite <- worlds_snoc in HW.
  destruct c as [raw|raw|raw nest].
  - (* block comment *)
    destruct H as (_ & H2 & _ & H3). exists ks, js. split; [auto|]. split; auto using bound_more.
    + eapply srows_more; [exact I3|exact I4|]. rewrite H3. apply keeps_list_refl.
    + apply which_same; auto. unfold stored_at. rewrite nth_new. tauto.
    + rewrite H2. now apply arows_more.
    + apply awhich_same; auto. rewrite verdict_new. discriminate.
  - (* blank line *)
    destruct H as (_ & H2 & _ & i & H3).
    destruct (rev (t_lines s)) as [|x q] eqn:Er; [|destruct (is_nil (lv_text x)) eqn:En].
    + exists ks, js. rewrite app_nil_r in H3.
      assert (E : t_lines s = []) by (rewrite <- (rev_involutive (t_lines s)), Er; reflexivity).
      assert (Ek : ks = []) by (rewrite E in I4; now inversion I4).
      split; [auto|]. split; auto using bound_more.
      * eapply srows_more; [exact I3|exact I4|]. rewrite H3. apply keeps_list_refl.
      * apply which_same; auto. unfold stored_at. rewrite nth_new. intros (j & A & _). subst ks. destruct A.
      * rewrite H2. now apply arows_more.
      * apply awhich_same; auto. rewrite verdict_new. discriminate.
    + exists ks, js. rewrite app_nil_r in H3. destruct (rows_last _ _ _ I4 _ _ Er) as (ks0 & k & Ek & Hk).
      split; [auto|]. split; auto using bound_more.
      * eapply srows_more; [exact I3|exact I4|]. rewrite H3. apply keeps_list_refl.
      * apply which_same; auto. unfold stored_at. rewrite nth_new. intros (j & A & B & C & D).
        assert (k = j).
        { pose proof (sorted_last ks I2 ks0 k j Ek A). destruct (Nat.eq_dec k j); [assumption|]. exfalso. apply (D k).
          - rewrite Ek. apply in_app_iff. right. now left.
          - assert (k < length cs)%nat by (apply (bound_in _ _ _ I3); rewrite Ek; apply in_app_iff; right; now left). lia. }
        subst j. rewrite text_more in C by (apply (bound_in _ _ _ I3); exact A). apply srow_text in Hk. rewrite Hk in En. destruct (text_at cs k); [now apply C|discriminate].
      * rewrite H2. now apply arows_more.
      * apply awhich_same; auto. rewrite verdict_new. discriminate.
    + exists (ks ++ [length cs]), js. destruct (rows_last _ _ _ I4 _ _ Er) as (ks0 & k & Ek & Hk).
      assert (Ik : In k ks) by (rewrite Ek; apply in_app_iff; right; now left).
      split; [auto|]. split; auto using bound_more, bound_new.
      * now apply sorted_snoc.
      * rewrite H3. apply Forall2_app; [eapply srows_more; [exact I3|exact I4|apply keeps_list_refl]|]. constructor; [|constructor].
        unfold srow. rewrite nth_new. eauto.
      * apply which_snoc; auto. unfold stored_at. rewrite nth_new. exists k. split; [apply in_app_iff; now left|].
        split; [now apply (bound_in _ _ _ I3)|]. split.
        -- rewrite text_more by (now apply (bound_in _ _ _ I3)). apply srow_text in Hk. rewrite <- Hk. intros X. rewrite X in En. discriminate.
        -- intros j Hj [A B]. apply in_app_iff in Hj as [Hj|[Hj|[]]]; [|lia]. pose proof (sorted_last ks I2 ks0 k j Ek Hj). lia.
      * rewrite H2. now apply arows_more.
      * apply awhich_same; auto. rewrite verdict_new. discriminate.
  - (* text *)
    unfold text_done in H. cbv zeta in H. rewrite I1 in H. destruct H as [H1 H2]. pose proof (verdict_new cs (CText raw nest)) as HV. cbn beta iota in HV.
    destruct (verdict_of flt (worlds flt cs) raw (clean flt nest raw)).
    + destruct H2 as (H2 & H3 & _). exists ks, js. split; [auto|]. split; auto using bound_more.
      * eapply srows_more; eassumption.
      * apply which_same; auto. unfold stored_at. rewrite nth_new, HV. discriminate.
      * rewrite H3. now apply arows_more.
      * apply awhich_same; auto. rewrite HV. discriminate.
    + destruct H2 as (H2 & (x & H3 & H4 & H5 & H6) & _). exists ks, (js ++ [length cs]). split; [auto|]. split; auto using bound_more, bound_new.
      * eapply srows_more; eassumption.
      * apply which_same; auto. unfold stored_at. rewrite nth_new, HV. discriminate.
      * now apply sorted_snoc.
      * rewrite H3. apply Forall2_app; [now apply arows_more|]. constructor; [|constructor]. unfold arow, text_at. rewrite nth_new. auto.
      * apply awhich_snoc; auto.
    + destruct H2 as ((L & x & H2 & H3 & H4) & H5 & _). exists (ks ++ [length cs]), js. split; [auto|]. split; auto using bound_more, bound_new.
      * now apply sorted_snoc.
      * rewrite H3. apply Forall2_app; [eapply srows_more; eassumption|]. constructor; [|constructor].
        unfold srow. rewrite nth_new. cbv zeta. destruct (firstn_new cs (CText raw nest)) as [-> ->]. rewrite <- HW. now apply says_holds.
      * apply which_snoc; auto. unfold stored_at. rewrite nth_new. exact HV.
      * rewrite H5. now apply arows_more.
      * apply awhich_same; auto. rewrite HV. discriminate.
Qed.
Lemma read_stored input : exists ks js, stored_inv (scan_input flt input) (read_lines mblen flt tstate0 input) ks js.
Proof.
  apply (read_cands mblen flt (fun cs s => exists ks js, stored_inv cs s ks js)).
  - intros cs s t (ks & js & []). exists ks, js. split; assumption.
  - intros cs s (ks & js & H) _. destruct (stored_line cs s ks js H) as (ks' & js' & _ & H'). eauto.
  - exists [], []. split; try (now constructor); try reflexivity.
    + intros k. unfold stored_at. destruct k; cbn; tauto.
    + intros k. unfold verdict_at. destruct k; cbn; (split; [tauto|discriminate]).
Qed.
End Stored.
