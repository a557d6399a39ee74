(** The text parser: the lines read, the line count and the label table. *)
From Verif Require Import AsmLemmas.

(** A stored line keeps what was recognised about it. *)
Lemma final_label mblen l s : lv_label (final_line mblen l s) = lv_label l. Proof. reflexivity. Qed.
Lemma final_is_label mblen l s : lv_is_label (final_line mblen l s) = lv_is_label l. Proof. reflexivity. Qed.
Lemma final_text mblen l s : lv_text (final_line mblen l s) = lv_text l. Proof. reflexivity. Qed.

(** What keeping a line does to the whole state. *)
Lemma keep_shape mblen l s : exists a p,
  eol_keep mblen l s =
  mkT (t_stopParsing s) (t_hasProcMarkers s) (t_hasStartedCommentBlock s) (t_mayRemovePreviousLabel s) (t_keepInlineCode s)
      (t_lastOwnSource s) (t_inNvccDef s) (t_inNvccCode s) (t_inCustomAssembly s) (t_currentSourceRef s) (t_previousLabel s)
      (t_previousParentLabel s) p [] (t_currentFilename s) (t_currentSection s) (t_currentSourceFile s) None
      (t_filteredlines s) (t_files s) (t_lines s ++ [final_line mblen l s]) (t_labels_defined s) (t_usercode_labels s)
      (keep_used mblen l s) (keep_data mblen l s) (t_weakly_used_labels s) a (t_total_lines s) (t_next_id s).
Proof. rewrite eol_keep_eq. cbv zeta. edestruct aliasing_frame as (a & p & ->). exists a, p. destruct s. reflexivity. Qed.

(** The effect of one line on lines, count and labels. *)
Inductive lines_step (s s' : tstate) (L : list asm_line_v) : Prop :=
| LS_none : t_lines s' = L -> t_labels_defined s' = t_labels_defined s -> lines_step s s' L
| LS_blank i : t_lines s' = L ++ [line_v0 i] -> t_labels_defined s' = t_labels_defined s -> lines_step s s' L
| LS_line l : t_lines s' = L ++ [l] -> lv_is_label l = false -> t_labels_defined s' = t_labels_defined s -> lines_step s s' L
| LS_label l : t_lines s' = L ++ [l] -> lv_is_label l = true ->
    t_labels_defined s' = map_assign (t_labels_defined s) (lv_label l) (i32 (Z.of_nat (length (t_lines s)) + 1)) ->
    lines_step s s' L.
Lemma define_frame n c s :
  t_lines (define_label n c s) = t_lines s /\ t_total_lines (define_label n c s) = t_total_lines s
  /\ t_labels_defined (define_label n c s) = map_assign (t_labels_defined s) n (i32 (Z.of_nat (length (t_lines s)) + 1)).
Proof. unfold define_label. split_if; repeat split. Qed.
Lemma eol_lines mblen flt s : good flt s ->
  t_total_lines (eol mblen flt s) = t_total_lines s + 1 /\
  exists L, same_lines (t_lines s) L /\ lines_step s (eol mblen flt s) L.
Proof.
  intros Hg. destruct (eol_cases mblen flt s Hg) as [_|_ _|s1 l _ _ Hq _ _ _|handled s1 l _ _ Hq _ Hf Hl0 _ _].
  - split; [reflexivity|]. exists (t_lines s). split; [apply same_lines_refl|]. now apply LS_none.
  - pose proof (base1_quiet flt s) as Hq. destruct (blank_cases (base1 flt s)) as [[_ ->]|[_ ->]]; (split; [exact (q_total _ _ Hq)|]); exists (t_lines (base1 flt s));
      (split; [exact (q_lines _ _ Hq)|]).
    + apply LS_none; [reflexivity|exact (q_defined _ _ Hq)].
    + eapply LS_blank; [reflexivity|exact (q_defined _ _ Hq)].
  - split; [exact (q_total _ _ Hq)|]. exists (t_lines s1). split; [exact (q_lines _ _ Hq)|].
    apply LS_none; [reflexivity|exact (q_defined _ _ Hq)].
  - pose proof (label_cases handled l s1) as Hl. pose proof (classify_cases mblen flt handled l s1) as Hc.
    destruct (label_step handled l s1) as [l2 s2]. cbn [fst snd] in *.
    assert (Hs : t_lines s2 = t_lines s1 /\ t_total_lines s2 = t_total_lines s + 1 /\
      (lv_is_label l2 = false /\ t_labels_defined s2 = t_labels_defined s \/
       lv_is_label l2 = true /\ t_labels_defined s2 = map_assign (t_labels_defined s) (lv_label l2) (i32 (Z.of_nat (length (t_lines s)) + 1)))).
    { pose proof (q_total _ _ Hq) as Ht. pose proof (q_defined _ _ Hq) as Hd.
      pose proof (same_lines_length _ _ (q_lines _ _ Hq)) as Hn. cbn [begun] in Ht, Hd, Hn. tsimp. unfold begun in *. tsimp.
      destruct Hl as [|_|n a c _].
      - auto.
      - auto.
      - destruct (define_frame (slice l n) c s1) as (A & B & C). rewrite A, B, C.
        split; [reflexivity|]. split; [assumption|]. right. split; [reflexivity|]. rewrite Hd, Hn. reflexivity. }
    destruct Hs as (E1 & E2 & E3).
    assert (Hkeep : forall l3 s3, t_lines s3 = t_lines s2 -> t_total_lines s3 = t_total_lines s2 ->
       t_labels_defined s3 = t_labels_defined s2 -> lv_is_label l3 = lv_is_label l2 -> lv_label l3 = lv_label l2 ->
       t_total_lines (eol_keep mblen l3 s3) = t_total_lines s + 1 /\
       exists L, same_lines (t_lines s) L /\ lines_step s (eol_keep mblen l3 s3) L).
    { intros l3 s3 A B C D E. destruct (keep_shape mblen l3 s3) as (a & p & ->). tsimp.
      split; [congruence|]. exists (t_lines s1). split; [exact (q_lines _ _ Hq)|].
      destruct E3 as [[E3 E4]|[E3 E4]].
      - eapply LS_line; tsimp; [rewrite A, E1; reflexivity|rewrite final_is_label; congruence|congruence].
      - eapply LS_label; tsimp; [rewrite A, E1; reflexivity|rewrite final_is_label; congruence|rewrite final_label; congruence]. }
    destruct Hc as [Hn|l3 Hn Hnl Hnd _ _ _ ->|l3 Hn Hnl Hnd _ _ _ ->|l3 Hn Hnl Hnd _ ->|Hn _].
    + apply Hkeep; split_if; reflexivity.
    + unfold move_filtered. edestruct directive_frame as (u & c & ->). tsimp. split; [exact E2|].
      exists (t_lines s1). split; [exact (q_lines _ _ Hq)|]. apply LS_none; [exact E1|].
      destruct E3 as [[_ E3]|[E3 _]]; [exact E3|congruence].
    + edestruct directive_frame as (u & c & ->). apply Hkeep; try reflexivity; destruct handled; reflexivity.
    + apply Hkeep; try reflexivity; destruct handled; reflexivity.
    + apply Hkeep; reflexivity.
Qed.

(** [i] is the number of the last line defining [n]. *)
Definition last_def (ls : list asm_line_v) (n : str) (i : Z) : Prop :=
  (exists l, nth_error ls (Z.to_nat (i - 1)) = Some l /\ 1 <= i /\ lv_is_label l = true /\ v_str (lv_label l) = n) /\
  forall j l, nth_error ls j = Some l -> lv_is_label l = true -> v_str (lv_label l) = n -> Z.of_nat j < i.
Record label_inv (s : tstate) : Prop := {
  lb_sound : forall k i, In (k, i) (t_labels_defined s) -> last_def (t_lines s) (v_str k) i;
  lb_complete : forall l, In l (t_lines s) -> lv_is_label l = true -> exists k i, In (k, i) (t_labels_defined s) /\ v_str k = v_str (lv_label l);
  lb_nodup : NoDup (map (fun e => v_str (fst e)) (t_labels_defined s)) }.

Lemma same_lines_nth a b : same_lines a b -> forall n y, nth_error b n = Some y ->
  exists x, nth_error a n = Some x /\ same_line x y.
Proof.
  induction 1 as [|x y a b H _ IH]; intros [|n] z E; try discriminate; cbn in *.
  - injection E as <-. eauto.
  - eauto.
Qed.
Lemma same_lines_nth' a b : same_lines a b -> forall n x, nth_error a n = Some x ->
  exists y, nth_error b n = Some y /\ same_line x y.
Proof.
  induction 1 as [|x y a b H _ IH]; intros [|n] z E; try discriminate; cbn in *.
  - injection E as <-. eauto.
  - eauto.
Qed.
Lemma same_label x y : same_line x y -> lv_is_label y = lv_is_label x /\ lv_label y = lv_label x.
Proof. intros H. rewrite H. split; reflexivity. Qed.
Lemma last_def_same a b n i : same_lines a b -> last_def a n i -> last_def b n i.
Proof.
  intros H [(l & A & B & C & D) E]. split.
  - destruct (same_lines_nth' _ _ H _ _ A) as (y & Y & S). destruct (same_label _ _ S) as [S1 S2].
    exists y. rewrite S1, S2. auto.
  - intros j y Y L N. destruct (same_lines_nth _ _ H _ _ Y) as (x & X & S). destruct (same_label _ _ S) as [S1 S2].
    rewrite S1 in L. rewrite S2 in N. eauto.
Qed.
Lemma last_def_snoc ls l n i : (lv_is_label l = true -> v_str (lv_label l) <> n) -> last_def ls n i -> last_def (ls ++ [l]) n i.
Proof.
  intros Hn [(x & A & B & C & D) E]. split.
  - exists x. repeat split; auto. rewrite nth_error_app1; [assumption|]. apply nth_error_Some. congruence.
  - intros j y Y L N. destruct (Nat.lt_ge_cases j (length ls)) as [Hj|Hj].
    + rewrite nth_error_app1 in Y by assumption. eauto.
    + rewrite nth_error_app2 in Y by assumption. destruct (j - length ls)%nat eqn:Ej; cbn in Y.
      * injection Y as <-. contradiction (Hn L).
      * destruct n0; discriminate.
Qed.
Lemma last_def_new ls l : lv_is_label l = true -> last_def (ls ++ [l]) (v_str (lv_label l)) (Z.of_nat (length ls) + 1).
Proof.
  intros H. split.
  - exists l. replace (Z.to_nat (Z.of_nat (length ls) + 1 - 1)) with (length ls) by lia.
    rewrite nth_error_app2, Nat.sub_diag by lia. repeat split; auto. lia.
  - intros j y Y _ _. assert (j < length (ls ++ [l]))%nat by (apply nth_error_Some; congruence).
    rewrite app_length in H0. cbn in H0. lia.
Qed.

Lemma same_key_iff k k' : same_key k k' = true <-> v_str k' = k.
Proof. unfold same_key. apply str_eqb_eq. Qed.
Lemma map_assign_in {A} m k (a : A) : forall k' b, In (k', b) (map_assign m k a) -> 
  (v_str k' = v_str k /\ b = a) \/ (In (k', b) m).
Proof.
  induction m as [|(k1, a1) t IH]; intros k' b H; cbn in H.
  - destruct H as [[= <- <-]|[]]. auto.
  - destruct (same_key (v_str k) k1) eqn:E; cbn in H.
    + apply same_key_iff in E. destruct H as [[= <- <-]|H]; [auto|]. right. now right.
    + destruct H as [[= <- <-]|H]; [right; now left|]. destruct (IH _ _ H) as [?|?]; [auto|]. right. now right.
Qed.
Lemma map_assign_keeps {A} m k (a : A) : forall k' b, In (k', b) m -> exists b', In (k', b') (map_assign m k a).
Proof.
  induction m as [|(k1, a1) t IH]; intros k' b H; [destruct H|]. cbn. destruct (same_key _ _).
  - destruct H as [[= <- <-]|H]; eexists; [now left|now right; eauto].
  - destruct H as [[= <- <-]|H]; [eexists; now left|]. destruct (IH _ _ H) as (b' & Hb). exists b'. now right.
Qed.
Lemma map_assign_has {A} m k (a : A) : exists k' , In (k', a) (map_assign m k a) /\ v_str k' = v_str k.
Proof.
  induction m as [|(k1, a1) t IH]; cbn.
  - exists k. auto.
  - destruct (same_key (v_str k) k1) eqn:E.
    + apply same_key_iff in E. exists k1. split; [now left|assumption].
    + destruct IH as (k' & H & H'). exists k'. split; [now right|assumption].
Qed.
Lemma map_assign_keys {A} m k (a : A) :
  map (fun e => v_str (fst e)) (map_assign m k a) =
  if existsb (fun e => same_key (v_str k) (fst e)) m then map (fun e => v_str (fst e)) m
  else map (fun e => v_str (fst e)) m ++ [v_str k].
Proof.
  induction m as [|(k1, a1) t IH]; [reflexivity|]. cbn. destruct (same_key (v_str k) k1) eqn:E; cbn; [reflexivity|].
  rewrite IH. now destruct (existsb _ t).
Qed.
Lemma nodup_snoc {A} (l : list A) x : NoDup l -> ~ In x l -> NoDup (l ++ [x]).
Proof.
  induction 1 as [|y l Hy _ IH]; intros Hx; cbn; [repeat constructor; auto|].
  constructor; [|apply IH; intros H; apply Hx; now right].
  rewrite in_app_iff. intros [H|[H|[]]]; [auto|]. apply Hx. left. congruence.
Qed.
Lemma map_assign_nodup {A} m k (a : A) : NoDup (map (fun e => v_str (fst e)) m) -> NoDup (map (fun e => v_str (fst e)) (map_assign m k a)).
Proof.
  intros H. rewrite map_assign_keys. destruct (existsb _ m) eqn:E; [assumption|]. apply nodup_snoc; [assumption|].
  intros Hin. apply in_map_iff in Hin. destruct Hin as ((k1, a1) & E1 & Hin). cbn in E1.
  rewrite <- Bool.not_true_iff_false in E. apply E. apply existsb_exists. exists (k1, a1). split; [assumption|]. now apply same_key_iff.
Qed.
Lemma map_assign_other {A} m k (a : A) : NoDup (map (fun e => v_str (fst e)) m) -> forall k' b,
  In (k', b) (map_assign m k a) -> v_str k' = v_str k -> b = a.
Proof.
  induction m as [|(k1, a1) t IH]; intros Hd k' b H Hk; cbn in H.
  - destruct H as [[= <- <-]|[]]. auto.
  - cbn in Hd. apply NoDup_cons_iff in Hd as [Hd1 Hd2]. destruct (same_key (v_str k) k1) eqn:E; cbn in H.
    + apply same_key_iff in E. destruct H as [[= <- <-]|H]; [reflexivity|].
      exfalso. apply Hd1. apply in_map_iff. exists (k', b). split; [cbn; congruence|assumption].
    + destruct H as [[= <- <-]|H]; [|eauto]. exfalso. assert (same_key (v_str k) k1 = true) by now apply same_key_iff. congruence.
Qed.

Definition two31 : Z := 2147483648.

Lemma label_inv_step s s' L : same_lines (t_lines s) L -> Z.of_nat (length (t_lines s)) + 1 < two31 ->
  label_inv s -> lines_step s s' L -> label_inv s'.
Proof.
  intros HL Hn [Hs Hc Hd] Hst.
  assert (Hs' : forall k i, In (k, i) (t_labels_defined s) -> last_def L (v_str k) i) by (intros; eapply last_def_same; eauto).
  assert (Hc' : forall l, In l L -> lv_is_label l = true -> exists k i, In (k, i) (t_labels_defined s) /\ v_str k = v_str (lv_label l)).
  { intros l Hin Hl. apply In_nth_error in Hin as (n & Hin). destruct (same_lines_nth _ _ HL _ _ Hin) as (x & X & S).
    destruct (same_label _ _ S) as [S1 S2]. rewrite S1 in Hl. rewrite S2. apply Hc; [|assumption]. eapply nth_error_In; eassumption. }
  destruct Hst as [E1 E2|i E1 E2|l E1 El E2|l E1 El E2]; constructor; rewrite ?E1, ?E2; auto.
  - intros k j H. apply last_def_snoc; [discriminate|auto].
  - intros x Hx Hl. apply in_app_iff in Hx as [Hx|[<-|[]]]; [auto|discriminate].
  - intros k j H. apply last_def_snoc; [congruence|auto].
  - intros x Hx Hl. apply in_app_iff in Hx as [Hx|[<-|[]]]; [auto|congruence].
  - rewrite i32_small by (unfold two31 in *; lia). rewrite (same_lines_length _ _ HL). intros k j H.
    destruct (list_eq_dec Ascii.ascii_dec (v_str k) (v_str (lv_label l))) as [Hk|Hk].
    + rewrite (map_assign_other _ _ _ Hd _ _ H Hk), Hk. now apply last_def_new.
    + destruct (map_assign_in _ _ _ _ _ H) as [[? _]|H']; [contradiction|]. apply last_def_snoc; [congruence|auto].
  - rewrite i32_small by (unfold two31 in *; lia). intros x Hx Hl. apply in_app_iff in Hx as [Hx|[<-|[]]].
    + destruct (Hc' _ Hx Hl) as (k & i & H & H'). destruct (map_assign_keeps _ (lv_label l) (Z.of_nat (length (t_lines s)) + 1) _ _ H) as (b & Hb).
      exists k, b. auto.
    + destruct (map_assign_has (t_labels_defined s) (lv_label l) (Z.of_nat (length (t_lines s)) + 1)) as (k & H & H').
      eexists k, _. split; eassumption.
  - now apply map_assign_nodup.
Qed.

(** Counting. *)
Record count_inv (s : tstate) : Prop := {
  ci_count : Z.of_nat (length (t_lines s)) <= t_total_lines s;
  ci_labels : t_total_lines s < two31 -> label_inv s }.
Lemma count_eol mblen flt s : good flt s -> count_inv s -> count_inv (eol mblen flt s).
Proof.
  intros Hg [Hc Hl]. destruct (eol_lines mblen flt s Hg) as (Ht & L & HL & Hst).
  pose proof (same_lines_length _ _ HL) as Hn. constructor.
  - rewrite Ht. destruct Hst as [E1 E2|i E1 E2|l E1 El E2|l E1 El E2]; rewrite E1, ?app_length; cbn [length]; lia.
  - rewrite Ht. intros Hb. eapply label_inv_step; [exact HL| | |exact Hst]; [lia|apply Hl; lia].
Qed.
Lemma count_read mblen flt input : count_inv (read_lines mblen flt tstate0 input).
Proof.
  apply read_invariant.
  - intros s c [A B] _. constructor; [exact A|]. intros H. destruct (B H). now constructor.
  - intros s H Hg. now apply count_eol.
  - constructor; [cbn; lia|]. intros _. constructor; cbn; [tauto|tauto|constructor].
  - apply good0.
  - reflexivity.
Qed.
