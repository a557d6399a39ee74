(** The text parser: every use is in the tables, and what that says about the search. *)
From Coq Require Import Permutation.
From Verif Require Import AsmLemmas AsmRead AsmMark AsmTrace AsmThms AsmUse AsmSearch.

Definition looked (m : list (view * list view)) (k r : str) : Prop := exists refs v, map_find m k = Some refs /\ In v refs /\ v_str v = r.
Lemma set_insert_old s v x : In x s -> In x (set_insert s v).
Proof. unfold set_insert. destruct (set_contains _ _); [auto|]. rewrite in_app_iff. auto. Qed.
Lemma set_insert_new s v : exists x, In x (set_insert s v) /\ v_str x = v_str v.
Proof.
  unfold set_insert. destruct (set_contains s (v_str v)) eqn:E.
  - unfold set_contains in E. apply existsb_exists in E as (x & A & B). apply same_key_iff in B. exists x. auto.
  - exists v. rewrite in_app_iff. cbn. auto.
Qed.
Lemma set_contains_in s k : set_contains s k = true <-> exists v, In v s /\ v_str v = k.
Proof.
  unfold set_contains. rewrite existsb_exists. split; intros (v & A & B); exists v; (split; [exact A|]); now apply same_key_iff.
Qed.
Lemma find_insert m k v k' : map_find (map_set_insert m k v) k' =
  if str_eqb k' (v_str k) then Some (match map_find m k' with Some s => set_insert s v | None => [v] end) else map_find m k'.
Proof.
  unfold map_find, option_map. destruct (str_eqb k' (v_str k)) eqn:Ek.
  - apply str_eqb_eq in Ek. subst k'. induction m as [|[a s] t IH]; cbn [map_set_insert find fst].
    + unfold same_key. rewrite str_eqb_refl. reflexivity.
    + destruct (same_key (v_str k) a) eqn:E; cbn [find fst]; rewrite E; [reflexivity|exact IH].
  - assert (Hk : forall a, same_key (v_str k) a = true -> same_key k' a = false).
    { intros a Ha. apply same_key_iff in Ha. destruct (same_key k' a) eqn:E; [|reflexivity]. apply same_key_iff in E. rewrite <- E, Ha, str_eqb_refl in Ek. discriminate. }
    induction m as [|[a s] t IH]; cbn [map_set_insert find fst].
    + assert (same_key k' k = false) as ->; [|reflexivity]. apply Hk. now apply same_key_iff.
    + destruct (same_key (v_str k) a) eqn:E; cbn [find fst]; [rewrite (Hk _ E); reflexivity|]. destruct (same_key k' a); [reflexivity|exact IH].
Qed.
Lemma looked_insert m k v a b : looked m a b -> looked (map_set_insert m k v) a b.
Proof.
  intros (refs & x & A & B & C). unfold looked. rewrite find_insert, A. destruct (str_eqb a (v_str k)).
  - exists (set_insert refs v), x. split; [reflexivity|]. split; [now apply set_insert_old|exact C].
  - eauto.
Qed.
Lemma looked_new m k v : looked (map_set_insert m k v) (v_str k) (v_str v).
Proof.
  unfold looked. rewrite find_insert, str_eqb_refl. destruct (map_find m (v_str k)) as [s|].
  - destruct (set_insert_new s v) as (x & A & B). exists (set_insert s v), x. auto.
  - exists [v], v. cbn. auto.
Qed.
Lemma looked_code refs parent : forall m a b, looked m a b -> looked (code_refs refs parent m) a b.
Proof.
  unfold code_refs. induction refs as [|r t IH]; intros m a b H; [exact H|]. cbn [fold_left]. apply IH. destruct (negb _); [now apply looked_insert|exact H].
Qed.
Lemma looked_code_new refs parent : forall m k, In k (map (fun r => v_str (lbv_name r)) refs) -> k <> v_str parent -> looked (code_refs refs parent m) k (v_str parent).
Proof.
  unfold code_refs. induction refs as [|r t IH]; intros m k H Hk; [destruct H|]. cbn [fold_left]. destruct H as [<-|H].
  - apply looked_code. destruct (str_eqb (v_str (lbv_name r)) (v_str parent)) eqn:E; [apply str_eqb_eq in E; contradiction|]. apply looked_new.
  - now apply IH.
Qed.
Lemma looked_filter p m k r : (forall kv, v_str kv = k -> forall refs, p (kv, refs) = true) -> looked m k r -> looked (filter p m) k r.
Proof.
  intros Hp (refs & v & A & B). exists refs, v. split; [|exact B]. clear B. revert A. unfold map_find, option_map.
  induction m as [|[a s] t IH]; [auto|]. cbn [find filter fst]. destruct (same_key k a) eqn:E.
  - intros H. apply same_key_iff in E. rewrite (Hp a E). cbn [find fst]. apply same_key_iff in E. rewrite E. exact H.
  - intros H. destruct (p (a, s)); [cbn [find fst]; rewrite E|]; auto.
Qed.

(** [l] declares [k] global. *)
Definition declares (l : asm_line_v) (k : str) : Prop :=
  lv_is_label l = false /\ lv_is_directive l = true /\ source_directive (lv_text l) = false /\ isInstOpcode (lv_text l) = false /\
  getWeakDefinedLabel (lv_text l) = None /\ getGlobalDefinedLabel (lv_text l) = Some k.
Definition code_use (ls : list asm_line_v) (k r : str) : Prop :=
  exists pre l post, ls = pre ++ l :: post /\ lv_is_label l = false /\ lv_has_opcode l = true /\ mentions l k /\ k <> r /\ r = parent_after pre.
Record full_inv (ls fs : list asm_line_v) (parent : str) (used : list (view * list view)) (user : list view) : Prop := {
  fi_parent : parent = parent_after ls;
  fi_code : forall k r, code_use ls k r -> looked used k r;
  fi_user : forall l k, In l (ls ++ fs) -> declares l k -> set_contains user k = true }.
Definition full_of (s : tstate) : Prop :=
  full_inv (map erase (t_lines s)) (map erase (t_filteredlines s)) (v_str (t_previousParentLabel s)) (t_used_labels s) (t_usercode_labels s).
Lemma code_use_snoc ls l k r : code_use (ls ++ [l]) k r -> code_use ls k r \/
  (lv_is_label l = false /\ lv_has_opcode l = true /\ mentions l k /\ k <> r /\ r = parent_after ls).
Proof.
  intros (pre & x & post & E & H). destruct (rev post) as [|y q] eqn:Ep.
  - assert (post = []) as -> by (rewrite <- (rev_involutive post), Ep; reflexivity). apply app_inj_tail in E as [-> ->]. now right.
  - assert (Hp : post = rev q ++ [y]) by (rewrite <- (rev_involutive post), Ep; reflexivity). subst post.
    rewrite app_comm_cons, app_assoc in E. apply app_inj_tail in E as [-> _]. left. exists pre, x, (rev q). auto.
Qed.

Section Step.
Variables (mblen : str -> Z) (flt : Filter).
Lemma keep_full l s (E F : list asm_line_v) :
  E = map erase (t_lines s) -> F = map erase (t_filteredlines s) ->
  (forall k r, code_use E k r -> looked (t_used_labels s) k r) ->
  (forall x k, In x (E ++ [erase (final_line mblen l s)] ++ F) -> declares x k -> set_contains (t_usercode_labels s) k = true) ->
  (if lv_is_label l then v_str (t_previousParentLabel s) = (if lv_is_internal_label l then parent_after E else v_str (lv_label l))
   else v_str (t_previousParentLabel s) = parent_after E) ->
  full_of (eol_keep mblen l s).
Proof.
  intros -> -> Hu Hd Hl. destruct (keep_shape mblen l s) as (a & p & ->). unfold full_of. tsimp. rewrite map_app. cbn [map].
  set (e := erase (final_line mblen l s)) in *.
  assert (E1 : lv_is_label e = lv_is_label l) by reflexivity.
  assert (E2 : lv_is_internal_label e = lv_is_internal_label l) by reflexivity.
  assert (E3 : lv_label e = lv_label l) by reflexivity.
  assert (E5 : lv_has_opcode e = hasOpcode (lv_text l) (t_inNvccCode s)) by reflexivity.
  assert (E6 : lv_is_label l = false -> lv_has_opcode e = true ->
     map (fun r => v_str (lbv_name r)) (lv_labels e) = map (fun r => v_str (lbv_name r)) (used_labels_in mblen l)).
  { intros A B. unfold e, erase, final_line. vsimp. rewrite A. cbn [negb andb]. rewrite E5 in B. rewrite B. reflexivity. }
  clearbody e. constructor.
  - rewrite parent_after_app, E1, E2, E3. destruct (lv_is_label l); cbn [andb]; [|exact Hl]. rewrite Hl. now destruct (lv_is_internal_label l).
  - intros k r H. unfold keep_used. apply code_use_snoc in H as [H|(H1 & H2 & H3 & H4 & ->)].
    + destruct (negb _ && _); [apply looked_code|]; auto.
    + rewrite <- E1, H1, <- E5, H2. cbn [negb andb]. rewrite E1 in H1. rewrite H1 in Hl. rewrite <- Hl in *.
      apply looked_code_new; [|exact H4]. unfold mentions in H3. rewrite (E6 H1 H2) in H3. exact H3.
  - intros x k Hx. apply Hd. rewrite <- app_assoc in Hx. exact Hx.
Qed.
Lemma directive_full l s k : set_contains (t_usercode_labels s) k = true ->
  set_contains (t_usercode_labels (extractUsedLabelsFromDirective l s)) k = true.
Proof.
  intros H. unfold extractUsedLabelsFromDirective. destruct (getWeakDefinedLabel _); [exact H|]. destruct (getGlobalDefinedLabel _); [|exact H].
  tsimp. apply set_contains_in in H as (v & A & B). apply set_contains_in. exists v. split; [now apply set_insert_old|exact B].
Qed.
Lemma directive_new l l' s k : lv_text l' = lv_text l -> declares l' k -> set_contains (t_usercode_labels (extractUsedLabelsFromDirective l s)) k = true.
Proof.
  intros E (_ & _ & _ & _ & H1 & H2). rewrite E in *. unfold extractUsedLabelsFromDirective. rewrite H1, H2. tsimp.
  destruct (set_insert_new (t_usercode_labels s) (slice l k)) as (x & A & B). apply set_contains_in. exists x. split; [exact A|]. rewrite B. reflexivity.
Qed.
Lemma directive_looked l s k r : looked (t_used_labels s) k r -> looked (t_used_labels (extractUsedLabelsFromDirective l s)) k r.
Proof.
  intros H. unfold extractUsedLabelsFromDirective. destruct (getWeakDefinedLabel _); [tsimp; now apply looked_insert|].
  destruct (getGlobalDefinedLabel _); [tsimp; now apply looked_insert|exact H].
Qed.

Lemma eol_full s : full_of s -> good flt s -> full_of (eol mblen flt s).
Proof.
  intros HT Hg.
  assert (Hq1 : forall s1, quiet (begun s) s1 -> full_of s1).
  { intros s1 Hq. destruct HT as [Ip Iu Ig]. unfold full_of.
    rewrite (erase_same _ _ (q_lines _ _ Hq)), (q_filtered _ _ Hq), (q_used _ _ Hq), (q_usercode _ _ Hq), (q_parent _ _ Hq). now constructor. }
  destruct (eol_cases mblen flt s Hg) as [_|_ _|s1 l _ _ Hq _ _ _|handled s1 l _ _ Hq _ Hf Hl0 _ Hh].
  - exact (Hq1 _ (base1_quiet flt s)).
  - specialize (Hq1 _ (base1_quiet flt s)). destruct (blank_cases (base1 flt s)) as [[_ ->]|[_ ->]]; [exact Hq1|].
    destruct Hq1 as [Ip Iu Ig]. unfold full_of, keep_text. tsimp. rewrite map_app. cbn [map]. constructor.
    + rewrite parent_after_app. exact Ip.
    + intros k r H. apply code_use_snoc in H as [H|(_ & H & _)]; [auto|discriminate].
    + intros x k Hx Hdx. rewrite <- app_assoc in Hx. apply in_app_iff in Hx as [Hx|[<-|Hx]]; [|destruct Hdx as (_ & X & _); discriminate|]; eapply Ig; try exact Hdx; rewrite in_app_iff; auto.
  - exact (Hq1 _ Hq).
  - specialize (Hq1 _ Hq). pose proof (label_cases handled l s1) as Hl. pose proof (classify_cases mblen flt handled l s1) as Hc.
    assert (Htxt : lv_text (fst (label_step handled l s1)) = lv_text l).
    { destruct Hl; unfold labelled; try (split_if; reflexivity); reflexivity. }
    assert (Hdirs : lv_is_directive (fst (label_step handled l s1)) = handled).
    { destruct Hl; unfold labelled; try (split_if; reflexivity); reflexivity. }
    destruct (label_step handled l s1) as [l2 s2]. cbn [fst snd] in *.
    destruct Hq1 as [Ip Iu Ig].
    assert (Hs : t_lines s2 = t_lines s1 /\ t_filteredlines s2 = t_filteredlines s1 /\ t_used_labels s2 = t_used_labels s1 /\ t_usercode_labels s2 = t_usercode_labels s1 /\
       (if lv_is_label l2 then v_str (t_previousParentLabel s2) = (if lv_is_internal_label l2 then parent_after (map erase (t_lines s1)) else v_str (lv_label l2))
        else v_str (t_previousParentLabel s2) = parent_after (map erase (t_lines s1)))).
    { destruct Hl as [|_|n a c _]; [do 4 (split; [reflexivity|]); exact Ip..|]. unfold define_label, labelled. vsimp.
      destruct c, (isInternalLabel (v_str (slice l n))) eqn:Ei; tsimp; do 4 (split; [reflexivity|]); cbn [v_str slice] in Ei; rewrite Ei; try reflexivity; exact Ip. }
    destruct Hs as (S1 & S2 & S3 & S4 & S5).
    assert (Hkeep : forall l3 s3, t_lines s3 = t_lines s2 -> t_filteredlines s3 = t_filteredlines s2 ->
        (forall k r, looked (t_used_labels s2) k r -> looked (t_used_labels s3) k r) ->
        (forall k, set_contains (t_usercode_labels s2) k = true -> set_contains (t_usercode_labels s3) k = true) ->
        t_previousParentLabel s3 = t_previousParentLabel s2 ->
        lv_is_label l3 = lv_is_label l2 -> lv_label l3 = lv_label l2 -> lv_is_internal_label l3 = lv_is_internal_label l2 ->
        (forall k, declares (erase (final_line mblen l3 s3)) k -> set_contains (t_usercode_labels s3) k = true) ->
        full_of (eol_keep mblen l3 s3)).
    { intros l3 s3 A1 A2 A3 A4 A5 B1 B2 B3 B4.
      apply keep_full with (E := map erase (t_lines s1)) (F := map erase (t_filteredlines s1)); rewrite ?A1, ?A2, ?A5, ?B1, ?B2, ?B3, ?S1, ?S2; auto.
      - intros k r H. apply A3. rewrite S3. auto.
      - intros x k Hx Hdx. rewrite !in_app_iff in Hx. destruct Hx as [Hx|[[<-|[]]|Hx]]; [|now apply B4|]; apply A4; rewrite S4; eapply Ig; try exact Hdx; rewrite in_app_iff; auto. }
    destruct Hc as [Hn|l3 Hn Hnl Hnd _ Hdir _ E3|l3 Hn Hnl Hnd _ Hdir _ E3|l3 Hn Hnl Hnd Hno E3|Hn Hlab].
    + apply Hkeep; try reflexivity; try (destruct (isCudaEndDef _); reflexivity); try (destruct (isCudaEndDef _); auto; fail).
      intros k (_ & D1 & D2 & _). exfalso. change (lv_is_directive l2 = true) in D1. change (source_directive (lv_text l2) = false) in D2.
      rewrite Htxt in D2. rewrite Hdirs in D1. specialize (Hh D1). congruence.
    + unfold full_of, move_filtered. pose proof (directive_frame l3 s2) as (u & c & Hfr). 
      assert (F1 : t_lines (extractUsedLabelsFromDirective l3 s2) = t_lines s2) by (rewrite Hfr; reflexivity).
      assert (F2 : t_filteredlines (extractUsedLabelsFromDirective l3 s2) = t_filteredlines s2) by (rewrite Hfr; reflexivity).
      assert (F3 : t_previousParentLabel (extractUsedLabelsFromDirective l3 s2) = t_previousParentLabel s2) by (rewrite Hfr; reflexivity).
      tsimp. rewrite F1, F2, F3, S1, S2, map_app. cbn [map]. constructor.
      * rewrite Hnl in S5. exact S5.
      * intros k r H. apply directive_looked. rewrite S3. auto.
      * intros x k Hx Hdx. rewrite !in_app_iff in Hx. destruct Hx as [Hx|[Hx|[<-|[]]]].
        -- apply directive_full. rewrite S4. eapply Ig; [|exact Hdx]. rewrite in_app_iff. auto.
        -- apply directive_full. rewrite S4. eapply Ig; [|exact Hdx]. rewrite in_app_iff. auto.
        -- now apply directive_new with (l' := erase l3).
    + pose proof (directive_frame l3 s2) as (u & c & Hfr). apply Hkeep; try (rewrite Hfr; reflexivity).
      * intros. now apply directive_looked. 
      * intros. now apply directive_full.
      * rewrite E3; destruct handled; reflexivity.
      * rewrite E3; destruct handled; reflexivity.
      * rewrite E3; destruct handled; reflexivity.
      * intros k Hk. eapply directive_new; [|exact Hk]. reflexivity.
    + apply Hkeep; auto; try (rewrite E3; destruct handled; reflexivity).
      intros k (_ & D1 & _ & D2 & _). exfalso. change (lv_is_directive l3 = true) in D1. change (isInstOpcode (lv_text l3) = false) in D2.
      assert (Ht3 : lv_text l3 = lv_text l2) by (rewrite E3; destruct handled; reflexivity). rewrite Ht3 in D2. destruct Hno; congruence.
    + apply Hkeep; auto. intros k (_ & D1 & D2 & _). exfalso. change (lv_is_directive l2 = true) in D1. change (source_directive (lv_text l2) = false) in D2.
      rewrite Htxt in D2. rewrite Hdirs in D1. specialize (Hh D1). congruence.
Qed.
Lemma read_full input : full_of (read_lines mblen flt tstate0 input).
Proof.
  apply read_invariant with (P := full_of).
  - intros s c H _. exact H.
  - exact eol_full.
  - constructor; [reflexivity| |intros l k []]. intros k r (pre & l & post & E & _). destruct pre; discriminate.
  - apply good0.
  - reflexivity.
Qed.
End Step.

(** *** The search finds something if there is something to find *)
(** Chains of uses by code. *)
Definition code_chain (ls fs : list asm_line_v) (k : str) : Prop :=
  chain (code_use ls) (fun _ _ => False) (fun k => exists l, In l (ls ++ fs) /\ declares l k) k.
Section Parse.
Variables (mblen : str -> Z) (flt : Filter)
          (ord_refs : list view -> list view) (ord_labels : list (view * Z) -> list (view * Z)).
Hypothesis Hrefs : shuffles ord_refs.
Hypothesis Hlabels : forall m, Permutation (ord_labels m) m.
Variable input : str.
Let st := read_lines mblen flt tstate0 input.
Let ls := lines_read mblen flt input.
Let fs := lines_aside mblen flt input.
Hypothesis Hlen : Z.of_nat (length input) < two31.
Hypothesis no_data_refs : forall d k, In d ls -> lv_is_data d = true -> mentions d k -> ~ is_label_name mblen flt input k.

Lemma name_defined k : is_label_name mblen flt input k -> map_contains (t_labels_defined st) k = true.
Proof.
  intros (l & Hl & A & B). unfold lines_read in Hl. apply in_map_iff in Hl as (l0 & <- & Hl).
  destruct (count_read mblen flt input) as [_ H]. destruct H as [_ H _]; [pose proof (read_total mblen flt input); lia|].
  destruct (H l0 Hl A) as (v & i & H1 & H2). apply map_contains_in. exists v, i. split; [exact H1|]. rewrite H2. exact B.
Qed.
Lemma looked_refs m k r : looked m k r -> exists v, In v (refs_of ord_refs m k) /\ v_str v = r.
Proof.
  intros (refs & v & A & B & C). exists v. split; [|exact C]. unfold refs_of. rewrite A. eapply Permutation_in; [apply Permutation_sym, Hrefs|exact B].
Qed.
Lemma code_used k r : is_label_name mblen flt input k -> code_use ls k r -> tab_used ord_refs (read mblen flt input) k r.
Proof.
  intros Hk H. apply (fi_code _ _ _ _ _ (read_full mblen flt input)) in H. apply looked_refs.
  unfold read, filterNonLabels. tsimp. apply looked_filter; [|exact H]. intros kv <- refs. apply name_defined. exact Hk.
Qed.
Lemma code_use_named k r : code_use ls k r -> r <> [] -> is_label_name mblen flt input r.
Proof.
  intros (pre & l & post & E & _ & _ & _ & _ & ->) Hr. destruct (parent_after_name pre) as [X|(x & X1 & X2)]; [contradiction|].
  exists x. split; [|exact X2]. fold ls. rewrite E, in_app_iff. auto.
Qed.
Lemma chain_clear k : code_chain ls fs k -> is_label_name mblen flt input k -> clear ord_refs (read mblen flt input) [] k.
Proof.
  induction 1 as [k (l & Hl & Hd)|k Hu|k r Hu Hc IH|k r []]; intros Hk.
  - apply CL_user; [intros []|]. exact (fi_user _ _ _ _ _ (read_full mblen flt input) l k Hl Hd).
  - apply CL_free; [intros []|]. now apply code_used.
  - destruct (str_dec r []) as [->|Hr]; [apply CL_free; [intros []|]; now apply code_used|].
    apply CL_step with (r := r); [intros []|now apply code_used|exact Hr|]. apply IH. eapply code_use_named; eassumption.
Qed.
Definition has_mark (l : asm_line_v) : Prop := lv_is_used l = true \/ lv_is_used_through_alias l = true.
Definition some_mark (l : list asm_line_v) : Prop := exists x, In x l /\ has_mark x.
Lemma update_mark n f l : (forall x, has_mark x -> has_mark (f x)) -> some_mark l -> some_mark (update_nth n f l).
Proof.
  intros Hf (x & Hx & Hm). revert n. induction l as [|y t IH]; [destruct Hx|]; intros [|n]; destruct Hx as [->|Hx]; cbn [update_nth].
  - exists (f x). cbn. auto. - exists x. cbn. auto. - exists x. cbn. auto.
  - destruct (IH Hx n) as (z & Hz & Hz'). exists z. cbn. auto.
Qed.
Lemma update_hit n f l x : nth_error l n = Some x -> has_mark (f x) -> some_mark (update_nth n f l).
Proof.
  revert n. induction l as [|y t IH]; intros [|n]; cbn; try discriminate.
  - intros [= ->] H. exists (f x). cbn. auto.
  - intros H1 H2. destruct (IH n H1 H2) as (z & Hz & Hz'). exists z. cbn. auto.
Qed.
Lemma mark_one_keeps s fuel idx vis s' vis' : mark_one ord_refs s fuel idx vis = Ok (s', vis') -> some_mark (t_lines s) -> some_mark (t_lines s').
Proof.
  unfold mark_one. destruct (_ || _); [discriminate|]. destruct (nth_error _ _); [|discriminate]. intros H Hm. revert H.
  destruct (isUsed _ _ _ _ _ _) as [[u v]| | |]; cbn [obind fst snd]; try discriminate. destruct u.
  { intros [= <- <-]. tsimp. apply update_mark; [|exact Hm]. intros x [H|H]; [now left|now right]. }
  destruct (isDataUsedThroughAlias _ _ _ _ _) as [[u2 v2]| | |]; cbn [obind fst snd]; try discriminate. destruct u2.
  { intros [= <- <-]. tsimp. apply update_mark; [|exact Hm]. intros x [H|H]; [now left|now right]. }
  destruct (isUsedThroughAlias _ _ _ _ _) as [[u3 v3]| | |]; cbn [obind fst snd]; try discriminate. destruct u3; intros [= <- <-]; [|exact Hm].
  tsimp. apply update_mark; [|exact Hm]. intros x [H|H]; [now left|now right].
Qed.
Lemma mark_loop_keeps fuel labels : forall s vis s' vis', mark_loop ord_refs fuel labels s vis = Ok (s', vis') -> some_mark (t_lines s) -> some_mark (t_lines s').
Proof.
  induction labels as [|e t IH]; intros s vis s' vis'; cbn [mark_loop]; [now intros [= <- <-]|].
  destruct (mark_one _ _ _ _ _) as [[s1 v1]| | |] eqn:E; cbn [obind fst snd]; try discriminate. intros H Hm. eapply IH; [exact H|]. eapply mark_one_keeps; eassumption.
Qed.
Lemma exact_read fuel k vis : is_label_name mblen flt input k ->
  exact_result ord_refs (read mblen flt input) k vis (isUsed ord_refs (read mblen flt input) fuel k 1 vis).
Proof.
  intros Hk. apply isUsed_exact with (dom := is_label_name mblen flt input); auto; [| | |lia].
  - intros a r _ Ha Hr. eapply user_named; [|exact Hr]. eapply tab_used_read, Ha. exact Hrefs.
  - intros a Ha. eapply name_no_data; eauto.
  - intros. now apply weak_none.
Qed.
Lemma mark_loop_finds fuel k labels : forall vis' s', 
  (forall e, In e labels -> exists l, nth_error (t_lines st) (Z.to_nat (snd e - 1)) = Some l /\ 1 <= snd e /\ lv_is_label l = true /\ v_str (lv_label l) = v_str (fst e)) ->
  (exists e, In e labels /\ v_str (fst e) = k) -> clear ord_refs (read mblen flt input) [] k ->
  mark_loop ord_refs fuel labels (read mblen flt input) [] = Ok (s', vis') -> some_mark (t_lines s').
Proof.
  induction labels as [|e t IH]; intros vis' s' Hl (e0 & He0 & Hk) Hc; [destruct He0|]. cbn [mark_loop].
  destruct (Hl e (or_introl eq_refl)) as (l & E1 & E2 & E3 & E4).
  assert (Hname : is_label_name mblen flt input (v_str (lv_label l))).
  { exists (erase l). split; [apply in_map; eapply nth_error_In, E1|]. split; [exact E3|reflexivity]. }
  destruct (mark_one ord_refs (read mblen flt input) fuel (snd e) []) as [[s1 v1]| | |] eqn:E; cbn [obind fst snd]; try discriminate.
  intros H. revert E. unfold mark_one. change (t_lines (read mblen flt input)) with (t_lines st).
  destruct (_ || _); [discriminate|]. rewrite E1.
  destruct (isUsed ord_refs (read mblen flt input) fuel (v_str (lv_label l)) 1 []) as [[u v]| | |] eqn:Eu; cbn [obind fst snd]; try discriminate.
  destruct (exact_read fuel _ [] Hname _ _ Eu) as [A B]. destruct u.
  { intros [= <- <-]. eapply mark_loop_keeps; [exact H|]. tsimp. eapply update_hit; [exact E1|]. now left. }
  destruct (B eq_refl) as [-> Hn]. unfold isDataUsedThroughAlias. erewrite name_no_data by eauto. cbn [any_ref obind fst snd].
  unfold isUsedThroughAlias. change (t_aliased_labels (read mblen flt input)) with (t_aliased_labels st).
  unfold map_find, option_map. destruct (find _ _) as [[kv a]|] eqn:Ef; cbn [snd].
  - apply find_some in Ef as [Ef _].
    assert (Ha : is_label_name mblen flt input (v_str a)).
    { destruct (ai_alias _ _ _ (read_alias mblen flt input) _ _ Ef) as (pre & la & mid & lk & post & X & (Y1 & _ & Y3) & _).
      exists la. split; [unfold lines_read; rewrite X, in_app_iff; cbn; auto|auto]. }
    destruct (isUsed ord_refs (read mblen flt input) fuel (v_str a) 1 []) as [[u3 v3]| | |] eqn:E5; cbn [obind fst snd]; try discriminate.
    destruct (exact_read fuel _ [] Ha _ _ E5) as [A3 B3]. destruct u3.
    + intros [= <- <-]. eapply mark_loop_keeps; [exact H|]. tsimp. eapply update_hit; [exact E1|]. now right.
    + destruct (B3 eq_refl) as [-> _]. intros [= <- <-]. eapply IH; [intros; apply Hl; now right| |exact Hc|exact H].
      destruct He0 as [<-|He0]; [exfalso; apply Hn; rewrite E4, Hk; exact Hc|eauto].
  - cbn [obind fst snd]. intros [= <- <-]. eapply IH; [intros; apply Hl; now right| |exact Hc|exact H].
    destruct He0 as [<-|He0]; [exfalso; apply Hn; rewrite E4, Hk; exact Hc|eauto].
Qed.
Lemma remove_covers s l0 : forall l r, In l0 l -> In (shown s l0) (fst (remove_loop flt s r l)) \/ In l0 (snd (remove_loop flt s r l)).
Proof.
  induction l as [|x t IH]; intros r H; [destruct H|]. cbn [remove_loop]. destruct (remove_label flt s r x) as [only r'].
  specialize (IH r'). destruct (remove_loop flt s r' t) as [kept out]. cbn [fst snd] in IH. destruct (removed _ _ _ _); cbn [fst snd].
  - destruct H as [->|H]; [right; now left|]. destruct (IH H); [now left|right; now right].
  - destruct H as [->|H]; [left; left; reflexivity|]. destruct (IH H); [left; now right|now right].
Qed.
Lemma C42_some fuel s' vis' l : AsmText.run mblen flt ord_refs ord_labels fuel input [] = Ok (s', vis') ->
  In l ls -> lv_is_label l = true -> code_chain ls fs (v_str (lv_label l)) -> some_mark (t_lines s' ++ t_filteredlines s').
Proof.
  unfold AsmText.run, fromStream. fold (read mblen flt input). unfold markLabelUsage. intros H Hl Hlab Hc.
  destruct (mark_loop ord_refs fuel _ (read mblen flt input) []) as [[s1 v1]| | |] eqn:E; cbn [obind fst snd] in H; try discriminate.
  injection H as <- <-.
  assert (Hname : is_label_name mblen flt input (v_str (lv_label l))) by (exists l; auto).
  assert (Hm : some_mark (t_lines s1)).
  { eapply mark_loop_finds; [| |apply chain_clear; [exact Hc|exact Hname]|exact E].
    - intros [k i] Hin. eapply Permutation_in in Hin; [|apply Hlabels]. cbn [fst snd].
      destruct (table_lines _ _ _ _ _ Hlen Hin) as [(x & A & B & C & D) _]. eauto 10.
    - apply name_defined in Hname. apply map_contains_in in Hname as (v & i & Hin & Hv). exists (v, i). split; [|exact Hv].
      eapply Permutation_in; [apply Permutation_sym, Hlabels|exact Hin]. }
  destruct Hm as (x & Hx & Hm). unfold removeUnused.
  destruct (remove_covers s1 x (t_lines s1) (mkR false false false false) Hx) as [Hr|Hr];
    destruct (remove_loop flt s1 _ (t_lines s1)) as [kept out]; cbn [fst snd] in Hr; tsimp.
  - exists (shown s1 x). rewrite in_app_iff. split; [now left|]. rewrite shown_core. exact Hm.
  - exists x. rewrite !in_app_iff. auto.
Qed.
End Parse.
