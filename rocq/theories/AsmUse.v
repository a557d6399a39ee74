(** The text parser: what the usage tables say about the lines, and what a line
    marked as used says about the tables. *)
From Verif Require Import AsmLemmas AsmRead AsmMark AsmTrace AsmThms.

(** A line without its source attribution, which later lines may change. *)
Definition erase (l : asm_line_v) : asm_line_v := set_lv_source source_v0 l.
Lemma erase_same a b : same_lines a b -> map erase b = map erase a.
Proof. intros H. symmetry. now apply same_lines_map. Qed.

(** The label, and the label that is not internal, in force after some lines. *)
Definition label_after (ls : list asm_line_v) : str :=
  fold_left (fun n l => if lv_is_label l then v_str (lv_label l) else n) ls [].
Definition parent_after (ls : list asm_line_v) : str :=
  fold_left (fun n l => if lv_is_label l && negb (lv_is_internal_label l) then v_str (lv_label l) else n) ls [].
Lemma label_after_app ls l : label_after (ls ++ [l]) = if lv_is_label l then v_str (lv_label l) else label_after ls.
Proof. unfold label_after. now rewrite fold_left_app. Qed.
Lemma parent_after_app ls l : parent_after (ls ++ [l]) = if lv_is_label l && negb (lv_is_internal_label l) then v_str (lv_label l) else parent_after ls.
Proof. unfold parent_after. now rewrite fold_left_app. Qed.

(** Line [l], with [pre] before it, mentions label [k]. *)
Definition mentions (l : asm_line_v) (k : str) : Prop := In k (map (fun r => v_str (lbv_name r)) (lv_labels l)).

(** [k] is used by [r]: an instruction below [r] mentions [k], or a .weak or .globl
    directive in reach of label [r] names it. *)
Inductive used_by (ls fs : list asm_line_v) (k : str) : str -> Prop :=
| UB_code pre l post : ls = pre ++ l :: post -> lv_is_label l = false -> lv_has_opcode l = true -> mentions l k ->
    k <> parent_after pre -> used_by ls fs k (parent_after pre)
| UB_named l r : In l (ls ++ fs) -> lv_is_label l = false -> lv_is_directive l = true ->
    getWeakDefinedLabel (lv_text l) = Some k \/ getGlobalDefinedLabel (lv_text l) = Some k ->
    r = [] \/ (exists pre post, ls = pre ++ post /\ r = label_after pre) -> used_by ls fs k r.
(** [k] is used by the data below [r]. *)
Inductive data_by (ls : list asm_line_v) (k : str) : str -> Prop :=
| DB_data pre l post r : ls = pre ++ l :: post -> lv_is_label l = false -> lv_is_data l = true -> mentions l k ->
    r = [] \/ r = label_after pre \/ r = parent_after pre -> data_by ls k r.
(** [k] is declared global. *)
Definition global (ls fs : list asm_line_v) (k : str) : Prop :=
  exists l, In l (ls ++ fs) /\ lv_is_label l = false /\ lv_is_directive l = true /\ getGlobalDefinedLabel (lv_text l) = Some k.

Lemma used_by_more ls fs x y k r : used_by ls fs k r -> used_by (ls ++ x) (fs ++ y) k r.
Proof.
  intros [pre l post -> A B C D|l r' A B C D E].
  - apply UB_code with (l := l) (post := post ++ x); auto. rewrite <- app_assoc. reflexivity.
  - apply UB_named with (l := l); auto.
    + rewrite !in_app_iff in *. tauto.
    + destruct E as [->|(pre & post & -> & ->)]; [now left|]. right. exists pre, (post ++ x). now rewrite <- app_assoc.
Qed.
Lemma data_by_more ls x k r : data_by ls k r -> data_by (ls ++ x) k r.
Proof. intros [pre l post r' -> A B C D]. apply DB_data with (pre := pre) (l := l) (post := post ++ x); auto. rewrite <- app_assoc. reflexivity. Qed.
Lemma global_more ls fs x y k : global ls fs k -> global (ls ++ x) (fs ++ y) k.
Proof. intros (l & A & B). exists l. split; [|exact B]. rewrite !in_app_iff in *. tauto. Qed.

(** The tables. *)
Definition entry (m : list (view * list view)) (k r : str) : Prop := exists kv refs rv, In (kv, refs) m /\ v_str kv = k /\ In rv refs /\ v_str rv = r.
Record table_inv (ls fs : list asm_line_v) (label parent : str) (used data : list (view * list view)) (user : list view) : Prop := {
  ti_parent : parent = parent_after ls;
  ti_label : label = [] \/ label = label_after ls;
  ti_used : forall k r, entry used k r -> used_by ls fs k r;
  ti_data : forall k r, entry data k r -> data_by ls k r;
  ti_user : forall v, In v user -> global ls fs (v_str v) }.
Definition table_of (s : tstate) : Prop :=
  table_inv (map erase (t_lines s)) (map erase (t_filteredlines s)) (v_str (t_previousLabel s)) (v_str (t_previousParentLabel s))
    (t_used_labels s) (t_data_used_labels s) (t_usercode_labels s).

Lemma set_insert_in s v x : In x (set_insert s v) -> In x s \/ x = v.
Proof. unfold set_insert. destruct (set_contains _ _); [auto|]. rewrite in_app_iff. cbn. intuition. Qed.
Lemma entry_insert m k v a b : entry (map_set_insert m k v) a b -> entry m a b \/ (a = v_str k /\ b = v_str v).
Proof.
  induction m as [|[k' s] t IH]; intros (kv & refs & rv & H1 & H2 & H3 & H4); cbn [map_set_insert] in H1.
  - destruct H1 as [[= <- <-]|[]]. destruct H3 as [<-|[]]. auto.
  - destruct (same_key (v_str k) k') eqn:E.
    + destruct H1 as [[= <- <-]|H1].
      * apply set_insert_in in H3 as [H3| ->].
        -- left. exists k', s, rv. cbn. auto.
        -- right. apply same_key_iff in E. rewrite E in H2. auto.
      * left. exists kv, refs, rv. cbn. auto.
    + destruct H1 as [[= <- <-]|H1].
      * left. exists k', s, rv. cbn. auto.
      * destruct IH as [(kv' & refs' & rv' & I)|I]; [exists kv, refs, rv; auto| |auto]. left. exists kv', refs', rv'. cbn. tauto.
Qed.
Lemma entry_code refs parent : forall m a b, entry (code_refs refs parent m) a b ->
  entry m a b \/ (In a (map (fun r => v_str (lbv_name r)) refs) /\ b = v_str parent /\ a <> v_str parent).
Proof.
  unfold code_refs. induction refs as [|r t IH]; intros m a b H; [now left|]. cbn [fold_left map] in *. apply IH in H as [H|(H1 & H2)].
  - destruct (str_eqb (v_str (lbv_name r)) (v_str parent)) eqn:E; cbn [negb] in H; [now left|]. apply entry_insert in H as [H|[-> ->]]; [now left|].
    right. cbn. split; [now left|]. split; [reflexivity|]. intros X. rewrite X in E. rewrite str_eqb_refl in E. discriminate.
  - right. cbn. tauto.
Qed.
Lemma entry_data refs prev parent inside : forall m a b, entry (data_refs refs prev parent inside m) a b ->
  entry m a b \/ (In a (map (fun r => v_str (lbv_name r)) refs) /\ (b = v_str prev \/ b = v_str parent)).
Proof.
  unfold data_refs. induction refs as [|r t IH]; intros m a b H; [now left|]. cbn [fold_left map] in *. apply IH in H as [H|(H1 & H2)].
  - destruct inside.
    + apply entry_insert in H as [H|[-> ->]]; [|right; cbn; auto]. apply entry_insert in H as [H|[-> ->]]; [now left|right; cbn; auto].
    + apply entry_insert in H as [H|[-> ->]]; [now left|right; cbn; auto].
  - right. cbn. tauto.
Qed.

Section Step.
Variables (mblen : str -> Z) (flt : Filter).
Lemma keep_table l s (E F : list asm_line_v) :
  E = map erase (t_lines s) -> F = map erase (t_filteredlines s) ->
  (forall k r, entry (t_used_labels s) k r -> used_by (E ++ [erase (final_line mblen l s)]) F k r) ->
  (forall k r, entry (t_data_used_labels s) k r -> data_by (E ++ [erase (final_line mblen l s)]) k r) ->
  (forall v, In v (t_usercode_labels s) -> global (E ++ [erase (final_line mblen l s)]) F (v_str v)) ->
  (if lv_is_label l then v_str (t_previousLabel s) = v_str (lv_label l) /\
     v_str (t_previousParentLabel s) = (if lv_is_internal_label l then parent_after E else v_str (lv_label l))
   else v_str (t_previousParentLabel s) = parent_after E /\ (v_str (t_previousLabel s) = [] \/ v_str (t_previousLabel s) = label_after E)) ->
  table_of (eol_keep mblen l s).
Proof.
  intros -> -> Hu Hd Hg Hl. destruct (keep_shape mblen l s) as (a & p & ->). unfold table_of. tsimp. rewrite map_app. cbn [map].
  set (e := erase (final_line mblen l s)) in *.
  assert (E1 : lv_is_label e = lv_is_label l) by reflexivity.
  assert (E2 : lv_is_internal_label e = lv_is_internal_label l) by reflexivity.
  assert (E3 : lv_label e = lv_label l) by reflexivity.
  assert (E4 : lv_is_data e = lv_is_data l) by reflexivity.
  assert (E5 : lv_has_opcode e = hasOpcode (lv_text l) (t_inNvccCode s)) by reflexivity.
  assert (E6 : lv_is_label l = false -> lv_has_opcode e = true \/ lv_is_data l = true ->
     map (fun r => v_str (lbv_name r)) (lv_labels e) = map (fun r => v_str (lbv_name r)) (used_labels_in mblen l)).
  { intros A B. unfold e, erase, final_line. vsimp. rewrite A. cbn [negb andb]. rewrite E5 in B.
    destruct B as [-> | ->]; rewrite ?orb_true_r; reflexivity. }
  clearbody e. constructor.
  - rewrite parent_after_app, E1, E2, E3. destruct (lv_is_label l); cbn [andb]; [|tauto]. destruct Hl as [_ ->]. now destruct (lv_is_internal_label l).
  - rewrite label_after_app, E1, E3. destruct (lv_is_label l); tauto.
  - intros k r H. unfold keep_used in H. destruct (lv_is_label l) eqn:El; cbn [negb andb] in H; [auto|].
    rewrite <- E5 in H. destruct (lv_has_opcode e) eqn:Eo; [|auto]. apply entry_code in H as [H|(H1 & -> & H3)]; [auto|].
    destruct Hl as [Hp _]. rewrite Hp in *. apply UB_code with (l := e) (post := []); auto. unfold mentions. rewrite E6 by auto. exact H1.
  - intros k r H. unfold keep_data in H. destruct (lv_is_label l) eqn:El; cbn [negb andb] in H; [auto|].
    destruct (lv_is_data l) eqn:Eo; [|auto]. apply entry_data in H as [H|(H1 & H2)]; [auto|].
    destruct Hl as [Hp Hq]. apply DB_data with (pre := map erase (t_lines s)) (l := e) (post := []); auto; [|rewrite <- Hp; destruct H2 as [-> | ->]; tauto].
    unfold mentions. rewrite E6 by auto. exact H1.
  - exact Hg.
Qed.

Lemma directive_table l s (ls fs : list asm_line_v) x y : lv_is_label l = false -> lv_is_directive l = true ->
  In (erase l) (ls ++ x ++ fs ++ y) \/ (exists l', In l' (ls ++ x ++ fs ++ y) /\ lv_is_label l' = false /\ lv_is_directive l' = true /\ lv_text l' = lv_text l) ->
  table_inv ls fs (v_str (t_previousLabel s)) (v_str (t_previousParentLabel s)) (t_used_labels s) (t_data_used_labels s) (t_usercode_labels s) ->
  let s1 := extractUsedLabelsFromDirective l s in
  (forall k r, entry (t_used_labels s1) k r -> used_by (ls ++ x) (fs ++ y) k r) /\
  (forall k r, entry (t_data_used_labels s1) k r -> data_by (ls ++ x) k r) /\
  (forall v, In v (t_usercode_labels s1) -> global (ls ++ x) (fs ++ y) (v_str v)).
Proof.
  intros Hn Hdir Hin [Ip Il Iu Id Ig]. cbv zeta.
  assert (Hl : exists l', In l' ((ls ++ x) ++ fs ++ y) /\ lv_is_label l' = false /\ lv_is_directive l' = true /\ lv_text l' = lv_text l).
  { rewrite <- app_assoc. destruct Hin as [Hin|Hin]; [|exact Hin]. exists (erase l). auto. }
  clear Hin. destruct Hl as (l' & H1 & H2 & H3 & H4).
  assert (Hr : v_str (t_previousLabel s) = [] \/ (exists pre post, ls ++ x = pre ++ post /\ v_str (t_previousLabel s) = label_after pre)).
  { destruct Il as [->|Il]; [now left|right]. exists ls, x. auto. }
  unfold extractUsedLabelsFromDirective. destruct (getWeakDefinedLabel (lv_text l)) as [w|] eqn:Ew; [|destruct (getGlobalDefinedLabel (lv_text l)) as [g|] eqn:Eg]; tsimp.
  - split; [|split; [intros; now apply data_by_more, Id|intros; now apply global_more, Ig]].
    intros k r H. apply entry_insert in H as [H|[-> ->]]; [now apply used_by_more, Iu|]. apply UB_named with (l := l'); auto. rewrite H4. now left.
  - split; [|split; [intros; now apply data_by_more, Id|]].
    + intros k r H. apply entry_insert in H as [H|[-> ->]]; [now apply used_by_more, Iu|]. apply UB_named with (l := l'); auto. rewrite H4. now right.
    + intros v H. apply set_insert_in in H as [H| ->]; [now apply global_more, Ig|]. exists l'. rewrite H4. auto.
  - split; [intros; now apply used_by_more, Iu|split; [intros; now apply data_by_more, Id|intros; now apply global_more, Ig]].
Qed.

Lemma eol_table s : table_of s -> good flt s -> table_of (eol mblen flt s).
Proof.
  intros HT Hg.
  assert (Hq1 : forall s1, quiet (begun s) s1 -> table_of s1).
  { intros s1 Hq. destruct HT as [Ip Il Iu Id Ig]. unfold table_of.
    rewrite (erase_same _ _ (q_lines _ _ Hq)), (q_filtered _ _ Hq), (q_used _ _ Hq), (q_data _ _ Hq), (q_usercode _ _ Hq), (q_parent _ _ Hq).
    constructor; auto. destruct (q_prev _ _ Hq) as [-> | ->]; [exact Il|now left]. }
  destruct (eol_cases mblen flt s Hg) as [_|_ _|s1 l _ _ Hq _ _ _|handled s1 l _ _ Hq _ Hf Hl0 _ _].
  - exact (Hq1 _ (base1_quiet flt s)).
  - specialize (Hq1 _ (base1_quiet flt s)). destruct (blank_cases (base1 flt s)) as [[_ ->]|[_ ->]]; [exact Hq1|].
    destruct Hq1 as [Ip Il Iu Id Ig]. unfold table_of, keep_text. tsimp. rewrite map_app. cbn [map].
    assert (Hfs : forall fs : list asm_line_v, fs = fs ++ []) by (intros; symmetry; apply app_nil_r).
    constructor.
    + rewrite parent_after_app. exact Ip.
    + rewrite label_after_app. exact Il.
    + intros k r H. rewrite (Hfs (map erase (t_filteredlines _))). now apply used_by_more, Iu.
    + intros k r H. now apply data_by_more, Id.
    + intros v H. rewrite (Hfs (map erase (t_filteredlines _))). now apply global_more, Ig.
  - exact (Hq1 _ Hq).
  - specialize (Hq1 _ Hq). pose proof (label_cases handled l s1) as Hl. pose proof (classify_cases mblen flt handled l s1) as Hc.
    destruct (label_step handled l s1) as [l2 s2]. cbn [fst snd] in *.
    destruct Hq1 as [Ip Il Iu Id Ig].
    assert (Hfs : forall fs : list asm_line_v, fs = fs ++ []) by (intros; symmetry; apply app_nil_r).
    assert (Hs : t_lines s2 = t_lines s1 /\ t_filteredlines s2 = t_filteredlines s1 /\ t_used_labels s2 = t_used_labels s1 /\
       t_data_used_labels s2 = t_data_used_labels s1 /\ t_usercode_labels s2 = t_usercode_labels s1 /\
       (if lv_is_label l2 then v_str (t_previousLabel s2) = v_str (lv_label l2) /\
          v_str (t_previousParentLabel s2) = (if lv_is_internal_label l2 then parent_after (map erase (t_lines s1)) else v_str (lv_label l2))
        else s2 = s1)).
    { destruct Hl as [|_|n a c _]; [do 5 (split; [reflexivity|]); reflexivity..|]. unfold define_label, labelled. vsimp.
      destruct c, (isInternalLabel (v_str (slice l n))) eqn:Ei; tsimp; do 5 (split; [reflexivity|]); cbn [v_str slice] in Ei; rewrite Ei; split; try reflexivity; exact Ip. }
    destruct Hs as (S1 & S2 & S3 & S4 & S5 & S6).
    assert (Hkeep : forall l3 s3, t_lines s3 = t_lines s2 -> t_filteredlines s3 = t_filteredlines s2 ->
        t_used_labels s3 = t_used_labels s2 -> t_data_used_labels s3 = t_data_used_labels s2 -> t_usercode_labels s3 = t_usercode_labels s2 ->
        t_previousLabel s3 = t_previousLabel s2 -> t_previousParentLabel s3 = t_previousParentLabel s2 ->
        lv_is_label l3 = lv_is_label l2 -> lv_label l3 = lv_label l2 -> lv_is_internal_label l3 = lv_is_internal_label l2 ->
        table_of (eol_keep mblen l3 s3)).
    { intros l3 s3 A1 A2 A3 A4 A5 A6 A7 B1 B2 B3.
      apply keep_table with (E := map erase (t_lines s1)) (F := map erase (t_filteredlines s1));
        rewrite ?A1, ?A2, ?A3, ?A4, ?A5, ?A6, ?A7, ?B1, ?B2, ?B3, ?S1, ?S2, ?S3, ?S4, ?S5; auto.
      - intros k r H. rewrite (Hfs (map erase (t_filteredlines s1))). now apply used_by_more, Iu.
      - intros k r H. now apply data_by_more, Id.
      - intros v H. rewrite (Hfs (map erase (t_filteredlines s1))). now apply global_more, Ig.
      - destruct (lv_is_label l2); [exact S6|]. subst s2. auto. }
    assert (HT2 : lv_is_label l2 = false -> table_inv (map erase (t_lines s2)) (map erase (t_filteredlines s2)) (v_str (t_previousLabel s2))
        (v_str (t_previousParentLabel s2)) (t_used_labels s2) (t_data_used_labels s2) (t_usercode_labels s2)).
    { intros E. rewrite E in S6. subst s2. now constructor. }
    destruct Hc as [Hn|l3 Hn Hnl Hnd _ Hdir _ E3|l3 Hn Hnl Hnd _ Hdir _ E3|l3 Hn Hnl Hnd _ E3|Hn _].
    + apply Hkeep; try reflexivity; destruct (isCudaEndDef _); reflexivity.
    + assert (Hnl3 : lv_is_label l3 = false) by (rewrite E3; destruct handled; exact Hnl).
      destruct (directive_table l3 s2 (map erase (t_lines s2)) (map erase (t_filteredlines s2)) [] [erase l3] Hnl3 Hdir) as (D1 & D2 & D3);
        [left; rewrite !in_app_iff; cbn; tauto|auto|].
      unfold table_of, move_filtered. pose proof (directive_frame l3 s2) as (u & c & Hfr). rewrite Hfr in *. tsimp. rewrite map_app. cbn [map].
      rewrite app_nil_r in D1, D2, D3. destruct (HT2 Hnl). constructor; auto.
    + assert (Hnl3 : lv_is_label l3 = false) by (rewrite E3; destruct handled; exact Hnl).
      pose proof (directive_frame l3 s2) as (u & c & Hfr).
      destruct (directive_table l3 s2 (map erase (t_lines s2)) (map erase (t_filteredlines s2))
                  [erase (final_line mblen l3 (extractUsedLabelsFromDirective l3 s2))] [] Hnl3 Hdir) as (D1 & D2 & D3).
      * right. exists (erase (final_line mblen l3 (extractUsedLabelsFromDirective l3 s2))).
        split; [rewrite !in_app_iff; cbn; tauto|]. split; [exact Hnl3|]. split; [exact Hdir|reflexivity].
      * auto.
      * rewrite app_nil_r in D1, D3.
        destruct (HT2 Hnl) as [Jp Jl _ _ _].
        apply keep_table with (E := map erase (t_lines s2)) (F := map erase (t_filteredlines s2)); auto; try (rewrite Hfr; reflexivity).
        rewrite Hnl3. rewrite Hfr. tsimp. auto.
    + apply Hkeep; try reflexivity; rewrite E3; destruct handled; reflexivity.
    + apply Hkeep; reflexivity.
Qed.
Lemma read_table input : table_of (read_lines mblen flt tstate0 input).
Proof.
  apply read_invariant with (P := table_of).
  - intros s c H _. exact H.
  - exact eol_table.
  - constructor; auto; [intros k r (a & b & c & [] & _)..|intros v []].
  - apply good0.
  - reflexivity.
Qed.
End Step.

(** *** Labels on the same address *)
(** Lines that take no space. *)
Definition quiet_line (l : asm_line_v) : Prop := lv_is_label l = false /\ lv_has_opcode l = false /\ lv_is_data l = false.
Definition plain_label (l : asm_line_v) (n : str) : Prop := lv_is_label l = true /\ lv_is_assignment l = false /\ v_str (lv_label l) = n.
(** [a] and then [k] label the same address. *)
Definition same_address (ls : list asm_line_v) (k a : str) : Prop :=
  exists pre la mid lk post, ls = pre ++ la :: mid ++ lk :: post /\ plain_label la a /\ Forall quiet_line mid /\ plain_label lk k.
Definition on_address (ls : list asm_line_v) (a : str) : Prop :=
  exists pre la mid, ls = pre ++ la :: mid /\ plain_label la a /\ Forall quiet_line mid.
Record alias_inv (ls : list asm_line_v) (prev : str) (al : list (view * view)) : Prop := {
  ai_prev : prev <> [] -> on_address ls prev;
  ai_alias : forall k a, In (k, a) al -> same_address ls (v_str k) (v_str a) }.
Definition alias_of (s : tstate) : Prop := alias_inv (map erase (t_lines s)) (v_str (t_previousLabelOnSameAddress s)) (t_aliased_labels s).
Lemma same_address_more ls x k a : same_address ls k a -> same_address (ls ++ x) k a.
Proof.
  intros (pre & la & mid & lk & post & -> & A). exists pre, la, mid, lk, (post ++ x). split; [|exact A].
  repeat (rewrite <- ?app_assoc; cbn [app]). reflexivity.
Qed.
Lemma on_address_more ls l a : on_address ls a -> quiet_line l -> on_address (ls ++ [l]) a.
Proof.
  intros (pre & la & mid & -> & A & B) H. exists pre, la, (mid ++ [l]). split; [rewrite <- app_assoc; reflexivity|].
  split; [exact A|]. apply Forall_app. auto.
Qed.
Lemma map_assign_in {A} (m : list (view * A)) k v a b : In (a, b) (map_assign m k v) -> In (a, b) m \/ (v_str a = v_str k /\ b = v).
Proof.
  induction m as [|[k' x] t IH]; cbn [map_assign].
  - intros [[= <- <-]|[]]. auto.
  - destruct (same_key (v_str k) k') eqn:E.
    + intros [[= <- <-]|H]; [right; split; [now apply same_key_iff|reflexivity]|left; now right].
    + intros [H|H]; [left; now left|]. destruct (IH H); [left; now right|auto].
Qed.
Lemma aliasing_tables l s s' : t_previousLabelOnSameAddress s' = t_previousLabelOnSameAddress s -> t_aliased_labels s' = t_aliased_labels s ->
  t_previousLabelOnSameAddress (handleLabelAliasing l s') = t_previousLabelOnSameAddress (handleLabelAliasing l s) /\
  t_aliased_labels (handleLabelAliasing l s') = t_aliased_labels (handleLabelAliasing l s).
Proof.
  intros H1 H2. unfold handleLabelAliasing. rewrite H1, H2. destruct (is_nil _), (lv_is_assignment l), (lv_is_label l), (lv_has_opcode l), (lv_is_data l); cbn [negb andb orb]; tsimp; auto.
Qed.
Lemma keep_alias mblen l s : alias_of s -> alias_of (eol_keep mblen l s).
Proof.
  intros [Ip Ia]. rewrite eol_keep_eq. cbv zeta. set (f := final_line mblen l s). unfold alias_of. tsimp.
  assert (El : t_lines (handleLabelAliasing f (set_t_data_used_labels (keep_data mblen l s) (set_t_used_labels (keep_used mblen l s) s))) = t_lines s).
  { edestruct aliasing_frame as (a & p & ->). reflexivity. }
  rewrite El, map_app. cbn [map].
  destruct (aliasing_tables f s (set_t_data_used_labels (keep_data mblen l s) (set_t_used_labels (keep_used mblen l s) s)) eq_refl eq_refl) as [-> ->].
  clear El. clearbody f. set (ls := map erase (t_lines s)) in *. clearbody ls.
  assert (Hal : forall k a, In (k, a) (t_aliased_labels s) -> same_address (ls ++ [erase f]) (v_str k) (v_str a)) by (intros; now apply same_address_more, Ia).
  assert (Hlab : lv_is_label f = true -> lv_is_assignment f = false -> on_address (ls ++ [erase f]) (v_str (lv_label f))).
  { intros A B. exists ls, (erase f), []. split; [reflexivity|]. split; [|constructor]. split; [exact A|]. split; [exact B|reflexivity]. }
  assert (Hpair : lv_is_label f = true -> lv_is_assignment f = false -> v_str (t_previousLabelOnSameAddress s) <> [] ->
     same_address (ls ++ [erase f]) (v_str (lv_label f)) (v_str (t_previousLabelOnSameAddress s))).
  { intros A B C. destruct (Ip C) as (pre & la & mid & -> & P1 & P2). exists pre, la, mid, (erase f), [].
    split; [rewrite <- app_assoc; reflexivity|]. split; [exact P1|]. split; [exact P2|]. split; [exact A|]. split; [exact B|reflexivity]. }
  assert (Hquiet : lv_is_label f = false -> lv_has_opcode f || lv_is_data f = false -> v_str (t_previousLabelOnSameAddress s) <> [] ->
     on_address (ls ++ [erase f]) (v_str (t_previousLabelOnSameAddress s))).
  { intros A B C. apply on_address_more; [auto|]. apply orb_false_iff in B as [B1 B2]. split; [exact A|]. split; [exact B1|exact B2]. }
  assert (Hassign : forall k a, In (k, a) (map_assign (t_aliased_labels s) (lv_label f) (t_previousLabelOnSameAddress s)) ->
     lv_is_label f = true -> lv_is_assignment f = false -> v_str (t_previousLabelOnSameAddress s) <> [] ->
     same_address (ls ++ [erase f]) (v_str k) (v_str a)).
  { intros k a H A B C. apply map_assign_in in H as [H|[H1 H2]]; [auto|]. subst a. rewrite H1. auto. }
  unfold handleLabelAliasing. destruct (is_nil (v_str (t_previousLabelOnSameAddress s))) eqn:En; cbn [negb].
  - assert (E0 : v_str (t_previousLabelOnSameAddress s) = []) by (now destruct (v_str _)).
    destruct (lv_is_label f) eqn:E1, (lv_is_assignment f) eqn:E2; cbn [andb negb]; tsimp; constructor; auto; intros X; rewrite E0 in X; now destruct X.
  - assert (E0 : v_str (t_previousLabelOnSameAddress s) <> []) by (intros X; rewrite X in En; discriminate).
    destruct (lv_is_assignment f) eqn:E2; cbn [andb negb]; rewrite ?andb_false_r, ?andb_true_r; tsimp.
    + constructor; auto. intros X. now destruct X.
    + destruct (lv_is_label f) eqn:E1; tsimp; [constructor; eauto|].
      destruct (lv_has_opcode f || lv_is_data f) eqn:E3; tsimp; constructor; auto. intros X. now destruct X.
Qed.
Lemma alias_proper s s1 : map erase (t_lines s1) = map erase (t_lines s) -> t_previousLabelOnSameAddress s1 = t_previousLabelOnSameAddress s ->
  t_aliased_labels s1 = t_aliased_labels s -> alias_of s -> alias_of s1.
Proof. unfold alias_of. intros -> -> ->. auto. Qed.
Lemma eol_alias mblen flt s : alias_of s -> good flt s -> alias_of (eol mblen flt s).
Proof.
  intros HT Hg.
  assert (Hq1 : forall s1, quiet (begun s) s1 -> alias_of s1).
  { intros s1 Hq. apply alias_proper with (s := s); auto; [exact (erase_same _ _ (q_lines _ _ Hq))|exact (q_same _ _ Hq)|exact (q_alias _ _ Hq)]. }
  destruct (eol_cases mblen flt s Hg) as [_|_ _|s1 l _ _ Hq _ _ _|handled s1 l _ _ Hq _ Hf Hl0 _ _].
  - exact (Hq1 _ (base1_quiet flt s)).
  - specialize (Hq1 _ (base1_quiet flt s)). destruct (blank_cases (base1 flt s)) as [[_ ->]|[_ ->]]; [exact Hq1|].
    destruct Hq1 as [Ip Ia]. unfold alias_of, keep_text. tsimp. rewrite map_app. cbn [map]. constructor.
    + intros X. apply on_address_more; [exact (Ip X)|]. repeat split.
    + intros k a H. now apply same_address_more, Ia.
  - exact (Hq1 _ Hq).
  - specialize (Hq1 _ Hq). pose proof (label_cases handled l s1) as Hl. pose proof (classify_cases mblen flt handled l s1) as Hc.
    destruct (label_step handled l s1) as [l2 s2]. cbn [fst snd] in *.
    assert (H2 : alias_of s2).
    { destruct Hl as [|_|n a c _]; auto. unfold define_label. split_if; exact Hq1. }
    destruct Hc as [Hn|l3 Hn Hnl Hnd _ Hdir _ E3|l3 Hn Hnl Hnd _ Hdir _ E3|l3 Hn Hnl Hnd _ E3|Hn _].
    + apply keep_alias. destruct (isCudaEndDef _); exact H2.
    + pose proof (directive_frame l3 s2) as (u & c & Hfr). unfold move_filtered. rewrite Hfr. exact H2.
    + apply keep_alias. pose proof (directive_frame l3 s2) as (u & c & Hfr). rewrite Hfr. exact H2.
    + now apply keep_alias.
    + now apply keep_alias.
Qed.
Lemma read_alias mblen flt input : alias_of (read_lines mblen flt tstate0 input).
Proof.
  apply read_invariant with (P := alias_of).
  - intros s c H _. exact H.
  - intros. now apply eol_alias.
  - constructor; [intros X; now destruct X|intros k a []].
  - apply good0.
  - reflexivity.
Qed.
(** weakly_used_labels is never filled. *)
Lemma read_weak mblen flt input : t_weakly_used_labels (read_lines mblen flt tstate0 input) = [].
Proof.
  apply read_invariant with (P := fun s => t_weakly_used_labels s = []).
  - intros s c H _. exact H.
  - intros s H Hg. destruct (eol_cases mblen flt s Hg) as [_|_ _|s1 l _ _ Hq _ _ _|handled s1 l _ _ Hq _ Hf Hl0 _ _].
    + exact H.
    + destruct (blank_cases (base1 flt s)) as [[_ ->]|[_ ->]]; exact H.
    + unfold drop_line. tsimp. rewrite (q_weak _ _ Hq). exact H.
    + pose proof (label_cases handled l s1) as Hl. pose proof (classify_cases mblen flt handled l s1) as Hc.
      destruct (label_step handled l s1) as [l2 s2]. cbn [fst snd] in *.
      assert (H2 : t_weakly_used_labels s2 = []).
      { assert (H1 : t_weakly_used_labels s1 = []) by (rewrite (q_weak _ _ Hq); exact H).
        destruct Hl as [|_|n a c _]; auto. unfold define_label. split_if; exact H1. }
      assert (Hk : forall l s, t_weakly_used_labels (eol_keep mblen l s) = t_weakly_used_labels s)
        by (intros l' s'; destruct (keep_shape mblen l' s') as (a & p & ->); reflexivity).
      destruct Hc as [Hn|l3 Hn Hnl Hnd _ Hdir _ E3|l3 Hn Hnl Hnd _ Hdir _ E3|l3 Hn Hnl Hnd _ E3|Hn _]; rewrite ?Hk; auto.
      * destruct (isCudaEndDef _); exact H2.
      * pose proof (directive_frame l3 s2) as (u & c & Hfr). unfold move_filtered. rewrite Hfr. exact H2.
      * pose proof (directive_frame l3 s2) as (u & c & Hfr). rewrite Hfr. exact H2.
  - reflexivity.
  - apply good0.
  - reflexivity.
Qed.
