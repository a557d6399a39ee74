(** The text parser, line by line: all that is carried from one line of the
    input to the next, everything recorded for a stored line, and every entry of
    the reference tables. *)
From Coq Require Import Sorted.
From Verif Require Import AsmLemmas AsmRead AsmMark AsmTrace AsmThms AsmUse AsmComplete AsmPlace.

(** Carried from line to line: the location and the rest of [place]; the section;
    the last label and the last label that is not internal; whether a CUDA
    definition is open; the label that the next label would be an alias of. *)
Record world := mkWorld { w_place : place; w_sect : str; w_label : str; w_parent : str; w_def : bool; w_addr : str }.
Definition world0 : world := mkWorld place0 [] [] [] false [].
Definition world_of (s : tstate) : world :=
  mkWorld (place_of s) (v_str (t_currentSection s)) (v_str (t_previousLabel s)) (v_str (t_previousParentLabel s))
          (t_inNvccDef s) (v_str (t_previousLabelOnSameAddress s)).

(** The line ends a block. *)
Definition closes (w : world) (t : str) : bool := endBlock t || (pl_cuda (w_place w) && has_char "}"%char t).
(** The line is taken as a location directive. *)
Definition locates (w : world) (t : str) : bool := negb (closes w t) && is_some (place_directive (w_place w) t).
(** A .stabn line that ends a scope. *)
Definition stab_end (t : str) : bool :=
  match getFileDef t with
  | Some _ => false
  | None => if negb (fst (fst (getSourceRef t)) =? 0) then false
            else match getSourceInfoFromStabs t with
                 | Some sb => negb (sb_type sb =? 68) && ((sb_type sb =? 100) || (sb_type sb =? 132))
                 | None => false
                 end
  end.
(** Start of a procedure, hidden with the directives. *)
Definition hidden_start (flt : Filter) (w : world) (t : str) : bool :=
  f_directives flt && (startProcBlock t && (sp_line (pl_spot (w_place w)) =? 0)).
(** In the following, [h]: the line is a location directive; [d]: a CUDA
    definition is open before the line. *)
Definition found (h : bool) (t : str) : option (str * (bool * bool)) := if h then None else label_of t.
Definition opens (h : bool) (t : str) : bool := match found h t with Some (_, (_, c)) => c | None => false end.
Definition data_line (h : bool) (t : str) : bool := negb h && isDataDefn t.
Definition plain (h d : bool) (t : str) : bool := negb (d || opens h t) && negb (is_some (found h t)) && negb (data_line h t).
Definition directive_line (h d : bool) (t : str) : bool := h || (plain h d t && isDirective t).
(** The line may declare a global or weak symbol. *)
Definition symbol_line (h d : bool) (t : str) : bool := plain h d t && (h || isDirective t) && negb (isInstOpcode t).

Definition next_label (h : bool) (t lab : str) : str := match found h t with Some (n, _) => n | None => lab end.
Definition next_parent (h : bool) (t par : str) : str :=
  match found h t with Some (n, _) => if isInternalLabel n then par else n | None => par end.
Definition next_addr (h cuda : bool) (t addr : str) : str :=
  match found h t with
  | Some (n, (a, _)) => if a then [] else n
  | None => if hasOpcode t cuda || data_line h t then [] else addr
  end.
Definition next_section (h : bool) (t sect : str) : str :=
  if h then sect else match getSectionNameDef t with Some n => n | None => sect end.
Definition pre_label (w : world) (t : str) : str := if closes w t || (locates w t && stab_end t) then [] else w_label w.

Inductive verdict := Dropped | Aside | Kept.
Definition class_verdict (flt : Filter) (h d : bool) (t : str) : verdict :=
  if symbol_line h d t && f_directives flt then Aside else Kept.
Definition class_world (flt : Filter) (h : bool) (t : str) (w : world) : world :=
  let p := w_place w in
  let cuda := pl_cuda p || opens h t in
  mkWorld (mkPlace (pl_spot p) (pl_file p) (pl_files p) cuda) (w_sect w) (next_label h t (w_label w)) (next_parent h t (w_parent w))
          ((w_def w || opens h t) && negb (isCudaEndDef t))
          (match class_verdict flt h (w_def w) t with Kept => next_addr h cuda t (w_addr w) | _ => w_addr w end).

(** The names a line mentions. *)
Definition names (mblen : str -> Z) (t : str) : list str := map lb_name (getUsedLabelsInLine mblen t).
(** What a stored line [l] holds, [w] being the state of affairs after it. *)
Record line_says (mblen : str -> Z) (h d : bool) (nest : Z) (t : str) (w : world) (l : asm_line_v) : Prop := {
  ls_text : lv_text l = t;
  ls_section : v_str (lv_section l) = w_sect w;
  ls_source : spot_of (lv_source l) = pl_spot (w_place w);
  ls_is_label : lv_is_label l = is_some (found h t);
  ls_label : v_str (lv_label l) = match found h t with Some (n, _) => n | None => [] end;
  ls_internal : lv_is_internal_label l = match found h t with Some (n, _) => isInternalLabel n | None => false end;
  ls_assignment : lv_is_assignment l = match found h t with Some (_, (a, _)) => a | None => false end;
  ls_data : lv_is_data l = data_line h t;
  ls_directive : lv_is_directive l = directive_line h d t;
  ls_opcode : lv_has_opcode l = hasOpcode t (pl_cuda (w_place w));
  ls_inline : lv_is_inline_asm l = (0 <? nest);
  ls_parent : lv_closest_parent_label l =
    if lv_is_assignment l || str_eqb (v_str (lv_label l)) (w_parent w) then [] else w_parent w;
  ls_refs : map (fun r => (v_str (lbv_name r), lbv_range r)) (lv_labels l) =
    if negb (is_some (found h t)) && (hasOpcode t (pl_cuda (w_place w)) || data_line h t)
    then map (fun r => (lb_name r, lb_range r)) (getUsedLabelsInLine mblen t) else [] }.

(** The entries of the reference tables that a line makes. *)
Definition pairs (names : list str) (r : str) : list (str * str) := map (fun k => (k, r)) names.
Definition code_entries (mblen : str -> Z) (h : bool) (t : str) (w : world) : list (str * str) :=
  if negb (is_some (found h t)) && hasOpcode t (pl_cuda (w_place w))
  then pairs (filter (fun k => negb (str_eqb k (w_parent w))) (names mblen t)) (w_parent w) else [].
Definition data_entries (mblen : str -> Z) (h : bool) (t : str) (w : world) : list (str * str) :=
  if negb (is_some (found h t)) && data_line h t
  then pairs (names mblen t) (w_label w) ++ (if sp_inside (pl_spot (w_place w)) then pairs (names mblen t) (w_parent w) else []) else [].
Definition symbol_entries (h d : bool) (t lab : str) : list (str * str) :=
  if symbol_line h d t then
    match getWeakDefinedLabel t with
    | Some k => [(k, lab)]
    | None => match getGlobalDefinedLabel t with Some k => [(k, lab)] | None => [] end
    end
  else [].
Definition global_entries (h d : bool) (t : str) : list str :=
  if symbol_line h d t then
    match getWeakDefinedLabel t with
    | Some _ => []
    | None => match getGlobalDefinedLabel t with Some k => [k] | None => [] end
    end
  else [].
(** [addr]: the label standing at the same address before the line *)
Definition alias_entry (h : bool) (t addr : str) : option (str * str) :=
  match found h t with
  | Some (n, (false, _)) => if is_nil addr then None else Some (n, addr)
  | _ => None
  end.

(** How tables grow. *)
Definition adds (m m' : list (view * list view)) (es : list (str * str)) : Prop :=
  forall k r, looked m' k r <-> looked m k r \/ In (k, r) es.
Definition adds_set (m m' : list view) (es : list str) : Prop :=
  forall k, set_contains m' k = true <-> set_contains m k = true \/ In k es.
Definition adds_alias (m m' : list (view * view)) (e : option (str * str)) : Prop :=
  forall k, option_map v_str (map_find m' k) =
    match e with Some (n, a) => if str_eqb k n then Some a else option_map v_str (map_find m k) | None => option_map v_str (map_find m k) end.
Lemma adds_refl m : adds m m []. Proof. intros k r. cbn. tauto. Qed.
Lemma adds_set_refl m : adds_set m m []. Proof. intros k. cbn. tauto. Qed.
Lemma adds_trans a b c es fs : adds a b es -> adds b c fs -> adds a c (es ++ fs).
Proof. intros H1 H2 k r. rewrite (H2 k r), (H1 k r), in_app_iff. tauto. Qed.
Lemma looked_insert_iff m k v a b : looked (map_set_insert m k v) a b <-> looked m a b \/ (a = v_str k /\ b = v_str v).
Proof.
  split.
  - intros (refs & x & A & B & C). rewrite find_insert in A. destruct (str_eqb a (v_str k)) eqn:E; [|left; exists refs, x; auto].
    apply str_eqb_eq in E. injection A as <-. destruct (map_find m a) as [s|] eqn:Em.
    + unfold set_insert in B. destruct (set_contains s (v_str v)); [left; exists s, x; auto|].
      apply in_app_iff in B as [B|[<-|[]]]; [left; exists s, x; auto|right; auto].
    + destruct B as [<-|[]]. right. auto.
  - intros [H|[-> ->]]; [now apply looked_insert|apply looked_new].
Qed.
Lemma adds_insert m k v : adds m (map_set_insert m k v) [(v_str k, v_str v)].
Proof. intros a b. rewrite looked_insert_iff. cbn. intuition congruence. Qed.
Lemma code_refs_adds refs parent : forall m,
  adds m (code_refs refs parent m) (pairs (filter (fun k => negb (str_eqb k (v_str parent))) (map (fun r => v_str (lbv_name r)) refs)) (v_str parent)).
Proof.
  unfold code_refs. induction refs as [|r t IH]; intros m; [apply adds_refl|]. cbn [fold_left map filter].
  destruct (negb (str_eqb (v_str (lbv_name r)) (v_str parent))); [|apply IH].
  change (pairs (?x :: ?y) ?z) with ([(x, z)] ++ pairs y z). eapply adds_trans; [apply adds_insert|apply IH].
Qed.
Lemma data_refs_adds refs prev parent (inside : bool) : forall m,
  adds m (data_refs refs prev parent inside m)
    (pairs (map (fun r => v_str (lbv_name r)) refs) (v_str prev) ++ (if inside then pairs (map (fun r => v_str (lbv_name r)) refs) (v_str parent) else [])).
Proof.
  unfold data_refs. induction refs as [|r t IH]; intros m; [destruct inside; apply adds_refl|]. cbn [fold_left map]. cbv zeta.
  intros k x. rewrite (IH _ k x). clear IH. destruct inside; rewrite ?(adds_insert _ _ _ k x); rewrite ?in_app_iff; cbn [In pairs map app]; tauto.
Qed.
Lemma used_names mblen l : map (fun r => v_str (lbv_name r)) (used_labels_in mblen l) = names mblen (lv_text l).
Proof. unfold used_labels_in, names. rewrite map_map. reflexivity. Qed.
Lemma adds_set_insert m v : adds_set m (set_insert m v) [v_str v].
Proof.
  intros k. rewrite !set_contains_in. split.
  - intros (x & A & B). unfold set_insert in A. destruct (set_contains m (v_str v)); [left; eauto|].
    apply in_app_iff in A as [A|[<-|[]]]; [left; eauto|right; now left].
  - intros [(x & A & B)|[<-|[]]].
    + exists x. split; [now apply set_insert_old|exact B].
    + destruct (set_insert_new m v) as (x & A & B). eauto.
Qed.
Lemma find_assign {B} (m : list (view * B)) k v a : map_find (map_assign m k v) a = if str_eqb a (v_str k) then Some v else map_find m a.
Proof.
  unfold map_find, option_map. destruct (str_eqb a (v_str k)) eqn:Ek.
  - apply str_eqb_eq in Ek. subst a. induction m as [|[x s] t IH]; cbn [map_assign find fst].
    + unfold same_key. now rewrite str_eqb_refl.
    + destruct (same_key (v_str k) x) eqn:E; cbn [find fst]; rewrite E; [reflexivity|exact IH].
  - assert (Hk : forall x, same_key (v_str k) x = true -> same_key a x = false).
    { intros x Hx. apply same_key_iff in Hx. destruct (same_key a x) eqn:E; [|reflexivity]. apply same_key_iff in E. rewrite <- E, Hx, str_eqb_refl in Ek. discriminate. }
    induction m as [|[x s] t IH]; cbn [map_assign find fst].
    + assert (same_key a k = false) as ->; [|reflexivity]. apply Hk. now apply same_key_iff.
    + destruct (same_key (v_str k) x) eqn:E; cbn [find fst]; [rewrite (Hk _ E); reflexivity|]. destruct (same_key a x); [reflexivity|exact IH].
Qed.

(** *** Keeping a line *)
(** The line before it is stored. *)
Record before (h d : bool) (t : str) (l : asm_line_v) : Prop := {
  bf_text : lv_text l = t;
  bf_is_label : lv_is_label l = is_some (found h t);
  bf_label : v_str (lv_label l) = match found h t with Some (n, _) => n | None => [] end;
  bf_internal : lv_is_internal_label l = match found h t with Some (n, _) => isInternalLabel n | None => false end;
  bf_assignment : lv_is_assignment l = match found h t with Some (_, (a, _)) => a | None => false end;
  bf_data : lv_is_data l = data_line h t;
  bf_directive : lv_is_directive l = directive_line h d t }.
(** What one line does to the tables. *)
Record tables (s s' : tstate) (used data : list (str * str)) (user : list str) (alias : option (str * str)) : Prop := {
  tb_used : adds (t_used_labels s) (t_used_labels s') used;
  tb_data : adds (t_data_used_labels s) (t_data_used_labels s') data;
  tb_user : adds_set (t_usercode_labels s) (t_usercode_labels s') user;
  tb_alias : adds_alias (t_aliased_labels s) (t_aliased_labels s') alias }.
Definition same_tables (s s' : tstate) : Prop :=
  t_used_labels s' = t_used_labels s /\ t_data_used_labels s' = t_data_used_labels s /\
  t_usercode_labels s' = t_usercode_labels s /\ t_aliased_labels s' = t_aliased_labels s.
Lemma tables_refl s s' : same_tables s s' -> tables s s' [] [] [] None.
Proof. intros (A & B & C & D). split; rewrite ?A, ?B, ?C, ?D; [apply adds_refl|apply adds_refl|apply adds_set_refl|intros k; reflexivity]. Qed.
Lemma tables_left s s1 s' u d g a : same_tables s s1 -> tables s1 s' u d g a -> tables s s' u d g a.
Proof. intros (A & B & C & D) [E F G H]. rewrite A in E. rewrite B in F. rewrite C in G. rewrite D in H. now split. Qed.
Lemma tables_right s s1 s' u d g a : same_tables s1 s' -> tables s s1 u d g a -> tables s s' u d g a.
Proof. intros (A & B & C & D) [E F G H]. rewrite <- A in E. rewrite <- B in F. rewrite <- C in G. rewrite <- D in H. now split. Qed.
Lemma same_tables_refl s : same_tables s s. Proof. repeat split. Qed.
Lemma same_tables_trans a b c : same_tables a b -> same_tables b c -> same_tables a c.
Proof. intros (A & B & C & D) (E & F & G & H). repeat split; congruence. Qed.

Lemma keep_world mblen h d t l s : before h d t l ->
  world_of (eol_keep mblen l s) =
    mkWorld (place_of s) (v_str (t_currentSection s)) (v_str (t_previousLabel s)) (v_str (t_previousParentLabel s)) (t_inNvccDef s)
            (next_addr h (t_inNvccCode s) t (v_str (t_previousLabelOnSameAddress s))).
Proof.
  intros [B1 B2 B3 B4 B5 B6 B7]. rewrite eol_keep_eq. cbv zeta. unfold world_of, place_of, handleLabelAliasing, next_addr.
  assert (L1 : lv_is_label (final_line mblen l s) = lv_is_label l) by reflexivity.
  assert (L2 : lv_label (final_line mblen l s) = lv_label l) by reflexivity.
  assert (L3 : lv_is_assignment (final_line mblen l s) = lv_is_assignment l) by reflexivity.
  assert (L4 : lv_is_data (final_line mblen l s) = lv_is_data l) by reflexivity.
  assert (L5 : lv_has_opcode (final_line mblen l s) = hasOpcode t (t_inNvccCode s)) by (rewrite <- B1; reflexivity).
  rewrite L1, L2, L3, L4, L5, B2, B5, B6. clear L1 L2 L3 L4 L5. tsimp_goal.
  destruct (found h t) as [[n [a c]]|]; cbn [is_some].
  - destruct a; cbn [negb andb]; destruct (is_nil (v_str (t_previousLabelOnSameAddress s))) eqn:E; cbn [negb]; tsimp_goal; try (f_equal; assumption || reflexivity).
    f_equal. destruct (v_str (t_previousLabelOnSameAddress s)); [reflexivity|discriminate].
  - cbn [negb andb]. destruct (is_nil (v_str (t_previousLabelOnSameAddress s))) eqn:E; cbn [negb]; tsimp_goal.
    + destruct (v_str (t_previousLabelOnSameAddress s)) eqn:Ev; [|discriminate]. destruct (hasOpcode t (t_inNvccCode s) || data_line h t); reflexivity.
    + destruct (hasOpcode t (t_inNvccCode s) || data_line h t); reflexivity.
Qed.
Lemma keep_tables mblen h d t l s : before h d t l ->
  let w := world_of (eol_keep mblen l s) in
  tables s (eol_keep mblen l s) (code_entries mblen h t w) (data_entries mblen h t w) [] (alias_entry h t (v_str (t_previousLabelOnSameAddress s))).
Proof.
  intros HB. cbv zeta. rewrite (keep_world mblen h d t l s HB). destruct HB as [B1 B2 B3 B4 B5 B6 B7].
  unfold code_entries, data_entries, alias_entry. cbn [w_place w_parent w_label pl_cuda pl_spot place_of].
  split.
  - destruct (keep_shape mblen l s) as (a & p & ->). tsimp_goal. unfold keep_used. rewrite B1, B2. destruct (negb _ && _); [|apply adds_refl].
    rewrite <- B1, <- used_names. apply code_refs_adds.
  - destruct (keep_shape mblen l s) as (a & p & ->). tsimp_goal. unfold keep_data. rewrite B6, B2. destruct (negb _ && _); [|apply adds_refl].
    rewrite <- B1, <- used_names. apply data_refs_adds.
  - destruct (keep_shape mblen l s) as (a & p & ->). apply adds_set_refl.
  - rewrite eol_keep_eq. cbv zeta. unfold handleLabelAliasing.
    assert (L1 : lv_is_label (final_line mblen l s) = lv_is_label l) by reflexivity.
    assert (L2 : lv_label (final_line mblen l s) = lv_label l) by reflexivity.
    assert (L3 : lv_is_assignment (final_line mblen l s) = lv_is_assignment l) by reflexivity.
    rewrite L1, L2, L3, B2, B5. clear L1 L2 L3. tsimp_goal. intros k.
    destruct (found h t) as [[n [a c]]|]; cbn [is_some].
    + destruct a; cbn [negb andb]; destruct (is_nil (v_str (t_previousLabelOnSameAddress s))) eqn:E; cbn [negb]; tsimp_goal; try reflexivity.
      rewrite find_assign, B3. destruct (str_eqb k n); reflexivity.
    + cbn [negb andb]. destruct (is_nil _); cbn [negb]; tsimp_goal; [reflexivity|]. destruct (_ || _); reflexivity.
Qed.
Lemma keep_says mblen h d t l s nest : before h d t l -> t_inCustomAssembly s = nest ->
  line_says mblen h d nest t (world_of (eol_keep mblen l s)) (final_line mblen l s).
Proof.
  intros HB Hn. rewrite (keep_world mblen h d t l s HB). destruct HB as [B1 B2 B3 B4 B5 B6 B7].
  split; unfold final_line; vsimp; cbn [w_place w_parent w_label w_sect pl_cuda pl_spot place_of]; rewrite ?B1, ?B2, ?B6, ?Hn; try assumption; try reflexivity.
  destruct (negb _ && _); [|reflexivity]. unfold used_labels_in. rewrite map_map, B1. reflexivity.
Qed.

(** *** Classifying a line *)
Lemma extract_tables h d t l s : lv_text l = t -> symbol_line h d t = true ->
  tables s (extractUsedLabelsFromDirective l s) (symbol_entries h d t (v_str (t_previousLabel s))) [] (global_entries h d t) None.
Proof.
  intros Ht Hs. unfold extractUsedLabelsFromDirective, symbol_entries, global_entries. rewrite Ht, Hs.
  destruct (getWeakDefinedLabel t) as [k|]; [|destruct (getGlobalDefinedLabel t) as [k|]]; [| |apply tables_refl, same_tables_refl];
    (split; tsimp_goal; [apply adds_insert|apply adds_refl| |intros x; reflexivity]).
  - apply adds_set_refl.
  - exact (adds_set_insert _ (slice l k)).
Qed.
Lemma extract_world l s : world_of (extractUsedLabelsFromDirective l s) = world_of s.
Proof. destruct (directive_frame l s) as (u & c & ->). reflexivity. Qed.
Lemma tables_seq a b c u1 g u2 d2 al : tables a b u1 [] g None -> tables b c u2 d2 [] al -> tables a c (u1 ++ u2) d2 g al.
Proof.
  intros [A1 A2 A3 A4] [B1 B2 B3 B4]. split.
  - eapply adds_trans; eassumption.
  - intros k r. rewrite (B2 k r), (A2 k r). cbn. tauto.
  - intros k. rewrite (B3 k), (A3 k). cbn. tauto.
  - intros k. rewrite (B4 k). rewrite (A4 k). reflexivity.
Qed.

Lemma before_label h d t id l2 s s2 : label_case (set_lv_text t (line_v0 id)) s h l2 s2 -> d = t_inNvccDef s ->
  lv_text l2 = t /\ lv_is_label l2 = is_some (found h t) /\ v_str (lv_label l2) = match found h t with Some (n, _) => n | None => [] end /\
  lv_is_internal_label l2 = match found h t with Some (n, _) => isInternalLabel n | None => false end /\
  lv_is_assignment l2 = match found h t with Some (_, (a, _)) => a | None => false end /\
  lv_is_data l2 = data_line h t /\ lv_is_directive l2 = h /\
  t_inNvccDef s2 = (d || opens h t) /\ t_lines s2 = t_lines s /\ t_filteredlines s2 = t_filteredlines s /\ same_tables s s2 /\
  t_inCustomAssembly s2 = t_inCustomAssembly s /\
  world_of s2 = mkWorld (mkPlace (pl_spot (place_of s)) (pl_file (place_of s)) (pl_files (place_of s)) (t_inNvccCode s || opens h t))
     (v_str (t_currentSection s)) (next_label h t (v_str (t_previousLabel s))) (next_parent h t (v_str (t_previousParentLabel s)))
     (d || opens h t) (v_str (t_previousLabelOnSameAddress s)).
Proof.
  intros H ->. unfold found, opens, data_line, next_label, next_parent, found. destruct H as [|E|n a c E]; cbn [lv_text set_lv_text] in *.
  - vsimp. rewrite ?orb_false_r. repeat split.
  - change (lv_text (set_lv_text t (line_v0 id))) with t in *. rewrite E. vsimp. rewrite ?orb_false_r. repeat split.
  - change (lv_text (set_lv_text t (line_v0 id))) with t in *. rewrite E. unfold labelled.
    change (lv_text (set_lv_text t (line_v0 id))) with t in *.
    assert (G : forall b x, v_str (slice x b) = b) by reflexivity.
    unfold define_label. rewrite G. rewrite (orb_comm (t_inNvccDef s)), (orb_comm (t_inNvccCode s)).
    destruct a, c, (isInternalLabel n) eqn:Ei; vsimp; tsimp; repeat split.
Qed.

Lemma classify_world mblen flt h id t nest s : t_inCustomAssembly s = nest ->
  let s' := eol_classify mblen flt h (set_lv_text t (line_v0 id)) s in let d := t_inNvccDef s in
  let w := world_of s in let w' := world_of s' in
  w' = class_world flt h t w /\
  match class_verdict flt h d t with
  | Kept => t_filteredlines s' = t_filteredlines s /\ (exists x, t_lines s' = t_lines s ++ [x] /\ line_says mblen h d nest t w' x) /\
      tables s s' (symbol_entries h d t (w_label w') ++ code_entries mblen h t w') (data_entries mblen h t w') (global_entries h d t)
        (alias_entry h t (w_addr w))
  | Aside => t_lines s' = t_lines s /\ (exists x, t_filteredlines s' = t_filteredlines s ++ [x] /\ lv_text x = t /\ lv_is_directive x = true /\ lv_is_label x = false) /\
      tables s s' (symbol_entries h d t (w_label w')) [] (global_entries h d t) None
  | Dropped => False
  end.
Proof.
  intros Hn. cbv zeta. pose proof (label_cases h (set_lv_text t (line_v0 id)) s) as HL.
  pose proof (classify_cases mblen flt h (set_lv_text t (line_v0 id)) s) as Hc.
  destruct (label_step h (set_lv_text t (line_v0 id)) s) as [l2 s2]. cbn [fst snd] in *.
  destruct (before_label h (t_inNvccDef s) t id l2 s s2 HL eq_refl) as (A1 & A2 & A3 & A4 & A5 & A6 & A7 & A8 & A9 & A10 & A11 & A12 & A13). clear HL.
  set (d := t_inNvccDef s) in *.
  assert (AW : forall a b c e f g, world_of s2 = mkWorld a b c e f g -> place_of s2 = a /\ v_str (t_currentSection s2) = b /\ v_str (t_previousLabel s2) = c /\
     v_str (t_previousParentLabel s2) = e /\ t_inNvccDef s2 = f /\ v_str (t_previousLabelOnSameAddress s2) = g) by (intros ? ? ? ? ? ? [=]; auto 10).
  destruct (AW _ _ _ _ _ _ A13) as (W1 & W2 & W3 & W4 & W5 & W6). clear AW.
  assert (W7 : t_inNvccCode s2 = t_inNvccCode s || opens h t) by (apply (f_equal pl_cuda) in W1; exact W1).
  unfold class_world, class_verdict. cbn [w_place w_sect w_label w_parent w_def w_addr world_of].
  change (pl_cuda (place_of s)) with (t_inNvccCode s). fold d.
  destruct Hc as [Hd|l3 Hd Hl Hda Hf Hdir Hi E3|l3 Hd Hl Hda Hf Hdir Hi E3|l3 Hd Hl Hda Hdir E3|Hd Hl].
  - (* inside a CUDA definition *)
    assert (Hp : plain h d t = false) by (unfold plain; rewrite <- A8, Hd; reflexivity).
    assert (Hs : symbol_line h d t = false) by (unfold symbol_line; now rewrite Hp).
    rewrite Hs. cbn [andb].
    assert (B : before h d t l2) by (split; auto; rewrite A7; unfold directive_line; rewrite Hp; now rewrite orb_false_r).
    assert (Y : symbol_entries h d t (v_str (t_previousLabel (eol_keep mblen l2 (if isCudaEndDef (lv_text l2) then set_t_inNvccDef false s2 else s2)))) = []) by (unfold symbol_entries; now rewrite Hs).
    assert (Y2 : global_entries h d t = []) by (unfold global_entries; now rewrite Hs). cbn [w_label world_of]. 
    rewrite Y, Y2. clear Y Y2. cbn [app].
    set (s3 := if isCudaEndDef (lv_text l2) then set_t_inNvccDef false s2 else s2).
    assert (S3 : place_of s3 = place_of s2 /\ t_currentSection s3 = t_currentSection s2 /\ t_previousLabel s3 = t_previousLabel s2 /\ t_previousParentLabel s3 = t_previousParentLabel s2
      /\ t_inNvccDef s3 = (d || opens h t) && negb (isCudaEndDef t) /\ t_previousLabelOnSameAddress s3 = t_previousLabelOnSameAddress s2 /\ t_lines s3 = t_lines s2 /\ t_filteredlines s3 = t_filteredlines s2
      /\ same_tables s2 s3 /\ t_inCustomAssembly s3 = t_inCustomAssembly s2 /\ t_inNvccCode s3 = t_inNvccCode s2).
    { unfold s3. rewrite A1, <- A8. destruct (isCudaEndDef t); rewrite ?Hd; tsimp_goal; repeat split; rewrite ?Hd; reflexivity. }
    clearbody s3. destruct S3 as (S1 & S2 & S3 & S4 & S5 & S6 & S7 & S8 & S9 & S10 & S11).
    split.
    { rewrite (keep_world mblen h d t l2 s3 B). rewrite S1, S2, S3, S4, S5, S6, S11, W1, W2, W3, W4, W6, W7. reflexivity. }
    split; [destruct (keep_shape mblen l2 s3) as (a & p & ->); tsimp_goal; now rewrite S8|].
    split; [exists (final_line mblen l2 s3); split; [rewrite keep_lines, S7, A9; reflexivity|apply keep_says; [exact B|now rewrite S10, A12]]|].
    eapply tables_left; [eapply same_tables_trans; eassumption|]. rewrite <- W6, <- S6. now apply keep_tables with (d := d).
  - (* directive set aside *)
    assert (Hp : plain h d t = true) by (unfold plain; rewrite <- A8, Hd, <- A2, Hl, <- A6, Hda; reflexivity).
    assert (Hs : symbol_line h d t = true).
    { unfold symbol_line. rewrite Hp. rewrite A1 in Hi. rewrite Hi. cbn [negb andb]. rewrite andb_true_r. subst l3. destruct h; [reflexivity|]. rewrite A1 in Hdir. exact Hdir. }
    rewrite Hs, Hf. cbn [andb].
    assert (T3 : lv_text l3 = t) by (subst l3; destruct h; exact A1).
    assert (N3 : lv_is_label l3 = false) by (subst l3; destruct h; exact Hl).
    change (world_of (move_filtered l3 (extractUsedLabelsFromDirective l3 s2))) with (world_of (extractUsedLabelsFromDirective l3 s2)).
    rewrite extract_world. cbn [world_of w_label]. split; [rewrite A13, <- A8, Hd; reflexivity|].
    split; [destruct (directive_frame l3 s2) as (u & c & E); unfold move_filtered; rewrite E; tsimp_goal; exact A9|].
    split; [exists l3; split; [destruct (directive_frame l3 s2) as (u & c & E); unfold move_filtered; rewrite E; tsimp_goal; now rewrite A10|auto]|].
    eapply tables_left; [exact A11|]. apply tables_right with (s1 := extractUsedLabelsFromDirective l3 s2); [repeat split|].
    replace (t_previousLabel (move_filtered l3 (extractUsedLabelsFromDirective l3 s2))) with (t_previousLabel s2); [now apply extract_tables|].
    destruct (directive_frame l3 s2) as (u & c & E). unfold move_filtered. rewrite E. reflexivity.
  - (* directive kept *)
    assert (Hp : plain h d t = true) by (unfold plain; rewrite <- A8, Hd, <- A2, Hl, <- A6, Hda; reflexivity).
    assert (Hs : symbol_line h d t = true).
    { unfold symbol_line. rewrite Hp. rewrite A1 in Hi. rewrite Hi. cbn [negb andb]. rewrite andb_true_r. subst l3. destruct h; [reflexivity|]. rewrite A1 in Hdir. exact Hdir. }
    rewrite Hs, Hf. cbn [andb].
    assert (T3 : lv_text l3 = t) by (subst l3; destruct h; exact A1).
    assert (B : before h d t l3).
    { subst l3. destruct h; split; auto. rewrite A1. unfold directive_line. rewrite Hp. reflexivity. }
    split.
    { rewrite (keep_world mblen h d t l3 _ B). destruct (directive_frame l3 s2) as (u & c & E). rewrite E. unfold place_of. tsimp_goal.
      fold (place_of s2). rewrite W1, W2, W3, W4, W5, W6, W7, <- A8, Hd. reflexivity. }
    split; [destruct (keep_shape mblen l3 (extractUsedLabelsFromDirective l3 s2)) as (a & p & ->); destruct (directive_frame l3 s2) as (u & c & ->); tsimp_goal; exact A10|].
    split.
    { exists (final_line mblen l3 (extractUsedLabelsFromDirective l3 s2)). split.
      - rewrite keep_lines. destruct (directive_frame l3 s2) as (u & c & E). rewrite E at 1. tsimp_goal. now rewrite A9.
      - apply keep_says; [exact B|]. destruct (directive_frame l3 s2) as (u & c & ->). tsimp_goal. now rewrite A12. }
    eapply tables_left; [exact A11|].
    eapply tables_seq.
    { replace (t_previousLabel (eol_keep mblen l3 (extractUsedLabelsFromDirective l3 s2))) with (t_previousLabel s2); [apply extract_tables; eassumption|].
      destruct (keep_shape mblen l3 (extractUsedLabelsFromDirective l3 s2)) as (a & p & ->). destruct (directive_frame l3 s2) as (u & c & ->). reflexivity. }
    replace (v_str (t_previousLabelOnSameAddress s)) with (v_str (t_previousLabelOnSameAddress (extractUsedLabelsFromDirective l3 s2))).
    { now apply keep_tables with (d := d). }
    rewrite <- W6. destruct (directive_frame l3 s2) as (u & c & ->). reflexivity.
  - (* other lines *)
    assert (Hp : plain h d t = true) by (unfold plain; rewrite <- A8, Hd, <- A2, Hl, <- A6, Hda; reflexivity).
    assert (Hs : symbol_line h d t = false).
    { unfold symbol_line. rewrite Hp. cbn [andb]. destruct Hdir as [Hdir|Hdir]; [|rewrite A1 in Hdir; rewrite Hdir; apply andb_false_r].
      subst l3. destruct h; [congruence|]. cbn [orb]. rewrite A1 in Hdir. change (lv_is_directive (set_lv_is_directive ?b ?l)) with b in Hdir. now rewrite Hdir. }
    rewrite Hs. cbn [andb].
    assert (Y : symbol_entries h d t (v_str (t_previousLabel (eol_keep mblen l3 s2))) = []) by (unfold symbol_entries; now rewrite Hs).
    assert (Y2 : global_entries h d t = []) by (unfold global_entries; now rewrite Hs). cbn [w_label world_of].
    rewrite Y, Y2. clear Y Y2. cbn [app].
    assert (B : before h d t l3).
    { subst l3. destruct h; split; auto. rewrite A1. unfold directive_line. rewrite Hp. reflexivity. }
    split; [rewrite (keep_world mblen h d t l3 _ B), W1, W2, W3, W4, W5, W6, W7, <- A8, Hd; reflexivity|].
    split; [destruct (keep_shape mblen l3 s2) as (a & p & ->); tsimp_goal; exact A10|].
    split; [exists (final_line mblen l3 s2); split; [now rewrite keep_lines, A9|apply keep_says; [exact B|now rewrite A12]]|].
    eapply tables_left; [exact A11|]. rewrite <- W6. now apply keep_tables with (d := d).
  - (* labels and data *)
    assert (Hp : plain h d t = false).
    { unfold plain. rewrite <- A8, Hd, <- A2, <- A6. destruct Hl as [-> | ->]; [reflexivity|apply andb_false_r]. }
    assert (Hs : symbol_line h d t = false) by (unfold symbol_line; now rewrite Hp).
    rewrite Hs. cbn [andb].
    assert (Y : symbol_entries h d t (v_str (t_previousLabel (eol_keep mblen l2 s2))) = []) by (unfold symbol_entries; now rewrite Hs).
    assert (Y2 : global_entries h d t = []) by (unfold global_entries; now rewrite Hs). cbn [w_label world_of].
    rewrite Y, Y2. clear Y Y2. cbn [app].
    assert (B : before h d t l2) by (split; auto; rewrite A7; unfold directive_line; rewrite Hp; now rewrite orb_false_r).
    split; [rewrite (keep_world mblen h d t l2 _ B), W1, W2, W3, W4, W5, W6, W7, <- A8, Hd; reflexivity|].
    split; [destruct (keep_shape mblen l2 s2) as (a & p & ->); tsimp_goal; exact A10|].
    split; [exists (final_line mblen l2 s2); split; [now rewrite keep_lines, A9|apply keep_says; [exact B|now rewrite A12]]|].
    eapply tables_left; [exact A11|]. rewrite <- W6. now apply keep_tables with (d := d).
Qed.

(** *** One line of the input *)
Definition pre_world (w : world) (t : str) : world :=
  let p := w_place w in
  mkWorld (if closes w t then mkPlace spot0 (pl_file p) (pl_files p) (pl_cuda p)
           else match place_directive p t with Some p' => p' | None => p end)
          (next_section (locates w t) t (w_sect w)) (pre_label w t) (w_parent w) (w_def w) (w_addr w).
Definition world_text (flt : Filter) (w : world) (raw t : str) : world :=
  if hidden_start flt w t then w
  else if only_comment flt (pl_cuda (w_place w)) raw then pre_world w t
  else class_world flt (locates w t) t (pre_world w t).
Definition verdict_of (flt : Filter) (w : world) (raw t : str) : verdict :=
  if hidden_start flt w t || only_comment flt (pl_cuda (w_place w)) raw then Dropped
  else class_verdict flt (locates w t) (w_def w) t.
Definition world_cand (flt : Filter) (w : world) (c : cand) : world :=
  match c with CText raw nest => world_text flt w raw (clean flt nest raw) | _ => w end.
Definition worlds (flt : Filter) (cs : list cand) : world := fold_left (world_cand flt) cs world0.

Lemma source_directive_world l s :
  match handleSourceDirective l s with
  | Some s' => place_directive (place_of s) (lv_text l) = Some (place_of s') /\ Forall2 keeps (t_lines s) (t_lines s') /\ t_text s' = t_text s /\
      t_currentSection s' = t_currentSection s /\ v_str (t_previousLabel s') = (if stab_end (lv_text l) then [] else v_str (t_previousLabel s)) /\
      t_previousParentLabel s' = t_previousParentLabel s /\ t_inNvccDef s' = t_inNvccDef s /\ t_previousLabelOnSameAddress s' = t_previousLabelOnSameAddress s /\
      t_filteredlines s' = t_filteredlines s /\ same_tables s s' /\ t_inCustomAssembly s' = t_inCustomAssembly s
  | None => place_directive (place_of s) (lv_text l) = None
  end.
Proof.
  pose proof (source_directive_place l s) as H. destruct (handleSourceDirective l s) as [s'|] eqn:E; [|exact H].
  destruct H as (H1 & H2 & H3). split; [exact H1|]. split; [exact H2|]. split; [exact H3|]. clear H1 H2 H3.
  unfold handleSourceDirective, handleFiledef, handleSource, handleStabs, handle6502, handleD2, stab_end in *.
  destruct (getFileDef _) as [[i f]|]; [injection E as <-; repeat split|].
  destruct (getSourceRef _) as [[fi li] col]. cbn [fst]. destruct (negb (fi =? 0)); [injection E as <-; repeat split|].
  destruct (getSourceInfoFromStabs _) as [sb|].
  { injection E as <-. destruct (sb_type sb =? 68); cbn [negb andb]; [repeat split|]. destruct (_ || _); repeat split. }
  destruct (get6502DbgInfo _) as [[[f n] e]|]; [injection E as <-; destruct e; repeat split|].
  destruct (getD2LineInfo _) as [n|]; [injection E as <-; repeat split|].
  destruct (getD2FileInfo _) as [f|]; [injection E as <-; repeat split|discriminate].
Qed.
(** What one line of text does. *)
Definition text_done (mblen : str -> Z) (flt : Filter) (s : tstate) (raw : str) (nest : Z) (t : str) (s' : tstate) : Prop :=
  let w := world_of s in let w' := world_of s' in let h := locates w t in let d := w_def w in
  w' = world_text flt w raw t /\
  match verdict_of flt w raw t with
  | Dropped => Forall2 keeps (t_lines s) (t_lines s') /\ t_filteredlines s' = t_filteredlines s /\ same_tables s s'
  | Aside => Forall2 keeps (t_lines s) (t_lines s') /\
      (exists x, t_filteredlines s' = t_filteredlines s ++ [x] /\ lv_text x = t /\ lv_is_directive x = true /\ lv_is_label x = false) /\
      tables s s' (symbol_entries h d t (w_label w')) [] (global_entries h d t) None
  | Kept => (exists L x, Forall2 keeps (t_lines s) L /\ t_lines s' = L ++ [x] /\ line_says mblen h d nest t w' x) /\ t_filteredlines s' = t_filteredlines s /\
      tables s s' (symbol_entries h d t (w_label w') ++ code_entries mblen h t w') (data_entries mblen h t w') (global_entries h d t) (alias_entry h t (w_addr w))
  end.
Section Steps.
Variables (mblen : str -> Z) (flt : Filter).
Hypothesis Hlib : f_library_functions flt = false.
Lemma directives_world id t s0 s : Forall2 keeps (t_lines s0) (t_lines s) -> world_of s = world_of s0 -> same_tables s0 s -> t_filteredlines s = t_filteredlines s0 ->
  hidden_start flt (world_of s0) t = false ->
  text_done mblen flt s0 (t_text s) (t_inCustomAssembly s) t (eol_directives mblen flt (set_lv_text t (line_v0 id)) s).
Proof.
  intros HK HW HT HF Hp. unfold text_done, verdict_of, world_text. cbv zeta. rewrite Hp. cbn [orb]. rewrite <- HW.
  set (l := set_lv_text t (line_v0 id)). assert (Ht : lv_text l = t) by reflexivity.
  unfold eol_directives, libraryFilter. rewrite Hlib. cbn [andb]. rewrite Ht.
  change (pl_cuda (w_place (world_of s))) with (t_inNvccCode s).
  set (step1 := if endBlock t || (t_inNvccCode s && str_contains t "}") then
      (false, set_t_lastOwnSource source_v0 (set_t_previousLabel view0 (set_t_currentSourceRef source_v0 s)))
      else match handleSourceDirective l s with Some s' => (true, s') | None => (false, s) end).
  assert (P : exists s1, step1 = (locates (world_of s) t, s1) /\
     let s2 := set_t_mayRemovePreviousLabel true (if negb (locates (world_of s) t) then handleSection l s1 else s1) in
     world_of s2 = pre_world (world_of s) t /\ Forall2 keeps (t_lines s) (t_lines s2) /\ t_filteredlines s2 = t_filteredlines s /\ same_tables s s2 /\
     t_inCustomAssembly s2 = t_inCustomAssembly s /\ t_text s2 = t_text s /\ t_inNvccCode s2 = t_inNvccCode s).
  { unfold step1, locates, pre_world, pre_label, locates, next_section. change str_contains with (fun x (c : char) => has_char c x). cbn beta.
    change (closes (world_of s) t) with (endBlock t || (t_inNvccCode s && has_char "}"%char t)).
    destruct (endBlock t || (t_inNvccCode s && has_char "}"%char t)); cbn [negb andb orb].
    - eexists. split; [reflexivity|]. cbn [negb]. cbv zeta. unfold handleSection. rewrite Ht. destruct (getSectionNameDef t); repeat split; apply keeps_list_refl.
    - pose proof (source_directive_world l s) as H. rewrite Ht in H. destruct (handleSourceDirective l s) as [s'|].
      + change (w_place (world_of s)) with (place_of s). destruct H as (H1 & H2 & H3 & H4 & H5 & H6 & H7 & H8 & H9 & H10 & H11). rewrite H1. cbn [is_some].
        exists s'. split; [reflexivity|]. cbn [negb andb]. cbv zeta. split.
        { unfold world_of. cbn [w_place w_sect w_label w_parent w_def w_addr]. f_equal; tsimp_goal; [now rewrite H4|exact H5|now rewrite H6|exact H7|now rewrite H8]. }
        split; [exact H2|]. split; [exact H9|]. split; [exact H10|]. split; [exact H11|]. split; [exact H3|].
        clear -H1. unfold place_directive in H1. destruct s, s'. unfold place_of in *. tsimp. 
        repeat match type of H1 with
        | match ?x with _ => _ end = _ => destruct x
        | (let '(_, _) := ?x in _) = _ => destruct x
        | (if ?x then _ else _) = _ => destruct x
        | Some (if ?x then _ else _) = _ => destruct x
        | option_map _ ?x = _ => destruct x; cbn [option_map] in H1
        end; try discriminate; injection H1; cbn [pl_cuda]; intros; congruence.
      + change (w_place (world_of s)) with (place_of s). rewrite H. exists s. split; [reflexivity|]. cbn [negb is_some andb]. cbv zeta.
        unfold handleSection. rewrite Ht. destruct (getSectionNameDef t); repeat split; apply keeps_list_refl. }
  clearbody step1. destruct P as (s1 & -> & P). cbv zeta in P. set (h := locates (world_of s) t) in *.
  destruct P as (P1 & P2 & P3 & P4 & P5 & P6 & P7). set (s2 := set_t_mayRemovePreviousLabel true (if negb h then handleSection l s1 else s1)) in *. clearbody s2.
  unfold justComment. rewrite P6, P7. fold (only_comment flt (t_inNvccCode s) (t_text s)).
  assert (K2 : Forall2 keeps (t_lines s0) (t_lines s2)) by (eapply keeps_list_trans; eassumption).
  assert (T2 : same_tables s0 s2) by (eapply same_tables_trans; eassumption).
  destruct (only_comment flt (t_inNvccCode s) (t_text s)).
  - split; [exact P1|]. split; [exact K2|]. split; [rewrite <- HF; exact P3|]. eapply same_tables_trans; [exact T2|repeat split].
  - pose proof (classify_world mblen flt h id t (t_inCustomAssembly s) s2 P5) as C. cbv zeta in C. fold l in C.
    assert (Ed : t_inNvccDef s2 = w_def (world_of s)) by (change (t_inNvccDef s2) with (w_def (world_of s2)); rewrite P1; reflexivity).
    assert (Ea : w_addr (world_of s2) = w_addr (world_of s)) by (rewrite P1; reflexivity).
    rewrite Ed, Ea in C. destruct C as [C1 C2]. split; [rewrite C1, P1; reflexivity|].
    destruct (class_verdict flt h (w_def (world_of s)) t).
    + destruct C2.
    + destruct C2 as (C2 & (x & C3 & C4) & C5). split; [now rewrite C2|]. split; [exists x; split; [now rewrite C3, P3, HF|exact C4]|].
      eapply tables_left; eassumption.
    + destruct C2 as (C2 & (x & C3 & C4) & C5). split; [exists (t_lines s2), x; split; [exact K2|split; [exact C3|exact C4]]|]. split; [now rewrite C2, P3, HF|].
      eapply tables_left; eassumption.
Qed.
Lemma eol_world s :
  match fst (scan_line flt (scan_of s) []) with
  | CText raw nest => text_done mblen flt s raw nest (clean flt nest raw) (eol mblen flt s)
  | CBlank _ => world_of (eol mblen flt s) = world_of s /\ t_filteredlines (eol mblen flt s) = t_filteredlines s /\ same_tables s (eol mblen flt s) /\
      exists i, t_lines (eol mblen flt s) = t_lines s ++ match rev (t_lines s) with [] => [] | x :: _ => if is_nil (lv_text x) then [] else [line_v0 i] end
  | CBlock _ => world_of (eol mblen flt s) = world_of s /\ t_filteredlines (eol mblen flt s) = t_filteredlines s /\ same_tables s (eol mblen flt s) /\
      t_lines (eol mblen flt s) = t_lines s
  end.
Proof.
  rewrite scan_line_eq. unfold eol, new_line. tsimp.
  change (set_t_currentLine _ (set_t_next_id _ _)) with (begun s).
  rewrite block_eq. change (t_text (begun s)) with (t_text s).
  change (t_hasStartedCommentBlock (begun s)) with (t_hasStartedCommentBlock s).
  change (set_t_hasStartedCommentBlock _ (begun s)) with (base1 flt s).
  destruct (fst (block_of flt (t_text s) (t_hasStartedCommentBlock s))) eqn:Hb; [repeat split|].
  change (t_text (base1 flt s)) with (t_text s). pose proof (all_blank_eq (t_text s)) as Hab.
  destruct (all_blank (t_text s)) eqn:Hws; rewrite Hab; clear Hab; cbn [fst].
  { unfold maybeAddBlank, new_line. change (t_lines (base1 flt s)) with (t_lines s).
    assert (N : t_lines s = t_lines s ++ []) by (symmetry; apply app_nil_r).
    destruct (rev (t_lines s)) as [|x q]; cbn [negb]; [|destruct (is_nil (lv_text x)); cbn [negb]];
      (split; [reflexivity|split; [reflexivity|split; [repeat split|]]]); [exists 0%N; exact N|exists 0%N; exact N|eexists; reflexivity]. }
  rewrite custom_eq. change (set_t_inCustomAssembly _ (base1 flt s)) with (base2 flt s).
  rewrite filtered_clean.
  set (t := clean flt (next_nest s) (t_text s)). cbn [lv_text set_lv_text].
  change (sv_line (t_currentSourceRef (base2 flt s))) with (sp_line (pl_spot (w_place (world_of s)))).
  change (lv_text (set_lv_text t (line_v0 (t_next_id s)))) with t.
  assert (HD : forall s3, Forall2 keeps (t_lines s) (t_lines s3) -> world_of s3 = world_of s -> same_tables s s3 -> t_filteredlines s3 = t_filteredlines s ->
    t_text s3 = t_text s -> t_inCustomAssembly s3 = next_nest s -> hidden_start flt (world_of s) t = false ->
    text_done mblen flt s (t_text s) (next_nest s) t (eol_directives mblen flt (set_lv_text t (line_v0 (t_next_id s))) s3)).
  { intros s3 H1 H2 H3 H4 H5 H6 H7. rewrite <- H5, <- H6. now apply directives_world. }
  destruct (startProcBlock t && (sp_line (pl_spot (w_place (world_of s))) =? 0)) eqn:Ep.
  - set (s3 := markPreviousInternalLabelAsInsideProc (base2 flt s)).
    assert (E : world_of s3 = world_of s /\ same_tables s s3 /\ t_filteredlines s3 = t_filteredlines s /\ t_text s3 = t_text s /\ t_inCustomAssembly s3 = next_nest s).
    { unfold s3, markPreviousInternalLabelAsInsideProc. destruct (rev (t_lines (base2 flt s))) as [|x y]; [repeat split|]. destruct (lv_is_label x && lv_is_internal_label x); repeat split. }
    assert (K : Forall2 keeps (t_lines s) (t_lines s3)) by (exact (inside_keeps (base2 flt s))). clearbody s3. destruct E as (E1 & E2 & E3 & E4 & E5).
    destruct (f_directives flt) eqn:Ed.
    + assert (Hh : hidden_start flt (world_of s) t = true) by (unfold hidden_start; now rewrite Ed, Ep).
      unfold text_done, world_text, verdict_of. cbv zeta. rewrite Hh. cbn [orb]. split; [exact E1|]. split; [exact K|]. split; [exact E3|].
      eapply same_tables_trans; [exact E2|repeat split].
    + apply HD; auto. unfold hidden_start. now rewrite Ed.
  - apply HD; [apply keeps_list_refl|reflexivity|repeat split|reflexivity|reflexivity|reflexivity|].
    unfold hidden_start. rewrite Ep. apply andb_false_r.
Qed.

(** *** The whole input *)
(** What line [c] of the input adds, [w] being the state of affairs before it. *)
Definition used_at (w : world) (c : cand) : list (str * str) :=
  match c with
  | CText raw nest =>
      let t := clean flt nest raw in let h := locates w t in let w' := world_text flt w raw t in
      match verdict_of flt w raw t with
      | Dropped => []
      | Aside => symbol_entries h (w_def w) t (w_label w')
      | Kept => symbol_entries h (w_def w) t (w_label w') ++ code_entries mblen h t w'
      end
  | _ => []
  end.
Definition data_at (w : world) (c : cand) : list (str * str) :=
  match c with
  | CText raw nest =>
      let t := clean flt nest raw in
      match verdict_of flt w raw t with Kept => data_entries mblen (locates w t) t (world_text flt w raw t) | _ => [] end
  | _ => []
  end.
Definition global_at (w : world) (c : cand) : list str :=
  match c with
  | CText raw nest =>
      let t := clean flt nest raw in
      match verdict_of flt w raw t with Dropped => [] | _ => global_entries (locates w t) (w_def w) t end
  | _ => []
  end.
Definition alias_at (w : world) (c : cand) : option (str * str) :=
  match c with
  | CText raw nest =>
      let t := clean flt nest raw in
      match verdict_of flt w raw t with Kept => alias_entry (locates w t) t (w_addr w) | _ => None end
  | _ => None
  end.
Definition made {A} (f : world -> cand -> list A) (cs : list cand) (e : A) : Prop :=
  exists pre c post, cs = pre ++ c :: post /\ In e (f (worlds flt pre) c).
Lemma cand_snoc (cs : list cand) x a c b : cs ++ [x] = a ++ c :: b -> (b = [] /\ cs = a /\ x = c) \/ exists b', b = b' ++ [x] /\ cs = a ++ c :: b'.
Proof.
  intros E. destruct (rev b) as [|y q] eqn:Eb.
  - assert (b = []) as -> by (rewrite <- (rev_involutive b), Eb; reflexivity). apply app_inj_tail in E as [-> ->]. now left.
  - assert (b = rev q ++ [y]) as -> by (rewrite <- (rev_involutive b), Eb; reflexivity). right. exists (rev q).
    rewrite app_comm_cons, app_assoc in E. apply app_inj_tail in E as [-> ->]. now split.
Qed.
Lemma made_snoc {A} (f : world -> cand -> list A) cs c e : made f (cs ++ [c]) e <-> made f cs e \/ In e (f (worlds flt cs) c).
Proof.
  split.
  - intros (pre & x & post & E & H). apply cand_snoc in E as [(-> & -> & ->)|(b' & -> & ->)]; [now right|]. left. exists pre, x, b'. auto.
  - intros [(pre & x & post & -> & H)|H].
    + exists pre, x, (post ++ [c]). now rewrite <- app_assoc.
    + exists cs, c, []. auto.
Qed.
Lemma made_nil {A} (f : world -> cand -> list A) e : ~ made f [] e.
Proof. intros (pre & x & post & E & _). destruct pre; discriminate. Qed.
Lemma worlds_snoc cs c : worlds flt (cs ++ [c]) = world_cand flt (worlds flt cs) c.
Proof. unfold worlds. now rewrite fold_left_app. Qed.
(** The alias of a label is the one given to it last. *)
Definition alias_now (cs : list cand) (k a : str) : Prop :=
  exists pre c post, cs = pre ++ c :: post /\ alias_at (worlds flt pre) c = Some (k, a) /\
    forall p c' q b, post = p ++ c' :: q -> alias_at (worlds flt (pre ++ c :: p)) c' <> Some (k, b).
Lemma alias_snoc cs c k a : alias_now (cs ++ [c]) k a <->
  alias_at (worlds flt cs) c = Some (k, a) \/ (alias_now cs k a /\ forall b, alias_at (worlds flt cs) c <> Some (k, b)).
Proof.
  split.
  - intros (pre & x & post & E & H & N). apply cand_snoc in E as [(-> & -> & ->)|(b' & -> & ->)]; [now left|]. right. split.
    + exists pre, x, b'. split; [reflexivity|]. split; [exact H|]. intros p c' q b ->. apply (N p c' (q ++ [c])). now rewrite <- app_assoc.
    + intros b. apply (N b' c []). reflexivity.
  - intros [H|[(pre & x & post & -> & H & N) N2]].
    + exists cs, c, []. split; [reflexivity|]. split; [exact H|]. intros p c' q b E. destruct p; discriminate.
    + exists pre, x, (post ++ [c]). split; [now rewrite <- app_assoc|]. split; [exact H|].
      intros p c' q b E. apply cand_snoc in E as [(-> & -> & ->)|(q' & -> & ->)]; [apply N2|now apply (N p c' q')].
Qed.

Record world_inv (cs : list cand) (s : tstate) : Prop := {
  wi_world : world_of s = worlds flt cs;
  wi_used : forall k r, looked (t_used_labels s) k r <-> made used_at cs (k, r);
  wi_data : forall k r, looked (t_data_used_labels s) k r <-> made data_at cs (k, r);
  wi_user : forall k, set_contains (t_usercode_labels s) k = true <-> made global_at cs k;
  wi_alias : forall k a, option_map v_str (map_find (t_aliased_labels s) k) = Some a <-> alias_now cs k a }.
Lemma eol_tables s : let c := fst (scan_line flt (scan_of s) []) in let s' := eol mblen flt s in
  world_of s' = world_cand flt (world_of s) c /\ tables s s' (used_at (world_of s) c) (data_at (world_of s) c) (global_at (world_of s) c) (alias_at (world_of s) c).
Proof.
  cbv zeta. pose proof (eol_world s) as H. destruct (fst (scan_line flt (scan_of s) [])) as [raw|raw|raw nest].
  - destruct H as (A & _ & B & _). split; [exact A|now apply tables_refl].
  - destruct H as (A & _ & B & _). split; [exact A|now apply tables_refl].
  - unfold text_done in H. cbv zeta in H. unfold used_at, data_at, global_at, alias_at. cbn [world_cand]. destruct H as [A B]. split; [exact A|]. rewrite <- A.
    destruct (verdict_of flt (world_of s) raw (clean flt nest raw)).
    + apply tables_refl, B.
    + apply B.
    + apply B.
Qed.
Lemma world_line cs s : world_inv cs s -> world_inv (cs ++ [fst (scan_line flt (scan_of s) [])]) (eol mblen flt s).
Proof.
  intros [I1 I2 I3 I4 I5]. destruct (eol_tables s) as [A [B1 B2 B3 B4]]. set (c := fst (scan_line flt (scan_of s) [])) in *. clearbody c. rewrite I1 in *.
  split.
  - now rewrite worlds_snoc.
  - intros k r. rewrite (B1 k r), I2, made_snoc. reflexivity.
  - intros k r. rewrite (B2 k r), I3, made_snoc. reflexivity.
  - intros k. rewrite (B3 k), I4, made_snoc. reflexivity.
  - intros k a. rewrite (B4 k), alias_snoc, <- I5. destruct (alias_at (worlds flt cs) c) as [[n b]|].
    + destruct (str_eqb k n) eqn:E.
      * apply str_eqb_eq in E. subst n. split; [intros [= ->]; now left|]. intros [[= ->]|[_ N]]; [reflexivity|]. now destruct (N b).
      * assert (k <> n) by (intros ->; now rewrite str_eqb_refl in E). split; [intros H2; right; split; [exact H2|]; intros b' [= ? ?]; congruence|].
        intros [[= ? ?]|[H2 _]]; [congruence|exact H2].
    + split; [intros H2; right; split; [exact H2|discriminate]|]. intros [?|[H2 _]]; [discriminate|exact H2].
Qed.
Lemma read_world input : world_inv (scan_input flt input) (read_lines mblen flt tstate0 input).
Proof.
  apply read_cands.
  - intros cs s t [A B C D E]. split; assumption.
  - intros cs s H _. now apply world_line.
  - split; [reflexivity|..].
    + intros k r. split; [intros (? & ? & [=] & _)|intros H; now apply made_nil in H].
    + intros k r. split; [intros (? & ? & [=] & _)|intros H; now apply made_nil in H].
    + intros k. split; [intros [=]|intros H; now apply made_nil in H].
    + intros k a. split; [intros [=]|]. intros (pre & x & post & E & _). destruct pre; discriminate.
Qed.
End Steps.
