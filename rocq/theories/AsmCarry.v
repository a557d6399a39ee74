(** The text parser: what the section, the label and the parent in force are. *)
From Verif Require Import AsmLemmas AsmRead AsmMark AsmTrace AsmThms AsmUse AsmComplete AsmPlace AsmWorld AsmStored.

Section Carry.
Variable flt : Filter.
(** A field that a line either sets or leaves alone. *)
Section Field.
Variables (A : Type) (F : world -> A) (sets : world -> cand -> option A).
Hypothesis step : forall w c, F (world_cand flt w c) = match sets w c with Some a => a | None => F w end.
Lemma field_last pre c post a : sets (worlds flt pre) c = Some a ->
  (forall p x q, post = p ++ x :: q -> sets (worlds flt (pre ++ c :: p)) x = None) -> F (worlds flt (pre ++ c :: post)) = a.
Proof.
  intros H. induction post as [|y post IH] using rev_ind; intros N.
  - rewrite worlds_snoc, step, H. reflexivity.
  - change (pre ++ c :: post ++ [y]) with (pre ++ (c :: post) ++ [y]). rewrite app_assoc, worlds_snoc, step, (N post y []) by reflexivity.
    apply IH. intros p x q ->. apply (N p x (q ++ [y])). now rewrite <- app_assoc.
Qed.
Lemma field_none cs : (forall p x q, cs = p ++ x :: q -> sets (worlds flt p) x = None) -> F (worlds flt cs) = F world0.
Proof.
  induction cs as [|y cs IH] using rev_ind; intros N; [reflexivity|].
  rewrite worlds_snoc, step, (N cs y []) by reflexivity. apply IH. intros p x q ->. apply (N p x (q ++ [y])). now rewrite <- app_assoc.
Qed.
End Field.

Definition sets_section (w : world) (c : cand) : option str :=
  match c with
  | CText raw nest => let t := clean flt nest raw in if hidden_start flt w t || locates w t then None else getSectionNameDef t
  | _ => None
  end.
Definition label_here (w : world) (c : cand) : option str :=
  match c with
  | CText raw nest =>
      let t := clean flt nest raw in
      if hidden_start flt w t || only_comment flt (pl_cuda (w_place w)) raw then None else option_map fst (found (locates w t) t)
  | _ => None
  end.
Definition sets_parent (w : world) (c : cand) : option str :=
  match label_here w c with Some n => if isInternalLabel n then None else Some n | None => None end.
(** The last label is forgotten at the end of a block or of a .stabn scope. *)
Definition sets_label (w : world) (c : cand) : option str :=
  match label_here w c with
  | Some n => Some n
  | None =>
      match c with
      | CText raw nest =>
          let t := clean flt nest raw in
          if negb (hidden_start flt w t) && (closes w t || (locates w t && stab_end t)) then Some [] else None
      | _ => None
      end
  end.
Lemma section_step w c : w_sect (world_cand flt w c) = match sets_section w c with Some a => a | None => w_sect w end.
Proof.
  destruct c as [raw|raw|raw nest]; try reflexivity. cbn [world_cand sets_section]. unfold world_text. cbv zeta.
  destruct (hidden_start _ _ _); [reflexivity|]. cbn [orb].
  assert (E : w_sect (pre_world w (clean flt nest raw)) = match (if locates w (clean flt nest raw) then None else getSectionNameDef (clean flt nest raw)) with Some a => a | None => w_sect w end).
  { unfold pre_world, next_section. cbn [w_sect]. now destruct (locates _ _). }
  destruct (only_comment _ _ _); exact E.
Qed.
Lemma parent_step w c : w_parent (world_cand flt w c) = match sets_parent w c with Some a => a | None => w_parent w end.
Proof.
  destruct c as [raw|raw|raw nest]; try reflexivity. unfold sets_parent. cbn [world_cand label_here]. unfold world_text. cbv zeta.
  destruct (hidden_start _ _ _); [reflexivity|]. cbn [orb]. destruct (only_comment _ _ _); [reflexivity|].
  unfold class_world, next_parent. cbn [w_parent pre_world]. destruct (found _ _) as [[n [a c]]|]; cbn [option_map fst]; [destruct (isInternalLabel n)|]; reflexivity.
Qed.
Lemma label_step w c : w_label (world_cand flt w c) = match sets_label w c with Some a => a | None => w_label w end.
Proof.
  destruct c as [raw|raw|raw nest]; try reflexivity. unfold sets_label. cbn [world_cand label_here]. unfold world_text. cbv zeta.
  destruct (hidden_start _ _ _); [reflexivity|]. cbn [orb negb andb].
  assert (E : w_label (pre_world w (clean flt nest raw)) =
    match (if closes w (clean flt nest raw) || (locates w (clean flt nest raw) && stab_end (clean flt nest raw)) then Some [] else None) with Some a => a | None => w_label w end).
  { unfold pre_world, pre_label. cbn [w_label]. now destruct (_ || _). }
  destruct (only_comment _ _ _); [exact E|].
  unfold class_world, next_label. cbn [w_label]. destruct (found _ _) as [[n [a c]]|]; cbn [option_map fst]; [reflexivity|exact E].
Qed.
End Carry.

(** The names of internal labels. *)
Lemma internal_iff n : isInternalLabel n = true <-> exists c r, n = c :: r /\ (c = "."%char \/ c = "$"%char \/ c = "L"%char).
Proof.
  unfold isInternalLabel. destruct n as [|c r].
  - split; [discriminate|]. intros (? & ? & [=] & _).
  - cbn [lit list_ascii_of_string starts_with]. rewrite !andb_true_r, !orb_true_iff, !ceq_true. split.
    + intros H. exists c, r. split; [reflexivity|]. intuition congruence.
    + intros (c' & r' & [= -> ->] & H). intuition congruence.
Qed.

(** The tables after the whole parse. *)
Section Tables.
Variables (mblen : str -> Z) (flt : Filter) (oref : list view -> list view) (olab : list (view * Z) -> list (view * Z)).
Hypothesis Hlib : f_library_functions flt = false.
Lemma looked_filter_iff (p : str -> bool) m k r : looked (filter (fun e => p (v_str (fst e))) m) k r <-> p k = true /\ looked m k r.
Proof.
  split.
  - intros (refs & v & A & B). unfold looked. assert (H : p k = true /\ map_find m k = Some refs); [|destruct H; split; eauto].
    clear B. revert A. unfold map_find, option_map. induction m as [|[a s] t IH]; [discriminate|]. cbn [find filter fst].
    destruct (p (v_str a)) eqn:E; cbn [find fst].
    + destruct (same_key k a) eqn:Ek; [|exact IH]. intros H. split; [apply same_key_iff in Ek; now rewrite <- Ek|exact H].
    + intros H. destruct (IH H) as [A B]. split; [exact A|]. destruct (same_key k a) eqn:Ek; [|exact B].
      apply same_key_iff in Ek. rewrite Ek in E. congruence.
  - intros [A B]. apply looked_filter; [|exact B]. intros kv <- refs. exact A.
Qed.
Lemma run_tables fuel input vis s' vis' : AsmText.run mblen flt oref olab fuel input vis = Ok (s', vis') ->
  let cs := scan_input flt input in
  (forall k r, looked (t_used_labels s') k r <-> map_contains (t_labels_defined s') k = true /\ made flt (used_at mblen flt) cs (k, r)) /\
  (forall k r, looked (t_data_used_labels s') k r <-> made flt (data_at mblen flt) cs (k, r)) /\
  (forall k, set_contains (t_usercode_labels s') k = true <-> made flt (global_at flt) cs k) /\
  (forall k a, option_map v_str (map_find (t_aliased_labels s') k) = Some a <-> alias_now flt cs k a).
Proof.
  intros H. cbv zeta. destruct (run_ok _ _ _ _ _ _ _ _ _ H) as (L & kept & out & [_ _ _ _ E _]).
  destruct (read_world mblen flt Hlib input) as [_ A B C D]. subst s'. unfold read, filterNonLabels. tsimp_goal.
  split; [|split; [exact B|split; [exact C|exact D]]].
  intros k r. rewrite (looked_filter_iff (fun x => map_contains _ x)). now rewrite A.
Qed.
End Tables.
