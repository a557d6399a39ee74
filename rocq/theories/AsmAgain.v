(** The text parser: several calls of fromStream on one parser. *)
From Coq Require Import Permutation.
From Verif Require Import AsmLemmas AsmRead AsmMark AsmTrace AsmThms AsmUse AsmSearch AsmComplete AsmRemove.

Definition named_alike (a b : asm_line_v) : Prop := lv_is_label b = lv_is_label a /\ lv_label b = lv_label a.
Lemma alike_nth ls ls' : Forall2 named_alike ls ls' -> forall n,
  match nth_error ls n, nth_error ls' n with Some a, Some b => named_alike a b | None, None => True | _, _ => False end.
Proof. induction 1 as [|a b t t' H _ IH]; intros [|n]; cbn; auto. apply IH. Qed.
Lemma last_def_alike ls ls' k i : Forall2 named_alike ls ls' -> last_def ls k i -> last_def ls' k i.
Proof.
  intros H [(l & A & B & C & D) E]. pose proof (alike_nth _ _ H) as N. split.
  - specialize (N (Z.to_nat (i - 1))). rewrite A in N. destruct (nth_error ls' _) as [l'|]; [|destruct N]. destruct N as [N1 N2].
    exists l'. rewrite N1, N2. auto.
  - intros j l' Hl Hlab Hn. specialize (N j). rewrite Hl in N. destruct (nth_error ls j) as [x|] eqn:Ex; [|destruct N]. destruct N as [N1 N2].
    apply (E j x Ex); congruence.
Qed.
Lemma label_inv_alike s s' : t_labels_defined s' = t_labels_defined s -> Forall2 named_alike (t_lines s) (t_lines s') -> label_inv s -> label_inv s'.
Proof.
  intros E H [A B C]. constructor; rewrite E; auto.
  - intros k i Hk. eapply last_def_alike; eauto.
  - intros l Hl Hlab. apply In_nth_error in Hl as (n & Hl). pose proof (alike_nth _ _ H n) as N. rewrite Hl in N.
    destruct (nth_error (t_lines s) n) as [x|] eqn:Ex; [|destruct N]. destruct N as [N1 N2]. rewrite N2.
    apply B; [eapply nth_error_In, Ex|congruence].
Qed.

Ltac slia := unfold str, char in *; lia.
Section Again.
Variables (mblen : str -> Z) (flt : Filter)
          (ord_refs : list view -> list view) (ord_labels : list (view * Z) -> list (view * Z)).
Hypothesis Hlabels : forall m, Permutation (ord_labels m) m.

(** All calls one after the other. *)
Fixpoint calls (fuel : nat) (inputs : list str) (s : tstate) (vis : list str) : outcome (tstate * list str) :=
  match inputs with
  | [] => Ok (s, vis)
  | i :: t => r <- fromStream mblen flt ord_refs ord_labels fuel s i vis ;; calls fuel t (fst r) (snd r)
  end.

(** *** A label table that points past the lines *)
Lemma loop_out fuel labels : forall s vis r, (exists e, In e labels /\ Z.of_nat (length (t_lines s)) < snd e) -> mark_loop ord_refs fuel labels s vis <> Ok r.
Proof.
  induction labels as [|e t IH]; intros s vis r (x & Hx & Hlt); [destruct Hx|]. cbn [mark_loop].
  destruct (mark_one ord_refs s fuel (snd e) vis) as [[s1 v1]| | |] eqn:E; cbn [obind fst snd]; try discriminate.
  destruct Hx as [->|Hx].
  - exfalso. revert E. unfold mark_one. apply Z.ltb_lt in Hlt. rewrite Hlt, orb_true_r. discriminate.
  - apply IH. exists x. split; [exact Hx|].
    destruct (mark_one_ok ord_refs s fuel s (snd e) vis s1 v1) as (L & -> & M); [|exact E|].
    + exists (t_lines s). symmetry. apply set_lines_id.
    + tsimp. apply Forall2_length' in M. lia.
Qed.
Lemma stream_out fuel s input vis r :
  (exists e, In e (t_labels_defined (read_lines mblen flt s input)) /\ Z.of_nat (length (t_lines (read_lines mblen flt s input))) < snd e) ->
  fromStream mblen flt ord_refs ord_labels fuel s input vis <> Ok r.
Proof.
  intros (e & He & Hlt). unfold fromStream, markLabelUsage.
  destruct (mark_loop _ _ _ _ _) as [[s1 v1]| | |] eqn:E; cbn [obind fst snd]; try discriminate. exfalso. revert E. apply loop_out.
  exists e. split; [|exact Hlt]. eapply Permutation_in; [apply Permutation_sym, Hlabels|exact He].
Qed.

(** *** Without removal all calls are defined *)
Hypothesis Hu : f_unused_labels flt = false.
Hypothesis Hc : f_compatmode flt = false.
Record again (N : Z) (s : tstate) : Prop := {
  ag_count : Z.of_nat (length (t_lines s)) <= N + t_total_lines s;
  ag_labels : N + t_total_lines s < two31 -> label_inv s }.
Lemma again_eol N s : good flt s -> again N s -> again N (eol mblen flt s).
Proof.
  intros Hg [A B]. destruct (eol_lines mblen flt s Hg) as (Ht & L & HL & Hst).
  pose proof (same_lines_length _ _ HL) as Hn. constructor.
  - rewrite Ht. destruct Hst as [E1 E2|i E1 E2|l E1 El E2|l E1 El E2]; rewrite E1, ?app_length; cbn [length]; lia.
  - rewrite Ht. intros Hb. eapply label_inv_step; [exact HL| | |exact Hst]; [lia|apply B; lia].
Qed.
Lemma fold_total input : forall s, good flt s -> t_stopParsing s = false ->
  t_total_lines (fold_left (step mblen flt) input s) <= t_total_lines s + Z.of_nat (length input).
Proof.
  induction input as [|c t IH]; intros s Hg Hs; [cbn; slia|]. cbn [fold_left length]. unfold step at 2. rewrite Hs.
  destruct (ceq c LF).
  - pose proof (IH (eol mblen flt s) (eol_good _ _ _ Hg)) as H. rewrite eol_stop in H by exact Hg. specialize (H Hs).
    destruct (eol_lines mblen flt s Hg) as (Ht & _). slia.
  - pose proof (IH (set_t_text (t_text s ++ [c]) s) (good_set_text _ _ _ Hg) Hs) as H. change (t_total_lines (set_t_text (t_text s ++ [c]) s)) with (t_total_lines s) in H. slia.
Qed.
Lemma good_total n s : good flt s -> good flt (set_t_total_lines n s).
Proof. intros Hg Hf. destruct (Hg Hf). now constructor. Qed.
Lemma read_total_any s input : good flt s -> t_stopParsing s = false -> 0 <= t_total_lines (read_lines mblen flt s input) <= Z.of_nat (length input) + 1.
Proof.
  intros Hg Hs. split.
  - apply read_invariant with (P := fun x => 0 <= t_total_lines x); auto; [|cbn; slia].
    intros x Hx Hgx. destruct (eol_lines mblen flt x Hgx) as (-> & _). slia.
  - unfold read_lines. pose proof (fold_total input _ (good_total 0 _ Hg) Hs) as H.
    destruct (fold_invariant mblen flt (fun _ => True) ltac:(auto) ltac:(auto) input _ I (good_total 0 _ Hg) Hs) as (_ & G & _).
    set (x := fold_left (step mblen flt) input (set_t_total_lines 0 s)) in *. change (t_total_lines (set_t_total_lines 0 s)) with 0 in H. clearbody x. destruct (negb _); [|slia].
    destruct (eol_lines mblen flt x G) as (-> & _). slia.
Qed.
Lemma read_good s input : good flt s -> t_stopParsing s = false -> good flt (read_lines mblen flt s input) /\ t_stopParsing (read_lines mblen flt s input) = false.
Proof.
  intros Hg Hs. unfold read_lines.
  destruct (fold_invariant mblen flt (fun _ => True) ltac:(auto) ltac:(auto) input _ I (good_total 0 _ Hg) Hs) as (_ & G & S).
  destruct (negb _); [|auto]. split; [now apply eol_good|now rewrite eol_stop].
Qed.
Definition usable (N : Z) (s : tstate) : Prop :=
  good flt s /\ t_stopParsing s = false /\ Z.of_nat (length (t_lines s)) <= N /\ (N < two31 -> label_inv s).
Lemma nothing_removed s l : forall r, r_remove r = false -> remove_loop flt s r l = (map (shown s) l, []).
Proof.
  induction l as [|x t IH]; intros r Hr; [reflexivity|]. cbn [remove_loop map]. 
  assert (E : exists r', remove_label flt s r x = (false, r') /\ r_remove r' = false).
  { unfold remove_label. rewrite Hu. destruct (lv_is_label x); eauto. }
  destruct E as (r' & -> & Hr'). rewrite (IH r' Hr').
  assert (removed flt r' false x = false) as ->.
  { unfold removed. rewrite Hr', Hc. cbn [orb]. rewrite !andb_false_r. reflexivity. }
  reflexivity.
Qed.
Lemma call_usable fuel s input vis N : usable N s -> N + Z.of_nat (length input) + 1 < two31 ->
  calm (fromStream mblen flt ord_refs ord_labels fuel s input vis) /\
  forall r, fromStream mblen flt ord_refs ord_labels fuel s input vis = Ok r -> usable (N + Z.of_nat (length input) + 1) (fst r).
Proof.
  intros (Hg & Hs & Hn & Hl) Hb.
  pose proof (read_total_any s input Hg Hs) as Ht. destruct (read_good s input Hg Hs) as [Rg Rs].
  assert (Ha : again N (read_lines mblen flt s input)).
  { apply read_invariant with (P := again N); auto.
    - intros x c [A B] _. constructor; [exact A|]. intros H. destruct (B H). now constructor.
    - intros x Hx Hgx. now apply again_eol.
    - constructor; [cbn; slia|]. intros _. destruct Hl; [slia|]. now constructor. }
  destruct Ha as [Ac Al]. specialize (Al ltac:(slia)). destruct Al as [L1 L2 L3].
  unfold fromStream. set (s1 := filterNonLabels (read_lines mblen flt s input)).
  assert (Hcalm : calm (markLabelUsage ord_refs ord_labels fuel s1 vis)).
  { apply mark_loop_calm. intros [k i] Hin. cbn [snd]. eapply Permutation_in in Hin; [|apply Hlabels].
    destruct (L1 k i Hin) as [(l & A & B & _) _]. split; [exact B|].
    assert (Z.to_nat (i - 1) < length (t_lines (read_lines mblen flt s input)))%nat by (apply nth_error_Some; congruence).
    change (t_lines s1) with (t_lines (read_lines mblen flt s input)). slia. }
  split; [apply calm_bind; [exact Hcalm|intros; apply calm_ok]|].
  intros r. destruct (markLabelUsage ord_refs ord_labels fuel s1 vis) as [[s2 v2]| | |] eqn:E; cbn [obind fst snd]; try discriminate.
  intros [= <-]. cbn [fst]. destruct (mark_ok _ _ _ _ _ _ _ E) as (L & -> & M).
  assert (HA : Forall2 named_alike (t_lines s1) (map (shown s1) L)).
  { clear -M. induction M as [|x y xs ys [H _ _ _] _ IH]; [constructor|]. constructor; [|exact IH]. split.
    - transitivity (lv_is_label y); [now rewrite shown_core|]. rewrite H. reflexivity.
    - transitivity (lv_label y); [now rewrite shown_core|]. rewrite H. reflexivity. }
  unfold removeUnused. tsimp_goal. rewrite remove_loop_lines, nothing_removed by reflexivity.
  split; [|split; [|split]].
  - intros Hf. destruct (Rg Hf) as [G1 G2 G3 G4]. constructor; tsimp_goal; auto.
    assert (L = []) as ->; [|reflexivity]. apply Forall2_length' in M. change (t_lines s1) with (t_lines (read_lines mblen flt s input)) in M.
    rewrite G1 in M. now destruct L.
  - exact Rs.
  - tsimp_goal. rewrite map_length. apply Forall2_length' in M. change (t_lines s1) with (t_lines (read_lines mblen flt s input)) in M. slia.
  - intros _. eapply label_inv_alike with (s := s1); [reflexivity|exact HA|]. now constructor.
Qed.
Lemma calls_usable fuel inputs : forall s vis N, usable N s ->
  N + fold_right (fun i n => Z.of_nat (length i) + 1 + n) 0 inputs < two31 -> calm (calls fuel inputs s vis).
Proof.
  induction inputs as [|i t IH]; intros s vis N Hs Hb; cbn [calls]; [apply calm_ok|]. cbn [fold_right] in Hb.
  assert (Hp : 0 <= fold_right (fun i n => Z.of_nat (length i) + 1 + n) 0 t) by (clear; induction t; cbn [fold_right]; slia).
  destruct (call_usable fuel s i vis N Hs ltac:(slia)) as [A B]. apply calm_bind; [exact A|]. intros r Hr.
  apply (IH _ _ (N + Z.of_nat (length i) + 1)); [now apply B|slia].
Qed.
Lemma usable0 : usable 0 tstate0.
Proof. split; [apply good0|]. split; [reflexivity|]. split; [cbn; slia|]. intros _. constructor; cbn; [tauto|tauto|constructor]. Qed.
End Again.
