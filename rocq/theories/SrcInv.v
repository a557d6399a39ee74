(** What holds in every state of one run of the objdump parser on a fresh object:
    what the interpreted source needs to be defined. *)
From Coq Require Import List ZArith Ascii Bool Lia.
From Verif Require Import Bytes Types Utils ObjDump ObjInv ObjSpec ObjBasic ObjAddr SrcScan.
Import ListNotations.
Local Open Scope Z_scope.

(** Label positions, the last label first: strictly falling, from 1 up to [n]. *)
Fixpoint desc (n : Z) (l : list (str * Z)) : Prop :=
  match l with [] => True | (_, k) :: r => 1 <= k <= n /\ desc (k - 1) r end.
Lemma desc_mono l : forall n m, n <= m -> desc n l -> desc m l.
Proof. destruct l as [|[a k] l]; cbn [desc]; [auto|]. intros n m Hnm (H1 & H2). split; [lia|exact H2]. Qed.

Record Ord (s : ostate) : Prop := {
  od_cap : Cap s;
  od_num : o_inSourceRefLineNumber s = true -> o_inAddress s = false /\ o_inLabel s = false;
  od_head : o_inAddress s = true -> forall t, o_text s <> "/"%char :: t;
  od_labs : desc (Z.of_nat (length (o_lines s))) (rev (o_labels s)) }.

Lemma Ord_tidy s : Ord s -> tidy s.
Proof.
  intros [HC _ _ HL]. split.
  - destruct HC as [[_ H]|[_ (pre & -> & H)]]; [lia|]. rewrite app_length. cbn [length]. lia.
  - destruct (rev (o_labels s)) as [|[a k] l]; [exact I|]. exact (proj1 HL).
Qed.

Lemma rm_desc flt s ls lb : desc (Z.of_nat (length (o_lines s))) (rev (o_labels s)) -> rm flt s = Ok (ls, lb) ->
  desc (Z.of_nat (length ls)) (rev lb) /\ (length ls <= length (o_lines s))%nat.
Proof.
  intros HD H. pose proof (rm_length _ _ _ _ H) as Hl. split; [|exact Hl].
  apply rm_Ok in H as [[-> ->]|(_ & nm & n & bf & E & Hn & _ & -> & ->)]; [exact HD|].
  rewrite E, rev_app_distr in HD. cbn [rev app desc] in HD. destruct HD as (H1 & H2).
  rewrite firstn_length. eapply desc_mono; [|exact H2]. lia.
Qed.

Lemma Ord_next s : Cap s -> desc (Z.of_nat (length (o_lines s))) (rev (o_labels s)) -> Ord (next_line s).
Proof. intros HC HL. constructor; [exact HC|discriminate|intros _ t; discriminate|exact HL]. Qed.

Lemma Ord_eol flt s x : Ord s -> o_stopParsing s = false -> eol_trans flt s x -> Ord (next_line x).
Proof.
  intros HO Hs H. pose proof HO as [HC HN HH HL]. apply Ord_next; [exact (Cap_eol flt s x HC Hs H)|].
  assert (HP : forall l y, desc (Z.of_nat (length (o_lines y))) (rev (o_labels y)) -> desc (Z.of_nat (length (o_lines (push_line l y)))) (rev (o_labels (push_line l y)))).
  { intros l y Hy. rewrite push_line_labels, push_line_len. eapply desc_mono; [|exact Hy]. lia. }
  destruct H as [ls lb Hi _ Hg Hr|ls lb Hi _ Hg Hr Hn nm|ls lb n Hi _ Hg Hr Hn nm| | | |]; auto.
  - exact (proj1 (rm_desc _ _ _ _ HL Hr)).
  - destruct (rm_desc _ _ _ _ HL Hr) as (HD & Hlen). destruct HC as [[_ HC]|[? _]]; [|congruence].
    rewrite push_line_labels, push_line_len. cbn [o_lines o_labels set_o_lines set_o_labels set_o_previousLabel set_o_checkNextFileForLibraryCode set_o_ignoreUntilNextLabel].
    destruct s. cbn in *. rewrite rev_app_distr. cbn [rev app desc]. rewrite i32_small by lia. split; [lia|]. eapply desc_mono; [|exact HD]. lia.
  - destruct (HN Hn). congruence.
Qed.

Lemma Ord_same s s' : Ord s -> o_lines s' = o_lines s -> o_labels s' = o_labels s -> o_stopParsing s' = o_stopParsing s ->
  (o_inSourceRefLineNumber s' = true -> o_inAddress s' = false /\ o_inLabel s' = false) ->
  (o_inAddress s' = true -> forall t, o_text s' <> "/"%char :: t) -> Ord s'.
Proof. intros [HC _ _ HL] H1 H2 H3 H4 H5. constructor; [|exact H4|exact H5|now rewrite H1, H2]. unfold Cap. now rewrite H1, H3. Qed.

Lemma Ord_trans mb flt s c s' : c <> LF -> Ord s -> trans mb flt s c s' -> Ord s'.
Proof.
  intros Hc HO H. pose proof HO as [_ HN HH _]. pose proof (trans_out _ _ _ _ _ Hc H) as (H1 & H2 & _ & H3 & _).
  apply (Ord_same s s' HO H1 H2 H3); clear H1 H2 H3; destruct H; try (first [exact HN | exact HH]); try solve [cbn in *; congruence].
  all: try match goal with H : addr_trans _ _ |- _ => destruct H end; osimp_goal.
  all: try solve [intros E; apply HN in E as []; split; congruence].
  all: try solve [auto | intros _ t; discriminate | intros _ t0; discriminate].
  intros _ t E. destruct (o_text s) as [|x r] eqn:Et; cbn [app] in E; [injection E as E _; congruence|].
  injection E as -> _. match goal with K : o_inAddress _ = true |- _ => exact (HH K _ eq_refl) end.
Qed.
Lemma Ord_step mb flt s c s' : Ord s -> step mb flt s c = Ok s' -> Ord s'.
Proof. apply step_inv; [apply Ord_trans|apply Ord_eol]. Qed.
Lemma Ord_start : Ord (set_o_inAddress true ostate0).
Proof. constructor; [left; cbn; split; [reflexivity|lia]|discriminate|intros _ t; discriminate|exact I]. Qed.

(** ** How far a character moves the state *)
Lemma app_text_length c t : (length (app_text c t) <= length t + 1)%nat.
Proof. unfold app_text. destruct (_ && _); [lia|]. rewrite app_length. cbn [length]. lia. Qed.
Lemma step_bounds mb flt s c s' : step mb flt s c = Ok s' ->
  (length (o_text s') <= length (o_text s) + 4)%nat /\ o_total_lines s <= o_total_lines s' <= o_total_lines s + 1.
Proof.
  intros H. destruct (Ascii.eqb c LF) eqn:E.
  - apply Ascii.eqb_eq in E. subst. apply step_LF in H as [[_ ->]|(Hs & x & Hx & ->)]; [split; lia|].
    rewrite (eol_total _ _ _ Hx). split; [cbn; lia|lia].
  - apply Ascii.eqb_neq in E. apply step_trans in H; [|exact E]. pose proof (trans_out _ _ _ _ _ E H) as (_ & _ & HT & _ & _).
    split; [clear HT|lia]. assert (HA := app_text_length c (o_text s)).
    destruct H; try match goal with H : addr_trans _ _ |- _ => destruct H end; osimp_goal; rewrite ?app_length; cbn [length lit list_ascii_of_string]; try (clear - HA; lia).
    destruct (ceq c TAB); rewrite ?app_length; cbn [length]; lia.
Qed.
