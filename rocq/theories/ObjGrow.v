(** The objdump parser: reading on only adds lines (C110). *)
From Verif Require Import ObjThm1 ObjLib.
Local Open Scope Z_scope.

Definition prefix {A} (a b : list A) : Prop := exists r, b = a ++ r.
Lemma prefix_refl {A} (a : list A) : prefix a a. Proof. exists []. now rewrite app_nil_r. Qed.
Lemma prefix_app {A} (a b : list A) : prefix a (a ++ b). Proof. now exists b. Qed.
Lemma prefix_trans {A} (a b c : list A) : prefix a b -> prefix b c -> prefix a c.
Proof. intros [r ->] [q ->]. exists (r ++ q). now rewrite app_assoc. Qed.
Lemma prefix_in {A} (p a b : list A) : prefix a b -> prefix (p ++ a) (p ++ b).
Proof. intros [r ->]. exists r. now rewrite app_assoc. Qed.

Lemma push_prefix l s : prefix (o_lines s) (o_lines (push_line l s)).
Proof. unfold push_line. destruct (_ <? _); osimp; apply prefix_app. Qed.
Lemma push_labels l s : o_labels (push_line l s) = o_labels s.
Proof. unfold push_line. destruct (_ <? _); reflexivity. Qed.
Lemma next_labels s : o_labels (next_line s) = o_labels s. Proof. reflexivity. Qed.

Section Plain.
Variables (mb : str -> Z) (flt : Filter).
Hypothesis Hf : f_library_functions flt = false.
Lemma eol_more s x : eol_trans flt s x -> prefix (o_lines s) (o_lines (next_line x)) /\ prefix (o_labels s) (o_labels (next_line x)).
Proof.
  rewrite next_line_lines, next_labels. intros H.
  assert (E : forall ls lb, rm flt s = Ok (ls, lb) -> ls = o_lines s /\ lb = o_labels s).
  { intros ls lb Hr. apply rm_Ok in Hr as [Hr|(X & _)]; [exact Hr|congruence]. }
  destruct H as [ls lb _ _ _ Hrm|ls lb _ _ _ Hrm|ls lb n _ _ _ Hrm| | | |]; try (destruct (E _ _ Hrm) as [-> ->]).
  - split; apply prefix_refl.
  - rewrite push_labels. split; [eapply prefix_trans; [|apply push_prefix]; apply prefix_refl|]. osimp. apply prefix_app.
  - split; osimp; [apply prefix_refl|apply prefix_app].
  - split; apply prefix_refl.
  - split; apply prefix_refl.
  - rewrite push_labels. split; [apply push_prefix|apply prefix_refl].
  - split; apply prefix_refl.
Qed.
Lemma feed_more input s s' : feed mb flt s input = Ok s' -> prefix (o_lines s) (o_lines s') /\ prefix (o_labels s) (o_labels s').
Proof.
  apply (feed_inv mb flt (fun x => prefix (o_lines s) (o_lines x) /\ prefix (o_labels s) (o_labels x))); [|split; apply prefix_refl].
  apply step_inv.
  - intros x c x' Hc HP H. apply trans_out in H as (-> & -> & _); assumption.
  - intros x y [H1 H2] _ H. apply eol_more in H as [H3 H4]. split; eapply prefix_trans; eassumption.
Qed.
End Plain.

Section Library.
Variables (mb : str -> Z) (flt : Filter).
Hypothesis Hf : f_library_functions flt = true.
(** What is there to stay: the lines before the first label and every function,
    except a last one that has no user code yet. *)
Definition settled (ls : list asm_line) : list asm_line := let (pre, gs) := functions ls in pre ++ List.concat (trim gs).
Lemma settled_shape pre gs : shape pre gs -> settled (pre ++ List.concat gs) = pre ++ List.concat (trim gs).
Proof. intros H. unfold settled. now rewrite functions_shape. Qed.
Lemma trim_prefix gs : prefix (List.concat (trim gs)) (List.concat gs).
Proof.
  destruct (list_snoc gs) as [->|(a & x & ->)]; [apply prefix_refl|]. rewrite trim_snoc. destruct (user x); [apply prefix_refl|].
  rewrite concat_app. apply prefix_app.
Qed.
Lemma settled_prefix ls : prefix (settled ls) ls.
Proof.
  unfold settled. pose proof (shape_functions ls) as H. destruct (functions ls) as [pre gs]. destruct H as [_ H].
  rewrite H at 1. apply prefix_in, trim_prefix.
Qed.
Lemma trim_users gs : Forall (fun g => user g = true) gs -> trim gs = gs.
Proof.
  destruct (list_snoc gs) as [->|(a & x & ->)]; [reflexivity|]. intros H. apply Forall_app in H as [_ H]. apply Forall_inv in H.
  rewrite trim_snoc, H. reflexivity.
Qed.
Lemma user_app a b : user (a ++ b) = user a || user b.
Proof. apply existsb_app. Qed.
Lemma settled_plain ls l : l_is_label l = false -> prefix (settled ls) (settled (ls ++ [l])).
Proof.
  intros Hl. pose proof (shape_functions ls) as H. destruct (functions ls) as [pre gs]. destruct H as [Hs ->].
  rewrite settled_shape by exact Hs. destruct (list_snoc gs) as [->|(a & x & ->)].
  - cbn [List.concat]. rewrite !app_nil_r. rewrite <- (app_nil_r (pre ++ [l])). change (@nil asm_line) with (List.concat (@nil (list asm_line))) at 2.
    rewrite settled_shape; [cbn; rewrite !app_nil_r; apply prefix_app|]. split; [|constructor]. apply Forall_app. split; [apply Hs|]. now constructor.
  - destruct (push_group _ _ _ _ Hs Hl) as [H1 H2]. rewrite H2, settled_shape by exact H1. apply prefix_in. rewrite !trim_snoc, user_app.
    destruct (user x); cbn [orb]; [|destruct (user [l]); [|apply prefix_refl]]; rewrite !concat_app; [|apply prefix_app].
    cbn [List.concat]. rewrite !app_nil_r, app_assoc. apply prefix_app.
Qed.
Lemma settled_label pre gs l : shape pre gs -> l_is_label l = true -> Forall (fun g => user g = true) gs ->
  prefix (pre ++ List.concat gs) (settled ((pre ++ List.concat gs) ++ [l])).
Proof.
  intros Hs Hl Hu. destruct (push_label _ _ _ Hs Hl) as [H1 H2]. rewrite H2, settled_shape by exact H1. apply prefix_in.
  rewrite trim_snoc. destruct (user [l]); [|apply prefix_refl]. rewrite concat_app. apply prefix_app.
Qed.
Lemma eol_settled s x : Tab s -> Lib s -> o_stopParsing s = false -> eol_trans flt s x -> prefix (settled (o_lines s)) (settled (o_lines (next_line x))).
Proof.
  intros HT (pre & gs & Hsh & Hl & Hu) Hs H. rewrite next_line_lines.
  pose proof (trim_user _ Hu) as Hut. pose proof (trim_shape _ _ Hsh) as Hst.
  assert (E : settled (o_lines s) = pre ++ List.concat (trim gs)) by (rewrite Hl; now apply settled_shape).
  assert (E2 : settled (pre ++ List.concat (trim gs)) = pre ++ List.concat (trim gs)) by (rewrite settled_shape by exact Hst; now rewrite (trim_users _ Hut)).
  destruct H as [ls lb _ _ _ Hrm|ls lb Hil _ _ Hrm Hn nm|ls lb n Hil _ _ Hrm Hn| | | |]; try apply prefix_refl.
  - rewrite (rm_shape _ _ _ _ HT Hs Hsh Hl Hf) in Hrm. injection Hrm as <- _. osimp. rewrite E, E2. apply prefix_refl.
  - rewrite (rm_shape _ _ _ _ HT Hs Hsh Hl Hf) in Hrm. injection Hrm as <- _. rewrite E.
    set (l := set_l_source _ _). unfold push_line. osimp. destruct (_ <? _); osimp.
    + apply settled_label; [exact Hst|reflexivity|exact Hut].
    + rewrite <- E2 at 1. now apply settled_plain.
  - destruct HT as [[_ HM _ _ _] _ _ _]. specialize (HM Hil). congruence.
  - unfold push_line. destruct (_ <? _); osimp; apply settled_plain; [|reflexivity].
    unfold finish_line. destruct HT as [[_ _ _ HM _] _ _ _]. cbn [l_is_label set_l_section set_l_text]. rewrite HM. lsimp. exact HM.
Qed.
Lemma run_settled a b s s' : run mb flt a = Ok s -> run mb flt (a ++ b) = Ok s' -> prefix (settled (o_lines s)) (o_lines s').
Proof.
  intros Ha Hb. unfold run in Hb. apply fromStream_app_Ok in Hb as (s1 & H1 & H2). unfold run in Ha. rewrite H1 in Ha. injection Ha as ->.
  eapply prefix_trans; [|apply settled_prefix].
  assert (I : Tab s /\ Lib s).
  { split; [|eapply Lib_run; eassumption].
    apply (run_inv mb flt Tab) with (input := a); [apply Tab_start|intros; eapply Tab_trans; eauto|intros; eapply Tab_eol; eauto|exact H1]. }
  assert (G : forall x, feed mb flt s b = Ok x -> (Tab x /\ Lib x) /\ prefix (settled (o_lines s)) (settled (o_lines x))).
  { intros x. apply (feed_inv mb flt (fun x => (Tab x /\ Lib x) /\ prefix (settled (o_lines s)) (settled (o_lines x)))); [|split; [exact I|apply prefix_refl]].
    apply step_inv.
    - intros y c z Hc [[HT HL] HP] Ht. split; [split; [eapply Tab_trans; eauto|]|].
      + unfold Lib. apply trans_out in Ht as (-> & _); assumption.
      + apply trans_out in Ht as (-> & _); assumption.
    - intros y z [[HT HL] HP] Hs Hx. split; [split; [eapply Tab_eol; eauto|eapply Lib_eol; eauto]|].
      eapply prefix_trans; [exact HP|now apply eol_settled]. }
  now apply G.
Qed.
End Library.

(** *** Functions in a list of lines *)
Lemma group_user_prefix g x l y : group g -> g = x ++ l :: y -> l_is_label l = true -> x = [].
Proof.
  intros (h & b & E & _ & Hb) Eg Hl. destruct x as [|z x]; [reflexivity|]. exfalso. rewrite Eg in E. injection E as _ E.
  rewrite Forall_forall in Hb. specialize (Hb l). unfold plain in Hb. rewrite Hb in Hl; [discriminate|]. rewrite <- E. apply in_or_app. right. now left.
Qed.
Lemma app_split {A} (a b x y : list A) : a ++ b = x ++ y -> prefix x a \/ exists z, x = a ++ z /\ b = z ++ y.
Proof.
  revert x. induction a as [|u a IH]; intros x E; [right; now exists x|]. destruct x as [|v x]; [left; now exists (u :: a)|].
  injection E as -> E. apply IH in E as [[r ->]|(z & -> & ->)]; [left; now exists r|right; now exists z].
Qed.
Lemma app_split2 {A} (a b x y : list A) : a ++ b = x ++ y -> (exists r, y = r ++ b) \/ exists z, x = a ++ z /\ b = z ++ y.
Proof.
  intros E. destruct (app_split _ _ _ _ E) as [[r ->]|H]; [left; exists r|now right]. rewrite <- app_assoc in E. now apply app_inv_head in E.
Qed.
Lemma label_before pre gs x l y : shape pre gs -> pre ++ List.concat gs = x ++ l :: y -> l_is_label l = true -> prefix x (pre ++ List.concat (trim gs)).
Proof.
  intros Hs E Hl. destruct (list_snoc gs) as [->|(a & g & ->)].
  - cbn [List.concat] in E. rewrite app_nil_r in E. destruct Hs as [Hs _]. rewrite Forall_forall in Hs. specialize (Hs l).
    rewrite Hs in Hl; [discriminate|]. rewrite E. apply in_or_app. right. now left.
  - rewrite trim_snoc. eapply prefix_trans; [|apply prefix_in; instantiate (1 := List.concat a); destruct (user g); [rewrite concat_app; apply prefix_app|apply prefix_refl]].
    rewrite concat_app in E. cbn [List.concat] in E. rewrite app_nil_r, app_assoc in E. apply app_split in E as [E|(z & -> & E)]; [exact E|].
    destruct Hs as [_ Hs]. apply Forall_app in Hs as [_ Hs]. apply Forall_inv in Hs. rewrite (group_user_prefix _ _ _ _ Hs E Hl), app_nil_r. apply prefix_refl.
Qed.
Lemma last_user pre gs x l y : shape pre gs -> pre ++ List.concat gs = x ++ l :: y -> l_is_label l = true -> (forall k, In k y -> l_is_label k = false) ->
  user (l :: y) = true -> trim gs = gs.
Proof.
  intros Hs E Hl Hy Hu. destruct (list_snoc gs) as [->|(a & g & ->)]; [reflexivity|]. rewrite trim_snoc.
  rewrite concat_app in E. cbn [List.concat] in E. rewrite app_nil_r, app_assoc in E.
  destruct Hs as [_ Hs]. apply Forall_app in Hs as [_ Hs]. apply Forall_inv in Hs. apply app_split2 in E as [[r E]|(z & _ & E)].
  - destruct Hs as (h & b & -> & Hh & _). destruct r as [|u r].
    + cbn [app] in E. rewrite <- E, Hu. reflexivity.
    + injection E as _ E. rewrite (Hy h) in Hh; [discriminate|]. rewrite E. apply in_or_app. right. now left.
  - rewrite (group_user_prefix _ _ _ _ Hs E Hl) in E. cbn [app] in E. rewrite E, Hu. reflexivity.
Qed.
Lemma no_groups pre gs : shape pre gs -> (forall l, In l (pre ++ List.concat gs) -> l_is_label l = false) -> trim gs = gs.
Proof.
  intros [_ Hs] H. destruct gs as [|g gs]; [reflexivity|]. apply Forall_inv in Hs as (l & b & -> & Hl & _). rewrite H in Hl; [discriminate|].
  apply in_or_app. right. cbn. now left.
Qed.
