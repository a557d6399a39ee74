(** C51: which function names are ignored.  C62, C63: CUDA labels, library paths. *)
From Verif Require Export RegexLemmas Utils.

Definition runtime_name (s : str) : Prop :=
  In s (map lit ["_init"; "_start"; "_fini"; "register_tm_clones"; "deregister_tm_clones";
                 "call_gmon_start"; "frame_dummy"; "_dl_relocate_static_pie"])%string.
(** [-x a-z A-Z 0-9]: a dash, a letter or a digit. *)
Definition plt_tail_char (c : char) : bool := ceq c "-" || is_alpha c || is_digit c.

Lemma binary_ignore_iff s : is_some (re_search binaryIgnoreFunction s) = true <->
  (exists t, s = lit "__" ++ t) \/ (exists t, s = lit ".plt" ++ t) \/ runtime_name s.
Proof.
  rewrite re_search_den. split.
  - intros (a & u & b & -> & Hd). unfold binaryIgnoreFunction in Hd. cbn [Seqs] in Hd.
    apply den_bol_seq in Hd as [-> Hd]. apply den_seq_eol in Hd as [-> Hd].
    rewrite app_nil_r, app_nil_l. apply den_grp_iff in Hd. cbn [Alts] in Hd.
    repeat (rewrite den_alt_iff in Hd; destruct Hd as [Hd|Hd]).
    + apply den_seq_iff in Hd as (x & y & -> & Hx & _). apply den_L_iff in Hx. subst. left. now exists y.
    + apply den_seq_iff in Hd as (x & y & -> & Hx & Hy). apply den_chr_iff in Hx. subst.
      apply den_grp_iff in Hy. repeat rewrite den_alt_iff, den_L_iff in Hy. rewrite den_L_iff in Hy.
      right; right. unfold runtime_name. cbn. destruct Hy as [->|[->| ->]]; cbn; tauto.
    + apply den_seq_iff in Hd as (x & y & -> & Hx & Hy). apply den_L_iff in Hy. subst.
      rewrite den_opt_iff, den_grp_iff, den_L_iff in Hx. right; right. unfold runtime_name.
      destruct Hx as [->| ->]; cbn; tauto.
    + apply den_L_iff in Hd. subst. right; right. unfold runtime_name. cbn. tauto.
    + apply den_L_iff in Hd. subst. right; right. unfold runtime_name. cbn. tauto.
    + apply den_seq_iff in Hd as (x & y & -> & Hx & _). apply den_L_iff in Hx. subst. right; left. now exists y.
    + apply den_L_iff in Hd. subst. right; right. unfold runtime_name. cbn. tauto.
  - intros H. exists [], s, []. rewrite app_nil_r. split; [reflexivity|].
    unfold binaryIgnoreFunction. cbn [Seqs]. apply den_bol_seq. split; [reflexivity|].
    apply den_seq_eol. split; [reflexivity|]. apply den_grp. cbn [Alts].
    assert (Hcons : forall c (t : str), c :: t = [c] ++ t) by reflexivity.
    destruct H as [[t ->]|[[t ->]|H]].
    + apply den_alt_l. apply den_seq; [now apply den_L_iff|now apply den_anystar_iff].
    + do 5 apply den_alt_r. apply den_alt_l. apply den_seq; [now apply den_L_iff|now apply den_anystar_iff].
    + unfold runtime_name in H. cbn [map In] in H.
      destruct H as [<-|[<-|[<-|[<-|[<-|[<-|[<-|[<-|[]]]]]]]]].
      * apply den_alt_r, den_alt_l. change (lit "_init") with (lit "_" ++ lit "init").
        apply den_seq; [now apply den_chr_iff|]. apply den_grp, den_alt_l. now apply den_L_iff.
      * apply den_alt_r, den_alt_l. change (lit "_start") with (lit "_" ++ lit "start").
        apply den_seq; [now apply den_chr_iff|]. apply den_grp, den_alt_r, den_alt_l. now apply den_L_iff.
      * apply den_alt_r, den_alt_l. change (lit "_fini") with (lit "_" ++ lit "fini").
        apply den_seq; [now apply den_chr_iff|]. apply den_grp, den_alt_r, den_alt_r. now apply den_L_iff.
      * do 2 apply den_alt_r. apply den_alt_l. change (lit "register_tm_clones") with ([] ++ lit "register_tm_clones").
        apply den_seq; [constructor|now apply den_L_iff].
      * do 2 apply den_alt_r. apply den_alt_l.
        change (lit "deregister_tm_clones") with (lit "de" ++ lit "register_tm_clones").
        apply den_seq; [apply den_opt_some, den_grp; now apply den_L_iff|now apply den_L_iff].
      * do 3 apply den_alt_r. apply den_alt_l. now apply den_L_iff.
      * do 4 apply den_alt_r. apply den_alt_l. now apply den_L_iff.
      * do 6 apply den_alt_r. now apply den_L_iff.
Qed.

Lemma plt_chars c : one_of "-x" c || is_alpha c || is_digit c = plt_tail_char c.
Proof.
  unfold plt_tail_char. destruct (ceq c "-") eqn:E; [cbn; now rewrite E|].
  cbn. rewrite E. cbn. destruct (ceq c "x") eqn:Ex; [|reflexivity].
  apply ceq_true in Ex. now subst.
Qed.

Lemma plt_function_iff s : is_some (re_search pltFunction s) = true <->
  exists a b, s = a ++ lit "@plt" ++ b /\ Forall (fun c => plt_tail_char c = true) b.
Proof.
  assert (HF : forall b, Forall (fun c => one_of "-x" c || is_alpha c || is_digit c = true) b <->
                         Forall (fun c => plt_tail_char c = true) b).
  { intros b. rewrite !Forall_forall. split; intros H c Hc; specialize (H c Hc).
    - rewrite plt_chars in H. exact H.
    - now rewrite plt_chars. }
  rewrite re_search_den. unfold pltFunction. cbn [Seqs]. split.
  - intros (a & u & b & -> & Hd). apply den_bol_seq in Hd as [-> Hd]. apply den_seq_eol in Hd as [-> Hd].
    rewrite app_nil_r, app_nil_l. apply den_grp_iff in Hd.
    apply den_seq_iff in Hd as (x & y & -> & _ & Hy). apply den_seq_iff in Hy as (z & w & -> & Hz & Hw).
    apply den_L_iff in Hz. subst. apply den_star_cls_iff in Hw. exists x, w. split; [reflexivity|now apply HF].
  - intros (a & b & -> & Hb). exists [], (a ++ lit "@plt" ++ b), []. rewrite app_nil_r. split; [reflexivity|].
    apply den_bol_seq. split; [reflexivity|]. apply den_seq_eol. split; [reflexivity|]. apply den_grp.
    apply den_seq; [now apply den_anystar_iff|]. apply den_seq; [now apply den_L_iff|].
    apply den_star_cls_iff. now apply HF.
Qed.

Lemma C51_lemma (name : str) (f : Filter) :
  shouldIgnoreFunction name f = true <->
  (exists t, name = lit "__" ++ t) \/ (exists t, name = lit ".plt" ++ t) \/ runtime_name name \/
  (f_plt f = true /\
   ((exists a, name = a ++ lit "@plt>") \/
    exists a b, name = a ++ lit "@plt" ++ b /\ Forall (fun c => plt_tail_char c = true) b)).
Proof.
  unfold shouldIgnoreFunction. destruct (is_some (re_search binaryIgnoreFunction name)) eqn:E.
  - split; [intros _|reflexivity]. apply binary_ignore_iff in E. tauto.
  - assert (HN : ~ ((exists t, name = lit "__" ++ t) \/ (exists t, name = lit ".plt" ++ t) \/ runtime_name name)).
    { intros H. apply binary_ignore_iff in H. congruence. }
    destruct (f_plt f); [|split; [discriminate|intros H; exfalso; destruct H as [H|[H|[H|[H _]]]]; try tauto; discriminate]].
    rewrite !orb_true_iff, !ends_with_spec, plt_function_iff. split.
    + intros [[H|H]|H]; do 3 right; (split; [reflexivity|]); [right|now left|now right].
      destruct H as [t ->]. exists t, []. rewrite app_nil_r. auto.
    + intros [H|[H|[H|[_ [H|H]]]]]; try tauto.
Qed.

Lemma C63_lemma f : file_in_library f = true <->
  (exists t, f = lit "/opt/compiler-explorer/" ++ t) \/ (exists t, f = lit "/usr/include" ++ t) \/
  (exists t, f = lit "/usr/local/include" ++ t).
Proof. unfold file_in_library. rewrite !orb_true_iff, !starts_with_spec. tauto. Qed.
