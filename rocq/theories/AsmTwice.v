(** The text parser: its own output read again. *)
From Verif Require Import AsmLemmas AsmRead AsmMark AsmTrace AsmThms AsmLines UtilAgain.
Local Open Scope nat_scope.

(** *** What squashing keeps *)
Lemma loop_just s : forall st js out, snd (squash_loop s st js out) = js && forallb is_whitespace s.
Proof.
  induction s as [|c t IH]; intros st js out; cbn [squash_loop snd forallb]; [now rewrite andb_true_r|].
  destruct st; destruct (is_whitespace c); rewrite IH; cbn [andb]; now rewrite ?andb_false_r.
Qed.
Lemma put_out_keeps s : forall st c, is_whitespace c = false -> In c s -> In c (put_out st s).
Proof.
  induction s as [|d t IH]; intros st c Hc; cbn [put_out]; [intros []|]. intros [->|H].
  - rewrite Hc. destruct st; now left.
  - destruct st; destruct (is_whitespace d); cbn [In]; auto.
Qed.
Lemma squash_keeps s b c : is_whitespace c = false -> In c s -> In c (squashHorizontalWhitespace s b).
Proof.
  intros Hc Hin. unfold squashHorizontalWhitespace. pose proof (loop_put_out s (if b then HStart else HJustOne) true []) as H.
  pose proof (loop_just s (if b then HStart else HJustOne) true []) as J. destruct (squash_loop _ _ _ _) as [o j]. cbn [fst snd app andb] in H, J.
  assert (E : j = false).
  { destruct j; [|reflexivity]. symmetry in J. rewrite forallb_forall in J. rewrite (J _ Hin) in Hc. discriminate. }
  rewrite E, andb_false_r, H. now apply put_out_keeps.
Qed.
Lemma squash_quotes_keeps s b c : is_whitespace c = false -> In c s -> In c (squashHorizontalWhitespaceWithQuotes s b).
Proof.
  intros Hc Hin. destruct (C55_lemma s b) as (l & last & H & ->). induction H as [line _|p q r l last _ _ _ IH].
  - now apply squash_keeps.
  - cbn [map List.concat fst snd]. rewrite <- !app_assoc, !in_app_iff in *. destruct Hin as [H|[H|H]]; [left; now apply squash_keeps|auto|].
    right. right. exact (IH H).
Qed.
Lemma squash_quotes_in s b c : In c (squashHorizontalWhitespaceWithQuotes s b) -> c = SP \/ In c s.
Proof.
  destruct (C55_lemma s b) as (l & last & H & ->). induction H as [line _|p q r l last _ _ _ IH].
  - cbn [map List.concat app]. apply squash_in.
  - cbn [map List.concat fst snd]. rewrite <- !app_assoc, !in_app_iff in *. intros [H|[H|H]]; [apply squash_in in H; tauto|auto|tauto].
Qed.
Lemma expanded_in n s o c : expanded n s o -> In c o -> c = SP \/ In c s.
Proof.
  induction 1 as [|n d t o _ _ IH|n t o _ IH]; cbn [In]; [auto| |]; intros H.
  - destruct H as [->|H]; [auto|]. tauto.
  - apply in_app_iff in H as [H|H]; [apply repeat_spec in H; auto|tauto].
Qed.
Lemma expanded_keeps n s o c : c <> TAB -> expanded n s o -> In c s -> In c o.
Proof.
  intros Hc. induction 1 as [|n d t o _ _ IH|n t o _ IH]; cbn [In]; [auto| |]; intros [H|H]; auto; [contradiction (Hc (eq_sym H))|].
  apply in_app_iff. auto.
Qed.

(** *** Cleaned lines *)
Lemma clean_again flt nest nest' raw : (nest <= 0)%Z -> (nest' <= 0)%Z -> clean flt nest' (clean flt nest raw) = clean flt nest raw.
Proof.
  intros H H'. unfold clean. replace (0 <? nest)%Z with false by (symmetry; apply Z.ltb_ge; lia). replace (0 <? nest')%Z with false by (symmetry; apply Z.ltb_ge; lia). cbv zeta.
  destruct (f_whitespace flt); [|apply tabs_again]. rewrite (no_tabs_expanded (squashHorizontalWhitespaceWithQuotes _ _)); [apply squash_quotes_again|].
  intros X. apply squash_quotes_in in X as [X|X]; [discriminate|]. revert X. eapply expanded_no_tab, C52_expanded.
Qed.
Lemma clean_in flt nest raw c : (nest <= 0)%Z -> In c (clean flt nest raw) -> c = SP \/ In c raw.
Proof.
  intros H. unfold clean. replace (0 <? nest)%Z with false by (symmetry; apply Z.ltb_ge; lia). cbv zeta.
  destruct (f_whitespace flt); intros X; [apply squash_quotes_in in X as [X|X]; [auto|]|]; eapply expanded_in in X; eauto using C52_expanded.
Qed.
Lemma clean_keeps flt nest raw c : (nest <= 0)%Z -> is_whitespace c = false -> In c raw -> In c (clean flt nest raw).
Proof.
  intros H Hc Hin. unfold clean. replace (0 <? nest)%Z with false by (symmetry; apply Z.ltb_ge; lia). cbv zeta.
  assert (X : In c (expandTabs raw)) by (eapply expanded_keeps; [|apply C52_expanded|exact Hin]; intros ->; discriminate).
  destruct (f_whitespace flt); [now apply squash_quotes_keeps|exact X].
Qed.
Lemma blank_iff t : all_blank t = false <-> exists c, In c t /\ is_whitespace c = false.
Proof.
  unfold all_blank. split.
  - induction t as [|c t IH]; [discriminate|]. cbn [forallb]. fold (is_whitespace c). destruct (is_whitespace c) eqn:E; [|exists c; split; [now left|exact E]].
    cbn [andb]. intros H. destruct (IH H) as (d & A & B). exists d. split; [now right|exact B].
  - intros (c & A & B). match goal with |- ?x = _ => destruct x eqn:E end; [|reflexivity]. rewrite forallb_forall in E. specialize (E _ A). unfold is_whitespace in B. congruence.
Qed.
Lemma clean_not_blank flt nest raw : (nest <= 0)%Z -> all_blank raw = false -> all_blank (clean flt nest raw) = false.
Proof. intros H. rewrite !blank_iff. intros (c & A & B). exists c. split; [now apply clean_keeps|exact B]. Qed.

(** *** Candidates of an input *)
Definition cand_ok (c : cand) : Prop := match c with CText raw _ => ~ In LF raw /\ all_blank raw = false | _ => True end.
Lemma scan_line_ok flt sc l : ~ In LF l -> ~ In LF (sc_pend sc) -> cand_ok (fst (scan_line flt sc l)) /\ ~ In LF (sc_pend (snd (scan_line flt sc l))).
Proof.
  intros A B. unfold scan_line. cbv zeta. assert (C : ~ In LF (sc_pend sc ++ l)) by (rewrite in_app_iff; tauto).
  destruct (f_comment_only flt && _); [split; [exact I|intros []]|]. destruct (all_blank _) eqn:E; cbn [fst snd sc_pend cand_ok]; auto.
Qed.
Lemma scan_lines_ok flt ls : Forall (fun l => ~ In LF l) ls -> forall sc, ~ In LF (sc_pend sc) -> Forall cand_ok (fst (scan_lines flt sc ls)) /\ ~ In LF (sc_pend (snd (scan_lines flt sc ls))).
Proof.
  induction 1 as [|l ls H _ IH]; intros sc Hs; cbn [scan_lines]; [split; [constructor|exact Hs]|].
  destruct (scan_line_ok flt sc l H Hs) as [A B]. destruct (scan_line flt sc l) as [c sc1]. cbn [fst snd] in *.
  destruct (IH _ B) as [C D]. destruct (scan_lines flt sc1 ls) as [cs sc2]. cbn [fst snd] in *. auto.
Qed.
Lemma scan_input_ok flt input : Forall cand_ok (scan_input flt input).
Proof.
  unfold scan_input. pose proof (raw_lines_nolf input [] ltac:(intros [])) as X. unfold str, char in *. destruct (raw_lines [] input) as [ls rest]. cbn [fst snd] in X. destruct X as [A B].
  destruct (scan_lines_ok flt ls A scan0 ltac:(intros [])) as [C D]. destruct (scan_lines flt scan0 ls) as [cs sc]. cbn [fst snd] in *.
  destruct (is_nil _); [exact C|]. apply Forall_app. split; [exact C|]. constructor; [|constructor]. now apply scan_line_ok.
Qed.

(** *** The lines shown, read again *)
Definition no_marker (t : str) : Prop := startAppBlock t = false /\ startAsmNesting t = false /\ endAppBlock t = false /\ endAsmNesting t = false.
Definition settled (flt : Filter) (out : list str) : Prop := fold_left (show_line flt) (map plain_cand out) [] = out.
Lemma show_settled flt cs : Forall cand_ok cs -> (forall raw nest, In (CText raw nest) cs -> (nest <= 0)%Z) ->
  settled flt (fold_left (show_line flt) cs []) /\ Forall (fun t => ~ In LF t /\ (t = [] \/ all_blank t = false)) (fold_left (show_line flt) cs []).
Proof.
  intros Hok Hn. induction cs as [|c cs IH] using rev_ind; [split; [reflexivity|constructor]|].
  apply Forall_app in Hok as [Hok Hc]. destruct IH as [A B]; [exact Hok|intros raw nest X; apply (Hn raw nest), in_app_iff; now left|].
  rewrite fold_left_app. cbn [fold_left]. revert A B. generalize (fold_left (show_line flt) cs []) as out. intros out A B. destruct c as [raw|raw|raw nest]; cbn [show_line].
  - auto.
  - destruct (blank_end out) eqn:E; [auto|]. split; [|apply Forall_app; split; [exact B|constructor; [split; [intros []|now left]|constructor]]].
    unfold settled in *. rewrite map_app, fold_left_app, A. cbn [map fold_left plain_cand is_nil show_line]. now rewrite E.
  - assert (Hz : (nest <= 0)%Z) by (apply (Hn raw), in_app_iff; right; now left). apply Forall_inv in Hc. destruct Hc as [H1 H2].
    pose proof (clean_not_blank flt nest raw Hz H2) as Nb. split.
    + unfold settled in *. rewrite map_app, fold_left_app, A. cbn [map fold_left]. unfold plain_cand. destruct (clean flt nest raw) as [|d t] eqn:E; [discriminate|].
      cbn [is_nil show_line]. rewrite <- E. now rewrite clean_again by lia.
    + apply Forall_app. split; [exact B|]. constructor; [|constructor]. split; [|now right]. intros X. apply clean_in in X as [X|X]; [discriminate|contradiction|exact Hz].
Qed.
Lemma shown_again mb flt oref olab fuel input vis s vis' mb2 oref2 olab2 fuel2 vis2 s2 vis2' :
  f_directives flt = false -> f_comment_only flt = false -> f_library_functions flt = false -> f_unused_labels flt = false ->
  AsmText.run mb flt oref olab fuel input vis = Ok (s, vis') ->
  (forall raw nest, In (CText raw nest) (scan_input flt input) -> (nest <= 0)%Z) -> Forall no_marker (map lv_text (t_lines s)) ->
  AsmText.run mb2 flt oref2 olab2 fuel2 (join_lines (map lv_text (t_lines s))) vis2 = Ok (s2, vis2') ->
  map lv_text (t_lines s2) = map lv_text (t_lines s).
Proof.
  intros Hd Hc Hl Hu H Hn Hm H2. rewrite (C34_show _ _ _ _ _ _ _ _ _ Hd Hc Hl Hu H2). rewrite (C34_show _ _ _ _ _ _ _ _ _ Hd Hc Hl Hu H) in *.
  destruct (show_settled flt (scan_input flt input) (scan_input_ok flt input) Hn) as [A B]. revert A B Hm. generalize (fold_left (show_line flt) (scan_input flt input) []) as out.
  intros out A B Hm. assert (P : Forall plain_line out).
  { rewrite Forall_forall in *. intros t Ht. destruct (B _ Ht) as [B1 B2], (Hm _ Ht) as (M1 & M2 & M3 & M4). repeat split; auto. }
  unfold scan_input. rewrite raw_lines_join by (eapply Forall_impl; [|exact B]; intros t [X _]; exact X).
  rewrite (scan_plain _ _ Hc P). cbn [sc_pend scan0 app is_nil]. exact A.
Qed.
