(** Well-formed UTF-8 and the string functions of src/utils. *)
From Verif Require Import UtilMisc UtilQuotes UtilLabels AsmLemmas AsmViews Recog5.
Local Open Scope Z_scope.

(** A text that is well-formed UTF-8 (RFC 3629 section 3), NUL included. *)
Definition utf8_text (s : str) : Prop := exists cps, Forall (fun cp => cp = 0 \/ scalar cp) cps /\ s = flat_map utf8 cps.
Definition ascii_char (c : char) : Prop := code c < 128.
Notation W := utf8_text.

Lemma W0 : W [].
Proof. exists []. split; [constructor|reflexivity]. Qed.
Lemma Wapp a b : W a -> W b -> W (a ++ b).
Proof. intros (x & Hx & ->) (y & Hy & ->). exists (x ++ y). split; [apply Forall_app; now split|]. symmetry. apply flat_map_app. Qed.
Lemma code_range c : 0 <= code c < 256.
Proof. unfold code. pose proof (N_ascii_bounded c). lia. Qed.
Lemma byte_code c : byte (code c) = c.
Proof. unfold byte, code. rewrite N2Z.id. apply ascii_N_embedding. Qed.
Lemma utf8_ascii c : ascii_char c -> utf8 (code c) = [c].
Proof. intros H. unfold utf8, ascii_char in *. replace (code c <? 128) with true by lia. now rewrite byte_code. Qed.
Lemma W1 c : ascii_char c -> W [c].
Proof.
  intros H. exists [code c]. split; [|cbn [flat_map]; now rewrite utf8_ascii].
  constructor; [|constructor]. unfold ascii_char, scalar in *. pose proof (code_range c). lia.
Qed.
Lemma Wascii s : Forall ascii_char s -> W s.
Proof. induction 1 as [|c s Hc Hs IH]; [exact W0|]. change (c :: s) with ([c] ++ s). apply Wapp; [now apply W1|exact IH]. Qed.
Lemma Wcons c s : ascii_char c -> W s -> W (c :: s).
Proof. intros Hc Hs. change (c :: s) with ([c] ++ s). apply Wapp; [now apply W1|exact Hs]. Qed.
Lemma Wflat {A} (f : A -> str) l : Forall (fun x => W (f x)) l -> W (flat_map f l).
Proof. induction 1; [exact W0|]. cbn [flat_map]. now apply Wapp. Qed.

(** A code point is one ASCII character, or bytes none of which is one. *)
Lemma utf8_shape cp : cp = 0 \/ scalar cp ->
  (exists c, utf8 cp = [c] /\ ascii_char c) \/ (utf8 cp <> [] /\ Forall (fun c => ~ ascii_char c) (utf8 cp)).
Proof.
  intros H. unfold utf8, scalar, ascii_char in *. destruct (cp <? 128) eqn:E1; [left|right].
  - exists (byte cp). split; [reflexivity|]. rewrite code_byte by dm. lia.
  - destruct (cp <? 2048) eqn:E2; [|destruct (cp <? 65536) eqn:E3]; (split; [discriminate|]);
      repeat (constructor; [rewrite code_byte by dm; dm|]); constructor.
Qed.
Lemma Wone cp : cp = 0 \/ scalar cp -> W (utf8 cp).
Proof. intros H. exists [cp]. split; [constructor; [exact H|constructor]|]. cbn. now rewrite app_nil_r. Qed.
(** Reading a text one code point at a time. *)
Lemma W_ind (P : str -> Prop) : P [] -> (forall c s, ascii_char c -> W s -> P s -> P (c :: s)) ->
  (forall u s, u <> [] -> Forall (fun c => ~ ascii_char c) u -> W u -> W s -> P s -> P (u ++ s)) -> forall s, W s -> P s.
Proof.
  intros H0 H1 H2 s (cps & H & ->). induction H as [|cp cps Hc Hs IH]; [exact H0|]. cbn [flat_map].
  assert (Wr : W (flat_map utf8 cps)) by (exists cps; auto).
  destruct (utf8_shape cp Hc) as [(c & -> & Ha)|[Hn Ha]]; [now apply H1|]. apply H2; auto. now apply Wone.
Qed.
(** Cutting a text at an ASCII character. *)
Lemma Wcut c b : ascii_char c -> forall s, W s -> forall a, s = a ++ c :: b -> W a /\ W b.
Proof.
  intros Hc s Hs. pattern s. revert s Hs. apply W_ind.
  - intros a E. destruct a; discriminate E.
  - intros x s Hx Hs IH a E. destruct a as [|y a]; cbn [app] in E; injection E as <- E.
    + subst. split; [exact W0|assumption].
    + destruct (IH a E) as [A B]. split; [now apply Wcons|exact B].
  - intros u s Hu Hn HW Hs IH a E.
    assert (X : exists a', a = u ++ a' /\ s = a' ++ c :: b).
    { clear - E Hn Hc. revert a E. induction Hn as [|x u Hx Hu IH]; intros a E; [exists a; now split|]. cbn [app] in E.
      destruct a as [|y a]; cbn [app] in E; [injection E as <- _; contradiction|]. injection E as <- E.
      destruct (IH a E) as (a' & -> & ->). exists a'. now split. }
    destruct X as (a' & -> & E'). destruct (IH a' E') as [A B]. split; [now apply Wapp|exact B].
Qed.
Lemma Wcut_l a c b : ascii_char c -> W (a ++ c :: b) -> W a.
Proof. intros Hc H. exact (proj1 (Wcut c b Hc _ H a eq_refl)). Qed.
Lemma Wcut_r a c b : ascii_char c -> W (a ++ c :: b) -> W b.
Proof. intros Hc H. exact (proj2 (Wcut c b Hc _ H a eq_refl)). Qed.
Lemma Wtail a b : Forall ascii_char a -> W (a ++ b) -> W b.
Proof.
  intros Ha. induction Ha as [|c a Hc Ha IH]; intros H; [exact H|]. apply IH. cbn [app] in H. now apply (Wcut_r [] c).
Qed.
(** The text of the input line by line. *)
Lemma Wpart a c b d e : ascii_char c -> ascii_char d -> W (a ++ c :: b ++ d :: e) -> W b.
Proof. intros Hc Hd H. apply Wcut_r in H; [|exact Hc]. now apply Wcut_l in H. Qed.

(** [edit s s']: ASCII characters of [s] replaced by ASCII texts, other bytes kept. *)
Inductive edit : str -> str -> Prop :=
| ed_nil : edit [] []
| ed_keep c s s' : edit s s' -> edit (c :: s) (c :: s')
| ed_ascii c w s s' : ascii_char c -> Forall ascii_char w -> edit s s' -> edit (c :: s) (w ++ s').
Lemma edit_non u s x : Forall (fun c => ~ ascii_char c) u -> edit (u ++ s) x -> exists x', x = u ++ x' /\ edit s x'.
Proof.
  intros Hu. revert x. induction Hu as [|c u Hc Hu IH]; intros x H; [exists x; now split|]. cbn [app] in H.
  inversion H; subst; [|contradiction]. destruct (IH _ H3) as (x' & -> & Hx). exists x'. now split.
Qed.
Lemma Wedit s : W s -> forall s', edit s s' -> W s'.
Proof.
  revert s. apply (W_ind (fun s => forall s', edit s s' -> W s')).
  - intros s' H. inversion H. exact W0.
  - intros c s Hc Hs IH s' H. inversion H; subst; [apply Wcons; auto|]. apply Wapp; [now apply Wascii|auto].
  - intros u s Hu Hn HW Hs IH s' H. apply edit_non in H as (x & -> & H); [|exact Hn]. apply Wapp; auto.
Qed.
Lemma edit_refl s : edit s s.
Proof. induction s; now constructor. Qed.
Lemma ws_ascii c : is_whitespace c = true -> ascii_char c.
Proof. unfold is_whitespace. rewrite orb_true_iff, !ceq_true. intros [-> | ->]; vm_compute; reflexivity. Qed.
Lemma space_ascii c : is_space c = true -> ascii_char c.
Proof.
  unfold is_space, in_range, ascii_char. rewrite orb_true_iff, andb_true_iff, ceq_true. change (code TAB) with 9. change (code CR) with 13.
  intros [[A B]| ->]; [lia|reflexivity].
Qed.
Ltac asc := vm_compute; reflexivity.
Lemma Wlit s : forallb (fun c => code c <? 128) (lit s) = true -> W (lit s).
Proof. intros H. apply Wascii, Forall_forall. intros c Hc. rewrite forallb_forall in H. apply H in Hc. unfold ascii_char. lia. Qed.
Ltac wlit := apply Wlit; vm_compute; reflexivity.

(** expandTabs, ltrim and the squashing of white space. *)
Lemma skip_ascii n s : Forall ascii_char s -> Forall ascii_char (skipn n s).
Proof. intros H. rewrite <- (firstn_skipn n s) in H. now apply Forall_app in H as [_ H]. Qed.
Lemma expand_edit s : forall out e, exists s', expandTabs_loop s out e = out ++ s' /\ edit s s'.
Proof.
  induction s as [|c t IH]; intros out e; cbn [expandTabs_loop]; [exists []; rewrite app_nil_r; split; [reflexivity|constructor]|]. cbv zeta.
  destruct (ceq c TAB) eqn:E.
  - apply ceq_true in E. subst c. edestruct IH as (s' & -> & H). eexists. rewrite <- app_assoc. split; [reflexivity|].
    apply ed_ascii; [asc| |exact H]. apply skip_ascii. repeat (constructor; [asc|]). constructor.
  - edestruct IH as (s' & -> & H). exists (c :: s'). rewrite <- app_assoc. split; [reflexivity|now constructor].
Qed.
Lemma Wexpand s : W s -> W (expandTabs s).
Proof. intros H. unfold expandTabs. destruct (expand_edit s [] 0) as (s' & -> & He). now apply (Wedit s). Qed.
Lemma ltrim_edit s : edit s (ltrim s).
Proof.
  induction s as [|c t IH]; [constructor|]. unfold ltrim in *. cbn [drop_while]. destruct (is_space c) eqn:E; [|apply edit_refl].
  apply (ed_ascii c []); [now apply space_ascii|constructor|exact IH].
Qed.
Lemma squash_edit s : forall st js out, exists s', fst (squash_loop s st js out) = out ++ s' /\ edit s s'.
Proof.
  induction s as [|c t IH]; intros st js out; cbn [squash_loop fst]; [exists []; rewrite app_nil_r; split; [reflexivity|constructor]|].
  destruct st; destruct (is_whitespace c) eqn:E; edestruct IH as (s' & -> & H);
    try (exists (c :: s'); rewrite <- app_assoc; split; [reflexivity|now constructor]);
    try (exists ([SP] ++ s'); rewrite <- app_assoc; split; [reflexivity|apply ed_ascii; [now apply ws_ascii|repeat constructor|exact H]]);
    (exists ([] ++ s'); split; [reflexivity|apply ed_ascii; [now apply ws_ascii|constructor|exact H]]).
Qed.
Lemma Wsquash s b : W s -> W (squashHorizontalWhitespace s b).
Proof.
  intros H. unfold squashHorizontalWhitespace. destruct (squash_edit s (if b then HStart else HJustOne) true []) as (s' & E & He).
  destruct (squash_loop _ _ _ _) as [o j]. cbn [fst app] in E. subst. destruct (b && j); [exact W0|]. now apply (Wedit s).
Qed.
Lemma Wquotes line b : W line -> W (squashHorizontalWhitespaceWithQuotes line b).
Proof.
  intros H. destruct (C55_lemma line b) as (l & last & Hs & ->). induction Hs as [line _|p q r l last Hq _ _ IH].
  - cbn [map List.concat app]. now apply Wsquash.
  - cbn [map List.concat fst snd]. destruct Hq as (x & _ & ->). cbn [app] in H. rewrite <- app_assoc in H. cbn [app] in H.
    assert (A : W p) by (eapply Wcut_l; [|exact H]; asc). apply Wcut_r in H; [|asc].
    assert (B : W x) by (eapply Wcut_l; [|exact H]; asc). apply Wcut_r in H; [|asc].
    rewrite <- !app_assoc. apply Wapp; [now apply Wsquash|]. cbn [app]. apply Wcons; [asc|]. rewrite <- app_assoc. cbn [app].
    apply Wapp; [exact B|]. apply Wcons; [asc|]. now apply IH.
Qed.
Lemma Wclean flt s : W (t_text s) -> W (filteredLine flt s).
Proof.
  intros H. unfold filteredLine. assert (E : W (expandTabs (if 0 <? t_inCustomAssembly s then fixLabelIndentation (t_text s) else t_text s))).
  { apply Wexpand. destruct (0 <? _); [|assumption]. unfold fixLabelIndentation. destruct (is_probably_label _); [|assumption].
    eapply Wedit; [exact H|apply ltrim_edit]. }
  destruct (f_whitespace flt); [|exact E]. now apply Wquotes.
Qed.
