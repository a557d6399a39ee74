(** The white-space filter: lines that squeezing does not change for the tests
    made on them as they were read, and what happens to the second name of .file. *)
From Verif Require Import UtilAgain AsmLemmas AsmRead AsmMark AsmTrace AsmThms AsmTwice AsmSpace Recog Recog5.

(** *** The first visible character *)
Definition first_seen (s : str) : option char := hd_error (drop_while is_whitespace s).
Lemma first_cons c s : first_seen (c :: s) = if is_whitespace c then first_seen s else Some c.
Proof. unfold first_seen. cbn [drop_while]. now destruct (is_whitespace c). Qed.
Lemma first_app a b : first_seen (a ++ b) = match first_seen a with Some c => Some c | None => first_seen b end.
Proof. induction a as [|c a IH]; [reflexivity|]. cbn [app]. rewrite !first_cons. destruct (is_whitespace c); [exact IH|reflexivity]. Qed.
Lemma first_none s : first_seen s = None <-> forallb is_whitespace s = true.
Proof. induction s as [|c s IH]; [now split|]. rewrite first_cons. cbn [forallb]. destruct (is_whitespace c); [exact IH|]. split; discriminate. Qed.
Lemma first_put_out s : forall st, first_seen (put_out st s) = first_seen s.
Proof.
  induction s as [|c s IH]; intros st; [reflexivity|]. cbn [put_out]. rewrite (first_cons c s).
  destruct st; destruct (is_whitespace c) eqn:E; rewrite ?first_cons, ?E; try reflexivity; apply IH.
Qed.
Lemma first_squash s b : first_seen (squashHorizontalWhitespace s b) = first_seen s.
Proof.
  unfold squashHorizontalWhitespace. pose proof (loop_put_out s (if b then HStart else HJustOne) true []) as H.
  pose proof (loop_just s (if b then HStart else HJustOne) true []) as J. destruct (squash_loop _ _ _ _) as [o j]. cbn [fst snd app andb] in H, J.
  destruct (b && j) eqn:E; [|rewrite H; apply first_put_out]. apply andb_true_iff in E as [_ ->]. symmetry. apply first_none. now symmetry.
Qed.
Lemma first_quotes s b : first_seen (squashHorizontalWhitespaceWithQuotes s b) = first_seen s.
Proof.
  destruct (C55_lemma s b) as (l & last & H & ->). induction H as [line _|p q r l last _ _ _ IH].
  - apply first_squash.
  - cbn [map List.concat fst snd]. rewrite <- !app_assoc, !first_app, first_squash. rewrite first_app in IH. rewrite IH. reflexivity.
Qed.
Lemma first_expanded n s o : expanded n s o -> first_seen o = first_seen s.
Proof.
  induction 1 as [|n c t o _ _ IH|n t o _ IH]; [reflexivity| |].
  - rewrite !first_cons. now destruct (is_whitespace c).
  - rewrite first_app, (first_cons TAB). assert (X : first_seen (repeat SP (8 - n mod 8)) = None).
    { apply first_none. induction (8 - n mod 8)%nat as [|k IHk]; [reflexivity|exact IHk]. }
    rewrite X. exact IH.
Qed.
Lemma first_clean flt raw : first_seen (clean flt 0 raw) = first_seen raw.
Proof.
  unfold clean. cbn [Z.ltb Z.compare]. cbv zeta.
  assert (X : first_seen (expandTabs raw) = first_seen raw) by (eapply first_expanded, C52_expanded). destruct (f_whitespace flt); [now rewrite first_quotes|exact X].
Qed.
Lemma first_blanks u c t : blanks u -> is_whitespace c = false -> first_seen (u ++ c :: t) = Some c.
Proof.
  intros Hu Hc. rewrite first_app. assert (X : first_seen u = None).
  { apply first_none, forallb_forall. intros x Hx. unfold blanks in Hu. rewrite Forall_forall in Hu. destruct (Hu x Hx) as [->| ->]; reflexivity. }
  rewrite X, first_cons, Hc. reflexivity.
Qed.

(** *** Which first character the tests need *)
Lemma begins_first w c r t : lit w = c :: r -> is_whitespace c = false -> begins w t -> first_seen t = Some c.
Proof. intros E Hc (u & q & -> & Hu). rewrite E. now apply first_blanks. Qed.
Lemma false_unless (b : bool) (P : Prop) : (b = true -> P) -> ~ P -> b = false.
Proof. destruct b; [intros H N; now elim N; apply H|reflexivity]. Qed.
Lemma hash_markers t : first_seen t <> Some "#"%char -> nest_step t = 0.
Proof.
  intros H. unfold nest_step, nest_of.
  rewrite (false_unless (startAppBlock t) _ (fun X => begins_first "#APP" "#" _ t eq_refl eq_refl (proj1 (hs_word_iff "#APP" t) X)) H).
  rewrite (false_unless (startAsmNesting t) _ (fun X => begins_first "# Begin ASM" "#" _ t eq_refl eq_refl (proj1 (hs_word_iff "# Begin ASM" t) X)) H).
  rewrite (false_unless (endAppBlock t) _ (fun X => begins_first "#NO_APP" "#" _ t eq_refl eq_refl (proj1 (hs_word_iff "#NO_APP" t) X)) H).
  rewrite (false_unless (endAsmNesting t) _ (fun X => begins_first "# End ASM" "#" _ t eq_refl eq_refl (proj1 (hs_word_iff "# End ASM" t) X)) H).
  reflexivity.
Qed.
Lemma slash_block t : first_seen t <> Some "/"%char -> startCommentBlock t = false.
Proof. intros H. apply (false_unless _ (first_seen t = Some "/"%char)); [|exact H]. intros X. apply start_comment_iff in X. now apply (begins_first "/*" "/" _ t eq_refl eq_refl). Qed.
Lemma first_split t c : first_seen t = Some c -> exists u r, t = u ++ c :: r /\ blanks u.
Proof.
  induction t as [|d t IH]; [discriminate|]. rewrite first_cons. destruct (is_whitespace d) eqn:E.
  - intros H. destruct (IH H) as (u & r & -> & Hu). exists (d :: u), r. split; [reflexivity|]. constructor; [|exact Hu].
    unfold is_whitespace in E. apply orb_true_iff in E as [E|E]; apply ceq_true in E; [now left|now right].
  - intros [= ->]. exists [], t. split; [reflexivity|constructor].
Qed.
Lemma comments_first t : first_seen t <> Some "/"%char -> first_seen t <> Some ";"%char ->
  isJustComments t = true <-> first_seen t = Some "#"%char \/ first_seen t = Some "@"%char.
Proof.
  intros H1 H2. rewrite comments_iff. split.
  - intros (u & x & -> & Hu & [(r & ->)|[(r & ->)|[(r & ->)|[(r & ->)|(r & -> & _)]]]]); [left|right|exfalso; apply H1|exfalso; apply H1|exfalso; apply H2];
      now apply first_blanks.
  - intros [H|H]; apply first_split in H as (u & r & -> & Hu); exists u; eexists; (split; [reflexivity|]); (split; [exact Hu|]); [left|right; left]; now exists r.
Qed.
Lemma nvcc_first t : first_seen t <> Some "/"%char -> first_seen t <> Some ";"%char -> isJustNvccComments t = true <-> first_seen t = Some "#"%char.
Proof.
  intros H1 H2. rewrite nvcc_comments_iff. split.
  - intros (u & x & -> & Hu & [(r & ->)|[(r & ->)|[(r & ->)|(r & ->)]]]); [|exfalso; apply H2|exfalso; apply H1|exfalso; apply H1]; now apply first_blanks.
  - intros H. apply first_split in H as (u & r & -> & Hu). exists u. eexists. split; [reflexivity|]. split; [exact Hu|]. left. now exists r.
Qed.
Lemma both_ways (a b : bool) P : (a = true <-> P) -> (b = true <-> P) -> a = b.
Proof. intros A B. apply Bool.eq_iff_eq_true. tauto. Qed.

(** A line that is no comment with // /* or ; and no mark of inline assembly,
    neither as it is nor squeezed. *)
Definition calm (flt : Filter) (raw : str) : Prop :=
  first_seen raw <> Some "/"%char /\ first_seen raw <> Some ";"%char /\
  (first_seen raw = Some "#"%char -> nest_step raw = 0 /\ nest_step (clean flt 0 raw) = 0).
Lemma calm_step flt raw : calm flt raw -> nest_step raw = 0 /\ nest_step (clean flt 0 raw) = 0.
Proof.
  intros (_ & _ & H). assert (D : first_seen raw = Some "#"%char \/ first_seen raw <> Some "#"%char).
  { destruct (first_seen raw) as [c|]; [|right; discriminate]. destruct (ascii_dec c "#") as [->|N]; [now left|right; congruence]. }
  destruct D as [D|D]; [now apply H|]. split; apply hash_markers; [exact D|]. now rewrite first_clean.
Qed.
Lemma calm_fair flt raw : calm flt raw -> fair flt (CText raw 0).
Proof.
  intros C. destruct (calm_step _ _ C) as [A B]. destruct C as (H1 & H2 & _). pose proof (first_clean flt raw) as F. cbn [fair]. rewrite A, B. split; [reflexivity|].
  split; [lia|]. intros _. split; [apply slash_block; now rewrite F|]. split.
  - eapply both_ways; [|now apply comments_first]. rewrite <- F. apply comments_first; now rewrite F.
  - eapply both_ways; [|now apply nvcc_first]. rewrite <- F. apply nvcc_first; now rewrite F.
Qed.

(** *** No inline assembly *)
Definition at_zero (c : cand) : Prop := match c with CText _ n => n = 0 | _ => True end.
Definition calm_cand (flt : Filter) (c : cand) : Prop := match c with CText raw _ => calm flt raw | _ => True end.
Lemma scan_line_zero flt sc l : sc_nest sc = 0 -> calm_cand flt (fst (scan_line flt sc l)) -> at_zero (fst (scan_line flt sc l)) /\ sc_nest (snd (scan_line flt sc l)) = 0.
Proof.
  unfold scan_line. cbv zeta. intros H. destruct (f_comment_only flt && _); [cbn; auto|]. destruct (all_blank _); [cbn; auto|]. cbn [fst snd calm_cand at_zero sc_nest].
  intros C. apply calm_step in C as [C _]. fold (nest_of (sc_pend sc ++ l) (sc_nest sc)). rewrite nest_step_eq, C, H. now split.
Qed.
Lemma scan_lines_zero flt ls : forall sc, sc_nest sc = 0 -> Forall (calm_cand flt) (fst (scan_lines flt sc ls)) ->
  Forall at_zero (fst (scan_lines flt sc ls)) /\ sc_nest (snd (scan_lines flt sc ls)) = 0.
Proof.
  induction ls as [|l t IH]; intros sc H; cbn [scan_lines]; [intros _; split; [constructor|exact H]|]. pose proof (scan_line_zero flt sc l H) as Z.
  destruct (scan_line flt sc l) as [c sc1]. cbn [fst snd] in *. specialize (IH sc1). destruct (scan_lines flt sc1 t) as [cs sc2]. cbn [fst snd] in *.
  intros F. inversion F as [|? ? F1 F2]; subst. destruct (Z F1) as [Z1 Z2]. destruct (IH Z2 F2) as [A B]. split; [now constructor|exact B].
Qed.
Lemma calm_all flt input : Forall (calm_cand flt) (scan_input flt input) -> Forall (fair flt) (scan_input flt input).
Proof.
  intros H. assert (Z : Forall at_zero (scan_input flt input)).
  { unfold scan_input in *. destruct (raw_lines [] input) as [ls rest]. pose proof (scan_lines_zero flt ls scan0 eq_refl) as L.
    destruct (scan_lines flt scan0 ls) as [cs sc]. cbn [fst snd] in L. destruct (is_nil _); [now apply L|]. apply Forall_app in H as [H1 H2].
    destruct (L H1) as [L1 L2]. apply Forall_app. split; [exact L1|]. constructor; [|constructor]. apply Forall_inv in H2. now apply scan_line_zero. }
  rewrite Forall_forall in *. intros c Hc. specialize (H c Hc). specialize (Z c Hc). destruct c as [r|r|r n]; [exact I|exact I|]. cbn in H, Z. subst n. now apply calm_fair.
Qed.

(** *** The second name of .file *)
Lemma put_word w t : Forall (fun c => is_whitespace c = false) w -> put_out HJustOne (w ++ t) = w ++ put_out HJustOne t.
Proof. induction 1 as [|c w Hc _ IH]; [reflexivity|]. cbn [app put_out]. now rewrite Hc, IH. Qed.
Lemma put_skip g c t : Forall (fun c => is_whitespace c = true) g -> is_whitespace c = false -> put_out HStop (g ++ c :: t) = c :: put_out HJustOne t.
Proof. induction 1 as [|d g Hd _ IH]; intros Hc; cbn [app put_out]; [now rewrite Hc|]. rewrite Hd. auto. Qed.
Lemma put_gap g c t : g <> [] -> Forall (fun c => is_whitespace c = true) g -> is_whitespace c = false -> put_out HJustOne (g ++ c :: t) = SP :: c :: put_out HJustOne t.
Proof. intros H0 H. destruct H as [|d g' Hd Hg]; [now elim H0|]. intros Hc. cbn [app put_out]. rewrite Hd. now rewrite put_skip. Qed.
Lemma put_end g : g <> [] -> Forall (fun c => is_whitespace c = true) g -> put_out HJustOne g = [SP].
Proof.
  intros H0 H. destruct H as [|d g' Hd Hg]; [now elim H0|]. cbn [put_out]. rewrite Hd. f_equal. clear -Hg. induction Hg as [|c g Hc _ IH]; [reflexivity|]. cbn [put_out]. now rewrite Hc.
Qed.
Lemma put_start u c d t : Forall (fun c => is_whitespace c = true) u -> is_whitespace c = false -> is_whitespace d = false ->
  exists u', blanks u' /\ put_out HStart (u ++ c :: d :: t) = u' ++ c :: d :: put_out HJustOne t.
Proof.
  intros Hu Hc Hd. assert (S : forall g, Forall (fun c => is_whitespace c = true) g -> put_out HStop (g ++ c :: d :: t) = c :: d :: put_out HJustOne t).
  { intros g Hg. rewrite put_skip by assumption. cbn [put_out]. now rewrite Hd. }
  assert (B : AsmLoc.blank SP) by now left. destruct Hu as [|x u Hx Hu]; [exists []; split; [constructor|]|].
  { cbn [app put_out]. rewrite Hc. cbn [put_out]. now rewrite Hd. }
  destruct Hu as [|y u Hy Hu].
  - exists [SP]. split; [now constructor|]. cbn [app put_out]. rewrite Hx, Hc. cbn [put_out]. now rewrite Hd.
  - exists [SP; SP]. split; [repeat constructor; exact B|]. cbn [app put_out]. rewrite Hx, Hy. cbn [app]. do 2 f_equal. now apply S.
Qed.
Lemma blanks_ws u : blanks u -> Forall (fun c => is_whitespace c = true) u.
Proof. intros H. eapply Forall_impl; [|exact H]. intros c [->| ->]; reflexivity. Qed.
Lemma digits_dark a : Forall digit a -> Forall (fun c => is_whitespace c = false) a.
Proof.
  intros H. eapply Forall_impl; [|exact H]. intros c Hc. destruct (is_whitespace c) eqn:E; [|reflexivity]. unfold is_whitespace in E.
  apply orb_true_iff in E as [E|E]; apply ceq_true in E; subst c; destruct Hc as [A B]; vm_compute in A; now elim A.
Qed.

Lemma plain_body f : ~ In DQ f -> ~ In BSL f -> UtilQuotes.quoted (AsmLoc.quoted f).
Proof.
  intros H1 H2. exists f. split; [|reflexivity]. induction f as [|c f IH]; [constructor|]. constructor; [intros ->; apply H1; now left|intros ->; apply H2; now left|].
  apply IH; intros X; [apply H1|apply H2]; now right.
Qed.
Lemma piece_first p q r : ~ In DQ p -> forall a q' b, p ++ q ++ r = a ++ q' ++ b -> (length a < length p)%nat -> ~ UtilQuotes.quoted q'.
Proof.
  intros Hp a q' b E L (z & _ & ->). apply Hp. clear Hp. revert a E L. induction p as [|d p IH]; intros [|e a] E L; cbn in *; try lia; injection E as -> E; [now left|right; eapply IH; [exact E|lia]].
Qed.
Lemma file_squeezed l a f r g : file_head l a f r -> second_name r g -> ~ In BSL f -> ~ In BSL g ->
  getFileDef (squashHorizontalWhitespaceWithQuotes l true) = Some (number a, f).
Proof.
  intros (u & v & w & -> & Hu & [Hv0 Hv] & [Ha0 Ha] & [Hw0 Hw] & Hf0 & Hf) (x & q & -> & [Hx0 Hx] & Hg0 & Hg) Bf Bg.
  set (p := u ++ lit ".file" ++ v ++ a ++ w).
  assert (E : u ++ lit ".file" ++ v ++ a ++ w ++ AsmLoc.quoted f ++ x ++ AsmLoc.quoted g ++ q = p ++ AsmLoc.quoted f ++ x ++ AsmLoc.quoted g ++ q) by (unfold p; now rewrite <- !app_assoc).
  rewrite E. destruct (C55_lemma q true) as (k & last & Hq & _).
  assert (NB : forall y, blanks y -> ~ In DQ y) by (intros y Hy X; unfold blanks in Hy; rewrite Forall_forall in Hy; destruct (Hy _ X); discriminate).
  assert (Np : ~ In DQ p).
  { unfold p. rewrite !in_app_iff. intros [X|[X|[X|[X|X]]]]; try (revert X; now apply NB).
    - cbn in X. intuition discriminate.
    - rewrite Forall_forall in Ha. destruct (Ha _ X) as [A _]. vm_compute in A. now elim A. }
  assert (S : quote_split (p ++ AsmLoc.quoted f ++ x ++ AsmLoc.quoted g ++ q) ((p, AsmLoc.quoted f) :: (x, AsmLoc.quoted g) :: k) last).
  { constructor; [now apply plain_body|now apply piece_first|]. constructor; [now apply plain_body|now apply piece_first, NB|exact Hq]. }
  destruct (C55_lemma (p ++ AsmLoc.quoted f ++ x ++ AsmLoc.quoted g ++ q) true) as (k' & last' & S' & ->).
  destruct (quote_split_unique _ _ _ S _ _ S') as [<- <-]. clear S S'. cbn [map List.concat fst snd].
  assert (X0 : squashHorizontalWhitespace x true = []).
  { pose proof (C54_lemma x [] (blanks_ws _ Hx) ltac:(constructor)) as X. cbn [text_of map List.concat] in X. rewrite app_nil_r in X. exact X. }
  rewrite X0. cbn [app]. rewrite <- !app_assoc. set (rest := List.concat _ ++ _).
  assert (P : exists u', blanks u' /\ squashHorizontalWhitespace p true = u' ++ lit ".file" ++ [SP] ++ a ++ [SP]).
  { assert (Q : squashHorizontalWhitespace p true = put_out HStart p).
    { destruct (squash_put_out p true) as [Z|Z]; [|exact Z]. exfalso. assert (I : In "."%char (squashHorizontalWhitespace p true)); [|rewrite Z in I; exact I].
      apply squash_keeps; [reflexivity|]. unfold p. apply in_or_app. right. now left. }
    unfold p in Q |- *. change (lit ".file" ++ v ++ a ++ w) with ("."%char :: "f"%char :: lit "ile" ++ v ++ a ++ w) in Q |- *.
    destruct (put_start u "." "f" (lit "ile" ++ v ++ a ++ w) (blanks_ws _ Hu) eq_refl eq_refl) as (u' & Hu' & Z). exists u'. split; [exact Hu'|]. refine (eq_trans Q (eq_trans Z _)).
    rewrite (put_word (lit "ile")) by (repeat constructor). destruct a as [|d a]; [now elim Ha0|]. inversion Ha as [|? ? Hd Ha']; subst.
    cbn [app]. rewrite (put_gap v d) by (auto using blanks_ws; apply (Forall_inv (digits_dark [d] ltac:(now constructor)))).
    rewrite (put_word a) by now apply digits_dark. rewrite (put_end w) by (auto using blanks_ws). reflexivity. }
  destruct P as (u' & Hu' & ->). apply file_iff. exists a, f, (AsmLoc.quoted g ++ rest). split.
  - exists u', [SP], [SP]. rewrite <- !app_assoc. split; [reflexivity|]. split; [exact Hu'|]. assert (G : gap [SP]) by (split; [discriminate|constructor; [now left|constructor]]).
    split; [exact G|]. split; [now split|]. split; [exact G|]. now split.
  - right. split; [|reflexivity]. intros h (y & z & E2 & [Hy0 Hy] & _). destruct y as [|c y]; [now elim Hy0|]. inversion Hy as [|? ? Hc _]; subst.
    rewrite quoted_app in E2. injection E2 as E2 _. subst c. destruct Hc; discriminate.
Qed.
