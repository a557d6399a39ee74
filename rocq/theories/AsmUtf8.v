(** UTF-8 through the text parser and the JSON writer. *)
From Verif Require Import CliThm.
From Verif Require Import RegexCaps UtilMisc UtilLabels AsmLemmas AsmRead AsmTrace AsmMark AsmThms AsmSearch AsmViews AsmTexts JsonMore JsonGroup.
From Verif Require Import Recog5 Utf8Keep.
From Verif Require Import AsmText.
Local Open Scope Z_scope.
Notation W := utf8_text.

Lemma among_ascii s c : among s c -> forallb (fun c => code c <? 128) (lit s) = true -> ascii_char c.
Proof. unfold among. intros Hc H. rewrite forallb_forall in H. apply H in Hc. unfold ascii_char. lia. Qed.
Lemma letter_ascii c : letter c -> ascii_char c.
Proof. unfold letter, ascii_char. lia. Qed.
Lemma digit_ascii c : digit c -> ascii_char c.
Proof. unfold digit, ascii_char. lia. Qed.
Lemma word_ascii c : word_char c -> ascii_char c.
Proof. intros [H|[H| ->]]; [now apply letter_ascii|now apply digit_ascii|asc]. Qed.
Lemma label_ascii c : label_char c -> ascii_char c.
Proof. intros [H|H]; [now apply word_ascii|exact (among_ascii _ _ H eq_refl)]. Qed.
Lemma name_ascii c : name_char c -> ascii_char c.
Proof. intros [H|H]; [now apply word_ascii|exact (among_ascii _ _ H eq_refl)]. Qed.
Lemma start_ascii c : name_start c -> ascii_char c.
Proof. intros [H|[-> | ->]]; [now apply letter_ascii|asc|asc]. Qed.
Lemma sect_ascii c : section_char c -> ascii_char c.
Proof. intros [H|[H|H]]; [now apply letter_ascii|now apply digit_ascii|exact (among_ascii _ _ H eq_refl)]. Qed.
Lemma tok_ascii c : tok_char c = true -> ascii_char c.
Proof.
  unfold tok_char. rewrite !orb_true_iff, !ceq_true. intros [[[-> | ->]|H]|H]; [asc|asc| |].
  - apply letter_ascii. now apply letter_iff.
  - apply digit_ascii. now apply digit_iff.
Qed.
Lemma tokstart_ascii c : tok_start c = true -> ascii_char c.
Proof.
  unfold tok_start. rewrite !orb_true_iff, !ceq_true. intros [[[-> | ->]| ->]|H]; [asc|asc|asc|].
  apply letter_ascii. now apply letter_iff.
Qed.
Lemma sigil_ascii c : sigil c = true -> ascii_char c.
Proof. unfold sigil. rewrite orb_true_iff, !ceq_true. intros [-> | ->]; asc. Qed.
Lemma span_ascii t : Forall ascii_char (firstn (span tok_char t) t).
Proof.
  unfold span. induction t as [|c t IH]; [constructor|]. cbn [take_while]. destruct (tok_char c) eqn:E; [|constructor]. cbn [length firstn].
  constructor; [now apply tok_ascii|exact IH].
Qed.
Lemma symbol_ascii n : symbol n -> Forall ascii_char n.
Proof. intros (c & k & -> & Hc & Hk). constructor; [now apply start_ascii|]. eapply Forall_impl; [exact name_ascii|exact Hk]. Qed.
Lemma used_ascii mb filtered diff fuel : forall pos (s : list ascii) idx r,
  In r (used_labels_loop mb filtered diff fuel pos s idx) -> Forall ascii_char (lb_name r).
Proof.
  induction fuel as [|k IH]; intros pos s idx r Hr; [contradiction|]. cbn [used_labels_loop] in Hr.
  pose proof (search_used s pos) as HS. destruct (search_from usedLabelRe pos s) as [[i st]|]; [|contradiction].
  destruct HS as (gap & c & t & Es & Hg & Hc & H2 & H1 & Hrest & Hp).
  assert (A2 : Forall ascii_char (cap 2 st)) by (rewrite H2; constructor; [now apply tokstart_ascii|apply span_ascii]).
  assert (A1 : Forall ascii_char (cap 1 st)).
  { rewrite H1. unfold sigil_of. destruct (rev gap) as [|x g]; [constructor|]. destruct (sigil x) eqn:E; [|constructor].
    constructor; [now apply sigil_ascii|constructor]. }
  cbv zeta in Hr. apply in_app_iff in Hr as [Hr|Hr]; [|now apply IH in Hr].
  assert (A12 : Forall ascii_char (cap 1 st ++ cap 2 st)) by (apply Forall_app; now split).
  destruct (negb _); cbn [In] in Hr; [destruct Hr as [<-|[<-|[]]]|destruct Hr as [<-|[]]]; assumption.
Qed.
Lemma Wquoted f r a : W (a ++ AsmLoc.quoted f ++ r) -> W f /\ W r.
Proof.
  rewrite quoted_app. intros H. apply Wcut_r in H; [|asc]. split; [eapply Wcut_l; [|exact H]; asc|eapply Wcut_r; [|exact H]; asc].
Qed.
Lemma Wtaken t n : W t -> taken t n -> W n.
Proof.
  intros Ht [x E|E|E|E|a e E|E|mb r E ->].
  - apply Wascii. unfold label_of in E.
    destruct (getLabel t) as [k|] eqn:E1; [injection E as -> _; apply label_iff in E1 as (p & r & _ & _ & _ & H); eapply Forall_impl; [exact label_ascii|exact H]|].
    destruct (getLabelAssignment t) as [k|] eqn:E2.
    { injection E as -> _. apply assigned_iff in E2 as (c & k & g & r & _ & -> & Hc & Hk & _). constructor.
      - destruct Hc as [Hc|Hc]; [now apply word_ascii|exact (among_ascii _ _ Hc eq_refl)].
      - eapply Forall_impl; [exact word_ascii|exact Hk]. }
    destruct (getAssignmentDef t) as [k|] eqn:E3.
    { injection E as -> _. apply assignment_iff in E3 as (u & v & c & k & _ & _ & _ & -> & Hc & _ & Hk). constructor.
      - destruct Hc as [Hc| ->]; [now apply start_ascii|asc].
      - eapply Forall_impl; [exact name_ascii|exact Hk]. }
    destruct (getCudaLabel t) as [k|] eqn:E4; [|discriminate]. injection E as -> _. apply C62_lemma in E4 as [-> | ->]; repeat (constructor; [asc|]); constructor.
  - apply Wascii, symbol_ascii. apply weak_iff in E as [H|[H _]]; destruct H as (u & v & r & _ & _ & _ & H & _); exact H.
  - apply Wascii, symbol_ascii. apply global_iff in E as (w & _ & u & v & r & _ & _ & _ & H & _). exact H.
  - apply section_iff in E as (a & w & t' & _ & [[_ ->]|[[_ ->]|[_ H]]]); [wlit|wlit|].
    destruct H as (v & q & r & _ & _ & H & _). apply Wascii. eapply Forall_impl; [exact sect_ascii|exact H].
  - apply dbg_iff in E as [(f & m & (u & g & v & w & -> & _) & X)|(_ & _ & X)]; injection X; intros; subst; [|exact W0].
    eapply (proj1 (Wquoted f _ (u ++ lit ".dbg" ++ g ++ lit "line," ++ v) _)). Unshelve. 2: rewrite <- !app_assoc; exact Ht.
  - apply d2file_iff in E as (u & g & -> & _). apply (proj1 (Wquoted n [] (u ++ lit ".d2file" ++ g) ltac:(rewrite app_nil_r, <- !app_assoc; exact Ht))).
  - unfold getUsedLabelsInLine in E. destruct (has_char _ _); [contradiction|]. apply Wascii. eapply used_ascii, E.
Qed.
Lemma Wfile t i f : getFileDef t = Some (i, f) -> W t -> W f.
Proof.
  intros E Ht. apply file_iff in E as (a & g & r & (u & v & w & -> & _) & H).
  assert (X : W g /\ W r) by (apply (Wquoted g r (u ++ lit ".file" ++ v ++ a ++ w)); rewrite <- !app_assoc; exact Ht).
  destruct X as [Hg Hr]. destruct H as [(k & (x & q & -> & _) & X)|[_ X]]; injection X; intros; subst; [|exact Hg].
  apply Wapp; [exact Hg|]. apply Wcons; [asc|]. now apply Wquoted in Hr.
Qed.
Lemma ends_W input : forall b, W (b ++ input) -> Forall W (line_ends b input).
Proof.
  induction input as [|c t IH]; intros b H; cbn [line_ends]; [rewrite app_nil_r in H; constructor; [exact H|constructor]|].
  destruct (ceq c LF) eqn:E.
  - apply ceq_true in E. subst c. constructor; [eapply Wcut_l; [|exact H]; asc|]. apply IH. cbn [app]. eapply Wcut_r; [|exact H]; asc.
  - apply IH. rewrite <- app_assoc. exact H.
Qed.
(** Every text of the lines shown is well-formed. *)
Lemma run_utf8 mb flt oref olab fuel input vis s vis' : W input ->
  AsmText.run mb flt oref olab fuel input vis = Ok (s, vis') -> Forall (shownQ W) (t_lines s).
Proof.
  intros Hi H. eapply run_textQ; [| | | | | |exact H].
  - exact W0.
  - exact Wapp.
  - exact Wtaken.
  - exact Wfile.
  - exact Wclean.
  - now apply ends_W.
Qed.
Lemma text_utf8 mb flt oref olab fuel input vis s vis' : W input ->
  AsmText.run mb flt oref olab fuel input vis = Ok (s, vis') -> W (AsmText.outputText s).
Proof.
  intros Hi H. apply run_utf8 in H; [|exact Hi]. unfold AsmText.outputText. apply Wflat. eapply Forall_impl; [|exact H].
  intros l [[A _] _]. apply Wapp; [exact A|]. apply W1. asc.
Qed.

(** The JSON writer. *)
Lemma Wescape s : W s -> W (escape s).
Proof.
  intros H. eapply Wedit; [exact H|]. clear H. induction s as [|c t IH]; [constructor|]. cbn [escape flat_map]. fold (escape t). unfold escape_char.
  destruct (ceq c TAB) eqn:E1; [apply ceq_true in E1; subst; apply ed_ascii; [asc|repeat constructor; asc|exact IH]|].
  destruct (ceq c BSL) eqn:E2; [apply ceq_true in E2; subst; apply ed_ascii; [asc|repeat constructor; asc|exact IH]|].
  destruct (ceq c DQ) eqn:E3; [apply ceq_true in E3; subst; apply ed_ascii; [asc|repeat constructor; asc|exact IH]|]. cbn [app]. now constructor.
Qed.
Lemma Wquot s : W s -> W (Json.quoted s).
Proof. intros H. unfold Json.quoted. apply Wapp; [apply W1; asc|]. apply Wapp; [exact H|apply W1; asc]. Qed.
Section Writer.
Variables (fmt : Z -> str) (flt : Filter).
Hypothesis Hfmt : forall z, W (fmt z).
Lemma Wkey k : W k -> W (writeKeyName k).
Proof. intros H. unfold writeKeyName. apply Wapp; [now apply Wquot, Wescape|wlit]. Qed.
Lemma Wint k z : W k -> W (writeKvInt fmt k z).
Proof. intros H. unfold writeKvInt. apply Wapp; [now apply Wkey|apply Hfmt]. Qed.
Lemma Wval v : W v -> W (writeValue v).
Proof. intros H. now apply Wquot, Wescape. Qed.
Lemma Wstr k v : W k -> W v -> W (writeKvStr k v).
Proof. intros H H'. unfold writeKvStr. apply Wapp; [now apply Wkey|now apply Wval]. Qed.
Lemma Wsep {A} sep (f : A -> str) l : W sep -> Forall (fun x => W (f x)) l -> W (sep_list sep f l).
Proof.
  intros Hs H. destruct H as [|x t Hx Ht]; [exact W0|]. cbn [sep_list]. apply Wapp; [exact Hx|].
  induction Ht; [exact W0|]. cbn [sep_tail]. apply Wapp; [exact Hs|]. apply Wapp; assumption.
Qed.
Lemma WSEP : W SEP.
Proof. unfold SEP. wlit. Qed.
Lemma Wbool b : W (bool_str b).
Proof. destruct b; unfold bool_str; wlit. Qed.
Lemma Wshown f g : shown_file flt f = Some g -> W f -> W g.
Proof.
  unfold shown_file. destruct (is_nil f); [discriminate|]. destruct (_ && _); [discriminate|].
  destruct (starts_with _ f) eqn:E; intros [= <-] H; [|exact H]. apply starts_with_spec in E as (r & ->).
  change (skipn 5 (lit "/app/" ++ r)) with r. apply Wtail in H; [exact H|]. repeat (constructor; [asc|]). constructor.
Qed.
(** What must be well-formed in a line. *)
Record line_texts (l : asm_line_v) : Prop := mkLineTexts {
  lt_text : W (lv_text l); lt_section : W (v_str (lv_section l)); lt_file : W (v_str (sv_file (lv_source l)));
  lt_opcodes : Forall W (lv_opcodes l); lt_labels : Forall (fun r => W (v_str (lbv_name r))) (lv_labels l) }.
Ltac wgo := repeat match goal with |- W (_ ++ _) => apply Wapp end; auto using WSEP, W0, Hfmt, Wbool;
  try match goal with |- W (lit _) => wlit | |- W (writeKeyName (lit _)) => apply Wkey; wlit
  | |- W (writeKvInt _ (lit _) _) => apply Wint; wlit | |- W (writeKvStr (lit _) _) => apply Wstr; [wlit|auto using Wbool] 
  | |- W (writeKvNull _) => unfold writeKvNull; apply Wapp; [apply Wkey; wlit|wlit] end.
Lemma Wsource l : W (v_str (sv_file (lv_source l))) -> W (writeSource fmt flt l).
Proof.
  intros H. unfold writeSource. cbv zeta. destruct (_ && _); [|wlit]. wgo.
  - destruct (negb _); [|exact W0]. wgo.
  - destruct (shown_file _ _) eqn:E; [|wgo]. apply Wstr; [wlit|]. eapply Wshown; eassumption.
Qed.
Lemma Wline l : line_texts l -> W (writeLine fmt flt l).
Proof.
  intros [A B C D E]. unfold writeLine. wgo.
  - unfold writeLabelArray. wgo. apply Wsep; [wlit|]. eapply Forall_impl; [|exact E]. intros r Hr. unfold writeLabelRef. wgo.
  - destruct (negb _); [|exact W0]. wgo. unfold writeOpcodesArray. wgo. apply Wsep; [exact WSEP|]. eapply Forall_impl; [|exact D]. intros r. apply Wquot.
  - destruct (lv_address l); [|exact W0]. destruct (negb _); [|exact W0]. wgo.
  - now apply Wsource.
  - destruct (_ && _); [|exact W0]. wgo.
Qed.
Lemma Wwrite lines labels total rep clock : Forall line_texts lines -> Forall (fun p => W (fst p)) labels ->
  W (write fmt flt lines labels total rep clock).
Proof.
  intros Hl Hb. unfold write. wgo.
  - apply Wsep; [wlit|]. eapply Forall_impl; [|exact Hl]. exact Wline.
  - unfold writeLabelDefs. wgo. apply Wsep; [exact WSEP|]. eapply Forall_impl; [|exact Hb]. intros [k z] Hk. now apply Wint.
  - destruct (negb _); [|exact W0]. wgo.
Qed.
End Writer.
Lemma shown_texts l : shownQ W l -> line_texts l /\ W (v_str (lv_label l)).
Proof.
  intros [[A B] C]. unfold line_held, views_of_line in C. inversion C as [|? ? V1 C1]; subst. inversion C1 as [|? ? V2 C2]; subst.
  inversion C2 as [|? ? V3 V4]; subst. rewrite Forall_map in V4. split; [|assumption]. constructor; try assumption. rewrite B. constructor.
Qed.
Lemma json_utf8 mb flt flt' oref olab fuel input vis s vis' fmt rep clock : (forall z, W (fmt z)) -> W input ->
  AsmText.run mb flt oref olab fuel input vis = Ok (s, vis') -> W (AsmText.outputJson flt' fmt rep clock s).
Proof.
  intros Hf Hi H. apply run_utf8 in H; [|exact Hi]. unfold AsmText.outputJson. apply Wwrite; [exact Hf| |].
  - eapply Forall_impl; [|exact H]. intros l Hl. now apply shown_texts.
  - unfold redetermineLabels. generalize 1. revert H. generalize (t_lines s). induction l as [|x t IH]; intros R n; [constructor|].
    inversion R as [|? ? C R']; subst. cbn [labels_from]. apply Forall_app. split; [|now apply IH].
    destruct (lv_is_label x); [|constructor]. constructor; [now apply shown_texts|constructor].
Qed.
