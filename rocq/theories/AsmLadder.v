(** A family of inputs on which the search for used labels takes exponential
    time: levels of three functions, each calling the three of the next level. *)
From Coq Require Import Permutation Sorted.
From Verif Require Import RegexSpec RegexLemmas Recog2 UtilSquash UtilComment UtilLabels.
From Verif Require Import AsmLemmas AsmRead AsmMark AsmTrace AsmThms AsmUse AsmSearch AsmComplete AsmRemove AsmPlace AsmWorld AsmStored AsmCarry AsmRoots AsmMarking AsmDet AsmCost.

(** *** Patterns that need a character *)
(** Every match of [r] has a character of [q]. *)
Definition all_chars : list char := map ascii_of_nat (seq 0 256).
Lemma all_chars_in c : In c all_chars.
Proof.
  apply in_map_iff. exists (nat_of_ascii c). split; [apply ascii_nat_embedding|]. apply in_seq. pose proof (nat_ascii_bounded c). lia.
Qed.
Fixpoint needs (q : char -> bool) (r : re) : bool :=
  match r with
  | Cls p => forallb (fun c => implb (p c) (q c)) all_chars
  | Seq a b => needs q a || needs q b
  | Alt a b => needs q a && needs q b
  | Grp _ a => needs q a
  | _ => false
  end.
Lemma needs_den q r : forall pre u post, den r pre u post -> needs q r = true -> existsb q u = true.
Proof.
  induction 1; cbn [needs]; try discriminate; auto.
  - intros X. rewrite forallb_forall in X. specialize (X c (all_chars_in c)). rewrite H in X. cbn in X. cbn. now rewrite X.
  - rewrite existsb_app, !orb_true_iff. tauto.
  - rewrite andb_true_iff. tauto.
  - rewrite andb_true_iff. tauto.
Qed.
Lemma needs_search q r s : needs q r = true -> existsb q s = false -> re_search r s = None.
Proof.
  intros N E. destruct (re_search r s) as [st|] eqn:X; [|reflexivity]. exfalso.
  assert (Y : is_some (re_search r s) = true) by now rewrite X. apply re_search_den in Y as (a & u & b & -> & D).
  pose proof (needs_den q r _ _ _ D N) as Z. rewrite !existsb_app in E. apply orb_false_elim in E as [_ E]. apply orb_false_elim in E as [E _].
  unfold str, char in *. congruence.
Qed.
Lemma needs_match q r s : needs q r = true -> existsb q s = false -> re_match r s = None.
Proof.
  intros N E. destruct (re_match r s) as [st|] eqn:X; [|reflexivity]. exfalso.
  assert (Y : is_some (re_match r s) = true) by now rewrite X. apply re_match_den in Y. rewrite (needs_den q r _ _ _ Y N) in E. discriminate.
Qed.

(** Characters other than letters, digits, blanks and colons. *)
Definition odd (c : char) : bool := negb (is_alpha c || is_digit c || ceq c SP || ceq c ":"%char).
Definition smooth (s : str) : Prop := existsb odd s = false.
Ltac smooth_tac := first [apply (needs_search odd) | apply (needs_match odd)]; [vm_compute; reflexivity|assumption].
Section Smooth.
Variable t : str.
Hypothesis Ht : smooth t.
Lemma sm_block : startCommentBlock t = false. Proof. unfold startCommentBlock. now rewrite (needs_search odd). Qed.
Lemma sm_app : startAppBlock t = false. Proof. unfold startAppBlock. now rewrite (needs_match odd). Qed.
Lemma sm_eapp : endAppBlock t = false. Proof. unfold endAppBlock. now rewrite (needs_match odd). Qed.
Lemma sm_asm : startAsmNesting t = false. Proof. unfold startAsmNesting. now rewrite (needs_match odd). Qed.
Lemma sm_easm : endAsmNesting t = false. Proof. unfold endAsmNesting. now rewrite (needs_match odd). Qed.
Lemma sm_end : endBlock t = false. Proof. unfold endBlock. now rewrite (needs_search odd). Qed.
Lemma sm_proc : startProcBlock t = false. Proof. unfold startProcBlock. now rewrite (needs_search odd). Qed.
Lemma sm_data : isDataDefn t = false. Proof. unfold isDataDefn. now rewrite (needs_search odd). Qed.
Lemma sm_directive : isDirective t = false. Proof. unfold isDirective. now rewrite (needs_match odd). Qed.
Lemma sm_comments : isJustComments t = false. Proof. unfold isJustComments. now rewrite (needs_match odd). Qed.
Lemma sm_cuda_end : isCudaEndDef t = false. Proof. unfold isCudaEndDef. now rewrite (needs_match odd). Qed.
Lemma sm_section : getSectionNameDef t = None. Proof. unfold getSectionNameDef. now rewrite (needs_search odd). Qed.
Lemma sm_assign : getLabelAssignment t = None. Proof. unfold getLabelAssignment. now rewrite (needs_search odd). Qed.
Lemma sm_assigned : getAssignmentDef t = None. Proof. unfold getAssignmentDef. now rewrite (needs_match odd). Qed.
Lemma sm_cuda : getCudaLabel t = None. Proof. unfold getCudaLabel. now rewrite (needs_search odd). Qed.
Lemma sm_place w : place_directive w t = None.
Proof.
  unfold place_directive, getFileDef, getSourceRef, getSourceInfoFromStabs, get6502DbgInfo, getD2LineInfo, getD2FileInfo.
  repeat (rewrite (needs_match odd) by (reflexivity || assumption)). cbn [fst snd negb Z.eqb option_map].
  repeat (rewrite (needs_search odd) by (reflexivity || assumption)). reflexivity.
Qed.
End Smooth.

(** *** The lines of a function *)
Definition good (n : str) : Prop := n <> [] /\ Forall (fun c => is_lower c = true) n.
Definition hdr (n : str) : str := n ++ [":"%char].
Definition call (n : str) : str := lit " call " ++ n.
Lemma lower_plain c : is_lower c = true -> odd c = false /\ is_whitespace c = false /\ comment_char c = false /\ tok_start c = true /\ tok_char c = true /\
  label_char c /\ c <> ":"%char /\ c <> DQ /\ c <> TAB /\ c <> LF /\ c <> "."%char /\ c <> "$"%char /\ c <> "L"%char.
Proof.
  intros H. assert (X : forallb (fun c => implb (is_lower c) (negb (odd c) && negb (is_whitespace c) && negb (comment_char c) && tok_start c && tok_char c && labelchar c &&
    negb (ceq c ":") && negb (ceq c DQ) && negb (ceq c TAB) && negb (ceq c LF) && negb (ceq c ".") && negb (ceq c "$") && negb (ceq c "L"))) all_chars = true) by (vm_compute; reflexivity).
  rewrite forallb_forall in X. specialize (X c (all_chars_in c)). rewrite H in X. cbn [implb] in X. rewrite !andb_true_iff, !negb_true_iff in X.
  assert (N : forall d, ceq c d = false -> c <> d) by (intros d E ->; rewrite ceq_refl in E; discriminate).
  destruct X as [[[[[[[[[[[[X1 X2] X3] X4] X5] X6] X7] X8] X9] X10] X11] X12] X13]. apply labelchar_iff in X6. repeat split; auto.
Qed.
Lemma all_smooth n : Forall (fun c => is_lower c = true) n -> smooth n.
Proof.
  unfold smooth. induction 1 as [|c t H _ IH]; [reflexivity|]. cbn [existsb]. rewrite IH. now rewrite (proj1 (lower_plain c H)).
Qed.
Lemma smooth_app a b : smooth a -> smooth b -> smooth (a ++ b).
Proof. unfold smooth. intros A B. rewrite existsb_app. apply orb_false_intro; assumption. Qed.
Lemma hdr_smooth n : good n -> smooth (hdr n).
Proof. intros [_ H]. apply smooth_app; [now apply all_smooth|reflexivity]. Qed.
Lemma call_smooth n : good n -> smooth (call n).
Proof. intros [_ H]. apply smooth_app; [reflexivity|now apply all_smooth]. Qed.
Lemma hdr_label n : good n -> label_of (hdr n) = Some (n, (false, false)).
Proof.
  intros [H1 H2]. unfold label_of. assert (E : getLabel (hdr n) = Some n); [|now rewrite E].
  apply label_iff. exists [], []. split; [reflexivity|]. split; [now left|]. split; [exact H1|]. eapply Forall_impl; [|exact H2]. intros c Hc. apply (lower_plain c Hc).
Qed.
Lemma call_label n : good n -> label_of (call n) = None.
Proof.
  intros G. pose proof (call_smooth n G) as S. unfold label_of. rewrite sm_assign, sm_assigned, sm_cuda by exact S.
  destruct (getLabel (call n)) as [k|] eqn:E; [|reflexivity]. exfalso. apply label_iff in E as (p & r & E & _ & _ & _).
  assert (X : In ":"%char (call n)) by (rewrite E, !in_app_iff; right; right; now left).
  unfold call in X. apply in_app_iff in X as [X|X]; [cbn in X; intuition discriminate|]. destruct G as [_ G]. rewrite Forall_forall in G. apply G in X.
  apply lower_plain in X. tauto.
Qed.
Lemma no_tab_loop s : forall out e, ~ In TAB s -> expandTabs_loop s out e = out ++ s.
Proof.
  induction s as [|c t IH]; intros out e H; cbn [expandTabs_loop]; [now rewrite app_nil_r|].
  destruct (ceq c TAB) eqn:E; [apply ceq_true in E; exfalso; apply H; now left|]. rewrite IH by (intros X; apply H; now right). now rewrite <- app_assoc.
Qed.
Lemma smooth_clean flt t : f_whitespace flt = false -> smooth t -> clean flt 0 t = t.
Proof.
  intros Hw S. unfold clean. cbn [Z.ltb Z.compare]. rewrite Hw. unfold expandTabs. rewrite no_tab_loop; [reflexivity|].
  intros X. unfold smooth in S. assert (Y : existsb odd t = true) by (apply existsb_exists; exists TAB; split; [exact X|reflexivity]). unfold str, char in *. congruence.
Qed.
Lemma call_operands n : good n -> getLineWithoutCommentAndStripFirstWord (call n) = SP :: n.
Proof.
  intros [H1 H2]. destruct (exists_last H1) as (b & c & ->). apply Forall_app in H2 as [Hb Hc]. inversion Hc as [|? ? Hc' _]; subst.
  pose proof (C57_result [SP] (lit "call") SP b c [] []) as X. unfold call.
  change ([SP] ++ lit "call" ++ SP :: b ++ [c] ++ [] ++ []) with (lit " call " ++ b ++ [c]) in X. apply X; clear X.
  - now repeat constructor.
  - now repeat constructor.
  - reflexivity.
  - split; [discriminate|now repeat constructor].
  - now repeat constructor.
  - reflexivity.
  - apply Forall_app. split; [|repeat constructor; apply (lower_plain c Hc')]. eapply Forall_impl; [|exact Hb]. intros x Hx. apply (lower_plain x Hx).
  - apply (lower_plain c Hc').
  - constructor.
  - exact I.
Qed.
Lemma call_opcode n : good n -> hasOpcode (call n) false = true.
Proof.
  intros [H1 H2]. unfold hasOpcode.
  assert (E : getLineWithoutComment (call n) = lit " call").
  { pose proof (C56_lost [SP] [] (lit "call") [SP] n) as X. unfold call. change ([SP] ++ text_of [] ++ lit "call" ++ [SP] ++ n) with (lit " call " ++ n) in X. rewrite X; [reflexivity|..].
    - now repeat constructor.
    - constructor.
    - split; [discriminate|now repeat constructor].
    - now repeat constructor.
    - discriminate.
    - split; [exact H1|]. eapply Forall_impl; [|exact H2]. intros x Hx. apply (lower_plain x Hx).
    - cbn [text_of List.concat map app]. apply Forall_app. split; [now repeat constructor|]. eapply Forall_impl; [|exact H2]. intros x Hx. apply (lower_plain x Hx). }
  rewrite E. vm_compute. reflexivity.
Qed.
Lemma call_names mb n : good n -> Z.of_nat (length (call n)) < 2 ^ 64 -> names mb (call n) = [n].
Proof.
  intros G Hl. unfold names. destruct (C58_lemma mb (call n) Hl) as [_ X]. cbv zeta in X. rewrite (call_operands n G) in X. destruct G as [H1 H2].
  destruct X as (l & T & ->).
  { intros [D|D]; [discriminate|]. rewrite Forall_forall in H2. apply H2 in D. apply lower_plain in D. tauto. }
  remember (SP :: n) as op eqn:H. destruct T as [off s F|off gap c name rest l' F1 F2 F3 F4 F5]; subst.
  - exfalso. inversion F as [|? ? _ F']; subst. destruct n as [|x n]; [contradiction|]. inversion F' as [|? ? F'' _]; subst. inversion H2 as [|? ? Hx _]; subst.
    apply lower_plain in Hx. intuition congruence.
  - destruct gap as [|g gap].
    { cbn [app] in H. injection H as -> _. discriminate. }
    cbn [app] in H. injection H as -> H.
    destruct gap as [|g gap].
    2:{ exfalso. cbn [app] in H. destruct n as [|x n]; [discriminate|]. injection H as -> _. inversion F1 as [|? ? _ F1']; subst. inversion F1' as [|? ? F1'' _]; subst.
        inversion H2 as [|? ? Hx _]; subst. apply lower_plain in Hx. intuition congruence. }
    cbn [app] in H. assert (rest = []) as ->.
    { destruct rest as [|d rest]; [reflexivity|]. exfalso. assert (In d n) as D by (rewrite <- H; right; apply in_app_iff; right; now left).
      rewrite Forall_forall in H2. apply H2 in D. apply lower_plain in D. intuition congruence. }
    rewrite app_nil_r in H. inversion F5 as [? ? F|? gap c' name' rest' l'' G1 G2 G3 G4 G5]; subst.
    + cbn. reflexivity.
    + exfalso. destruct gap; discriminate.
Qed.

(** *** What the lines do *)
Section Steps.
Variables (mb : str -> Z) (flt : Filter).
Hypothesis Hw : f_whitespace flt = false.
Notation text t := (CText t 0).
Definition calm (w : world) : Prop := pl_cuda (w_place w) = false /\ w_def w = false.
Definition tidy (t : str) : Prop := scan_line flt scan0 t = (text t, scan0).
Lemma smooth_tidy t : smooth t -> all_blank t = false -> tidy t.
Proof.
  intros S B. unfold tidy, scan_line. cbn [sc_pend scan0 app sc_block sc_nest orb andb]. rewrite (sm_block t S), andb_false_r, B, (sm_app t S), (sm_asm t S), (sm_eapp t S), (sm_easm t S).
  reflexivity.
Qed.
Lemma scan_tidy ls : Forall tidy ls -> scan_lines flt scan0 ls = (map (fun t => text t) ls, scan0).
Proof. induction 1 as [|t ls H _ IH]; [reflexivity|]. cbn [scan_lines map]. rewrite H, IH. reflexivity. Qed.
Lemma tidy_input ls : Forall tidy ls -> Forall (fun l => ~ In LF l) ls -> scan_input flt (join_lines ls) = map (fun t => text t) ls.
Proof. intros A B. unfold scan_input. rewrite raw_lines_join by exact B. rewrite scan_tidy by exact A. reflexivity. Qed.
Lemma hdr_blank n : all_blank (hdr n) = false.
Proof. unfold hdr, all_blank. rewrite forallb_app. apply andb_false_r. Qed.
Lemma call_blank n : all_blank (call n) = false.
Proof. reflexivity. Qed.

Lemma smooth_still w t : calm w -> smooth t ->
  locates w t = false /\ hidden_start flt w t = false /\ only_comment flt (pl_cuda (w_place w)) t = false /\
  pre_world w t = w /\ data_line false t = false /\ symbol_line false (w_def w) t = false.
Proof.
  intros [C1 C2] S. assert (K : closes w t = false) by (unfold closes; now rewrite (sm_end t S), C1).
  assert (Lo : locates w t = false) by (unfold locates; now rewrite (sm_place t S), andb_false_r).
  split; [exact Lo|]. split; [unfold hidden_start; rewrite (sm_proc t S); apply andb_false_r|].
  split; [unfold only_comment; rewrite C1, (sm_comments t S), !andb_false_r; reflexivity|].
  split; [|split; [unfold data_line; rewrite (sm_data t S); reflexivity|]].
  - unfold pre_world, pre_label, next_section. rewrite K, Lo, (sm_place t S), (sm_section t S). cbn [orb andb]. destruct w. reflexivity.
  - unfold symbol_line. rewrite (sm_directive t S). cbn [orb]. now rewrite andb_false_r.
Qed.
Lemma hdr_step w n : calm w -> good n -> let w' := world_cand flt w (text (hdr n)) in
  calm w' /\ w_parent w' = n /\ used_at mb flt w (text (hdr n)) = [] /\ global_at flt w (text (hdr n)) = [] /\ verdict_of flt w (hdr n) (hdr n) = Kept /\
  locates w (hdr n) = false /\ clean flt 0 (hdr n) = hdr n.
Proof.
  intros C G. cbv zeta. pose proof (hdr_smooth n G) as S. destruct (smooth_still w (hdr n) C S) as (L1 & L2 & L3 & L4 & L5 & L6). destruct C as [C1 C2].
  assert (Hc : clean flt 0 (hdr n) = hdr n) by now apply smooth_clean.
  assert (V : verdict_of flt w (hdr n) (hdr n) = Kept) by (unfold verdict_of, class_verdict; rewrite L1, L2, L3, L6; reflexivity).
  unfold world_cand, used_at, global_at. rewrite Hc, V. unfold world_text. rewrite L2, L3, L1, L4. unfold symbol_entries, global_entries, code_entries. rewrite L6.
  unfold class_world, opens, next_parent, found. rewrite (hdr_label n G). unfold calm. cbn [w_place w_def pl_cuda w_parent is_some negb andb app].
  assert (I : isInternalLabel n = false).
  { destruct G as [G1 G2]. destruct n as [|c r]; [contradiction|]. inversion G2 as [|? ? Hcl _]; subst. apply lower_plain in Hcl.
    destruct (isInternalLabel (c :: r)) eqn:E; [|reflexivity]. exfalso. apply internal_iff in E as (d & q & [= <- _] & E). intuition congruence. }
  rewrite I. repeat split; auto; rewrite ?C1, ?C2; reflexivity.
Qed.
Lemma call_step w n : calm w -> good n -> Z.of_nat (length (call n)) < 2 ^ 64 -> let w' := world_cand flt w (text (call n)) in
  calm w' /\ w_parent w' = w_parent w /\ used_at mb flt w (text (call n)) = (if str_eqb n (w_parent w) then [] else [(n, w_parent w)]) /\ global_at flt w (text (call n)) = [] /\
  locates w (call n) = false /\ clean flt 0 (call n) = call n.
Proof.
  intros C G Hl. cbv zeta. pose proof (call_smooth n G) as S. destruct (smooth_still w (call n) C S) as (L1 & L2 & L3 & L4 & L5 & L6). destruct C as [C1 C2].
  assert (Hc : clean flt 0 (call n) = call n) by now apply smooth_clean.
  assert (V : verdict_of flt w (call n) (call n) = Kept) by (unfold verdict_of, class_verdict; rewrite L1, L2, L3, L6; reflexivity).
  unfold world_cand, used_at, global_at. rewrite Hc, V. unfold world_text. rewrite L2, L3, L1, L4. unfold symbol_entries, global_entries, code_entries. rewrite L6.
  unfold class_world, opens, next_parent, found. rewrite (call_label n G). unfold calm. cbn [w_place w_def pl_cuda w_parent is_some negb andb orb app]. rewrite C1, C2. cbn [orb].
  rewrite (call_opcode n G), (call_names mb n G Hl). cbn [filter map pairs]. repeat split; auto. destruct (str_eqb n (w_parent w)); reflexivity.
Qed.
Lemma globl_step : f_library_functions flt = false -> let w' := world_cand flt world0 (text (lit ".globl m")) in
  calm w' /\ used_at mb flt world0 (text (lit ".globl m")) = [(lit "m", [])] /\ global_at flt world0 (text (lit ".globl m")) = [lit "m"] /\
  tidy (lit ".globl m") /\ isDataDefn (clean flt 0 (lit ".globl m")) = false.
Proof.
  intros Hf. unfold tidy, calm. destruct flt as [f1 f2 f3 f4 f5 f6 f7 f8 f9 f10]. cbn in Hw, Hf. subst. clear.
  destruct f4, f5; vm_compute; repeat split; reflexivity.
Qed.
End Steps.

(** *** Programs: a global [m] and functions that only call *)
Definition fn (f : str * list str) : list str := hdr (fst f) :: map call (snd f).
Definition program (P : list (str * list str)) : list str := lit ".globl m" :: flat_map fn P.
Section Program.
Variables (mb : str -> Z) (flt : Filter).
Hypothesis Hw : f_whitespace flt = false.
Hypothesis Hf : f_library_functions flt = false.
Notation text t := (CText t 0).
Notation world_after := (fold_left (world_cand flt)).
Fixpoint gather {A} (f : world -> cand -> list A) (w : world) (cs : list cand) : list A :=
  match cs with [] => [] | c :: t => f w c ++ gather f (world_cand flt w c) t end.
Lemma gather_in {A} (f : world -> cand -> list A) cs : forall w e,
  In e (gather f w cs) <-> exists pre c post, cs = pre ++ c :: post /\ In e (f (world_after pre w) c).
Proof.
  induction cs as [|c t IH]; intros w e; cbn [gather].
  - split; [intros []|]. intros (pre & c & post & E & _). destruct pre; discriminate.
  - rewrite in_app_iff, IH. split.
    + intros [H|(pre & x & post & -> & H)]; [exists [], c, t; auto|]. exists (c :: pre), x, post. auto.
    + intros ([|y pre] & x & post & E & H); injection E as -> ->; [now left|]. right. exists pre, x, post. auto.
Qed.
Lemma gather_app {A} (f : world -> cand -> list A) a : forall w b, gather f w (a ++ b) = gather f w a ++ gather f (world_after a w) b.
Proof. induction a as [|c t IH]; intros w b; [reflexivity|]. cbn [app gather fold_left]. now rewrite IH, app_assoc. Qed.
Lemma made_gather {A} (f : world -> cand -> list A) cs e : made flt f cs e <-> In e (gather f world0 cs).
Proof. rewrite gather_in. unfold made, worlds. reflexivity. Qed.

Definition fits (n : str) : Prop := good n /\ Z.of_nat (length (call n)) < 2 ^ 64.
Lemma calls_gather ks : forall w, calm w -> Forall fits ks ->
  calm (world_after (map (fun t => text t) (map call ks)) w) /\
  gather (used_at mb flt) w (map (fun t => text t) (map call ks)) = pairs (filter (fun k => negb (str_eqb k (w_parent w))) ks) (w_parent w) /\
  gather (global_at flt) w (map (fun t => text t) (map call ks)) = [].
Proof.
  induction ks as [|k ks IH]; intros w C F; [split; [exact C|split; reflexivity]|]. inversion F as [|? ? [G Hl] F']; subst.
  destruct (call_step mb flt Hw w k C G Hl) as (S1 & S2 & S3 & S4 & _). destruct (IH _ S1 F') as (I1 & I2 & I3). cbn [map fold_left gather].
  split; [exact I1|]. rewrite S3, S4, I2, I3, S2. split; [|reflexivity]. cbn [filter]. destruct (str_eqb k (w_parent w)); reflexivity.
Qed.
Definition fine (f : str * list str) : Prop := good (fst f) /\ Forall fits (snd f).
Definition calls_of (f : str * list str) : list (str * str) := pairs (filter (fun k => negb (str_eqb k (fst f))) (snd f)) (fst f).
Lemma fns_gather P : forall w, calm w -> Forall fine P ->
  calm (world_after (map (fun t => text t) (flat_map fn P)) w) /\
  gather (used_at mb flt) w (map (fun t => text t) (flat_map fn P)) = flat_map calls_of P /\
  gather (global_at flt) w (map (fun t => text t) (flat_map fn P)) = [].
Proof.
  induction P as [|f P IH]; intros w C F; [split; [exact C|split; reflexivity]|]. inversion F as [|? ? [G Fk] F']; subst.
  destruct (hdr_step mb flt Hw w (fst f) C G) as (S1 & S2 & S3 & S4 & _). destruct (calls_gather (snd f) _ S1 Fk) as (I1 & I2 & I3).
  destruct (IH _ I1 F') as (J1 & J2 & J3). cbn [flat_map]. unfold fn at 1 3 5. cbn [app map]. rewrite map_app. cbn [fold_left gather]. rewrite fold_left_app, !gather_app.
  split; [exact J1|]. rewrite S3, S4, I2, I3, S2, J2, J3. split; reflexivity.
Qed.
Lemma prefix_calm P : forall w pre t post, calm w -> Forall fine P -> map (fun t => text t) (flat_map fn P) = pre ++ text t :: post -> calm (world_after pre w).
Proof.
  assert (X : forall ls w pre t post, calm w -> Forall (fun t => (exists n, good n /\ t = hdr n) \/ (exists n, fits n /\ t = call n)) ls ->
    map (fun t => text t) ls = pre ++ text t :: post -> calm (world_after pre w)).
  { induction ls as [|l ls IH]; intros w pre t post C F E; [destruct pre; discriminate|]. destruct pre as [|c pre]; [exact C|]. cbn [map app] in E. injection E as <- E.
    inversion F as [|? ? H F']; subst. cbn [fold_left]. eapply IH; [|exact F'|exact E]. destruct H as [(n & G & ->)|(n & [G Hl] & ->)].
    - apply (hdr_step mb flt Hw w n C G).
    - apply (call_step mb flt Hw w n C G Hl). }
  intros w pre t post C F. apply X; [exact C|]. apply Forall_forall. intros l Hl. apply in_flat_map in Hl as (f & Hp & Hl). rewrite Forall_forall in F. destruct (F f Hp) as [G Fk].
  destruct Hl as [<-|Hl]; [left; eauto|]. apply in_map_iff in Hl as (k & <- & Hk). rewrite Forall_forall in Fk. right. eauto.
Qed.

Variable P : list (str * list str).
Hypothesis HP : Forall fine P.
Let input := join_lines (program P).
Hypothesis Hlen : Z.of_nat (length input) < two31.
Let cs := map (fun t => CText t 0) (program P).
Lemma lines_tidy : Forall (tidy flt) (program P) /\ Forall (fun l => ~ In LF l) (program P) /\
  Forall (fun t => isDataDefn (clean flt 0 t) = false) (program P).
Proof.
  destruct (globl_step mb flt Hw Hf) as (_ & _ & _ & G1 & G2).
  assert (X : Forall (fun t => smooth t /\ all_blank t = false) (flat_map fn P)).
  { apply Forall_forall. intros l Hl. apply in_flat_map in Hl as (f & Hp & Hl). rewrite Forall_forall in HP. destruct (HP f Hp) as [G Fk].
    destruct Hl as [<-|Hl]; [split; [now apply hdr_smooth|apply hdr_blank]|]. apply in_map_iff in Hl as (k & <- & Hk). rewrite Forall_forall in Fk. split; [apply call_smooth, Fk, Hk|apply call_blank]. }
  unfold program. split; [|split]; constructor; auto.
  - eapply Forall_impl; [|exact X]. intros t [S B]. now apply smooth_tidy.
  - cbn. intuition discriminate.
  - eapply Forall_impl; [|exact X]. intros t [S _] I. unfold smooth in S. assert (Y : existsb odd t = true) by (apply existsb_exists; exists LF; split; [exact I|reflexivity]).
    unfold str, char in *. congruence.
  - eapply Forall_impl; [|exact X]. intros t [S _]. rewrite smooth_clean by assumption. now apply sm_data.
Qed.
Lemma program_cands : scan_input flt input = cs.
Proof. destruct lines_tidy as (A & B & _). now apply tidy_input. Qed.
Lemma program_used k r : made flt (used_at mb flt) cs (k, r) <-> (k = lit "m" /\ r = []) \/ In (k, r) (flat_map calls_of P).
Proof.
  rewrite made_gather. unfold cs, program. cbn [map gather]. destruct (globl_step mb flt Hw Hf) as (G0 & G1 & _). rewrite G1.
  destruct (fns_gather P _ G0 HP) as (_ & J & _). rewrite J. cbn [app In].
  split; [intros [H|H]; [injection H as <- <-; auto|auto]|intros [[-> ->]|H]; auto].
Qed.
Lemma program_user k : made flt (global_at flt) cs k <-> k = lit "m".
Proof.
  rewrite made_gather. unfold cs, program. cbn [map gather]. destruct (globl_step mb flt Hw Hf) as (G0 & _ & G1 & _). rewrite G1.
  destruct (fns_gather P _ G0 HP) as (_ & _ & J). rewrite J. cbn [app In].
  split; [intros [H|[]]; auto|intros ->; auto].
Qed.
Lemma program_no_data d : In d (lines_read mb flt input) -> lv_is_data d = false.
Proof.
  intros Hd. unfold lines_read in Hd. apply in_map_iff in Hd as (l & <- & Hl). change (lv_is_data l = false).
  destruct (read_stored mb flt Hf input) as (ks & js & [_ _ _ R _ _ _ _ _]). rewrite program_cands in R.
  destruct (In_nth_error _ _ Hl) as (i & Ei). clear Hl.
  assert (X : exists k, srow mb flt cs k l).
  { clear -R Ei. revert i Ei. induction R as [|k x ks ls S _ IH]; intros [|i] E; cbn in E; try discriminate; [injection E as <-; eauto|eauto]. }
  destruct X as (k & S). unfold srow in S. destruct (nth_error cs k) as [c|] eqn:Ek; [|contradiction].
  apply nth_error_In in Ek. unfold cs in Ek. apply in_map_iff in Ek as (t & <- & Ht). destruct S as [_ _ _ _ _ _ _ S _ _ _ _ _]. rewrite S.
  unfold data_line. destruct lines_tidy as (_ & _ & D). rewrite Forall_forall in D. rewrite (D t Ht). apply andb_false_r.
Qed.
Lemma program_name f : In f P -> is_label_name mb flt input (fst f).
Proof.
  intros Hp. apply in_split in Hp as (P1 & P2 & E). destruct (read_stored mb flt Hf input) as (ks & js & [_ _ _ R W _ _ _ _]). rewrite program_cands in R, W.
  set (a := lit ".globl m" :: flat_map fn P1). assert (Ec : cs = map (fun t => CText t 0) a ++ text (hdr (fst f)) :: map (fun t => CText t 0) (map call (snd f) ++ flat_map fn P2)).
  { unfold cs, program, a. rewrite E, flat_map_app. cbn [flat_map fn map app]. rewrite !map_app. cbn [map]. rewrite map_app. reflexivity. }
  assert (G : good (fst f)) by (rewrite Forall_forall in HP; apply HP; rewrite E; apply in_app_iff; right; now left).
  assert (C : calm (worlds flt (map (fun t => CText t 0) a))).
  { unfold worlds, a. cbn [map fold_left]. destruct (globl_step mb flt Hw Hf) as (G0 & _). apply fns_gather; [exact G0|]. rewrite E in HP. now apply Forall_app in HP as [HP _]. }
  destruct (hdr_step mb flt Hw _ (fst f) C G) as (_ & _ & _ & _ & V & Lo & Cl).
  set (k := length (map (fun t => CText t 0) a)).
  assert (Nk : nth_error cs k = Some (text (hdr (fst f)))) by (rewrite Ec; unfold k; rewrite nth_error_app2, Nat.sub_diag by lia; reflexivity).
  assert (Fk : firstn k cs = map (fun t => CText t 0) a) by (rewrite Ec; unfold k; rewrite firstn_app, Nat.sub_diag, firstn_all; apply app_nil_r).
  assert (Ik : In k ks).
  { apply W. unfold stored_at. rewrite Nk. unfold verdict_at. rewrite Nk, Fk, Cl. exact V. }
  assert (X : exists l, In l (t_lines (read_lines mb flt tstate0 input)) /\ srow mb flt cs k l).
  { clear -R Ik. induction R as [|x y ks ls S _ IH]; [destruct Ik|]. destruct Ik as [<-|I]; [exists y; split; [now left|exact S]|]. destruct (IH I) as (l & A & B). exists l. split; [now right|exact B]. }
  destruct X as (l & Hl & S). unfold srow in S. rewrite Nk, Fk, Cl, Lo in S. destruct S as [_ _ _ S1 S2 _ _ _ _ _ _ _ _]. unfold found in S1, S2. rewrite (hdr_label _ G) in S1, S2.
  exists (erase l). split; [unfold lines_read; now apply in_map|]. split; [exact S1|exact S2].
Qed.
Lemma program_looked k r : looked (t_used_labels (read mb flt input)) k r <-> is_label_name mb flt input k /\ ((k = lit "m" /\ r = []) \/ In (k, r) (flat_map calls_of P)).
Proof.
  rewrite <- program_used, <- program_cands. destruct (read_world mb flt Hf input) as [_ A _ _ _]. unfold read, filterNonLabels. tsimp_goal.
  rewrite (looked_filter_iff (fun x => map_contains _ x)), A, map_contains_in.
  assert (X : (exists x i, In (x, i) (t_labels_defined (read_lines mb flt tstate0 input)) /\ v_str x = k) <-> is_label_name mb flt input k); [|rewrite X; reflexivity].
  split.
  - intros (x & i & I & <-). destruct (table_lines _ _ _ _ _ Hlen I) as [(l & Y & _ & Yl & Yn) _]. apply nth_error_In in Y. exists (erase l).
    split; [unfold lines_read; now apply in_map|]. split; [exact Yl|exact Yn].
  - intros (l & Hl & L1 & L2). unfold lines_read in Hl. apply in_map_iff in Hl as (d & <- & Hd).
    destruct (count_read mb flt input) as [_ C]. destruct C as [_ C _]; [pose proof (read_total mb flt input); lia|].
    destruct (C d Hd L1) as (x & i & K1 & K2). exists x, i. split; [exact K1|]. rewrite K2. exact L2.
Qed.
End Program.

(** *** The ladder *)
(** The names of level [i] have [i+1] letters. *)
Definition nm (x : char) (i : nat) : str := x :: repeat "x"%char i.
Definition row (i : nat) : list str := map (fun x => nm x i) ["a"%char; "b"%char; "c"%char].
Definition rungs (n : nat) : list (str * list str) :=
  (nm "m"%char 0, row 1) :: flat_map (fun i => map (fun f => (f, row (S i))) (row i)) (seq 1 n).
Definition ladder (n : nat) : str := join_lines (program (rungs n)).
Lemma nm_length x i : length (nm x i) = S i.
Proof. unfold nm. cbn [length]. now rewrite repeat_length. Qed.
Lemma nm_good x i : is_lower x = true -> good (nm x i).
Proof. intros H. split; [discriminate|]. constructor; [exact H|]. induction i; cbn; constructor; auto. Qed.
Lemma row_in k i : In k (row i) -> good k /\ length k = S i.
Proof.
  unfold row. intros H. apply in_map_iff in H as (x & <- & H). split; [|apply nm_length]. apply nm_good. cbn in H. intuition subst; reflexivity.
Qed.
Lemma rungs_in n f ks : In (f, ks) (rungs n) <-> (f = lit "m" /\ ks = row 1) \/ exists i, (1 <= i <= n)%nat /\ In f (row i) /\ ks = row (S i).
Proof.
  unfold rungs. cbn [In]. rewrite in_flat_map. split.
  - intros [H|(i & Hi & H)]; [injection H as <- <-; now left|]. right. exists i. apply in_seq in Hi. apply in_map_iff in H as (g & E & H). injection E as <- <-. split; [lia|auto].
  - intros [[-> ->]|(i & Hi & H & ->)]; [now left|]. right. exists i. split; [apply in_seq; lia|]. apply in_map_iff. eauto.
Qed.
Ltac slia := unfold str, char in *; lia.
Lemma line_length l ls : In l ls -> (length l <= length (join_lines ls))%nat.
Proof.
  unfold join_lines. induction ls as [|x t IH]; [intros []|]. cbn [flat_map]. rewrite !app_length. intros [->|H]; [slia|]. specialize (IH H). slia.
Qed.
Lemma rungs_fine n : Z.of_nat (length (ladder n)) < two31 -> Forall fine (rungs n).
Proof.
  intros Hlen. apply Forall_forall. intros [f ks] H. split; cbn [fst snd].
  - apply rungs_in in H as [[-> _]|(i & _ & H & _)]; [apply (nm_good "m"%char 0); reflexivity|exact (proj1 (row_in _ _ H))].
  - apply Forall_forall. intros k Hk. split.
    + apply rungs_in in H as [[_ ->]|(i & _ & _ & ->)]; exact (proj1 (row_in _ _ Hk)).
    + assert (I : In (call k) (program (rungs n))) by (right; apply in_flat_map; exists (f, ks); split; [exact H|]; right; now apply in_map).
      apply line_length in I. unfold ladder in Hlen. unfold two31 in Hlen. change (2 ^ 31) with 2147483648 in Hlen. change (2 ^ 64) with 18446744073709551616. unfold str, char in *. lia.
Qed.
Lemma rungs_calls n k r : In (k, r) (flat_map calls_of (rungs n)) <-> exists i, (i <= n)%nat /\ In k (row (S i)) /\ ((i = 0%nat /\ r = lit "m") \/ ((1 <= i)%nat /\ In r (row i))).
Proof.
  rewrite in_flat_map. split.
  - intros ([f ks] & H & I). unfold calls_of, pairs in I. cbn [fst snd] in I. apply in_map_iff in I as (x & E & I). injection E as <- <-. apply filter_In in I as [I _].
    apply rungs_in in H as [[-> ->]|(i & Hi & H & ->)]; [exists 0%nat; split; [lia|auto]|]. exists i. split; [lia|]. split; [exact I|]. right. split; [lia|exact H].
  - intros (i & Hi & Hk & H). exists (r, row (S i)). split.
    + apply rungs_in. destruct H as [[-> ->]|[H1 H2]]; [now left|]. right. exists i. auto with arith.
    + unfold calls_of, pairs. cbn [fst snd]. apply in_map_iff. exists k. split; [reflexivity|]. apply filter_In. split; [exact Hk|].
      apply negb_true_iff. destruct (str_eqb k r) eqn:E; [|reflexivity]. apply str_eqb_eq in E. subst r. exfalso. apply row_in in Hk as [_ Hk].
      destruct H as [[-> H]|[_ H]]; [rewrite H in Hk; discriminate|]. apply row_in in H as [_ H]. unfold str, char in *. lia.
Qed.

(** Uses go up one level, so a trail has one name of each length ... *)
Lemma trail_levels (used : str -> str -> Prop) user vis k p : (forall a b, used a b -> length a = S (length b)) ->
  trail used user vis k p -> (forall x, In x p -> (length x <= length k)%nat) /\ forall x y, In x p -> In y p -> length x = length y -> x = y.
Proof.
  intros L T. induction T as [vis k _ _|vis k r p _ Hu _ _ [IH1 IH2]].
  - split; [intros x [<-|[]]; lia|]. intros x y [<-|[]] [<-|[]] _. reflexivity.
  - apply L in Hu. split.
    + intros x Hx. apply in_app_iff in Hx as [Hx|[<-|[]]]; [specialize (IH1 x Hx)|]; unfold str, char in *; lia.
    + intros x y Hx Hy E. apply in_app_iff in Hx as [Hx|[<-|[]]]; apply in_app_iff in Hy as [Hy|[<-|[]]]; auto.
      * specialize (IH1 x Hx). unfold str, char in *; lia.
      * specialize (IH1 y Hy). unfold str, char in *; lia.
Qed.
(** ... and with one root at most one trail is taken. *)
Lemma trail_root (used : str -> str -> Prop) (user : str -> Prop) vis k p z : (forall a, user a \/ used a [] -> a = z) -> trail used user vis k p -> In z p.
Proof. intros H T. induction T as [vis k _ Hr|vis k r p _ _ _ _ IH]; [left; now apply H|]. apply in_app_iff. now left. Qed.
Lemma marking_one (used : str -> str -> Prop) (user : str -> Prop) alias z : (forall a, user a \/ used a [] -> a = z) ->
  forall vis ms vis', marking used user alias vis ms vis' -> vis = [] \/ In z vis -> vis' = vis \/ exists k p, trail used user vis k p /\ vis' = p ++ vis.
Proof.
  intros H vis ms vis' M. assert (N : forall vis k p, trail used user vis k p -> In z vis -> False).
  { intros v k p T I. eapply trail_free; [exact T| |exact I]. eapply trail_root; eauto. }
  induction M as [vis|k p vis ms vis' T _ IH|k a p vis ms vis' _ _ T _ IH|k vis ms vis' _ _ _ IH]; intros Hv; [now left| | |now apply IH].
  - destruct IH as [->|(k2 & p2 & T2 & _)]; [right; apply in_app_iff; left; eapply trail_root; eauto|right; eauto|].
    exfalso. eapply N; [exact T2|]. apply in_app_iff. left. eapply trail_root; eauto.
  - destruct IH as [->|(k2 & p2 & T2 & _)]; [right; apply in_app_iff; left; eapply trail_root; eauto|right; eauto|].
    exfalso. eapply N; [exact T2|]. apply in_app_iff. left. eapply trail_root; eauto.
Qed.

Lemma NoDup_app_disjoint {A} (a b : list A) : NoDup a -> NoDup b -> (forall x, In x a -> ~ In x b) -> NoDup (a ++ b).
Proof.
  induction 1 as [|x t Hx _ IH]; intros Hb H; [exact Hb|]. cbn [app]. constructor.
  - rewrite in_app_iff. intros [I|I]; [auto|]. apply (H x); [now left|exact I].
  - apply IH; [exact Hb|]. intros y Hy. apply H. now right.
Qed.
(** Two free names on every level: the chains double from level to level. *)
Definition two_free (vis : list str) (i : nat) : Prop := exists x y, In x (row i) /\ In y (row i) /\ x <> y /\ ~ In x vis /\ ~ In y vis.
Lemma one_level_free vis i : (forall x y, In x vis -> In y vis -> length x = length y -> x = y) -> two_free vis i.
Proof.
  intros H. assert (R : forall x, In x ["a"%char; "b"%char; "c"%char] -> In (nm x i) (row i)) by (intros x Hx; exact (in_map (fun x => nm x i) _ x Hx)).
  assert (D : forall x y, x <> y -> nm x i <> nm y i) by (unfold nm; congruence).
  assert (Q : forall x y, x <> y -> In (nm x i) vis -> ~ In (nm y i) vis) by (intros x y N A B; apply (D x y N), H; auto; now rewrite !nm_length).
  destruct (in_dec (list_eq_dec ascii_dec) (nm "a"%char i) vis) as [A|A].
  - exists (nm "b"%char i), (nm "c"%char i). repeat split; [apply R; cbn; tauto|apply R; cbn; tauto|apply D; discriminate|apply (Q "a"%char); [discriminate|exact A]..].
  - destruct (in_dec (list_eq_dec ascii_dec) (nm "b"%char i) vis) as [B|B].
    + exists (nm "a"%char i), (nm "c"%char i). repeat split; [apply R; cbn; tauto|apply R; cbn; tauto|apply D; discriminate|exact A|apply (Q "b"%char); [discriminate|exact B]].
    + exists (nm "a"%char i), (nm "b"%char i). repeat split; [apply R; cbn; tauto|apply R; cbn; tauto|apply D; discriminate|exact A|exact B].
Qed.
Lemma walks_double (used : str -> str -> Prop) n : (forall i k r, (1 <= i <= n)%nat -> In k (row (S i)) -> In r (row i) -> used k r) ->
  forall i vis k, (i <= n)%nat -> (forall j, (1 <= j <= i)%nat -> two_free vis j) -> In k (row (S i)) -> ~ In k vis ->
  exists ps, NoDup ps /\ (forall p, In p ps -> walk used vis k p) /\ length ps = (2 ^ i)%nat.
Proof.
  intros U. induction i as [|i IH]; intros vis k Hi Hf Hk Hv.
  - exists [[k]]. split; [repeat constructor; intros []|]. split; [intros p [<-|[]]; now apply WK_one|reflexivity].
  - destruct (Hf (S i)) as (x & y & X & Y & N & Fx & Fy); [lia|].
    assert (B : forall r, In r (row (S i)) -> ~ In r vis -> exists ps, NoDup ps /\ (forall p, In p ps -> walk used (k :: vis) r p) /\ length ps = (2 ^ i)%nat).
    { intros r Hr Fr. apply IH; [lia| |exact Hr|].
      - intros j Hj. destruct (Hf j) as (a & b & A1 & A2 & A3 & A4 & A5); [lia|]. exists a, b. repeat split; auto.
        + intros [->|I]; [|auto]. apply row_in in A1 as [_ A1]. apply row_in in Hk as [_ Hk]. lia.
        + intros [->|I]; [|auto]. apply row_in in A2 as [_ A2]. apply row_in in Hk as [_ Hk]. lia.
      - intros [->|I]; [|auto]. apply row_in in Hr as [_ Hr]. apply row_in in Hk as [_ Hk]. lia. }
    destruct (B x X Fx) as (px & X1 & X2 & X3). destruct (B y Y Fy) as (py & Y1 & Y2 & Y3).
    exists (map (cons k) (px ++ py)). split; [|split].
    + apply FinFun.Injective_map_NoDup; [intros a b [=]; auto|]. apply NoDup_app_disjoint; auto.
      intros p P1 P2. destruct (walk_head _ _ _ _ (X2 p P1)) as (q1 & ->). destruct (walk_head _ _ _ _ (Y2 _ P2)) as (q2 & E). injection E as E _. auto.
    + intros p Hp. apply in_map_iff in Hp as (q & <- & Hq). apply in_app_iff in Hq as [Hq|Hq].
      * eapply WK_step with (r := x); [exact Hv|apply (U (S i)); auto; lia| |now apply X2]. apply row_in in X as [[X _] _]. exact X.
      * eapply WK_step with (r := y); [exact Hv|apply (U (S i)); auto; lia| |now apply Y2]. apply row_in in Y as [[Y _] _]. exact Y.
    + rewrite map_length, app_length, X3, Y3. cbn. lia.
Qed.

Section Ladder.
Variables (mb : str -> Z) (flt : Filter)
          (ord_refs : list view -> list view) (ord_labels : list (view * Z) -> list (view * Z)).
Hypothesis Hrefs : shuffles ord_refs.
Hypothesis Hlabels : forall m, Permutation (ord_labels m) m.
Hypothesis Hw : f_whitespace flt = false.
Hypothesis Hf : f_library_functions flt = false.
Variable n : nat.
Hypothesis Hlen : Z.of_nat (length (ladder (S n))) < two31.
Notation input := (ladder (S n)).
Lemma ladder_no_data d k : In d (lines_read mb flt input) -> lv_is_data d = true -> mentions d k -> ~ is_label_name mb flt input k.
Proof.
  intros Hd D. exfalso. unfold ladder in Hd. rewrite (program_no_data mb flt Hw Hf (rungs (S n)) (rungs_fine _ Hlen) d Hd) in D. discriminate.
Qed.
Lemma ladder_calls fuel s vis' c : runC mb flt ord_refs ord_labels fuel input [] = Ok (s, vis', c) -> (2 ^ n <= c)%nat.
Proof.
  intros H. pose proof (rungs_fine _ Hlen) as F. pose proof (program_looked mb flt Hw Hf (rungs (S n)) F Hlen) as Lk. fold (ladder (S n)) in Lk.
  pose proof (count_out _ _ _ _ (run_count mb flt ord_refs ord_labels _ _ _) H) as H1.
  destruct (run_walks mb flt ord_refs ord_labels Hrefs Hlabels input Hlen ladder_no_data _ _ _ _ _ H) as [Eu W].
  destruct (run_marking mb flt ord_refs ord_labels Hrefs Hlabels input Hlen ladder_no_data _ _ _ _ H1) as (ms & _ & _ & _ & M & _).
  unfold table_marking in M. rewrite Eu in M.
  destruct (run_tables mb flt ord_refs ord_labels Hf _ _ _ _ _ H1) as (_ & _ & Us & _).
  assert (Lv : forall a b, looked (t_used_labels (read mb flt input)) a b -> length a = S (length b)).
  { intros a b X. apply Lk in X as [_ [[-> ->]|X]]; [reflexivity|]. apply rungs_calls in X as (i & _ & Ha & Hb). apply row_in in Ha as [_ Ha].
    destruct Hb as [[-> ->]|[_ Hb]]; [exact Ha|]. apply row_in in Hb as [_ Hb]. slia. }
  assert (Rt : forall a, set_contains (t_usercode_labels s) a = true \/ looked (t_used_labels (read mb flt input)) a [] -> a = lit "m").
  { intros a [X|X].
    - apply Us in X. unfold ladder in X. rewrite (program_cands mb flt Hw Hf _ F) in X. now apply (program_user mb flt Hw Hf _ F) in X.
    - apply Lk in X as [_ [[-> _]|X]]; [reflexivity|]. apply rungs_calls in X as (i & _ & _ & [[_ X]|[_ X]]); [discriminate|]. apply row_in in X as [_ X]. discriminate. }
  assert (Fr : forall i, two_free vis' i).
  { intros i. apply one_level_free. destruct (marking_one _ _ _ (lit "m") Rt _ _ _ M (or_introl eq_refl)) as [->|(k & p & T & ->)]; [intros x y []|].
    rewrite app_nil_r. apply (trail_levels _ _ _ _ _ Lv T). }
  destruct (Fr (S n)) as (k & _ & Hk & _ & _ & Fk & _).
  assert (Nm : forall i x, (1 <= i <= S n)%nat -> In x (row i) -> is_label_name mb flt input x).
  { intros i x Hi Hx. apply (program_name mb flt Hw Hf (rungs (S n)) F (x, row (S i))). apply rungs_in. right. eauto. }
  destruct (walks_double (looked (t_used_labels (read mb flt input))) n) with (i := n) (vis := vis') (k := k) as (ps & P1 & P2 & P3); auto.
  { intros i a b Hi Ha Hb. apply Lk. split; [apply (Nm (S i)); [lia|exact Ha]|]. right. apply rungs_calls. exists i. split; [lia|]. split; [exact Ha|]. right. split; [lia|exact Hb]. }
  rewrite <- P3. apply (W k); auto. apply (Nm (S n)); [lia|exact Hk].
Qed.
Lemma ladder_ends : exists s vis' f0, forall fuel, (f0 <= fuel)%nat -> exists c, (2 ^ n <= c)%nat /\ runC mb flt ord_refs ord_labels fuel input [] = Ok (s, vis', c).
Proof.
  destruct (ends_always mb flt ord_refs ord_labels Hrefs Hlabels input ladder_no_data Hlen []) as ([s v] & f0 & E).
  exists s, v, f0. intros fuel Hfu. specialize (E fuel Hfu). rewrite <- run_count in E. apply count_in in E as (c & E). exists c. split; [eapply ladder_calls, E|exact E].
Qed.
End Ladder.
Lemma fn_length f : length (join_lines (fn f)) = (length (fst f) + 2 + fold_right (fun k a => length k + 7 + a) 0 (snd f))%nat.
Proof.
  unfold join_lines, fn. cbn [flat_map]. rewrite app_length. unfold hdr at 1. rewrite !app_length. cbn [length].
  enough (length (flat_map (fun l => l ++ [LF]) (map call (snd f))) = fold_right (fun k a => length k + 7 + a) 0 (snd f))%nat by slia.
  induction (snd f) as [|k t IH]; [reflexivity|]. cbn [map flat_map fold_right]. rewrite app_length, IH. unfold call. rewrite !app_length. cbn [length lit list_ascii_of_string]. slia.
Qed.
Lemma join_app a b : join_lines (a ++ b) = join_lines a ++ join_lines b.
Proof. apply flat_map_app. Qed.
Lemma ladder_length n : length (ladder n) = (6 * n * n + 96 * n + 39)%nat.
Proof.
  unfold ladder, program, rungs. cbn [flat_map].
  change (lit ".globl m" :: fn (nm "m"%char 0, row 1) ++ ?r) with ((lit ".globl m" :: fn (nm "m"%char 0, row 1)) ++ r).
  rewrite join_app, app_length. change (length (join_lines (lit ".globl m" :: fn (nm "m"%char 0, row 1)))) with 39%nat.
  enough (X : forall a, length (join_lines (flat_map fn (flat_map (fun i => map (fun f => (f, row (S i))) (row i)) (seq a n)))) = (6 * n * n + 12 * n * a + 84 * n)%nat) by (rewrite X; lia).
  induction n as [|m IH]; intros a; [reflexivity|]. cbn [seq flat_map]. rewrite flat_map_app, join_app, app_length, IH.
  enough (Y : length (join_lines (flat_map fn (map (fun f => (f, row (S a))) (row a)))) = (12 * a + 90)%nat) by (rewrite Y; nia).
  cbn [row map flat_map]. rewrite !join_app, !app_length, !fn_length. cbn [fst snd fold_right join_lines flat_map length]. rewrite !nm_length. lia.
Qed.
