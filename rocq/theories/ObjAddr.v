(** Proofs for C10, C11, C12: addresses, undefined behaviour. *)
From Verif Require Export ObjPieces.

(** ** Reading an address *)
(** Value of a hexadecimal numeral given least significant digit first. *)
Fixpoint le_value (rt : str) : Z := match rt with [] => 0 | c :: t => hex2int c + 16 * le_value t end.

Lemma hex_char c : is_hex c = true -> exists d, hex_digit c = Some d /\ hex2int c = d /\ 0 <= d < 16.
Proof.
  intros H. destruct c as [[] [] [] [] [] [] [] []]; cbn in H; try discriminate;
    (eexists; split; [reflexivity|]; split; [reflexivity|]; lia).
Qed.
Lemma hex_digit_is_hex c d : hex_digit c = Some d -> is_hex c = true /\ hex2int c = d /\ 0 <= d < 16.
Proof.
  intros H. destruct c as [[] [] [] [] [] [] [] []]; cbn in H; try discriminate; injection H as <-;
    (split; [reflexivity|]; split; [reflexivity|]; lia).
Qed.
Lemma le_value_nonneg rt : Forall (fun c => is_hex c = true) rt -> 0 <= le_value rt.
Proof. induction 1 as [|c t Hc _ IH]; cbn [le_value]; [lia|]. destruct (hex_char c Hc) as (d & _ & -> & ?). lia. Qed.
Lemma le_value_app a b : le_value (a ++ b) = le_value a + 16 ^ Z.of_nat (length a) * le_value b.
Proof.
  induction a as [|c a IH]; cbn [app le_value length]; [lia|].
  rewrite IH, Nat2Z.inj_succ, Z.pow_succ_r by lia. lia.
Qed.
Lemma hex_value_from_le s : forall acc v, hex_value_from acc s = Some v ->
  Forall (fun c => is_hex c = true) s /\ v = acc * 16 ^ Z.of_nat (length s) + le_value (rev s).
Proof.
  induction s as [|c s IH]; cbn [hex_value_from]; intros acc v H.
  - injection H as <-. split; [constructor|]. cbn. lia.
  - destruct (hex_digit c) as [d|] eqn:E; [|discriminate]. apply hex_digit_is_hex in E as (E1 & E2 & _).
    apply IH in H as [H1 ->]. split; [now constructor|]. cbn [rev length]. rewrite le_value_app, rev_length. cbn [le_value].
    rewrite Nat2Z.inj_succ, Z.pow_succ_r by lia. rewrite E2. lia.
Qed.
Lemma hex_value_le s v : hex_value s = Some v -> s <> [] /\ Forall (fun c => is_hex c = true) s /\ v = le_value (rev s).
Proof.
  destruct s as [|c t]; [discriminate|]. intros H. split; [discriminate|]. unfold hex_value in H.
  apply hex_value_from_le in H as [H1 H2]. split; [exact H1|]. lia.
Qed.

Definition bits (i : Z) : Z := i8 (4 * i).
Lemma bits_step i : i8 (bits i + 4) = bits (i + 1).
Proof.
  unfold bits, i8, wrap_s. change (2 ^ 8) with 256. change (2 ^ (8 - 1)) with 128.
  destruct (4 * i mod 256 <? 128) eqn:E1; destruct (4 * (i + 1) mod 256 <? 128) eqn:E2;
    match goal with |- context [?x mod 256 <? 128] => destruct (x mod 256 <? 128) eqn:E3 end;
    Z.div_mod_to_equations; lia.
Qed.
Lemma bits_low i : 0 <= i -> i mod 64 < 8 -> bits i = 4 * (i mod 64).
Proof.
  intros H H'. unfold bits, i8, wrap_s. change (2 ^ 8) with 256. change (2 ^ (8 - 1)) with 128.
  destruct (4 * i mod 256 <? 128) eqn:E1; Z.div_mod_to_equations; lia.
Qed.
Lemma bits_bad i : 0 <= i -> (bits i <? 0) || (32 <=? bits i) = (8 <=? i mod 64).
Proof.
  intros H. unfold bits, i8, wrap_s. change (2 ^ 8) with 256. change (2 ^ (8 - 1)) with 128.
  destruct (4 * i mod 256 <? 128) eqn:E1; Z.div_mod_to_equations; lia.
Qed.

(** The digit that makes the shift undefined: nonzero, and the number of hex
    digits to its right is at least 8 modulo 64. *)
Definition bad_digit (i : Z) (rt : str) : Prop :=
  exists pre c post, rt = pre ++ c :: post /\ Forall (fun x => is_hex x = true) pre /\ is_hex c = true /\ hex2int c <> 0
    /\ 8 <= (i + Z.of_nat (length pre)) mod 64.
Lemma bad_digit_cons i c t : is_hex c = true -> hex2int c = 0 \/ i mod 64 < 8 -> (bad_digit i (c :: t) <-> bad_digit (i + 1) t).
Proof.
  intros Hc H0. split.
  - intros (pre & d & post & E & Hp & Hd & Hn & H8). destruct pre as [|p pre].
    + injection E as <- <-. cbn [length] in H8. rewrite Z.add_0_r in H8. destruct H0; [contradiction|lia].
    + injection E as <- E. inversion Hp; subst. exists pre, d, post. repeat split; auto.
      cbn [length] in H8. rewrite Nat2Z.inj_succ in H8.
      replace (i + 1 + Z.of_nat (length pre)) with (i + Z.succ (Z.of_nat (length pre))) by ring. exact H8.
  - intros (pre & d & post & -> & Hp & Hd & Hn & H8). exists (c :: pre), d, post. repeat split; auto.
    cbn [length]. rewrite Nat2Z.inj_succ.
    replace (i + Z.succ (Z.of_nat (length pre))) with (i + 1 + Z.of_nat (length pre)) by ring. exact H8.
Qed.

Lemma addr_loop_outcome rt : forall a i, 0 <= i ->
  (exists r, addr_loop rt a (bits i) = Ok r /\ ~ bad_digit i rt)
  \/ (addr_loop rt a (bits i) = UB ShiftRange /\ bad_digit i rt).
Proof.
  induction rt as [|c t IH]; intros a i Hi; cbn [addr_loop].
  - left. eexists. split; [reflexivity|]. intros (pre & d & post & E & _). destruct pre; discriminate.
  - destruct (is_hex c) eqn:Eh; cbn [negb].
    + rewrite bits_step.
      assert (Hgo : forall a', hex2int c = 0 \/ i mod 64 < 8 ->
        (exists r, addr_loop t a' (bits (i + 1)) = Ok r /\ ~ bad_digit i (c :: t))
        \/ (addr_loop t a' (bits (i + 1)) = UB ShiftRange /\ bad_digit i (c :: t))).
      { intros a' H. pose proof (bad_digit_cons i c t Eh H) as HB.
        destruct (IH a' (i + 1) ltac:(lia)) as [(r & E & Hn)|[E Hn]]; [left; exists r|right]; now rewrite HB. }
      destruct (hex2int c =? 0) eqn:E0.
      * apply Hgo. lia.
      * rewrite bits_bad by exact Hi. destruct (8 <=? i mod 64) eqn:E8.
        -- right. split; [reflexivity|]. exists [], c, t. cbn [length]. rewrite Z.add_0_r. repeat split; auto; lia.
        -- apply Hgo. lia.
    + left. eexists. split; [reflexivity|]. intros (pre & d & post & E & Hp & Hd & _).
      destruct pre; injection E as <- _; [congruence|]. inversion Hp; congruence.
Qed.

(** The value the parser stores for a numeral of value [v] < 2^32. *)
Definition as_int (v : Z) : Z := if v <? 2147483648 then v else v - 4294967296.

Lemma addr_loop_zero rt : forall a i, Forall (fun c => is_hex c = true) rt -> le_value rt = 0 ->
  addr_loop rt a (bits i) = Ok (a, false).
Proof.
  induction rt as [|c t IH]; intros a i Hh Hz; cbn [addr_loop]; [reflexivity|]. inversion Hh as [|? ? Hc Ht]; subst.
  rewrite Hc. cbn [negb le_value] in *. pose proof (le_value_nonneg t Ht). destruct (hex_char c Hc) as (d & _ & E & Hd). rewrite E in *.
  replace (d =? 0) with true by lia. rewrite bits_step. apply IH; [assumption|lia].
Qed.
Lemma addr_loop_big rt : forall a i, Forall (fun c => is_hex c = true) rt -> le_value rt <> 0 -> 8 <= i -> i + Z.of_nat (length rt) <= 64 ->
  addr_loop rt a (bits i) = UB ShiftRange.
Proof.
  induction rt as [|c t IH]; intros a i Hh Hz Hi Hl; cbn [addr_loop]; [now contradict Hz|]. inversion Hh as [|? ? Hc Ht]; subst.
  rewrite Hc. cbn [negb le_value length] in *. destruct (hex_char c Hc) as (d & _ & E & Hd). rewrite E in *.
  destruct (d =? 0) eqn:E0.
  - rewrite bits_step. apply IH; [assumption|lia|lia|lia].
  - rewrite bits_bad by lia. rewrite Z.mod_small by lia. replace (8 <=? i) with true by lia. reflexivity.
Qed.

Lemma shiftl_mul d n : 0 <= n -> Z.shiftl d n = d * 2 ^ n.
Proof. apply Z.shiftl_mul_pow2. Qed.

(** One of the eight low digits: [w] = 16^i. *)
Lemma addr_loop_digit c t a i w : is_hex c = true -> 0 <= i < 8 -> w = 2 ^ (4 * i) ->
  addr_loop (c :: t) a (bits i) = addr_loop t (a + i32 (hex2int c * w)) (bits (i + 1)).
Proof.
  intros Hc Hi Hw. cbn [addr_loop]. rewrite Hc. cbn [negb]. rewrite bits_step, bits_bad by lia.
  rewrite Z.mod_small by lia. replace (8 <=? i) with false by lia.
  destruct (hex2int c =? 0) eqn:E.
  - apply Z.eqb_eq in E. rewrite E. change (i32 (0 * w)) with (i32 0). change (i32 0) with 0. now rewrite Z.add_0_r.
  - rewrite bits_low by (rewrite ?Z.mod_small; lia). rewrite Z.mod_small by lia. rewrite shiftl_mul by lia. now subst w.
Qed.

Lemma addr_loop_low i w : 0 <= i <= 8 -> w = 2 ^ (4 * i) -> forall rt a, Forall (fun c => is_hex c = true) rt ->
  i + Z.of_nat (length rt) <= 64 ->
  addr_loop rt a (bits i) =
  (if le_value rt * w <? 4294967296 then Ok (a + as_int (le_value rt * w), false) else UB ShiftRange).
Proof.
  revert w. remember (Z.to_nat (8 - i)) as n eqn:En. revert i En.
  induction n as [|n IH]; intros i En w Hi Hw rt a Hh Hl.
  - assert (i = 8) by lia. subst i. change (2 ^ (4 * 8)) with 4294967296 in Hw. subst w.
    pose proof (le_value_nonneg rt Hh).
    destruct (Z.eq_dec (le_value rt) 0) as [E|E].
    + rewrite addr_loop_zero by assumption. rewrite E. change (as_int (0 * 4294967296)) with 0. cbn. now rewrite Z.add_0_r.
    + rewrite addr_loop_big by (assumption || lia). destruct (_ <? _) eqn:E1; [lia|reflexivity].
  - destruct rt as [|c t].
    { cbn [addr_loop le_value]. change (as_int (0 * w)) with 0. cbn. now rewrite Z.add_0_r. }
    inversion Hh as [|? ? Hc Ht]; subst. cbn [length] in Hl.
    rewrite (addr_loop_digit c t a i (2 ^ (4 * i))) by (assumption || lia || reflexivity).
    rewrite (IH (i + 1) ltac:(lia) (2 ^ (4 * (i + 1))) ltac:(lia) eq_refl t _ Ht ltac:(lia)).
    cbn [le_value]. destruct (hex_char c Hc) as (d & _ & -> & Hd). pose proof (le_value_nonneg t Ht) as Hv.
    set (v := le_value t) in *. clearbody v.
    assert (Hcase : i = 0 \/ i = 1 \/ i = 2 \/ i = 3 \/ i = 4 \/ i = 5 \/ i = 6 \/ i = 7) by lia.
    unfold as_int.
    destruct Hcase as [->|[->|[->|[->|[->|[->|[->| ->]]]]]]];
      match goal with |- context [d * 2 ^ ?e] => let k := eval vm_compute in (2 ^ e) in change (2 ^ e) with k end;
      match goal with |- context [v * 2 ^ ?e] => let k := eval vm_compute in (2 ^ e) in change (2 ^ e) with k end.
    1-7: rewrite i32_small by lia;
      repeat match goal with |- context [?x <? ?y] => let E := fresh in destruct (x <? y) eqn:E end;
      first [exfalso; lia | reflexivity | f_equal; f_equal; lia].
    destruct (Z.ltb_spec d 8).
    + rewrite i32_small by lia.
      repeat match goal with |- context [?x <? ?y] => let E := fresh in destruct (x <? y) eqn:E end;
      first [exfalso; lia | reflexivity | f_equal; f_equal; lia].
    + rewrite i32_high by lia.
      repeat match goal with |- context [?x <? ?y] => let E := fresh in destruct (x <? y) eqn:E end;
      first [exfalso; lia | reflexivity | f_equal; f_equal; lia].
Qed.

Lemma addr_loop_value t v : hex_value t = Some v -> Z.of_nat (length t) <= 64 ->
  addr_loop (rev t) 0 0 = if v <? 4294967296 then Ok (as_int v, false) else UB ShiftRange.
Proof.
  intros H Hl. apply hex_value_le in H as (_ & Hh & ->).
  change 0 with (bits 0) at 2. rewrite (addr_loop_low 0 1); [|lia|reflexivity|now apply Forall_rev|rewrite rev_length; lia].
  rewrite Z.mul_1_r. reflexivity.
Qed.

(** ** Start of a line *)
(** A parser that is about to read the first character of a line. *)
Record at_line_start (s : ostate) : Prop := {
  ls_addr : o_inAddress s = true;
  ls_text : o_text s = [];
  ls_skip : o_skipRestOfTheLine s = false;
  ls_stop : o_stopParsing s = false }.

(** Characters collected before the colon or blank that ends the first field. *)
Definition addr_char (c : char) : Prop :=
  c <> "/"%char /\ c <> ";"%char /\ c <> ":"%char /\ c <> SP /\ c <> TAB /\ c <> CR /\ c <> LF.
Lemma hex_addr_char c : is_hex c = true -> addr_char c.
Proof. intros H. repeat split; intros ->; discriminate. Qed.

Lemma step_addr_char mb flt s c : o_inAddress s = true -> o_skipRestOfTheLine s = false -> o_stopParsing s = false ->
  addr_char c -> step mb flt s c = Ok (set_o_text (o_text s ++ [c]) s).
Proof.
  intros H1 H2 H3 (A1 & A2 & A3 & A4 & A5 & A6 & A7). unfold step. rewrite H3, H2, H1.
  apply ceq_false in A1, A2, A3, A4, A5, A6, A7. rewrite A6, A7. unfold step_address. rewrite A1, A2, A3.
  unfold is_whitespace. rewrite A4, A5. cbn [orb]. rewrite append_char_eq, app_text_nows; [reflexivity|].
  unfold is_whitespace. now rewrite A4, A5.
Qed.
Lemma feed_addr_chars mb flt t : Forall addr_char t -> forall s, o_inAddress s = true -> o_skipRestOfTheLine s = false ->
  o_stopParsing s = false -> feed mb flt s t = Ok (set_o_text (o_text s ++ t) s).
Proof.
  induction 1 as [|c t Hc Ht IH]; intros s H1 H2 H3; cbn [feed].
  - rewrite app_nil_r. now destruct s.
  - rewrite step_addr_char by assumption. cbn [obind]. rewrite IH by assumption. f_equal. destruct s; osimp. now rewrite <- app_assoc.
Qed.
Lemma feed_blanks mb flt b : Forall (fun c => c = SP \/ c = TAB) b -> forall s, at_line_start s -> feed mb flt s b = Ok s.
Proof.
  induction 1 as [|c t Hc Ht IH]; intros s Hs; [reflexivity|]. cbn [feed].
  replace (step mb flt s c) with (@Ok ostate s); [cbn [obind]; now apply IH|].
  destruct Hs as [H1 H2 H3 H4]. unfold step. rewrite H4, H3, H1. unfold step_address. rewrite H2.
  destruct Hc as [-> | ->]; reflexivity.
Qed.

(** The field is read up to the colon: C10 and C11 at the level of one line. *)
Lemma feed_address mb flt s b h v : at_line_start s -> o_ignoreUntilNextLabel s = false ->
  Forall (fun c => c = SP \/ c = TAB) b -> hex_value h = Some v -> Z.of_nat (length h) <= 64 ->
  feed mb flt s (b ++ h ++ [":"%char]) =
  if v <? 4294967296
  then Ok (set_o_text [] (set_o_inOpcodes true (set_o_inAddress false
             (set_o_currentLine (set_l_address (Some (as_int v)) (o_currentLine s)) s))))
  else UB ShiftRange.
Proof.
  intros Hs Hi Hb Hv Hl. pose proof (hex_value_le _ _ Hv) as (Hne & Hh & _).
  rewrite feed_app, feed_blanks by assumption. cbn [obind]. destruct Hs as [H1 H2 H3 H4].
  rewrite feed_app, feed_addr_chars; [|eapply Forall_impl; [|exact Hh]; exact hex_addr_char|assumption|assumption|assumption].
  cbn [obind]. rewrite H2. cbn [app]. cbn [feed]. unfold step. osimp_goal. rewrite H4, H3, H1.
  change (ceq ":" CR) with false. change (ceq ":" LF) with false. cbn iota. unfold step_address.
  change (ceq ":" "/") with false. change (ceq ":" ";") with false. change (ceq ":" ":") with true. cbn iota.
  unfold address. osimp_goal. destruct h as [|c h]; [contradiction|].
  replace (ceq c "/") with false by (inversion Hh; symmetry; apply ceq_false; now apply hex_addr_char).
  unfold actually_address. osimp_goal. rewrite Hi. cbn [negb].
  rewrite (addr_loop_value _ _ Hv Hl). destruct (v <? 4294967296); cbn [obind fst snd]; reflexivity.
Qed.

(** ** C12 *)
Record Idx (s : ostate) : Prop := {
  ix_cap : Cap s;
  ix_range : Forall (fun e => 1 <= snd e <= Z.of_nat (length (o_lines s)) + 1) (o_labels s);
  ix_sorted : forall a e b e' c, o_labels s = a ++ e :: b ++ e' :: c -> snd e <= snd e' }.

Lemma Forall_weaken {A} (P Q : A -> Prop) l : (forall x, P x -> Q x) -> Forall P l -> Forall Q l.
Proof. intros H. apply Forall_impl. exact H. Qed.

Lemma Idx_rm flt s ls lb : Idx s -> rm flt s = Ok (ls, lb) ->
  Forall (fun e => 1 <= snd e <= Z.of_nat (length ls) + 1) lb /\
  (forall a e b e' c, lb = a ++ e :: b ++ e' :: c -> snd e <= snd e') /\ (length ls <= length (o_lines s))%nat.
Proof.
  intros [HC HR HS] H. pose proof (rm_length _ _ _ _ H) as Hl.
  apply rm_Ok in H as [[-> ->]|(_ & nm & n & bf & E & Hn & _ & -> & ->)]; [auto|].
  rewrite E in HR. apply Forall_app in HR as [HR _]. repeat split; [| |exact Hl].
  - rewrite firstn_length. apply Forall_forall. intros e He. pose proof He as He'. rewrite Forall_forall in HR. apply HR in He'.
    apply in_split in He as (a & b & ->). rewrite <- app_assoc in E. cbn [app] in E. apply HS in E. cbn in E. lia.
  - intros a e b e' c ->. eapply (HS a e b e' (c ++ [(nm, n)])). rewrite E, <- app_assoc. cbn [app]. f_equal. f_equal.
    now rewrite <- app_assoc.
Qed.
Lemma sorted_snoc (lb : list (str * Z)) nm k :
  Forall (fun e => snd e <= k) lb -> (forall a e b e' c, lb = a ++ e :: b ++ e' :: c -> snd e <= snd e') ->
  forall a e b e' c, lb ++ [(nm, k)] = a ++ e :: b ++ e' :: c -> snd e <= snd e'.
Proof.
  intros HF HS a e b e' c E. destruct c as [|x c _] using rev_ind.
  - replace (a ++ e :: b ++ [e']) with ((a ++ e :: b) ++ [e']) in E by (rewrite <- app_assoc; reflexivity).
    apply app_inj_tail in E as [-> <-]. rewrite Forall_app in HF. destruct HF as [_ HF]. inversion HF; subst. assumption.
  - replace (a ++ e :: b ++ e' :: c ++ [x]) with ((a ++ e :: b ++ e' :: c) ++ [x]) in E.
    + apply app_inj_tail in E as [-> _]. eapply HS. reflexivity.
    + rewrite <- app_assoc. cbn [app]. rewrite <- app_assoc. reflexivity.
Qed.

Lemma Idx_next s : Idx s -> Idx (next_line s).
Proof. intros []. constructor; assumption. Qed.
Lemma Idx_push l s : o_stopParsing s = false -> Idx s -> Idx (push_line l s).
Proof.
  intros Hs [HC HR HS]. destruct HC as [[_ HC]|[? _]]; [|congruence]. constructor.
  - now apply push_line_cap.
  - rewrite push_line_labels, push_line_len. eapply Forall_weaken; [|exact HR]. cbn. intros. lia.
  - rewrite push_line_labels. exact HS.
Qed.
Lemma Idx_eol flt s x : Idx s -> o_stopParsing s = false -> eol_trans flt s x -> Idx (next_line x).
Proof.
  intros HI Hs H. apply Idx_next. pose proof HI as [HC _ _]. destruct HC as [[_ HC]|[? _]]; [|congruence].
  assert (Hnew : forall ls lb nm y, rm flt s = Ok (ls, lb) -> o_stopParsing y = false -> o_lines y = ls ->
      o_labels y = lb ++ [(nm, i32 (Z.of_nat (length ls) + 1))] -> Idx y).
  { intros ls lb nm y Hr Hy Hyl Hyb. apply (Idx_rm _ _ _ _ HI) in Hr as (R1 & R2 & R3).
    rewrite i32_small in Hyb by lia. constructor.
    - left. rewrite Hyl. split; [exact Hy|lia].
    - rewrite Hyl, Hyb. apply Forall_app. split; [exact R1|]. constructor; [cbn; lia|constructor].
    - rewrite Hyb. apply sorted_snoc; [|exact R2]. eapply Forall_weaken; [|exact R1]. cbn. intros. lia. }
  destruct H as [ls lb Hi _ Hg Hr|ls lb Hi _ Hg Hr Hn nm|ls lb n Hi _ Hg Hr Hn nm| | | |]; auto.
  - pose proof (Idx_rm _ _ _ _ HI Hr) as (R1 & R2 & R3). constructor; osimp_goal; [|exact R1|exact R2].
    left. osimp_goal. split; [exact Hs|lia].
  - apply Idx_push; [exact Hs|]. eapply Hnew; [exact Hr|exact Hs|reflexivity|reflexivity].
  - eapply Hnew; [exact Hr|exact Hs|reflexivity|reflexivity].
  - now destruct HI.
  - now apply Idx_push.
Qed.
Lemma Idx_trans mb flt s c s' : c <> LF -> Idx s -> trans mb flt s c s' -> Idx s'.
Proof.
  intros Hc [HC HR HS] H. pose proof (Cap_trans _ _ _ _ _ Hc HC H). apply trans_out in H as (H1 & H2 & _); [|exact Hc].
  constructor; rewrite ?H1, ?H2; assumption.
Qed.
Lemma Idx_reachable_step mb flt s c s' : Idx s -> step mb flt s c = Ok s' -> Idx s'.
Proof. apply step_inv; [apply Idx_trans|apply Idx_eol]. Qed.
Lemma Idx_start s : Idx s -> Idx (set_o_inAddress true (set_o_total_lines 0 s)).
Proof. intros []. constructor; assumption. Qed.
Lemma Idx0 : Idx ostate0.
Proof. constructor; [left; cbn; split; [reflexivity|lia]|constructor|]. intros a e b e' c E. destruct a; discriminate. Qed.
Lemma Idx_reachable mb flt s : reachable mb flt s -> Idx s.
Proof. apply reachable_inv; [apply Idx0|apply Idx_start|apply Idx_trans|apply Idx_eol]. Qed.

Lemma rm_defined flt s : Idx s -> exists p, rm flt s = Ok p.
Proof.
  intros [_ HR _]. unfold rm, rm_last. destruct (f_library_functions flt); [|eauto].
  destruct (rev (o_labels s)) as [|[nm k] b] eqn:E; [eauto|].
  assert (HI : In (nm, k) (o_labels s)) by (rewrite in_rev, E; now left).
  rewrite Forall_forall in HR. apply HR in HI. cbn [snd] in HI.
  replace ((k - 1 <? 0) || (Z.of_nat (length (o_lines s)) <? k - 1)) with false by lia.
  destruct (existsb _ _); eauto.
Qed.

(** What can go wrong at a newline, and what at any other character. *)
Definition bad_number (s : ostate) : Prop :=
  o_inSourceRefLineNumber s = true /\
  (atoi (o_text s) = None \/ (o_inLabel s = true /\ atoi (label_name (o_text s) ++ [":"%char]) = None)).
Definition bad_address (s : ostate) : Prop :=
  o_inAddress s = true /\ o_ignoreUntilNextLabel s = false /\
  exists post c pre, o_text s = post ++ c :: pre /\ Forall (fun x => is_hex x = true) pre /\ is_hex c = true
    /\ c <> "0"%char /\ 8 <= Z.of_nat (length pre) mod 64.

Lemma eol_defined flt s : Idx s -> (exists s', eol flt s = Ok s') \/ (eol flt s = UB AtoiRange /\ bad_number s).
Proof.
  intros HI. unfold eol. change (o_inLabel (set_o_total_lines (o_total_lines s + 1) s)) with (o_inLabel s).
  assert (Hfin : forall y, (o_inSourceRefLineNumber y = true -> atoi (o_text y) = None -> bad_number s) ->
     let e := if o_ignoreUntilNextLabel y then Ok (commonReset y)
        else if o_inSourceRefLineNumber y then z <- updateSourceRefLineNumber y ;; Ok (commonReset z)
        else if negb (is_nil (o_text y)) then Ok (commonReset (push_line (finish_line y) y)) else Ok (commonReset y) in
     (exists s', e = Ok s') \/ (e = UB AtoiRange /\ bad_number s)).
  { intros y Hb. cbn zeta. destruct (o_ignoreUntilNextLabel y); [left; eauto|].
    destruct (o_inSourceRefLineNumber y); [|destruct (negb _); left; eauto].
    unfold updateSourceRefLineNumber. destruct (atoi (o_text y)) eqn:Ea; [|right; split; [reflexivity|auto]].
    left. destruct (0 <? z); cbn [obind]; eauto. }
  destruct (o_inLabel s) eqn:Hl.
  - rewrite label_total. destruct (o_text s) as [|c t] eqn:Et.
    + unfold label. rewrite Et. cbn [is_nil obind omap]. apply Hfin. osimp_goal. intros A B. split; [exact A|]. now left.
    + rewrite label_eq by (rewrite Et; discriminate). destruct (rm_defined flt s HI) as [[ls lb] Hrm]. rewrite Hrm.
      cbn [obind]. cbn zeta. destruct (shouldIgnoreFunction _ _).
      * cbn [obind omap]. left. osimp_goal. eauto.
      * cbn [obind omap]. apply Hfin. osimp_goal. intros A B. split; [exact A|]. right. split; [exact Hl|exact B].
  - cbn [obind]. apply Hfin. osimp_goal. intros A B. split; [exact A|]. now left.
Qed.

Lemma hex2int_zero c : is_hex c = true -> (hex2int c <> 0 <-> c <> "0"%char).
Proof. intros H. destruct c as [[] [] [] [] [] [] [] []]; cbn in H; try discriminate; cbn; split; intros; try discriminate; congruence. Qed.

Lemma address_defined s : o_inAddress s = true ->
  (exists s', address s = Ok s') \/ (address s = UB ShiftRange /\ bad_address s).
Proof.
  intros Ha. unfold address. destruct (o_text s) as [|c t] eqn:Et; [left; cbn [obind]; eauto|].
  destruct (ceq c "/"); [left; cbn [obind]; eauto|]. unfold actually_address.
  destruct (o_ignoreUntilNextLabel s) eqn:Ei; [left; cbn [obind negb]; eauto|]. cbn [negb].
  rewrite Et.
  destruct (addr_loop_outcome (rev (c :: t)) 0 0 ltac:(lia)) as [([a b] & E & _)|[E Hb]].
  - left. change (bits 0) with 0 in *. rewrite E. cbn [obind fst snd]. destruct b; cbn [obind]; eauto.
  - right. change (bits 0) with 0 in *. rewrite E. cbn [obind]. split; [reflexivity|]. split; [exact Ha|]. split; [exact Ei|].
    destruct Hb as (pre & d & post & E1 & Hp & Hd & Hn & H8). exists (rev post), d, (rev pre). rewrite Et.
    repeat split.
    + rewrite <- (rev_involutive (c :: t)), E1, rev_app_distr. cbn [rev]. now rewrite <- app_assoc.
    + now apply Forall_rev.
    + exact Hd.
    + now apply hex2int_zero.
    + now rewrite rev_length.
Qed.

Lemma step_defined mb flt s c : Idx s ->
  (exists s', step mb flt s c = Ok s')
  \/ (step mb flt s c = UB ShiftRange /\ (c = ":"%char \/ c = SP \/ c = TAB) /\ bad_address s)
  \/ (step mb flt s c = UB AtoiRange /\ (c = LF \/ c = SP \/ c = TAB) /\ bad_number s).
Proof.
  intros HI. unfold step. destruct (o_stopParsing s); [eauto|]. destruct (ceq c CR); [eauto|].
  destruct (ceq c LF) eqn:El; cnv.
  { destruct (eol_defined flt s HI) as [?|[? ?]]; [now left|]. right. right. auto. }
  destruct (o_skipRestOfTheLine s); [eauto|]. destruct (o_inAddress s) eqn:Ea.
  { unfold step_address. destruct (ceq c "/"); [eauto|]. destruct (ceq c ";"); [eauto|].
    destruct (ceq c ":") eqn:Ec; cnv.
    { destruct (address_defined s Ea) as [?|[? ?]]; [now left|]. right. left. auto. }
    destruct (is_whitespace c) eqn:Ew; [|eauto]. destruct (str_eqb _ _); [eauto|]. destruct (negb _); [|eauto].
    destruct (address_defined s Ea) as [[s' ->]|[-> ?]]; cbn [obind]; [eauto|]. right. left. split; [reflexivity|]. split; [|assumption].
    right. now apply ws_cases. }
  destruct (o_inLabel s); [eauto|]. destruct (o_inOpcodes s); [eauto|]. destruct (o_inRelocation s); [eauto|].
  destruct (o_inSectionStart s); [eauto|]. destruct (o_inSourceRef s); [|destruct (negb _); eauto].
  unfold step_sourceref. destruct (ceq c ":"); [eauto|]. destruct (_ && _) eqn:E; [|eauto].
  apply andb_true_iff in E as [E1 E2]. unfold updateSourceRefLineNumber.
  destruct (atoi (o_text s)) eqn:Eat; cbn [obind].
  - destruct (0 <? z); cbn [obind]; eauto.
  - right. right. split; [reflexivity|]. split; [right; now apply ws_cases|]. split; [exact E1|now left].
Qed.

Lemma C12_lemma mb flt s input : reachable mb flt s ->
  (exists s', fromStream mb flt s input = Ok s')
  \/ exists a c b s0, input = a ++ c :: b /\ fromStream mb flt s a = Ok s0 /\
     ((fromStream mb flt s input = UB ShiftRange /\ (c = ":"%char \/ c = SP \/ c = TAB) /\ bad_address s0)
      \/ (fromStream mb flt s input = UB AtoiRange /\ (c = LF \/ c = SP \/ c = TAB) /\ bad_number s0)).
Proof.
  intros Hr. apply Idx_reachable, Idx_start in Hr. unfold fromStream.
  set (x := set_o_inAddress true (set_o_total_lines 0 s)) in *. clearbody x. clear s. revert x Hr.
  induction input as [|c t IH]; intros x Hx; cbn [feed]; [eauto|].
  destruct (step_defined mb flt x c Hx) as [[x' E]|[(E & Hc & Hb)|(E & Hc & Hb)]].
  - rewrite E. cbn [obind]. destruct (IH x' (Idx_reachable_step _ _ _ _ _ Hx E)) as [?|(a & d & b & s0 & -> & H0 & H)]; [now left|].
    right. exists (c :: a), d, b, s0. split; [reflexivity|]. cbn [feed]. rewrite E. cbn [obind]. auto.
  - rewrite E. cbn [obind]. right. exists [], c, t, x. repeat split. left. auto.
  - rewrite E. cbn [obind]. right. exists [], c, t, x. repeat split. right. auto.
Qed.
