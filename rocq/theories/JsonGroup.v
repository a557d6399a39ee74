(** Digit grouping in the debug dump. *)
From Verif Require Export JsonDebug.

(** Reading a text with the stack of open objects (true) and arrays (false);
    [GOut true]: just after a comma.  After a comma in an object only white
    space or a quote may follow. *)
Inductive gmode := GOut (comma : bool) | GIn | GEsc.
Definition gstep (x : gmode * list bool) (c : char) : option (gmode * list bool) :=
  let (m, st) := x in
  match m with
  | GOut comma =>
      if is_ws c then Some (m, st)
      else if ceq c JQ then Some (GIn, st)
      else if ceq c "," then Some (GOut true, st)
      else if comma && hd false st then None
      else if ceq c "{" then Some (GOut false, true :: st)
      else if ceq c "[" then Some (GOut false, false :: st)
      else if ceq c "}" || ceq c "]" then Some (GOut false, tl st)
      else Some (GOut false, st)
  | GIn => Some (if ceq c JQ then GOut false else if ceq c JB then GEsc else GIn, st)
  | GEsc => Some (GIn, st)
  end.
Fixpoint gscan (x : gmode * list bool) (s : str) : option (gmode * list bool) :=
  match s with [] => Some x | c :: t => match gstep x c with Some y => gscan y t | None => None end end.
Lemma gscan_app a : forall x b, gscan x (a ++ b) = match gscan x a with Some y => gscan y b | None => None end.
Proof. induction a as [|c a IH]; intros x b; [reflexivity|]. cbn. destruct (gstep x c); [apply IH|reflexivity]. Qed.
Lemma gscan_then x y a b : gscan x a = Some y -> gscan x (a ++ b) = gscan y b.
Proof. intros H. now rewrite gscan_app, H. Qed.

Lemma jchars_gscan s l st : jchars s l -> gscan (GIn, st) s = Some (GIn, st).
Proof.
  induction 1 as [|c s l Hc H1 H2 Hs IH|e c s l He Hs IH|a b c d x y z w s l Ha Hb Hc Hd Hs IH]; [reflexivity| | |].
  - cbn [gscan gstep]. apply ceq_false in H1, H2. now rewrite H1, H2.
  - cbn [gscan gstep]. exact IH.
  - change (gscan (GIn, st) (a :: b :: c :: d :: s) = Some (GIn, st)).
    assert (Hx : forall h x, hex_digit h = Some x -> gstep (GIn, st) h = Some (GIn, st)).
    { intros h v Hh. apply hex_scan in Hh. cbn in Hh |- *. destruct (ceq h JQ); [discriminate|]. destruct (ceq h JB); [discriminate|reflexivity]. }
    apply Hx in Ha, Hb, Hc, Hd. cbn [gscan]. rewrite Ha, Hb, Hc, Hd. exact IH.
Qed.
Lemma jstring_gscan s t k st : jstring s t -> gscan (GOut k, st) s = Some (GOut false, st).
Proof.
  intros []. rewrite (gscan_then _ (GIn, st)) by reflexivity. rewrite (gscan_then _ (GIn, st)) by now apply (jchars_gscan _ _ _ H).
  reflexivity.
Qed.
Lemma ws_gscan w k st : ws w -> gscan (GOut k, st) w = Some (GOut k, st).
Proof. induction 1 as [|c w Hc Hw IH]; [reflexivity|]. cbn [gscan gstep]. now rewrite Hc. Qed.

(** Characters that only have to respect the rule after a comma. *)
Definition gplain (c : char) : bool :=
  negb (is_ws c || ceq c JQ || ceq c "," || ceq c "{" || ceq c "[" || ceq c "}" || ceq c "]").
Lemma gplain_step c k st : gplain c = true -> k && hd false st = false -> gstep (GOut k, st) c = Some (GOut false, st).
Proof.
  unfold gplain. rewrite negb_true_iff, !orb_false_iff. intros (((((( H1 & H2) & H3) & H4) & H5) & H6) & H7) Hk.
  cbn [gstep]. now rewrite H1, H2, H3, Hk, H4, H5, H6, H7.
Qed.
Lemma gplain_scan s : forall k st, s <> [] -> Forall (fun c => gplain c = true) s -> k && hd false st = false ->
  gscan (GOut k, st) s = Some (GOut false, st).
Proof.
  induction s as [|c s IH]; intros k st Hn H Hk; [congruence|]. inversion H; subst. cbn [gscan].
  rewrite gplain_step by assumption. destruct s; [reflexivity|]. apply IH; [congruence|assumption|reflexivity].
Qed.
Lemma digit_gplain c : is_digit c = true -> gplain c = true.
Proof. destruct c as [[] [] [] [] [] [] [] []]; cbn; congruence. Qed.
Lemma digits_gplain s : digits s -> Forall (fun c => gplain c = true) s.
Proof. apply Forall_impl. apply digit_gplain. Qed.
Lemma jint_gplain i : jint i -> i <> [] /\ Forall (fun c => gplain c = true) i.
Proof.
  intros []; split; try discriminate; [repeat constructor|]. constructor; [now apply digit_gplain|now apply digits_gplain].
Qed.
Lemma jnum_gplain s m e : jnum s m e -> s <> [] /\ Forall (fun c => gplain c = true) s.
Proof.
  intros [sg i f fs x e' Hs Hi Hf Hx]. apply jint_gplain in Hi as [Hn Hi]. split.
  - destruct Hs as [-> | ->]; [|discriminate]. destruct i; [congruence|discriminate].
  - apply Forall_app. split; [destruct Hs as [-> | ->]; repeat constructor|]. apply Forall_app. split; [exact Hi|].
    apply Forall_app. split.
    + destruct Hf; constructor; [reflexivity|now apply digits_gplain].
    + destruct Hx as [|e0 sg' ds He Hn' Hd Hsg]; [constructor|]. constructor; [destruct He as [-> | ->]; reflexivity|].
      apply Forall_app. split; [destruct Hsg as [-> |[-> | ->]]; repeat constructor|now apply digits_gplain].
Qed.

Lemma json_gscan :
  (forall s v, jvalue s v -> forall k st, k && hd false st = false -> gscan (GOut k, st) s = Some (GOut false, st)) /\
  (forall s l, jelements s l -> forall k st, gscan (GOut k, false :: st) s = Some (GOut false, false :: st)) /\
  (forall s l, jmembers s l -> forall k st, gscan (GOut k, true :: st) s = Some (GOut false, true :: st)).
Proof.
  apply json_mut.
  - intros. apply gplain_scan; [discriminate|repeat constructor|assumption].
  - intros. apply gplain_scan; [discriminate|repeat constructor|assumption].
  - intros. apply gplain_scan; [discriminate|repeat constructor|assumption].
  - intros s m e H k st Hk. apply jnum_gplain in H as [Hn H]. now apply gplain_scan.
  - intros s t H k st Hk. now apply (jstring_gscan _ _ _ _ H).
  - intros w Hw k st Hk. rewrite (gscan_then _ (GOut false, false :: st)) by (cbn; now rewrite Hk).
    rewrite (gscan_then _ (GOut false, false :: st)) by now apply ws_gscan. reflexivity.
  - intros s l _ IH k st Hk. rewrite (gscan_then _ (GOut false, false :: st)) by (cbn; now rewrite Hk).
    rewrite (gscan_then _ (GOut false, false :: st)) by apply IH. reflexivity.
  - intros w Hw k st Hk. rewrite (gscan_then _ (GOut false, true :: st)) by (cbn; now rewrite Hk).
    rewrite (gscan_then _ (GOut false, true :: st)) by now apply ws_gscan. reflexivity.
  - intros s l _ IH k st Hk. rewrite (gscan_then _ (GOut false, true :: st)) by (cbn; now rewrite Hk).
    rewrite (gscan_then _ (GOut false, true :: st)) by apply IH. reflexivity.
  - intros w1 s v w2 H1 _ IH H2 k st. rewrite (gscan_then _ (GOut k, false :: st)) by now apply ws_gscan.
    rewrite (gscan_then _ (GOut false, false :: st)) by (apply IH; apply andb_false_r). now apply ws_gscan.
  - intros w1 s v w2 t l H1 _ IH H2 _ IHt k st. rewrite (gscan_then _ (GOut k, false :: st)) by now apply ws_gscan.
    rewrite (gscan_then _ (GOut false, false :: st)) by (apply IH; apply andb_false_r).
    rewrite (gscan_then _ (GOut false, false :: st)) by now apply ws_gscan.
    rewrite (gscan_then _ (GOut true, false :: st)) by reflexivity. apply IHt.
  - intros w1 key n w2 w3 s v w4 H1 Hk H2 H3 _ IH H4 k st. rewrite (gscan_then _ (GOut k, true :: st)) by now apply ws_gscan.
    rewrite (gscan_then _ (GOut false, true :: st)) by now apply (jstring_gscan _ _ _ _ Hk).
    rewrite (gscan_then _ (GOut false, true :: st)) by now apply ws_gscan.
    rewrite (gscan_then _ (GOut false, true :: st)) by reflexivity.
    rewrite (gscan_then _ (GOut false, true :: st)) by now apply ws_gscan.
    rewrite (gscan_then _ (GOut false, true :: st)) by now apply IH. now apply ws_gscan.
  - intros w1 key n w2 w3 s v w4 t l H1 Hk H2 H3 _ IH H4 _ IHt k st. rewrite (gscan_then _ (GOut k, true :: st)) by now apply ws_gscan.
    rewrite (gscan_then _ (GOut false, true :: st)) by now apply (jstring_gscan _ _ _ _ Hk).
    rewrite (gscan_then _ (GOut false, true :: st)) by now apply ws_gscan.
    rewrite (gscan_then _ (GOut false, true :: st)) by reflexivity.
    rewrite (gscan_then _ (GOut false, true :: st)) by now apply ws_gscan.
    rewrite (gscan_then _ (GOut false, true :: st)) by now apply IH.
    rewrite (gscan_then _ (GOut false, true :: st)) by now apply ws_gscan.
    rewrite (gscan_then _ (GOut true, true :: st)) by reflexivity. apply IHt.
Qed.
Lemma json_text_gscan s v : json_text s v -> gscan (GOut false, []) s <> None.
Proof.
  intros (w1 & t & w2 & -> & H1 & H2 & H). rewrite (gscan_then _ (GOut false, [])) by now apply ws_gscan.
  rewrite (gscan_then _ (GOut false, [])) by now apply (proj1 json_gscan _ _ H). rewrite ws_gscan by assumption. discriminate.
Qed.

(** *** Grouped numbers *)
Definition small (z : Z) : Prop := -1000 < z < 1000.

Lemma group3_short l k : (length l <= k)%nat -> group3 l k = l.
Proof. revert k; induction l as [|d l IH]; intros k H; [reflexivity|]. cbn in H. destruct k; [lia|]. cbn. rewrite IH; [reflexivity|lia]. Qed.
Lemma group3_long l : forall k, (k < length l)%nat -> exists a d b, group3 l k = a ++ ","%char :: d :: b /\ In d l.
Proof.
  induction l as [|d l IH]; intros k H; [cbn in H; lia|]. destruct k.
  - exists [], d, (group3 l 2). split; [reflexivity|now left].
  - cbn in H. destruct (IH k) as (a & e & b & E & Hi); [lia|]. exists (d :: a), e, b. cbn [group3]. rewrite E. split; [reflexivity|now right].
Qed.

Lemma digit_code c : is_digit c = true -> 48 <= code c <= 57.
Proof. unfold is_digit, in_range. change (code "0") with 48. change (code "9") with 57. lia. Qed.
Lemma value_lt s : digits s -> 0 <= value s < 10 ^ Z.of_nat (length s).
Proof.
  induction s as [|c s IH] using rev_ind; intros H; [cbn; lia|]. apply Forall_app in H as [H1 H2]. inversion H2 as [|? ? Hc _]; subst.
  specialize (IH H1). apply digit_code in Hc. rewrite value_snoc, app_length, Nat2Z.inj_add, Z.pow_add_r by lia. cbn [length].
  change (10 ^ Z.of_nat 1) with 10. lia.
Qed.
Lemma value_ge c s : is_digit c = true -> c <> "0"%char -> digits s -> 10 ^ Z.of_nat (length s) <= value (c :: s).
Proof.
  intros Hc Hz. induction s as [|d s IH] using rev_ind; intros H.
  - cbn. destruct (Z.eq_dec (code c) 48) as [E|E]; [|apply digit_code in Hc; lia].
    exfalso. apply Hz. destruct c as [[] [] [] [] [] [] [] []]; cbn in E; try discriminate; reflexivity.
  - apply Forall_app in H as [H1 H2]. inversion H2 as [|? ? Hd _]; subst. apply digit_code in Hd. specialize (IH H1).
    rewrite app_comm_cons, value_snoc, app_length, Nat2Z.inj_add, Z.pow_add_r by lia. cbn [length].
    change (10 ^ Z.of_nat 1) with 10. unfold char in *. lia.
Qed.
Lemma jint_digits i : jint i -> digits i.
Proof. intros []; repeat constructor; assumption. Qed.
Lemma dec_length n : 0 <= n -> (length (dec_nat n) <= 3)%nat <-> n < 1000.
Proof.
  intros Hn. destruct (dec_nat_spec n Hn) as [Hi Hv]. split; intros H.
  - pose proof (value_lt _ (jint_digits _ Hi)) as [_ Hb]. rewrite Hv in Hb.
    assert (10 ^ Z.of_nat (length (dec_nat n)) <= 10 ^ 3) by (apply Z.pow_le_mono_r; lia). change (10 ^ 3) with 1000 in *. lia.
  - destruct Hi as [|c s Hc Hz Hs]; [cbn; lia|]. pose proof (value_ge _ _ Hc Hz Hs) as Hb. rewrite Hv in Hb. cbn [length].
    destruct (Nat.le_gt_cases (length s) 2) as [Hl|Hl]; [lia|].
    assert (10 ^ 3 <= 10 ^ Z.of_nat (length s)) by (apply Z.pow_le_mono_r; lia). change (10 ^ 3) with 1000 in *. lia.
Qed.
Lemma grp_nat_small n : 0 <= n < 1000 -> grp_nat n = dec_nat n.
Proof.
  intros H. unfold grp_nat. rewrite group3_short; [apply rev_involutive|]. rewrite rev_length. apply dec_length; lia.
Qed.
Lemma grp_small z : small z -> grp_Z z = dec_Z z.
Proof. unfold small, grp_Z, dec_Z. intros H. destruct (z <? 0) eqn:E; rewrite grp_nat_small by lia; reflexivity. Qed.

(** A comma followed by a digit, all of the text being digits, commas and a sign. *)
Lemma grouped_bad s st : Forall (fun c => gplain c = true \/ c = ","%char) s ->
  (exists a d b, s = a ++ ","%char :: d :: b /\ gplain d = true) -> forall k, gscan (GOut k, true :: st) s = None.
Proof.
  intros H (a & d & b & -> & Hd) k. revert k. induction a as [|c a IH]; intros k.
  - change (([] : str) ++ ","%char :: d :: b) with (","%char :: d :: b). change (gscan (GOut true, true :: st) (d :: b) = None).
    cbn [gscan gstep]. unfold gplain in Hd. rewrite negb_true_iff, !orb_false_iff in Hd.
    destruct Hd as (((((( H1 & H2) & H3) & H4) & H5) & H6) & H7). rewrite H1, H2, H3. reflexivity.
  - inversion H as [|? ? Hc Ha]; subst. specialize (IH Ha). cbn [app gscan]. destruct (gstep _ _) as [[m st']|] eqn:E; [|reflexivity].
    destruct Hc as [Hc| ->].
    + destruct k.
      * unfold gplain in Hc. rewrite negb_true_iff, !orb_false_iff in Hc.
        destruct Hc as (((((( H1 & H2) & H3) & H4) & H5) & H6) & H7). cbn [gstep] in E. rewrite H1, H2, H3 in E. discriminate.
      * rewrite gplain_step in E by auto. injection E as <- <-. apply IH.
    + cbn in E. injection E as <- <-. apply IH.
Qed.
Lemma group3_chars l : forall k, digits l -> Forall (fun c => gplain c = true \/ c = ","%char) (group3 l k).
Proof.
  induction l as [|d l IH]; intros k H; [constructor|]. inversion H as [|? ? Hd Hl]; subst. apply digit_gplain in Hd.
  destruct k; cbn [group3]; [constructor; [now right|]|]; (constructor; [now left|]); apply IH; exact Hl.
Qed.
Lemma digits_rev l : digits l -> digits (rev l).
Proof. apply Forall_rev. Qed.
Lemma group3_back l k : (k < length l)%nat -> (0 < k)%nat -> exists a d b, group3 l k = a ++ d :: ","%char :: b /\ In d l.
Proof.
  revert k; induction l as [|d l IH]; intros k H Hk; [cbn in H; lia|]. destruct k; [lia|]. cbn in H. cbn [group3]. destruct k.
  - destruct l as [|e l]; [cbn in H; lia|]. exists [], d, (e :: group3 l 2). split; [reflexivity|now left].
  - destruct (IH (S k)) as (a & e & b & E & Hi); [lia|lia|]. rewrite E. exists (d :: a), e, b. split; [reflexivity|now right].
Qed.
Lemma grp_nat_bad n : 1000 <= n -> Forall (fun c => gplain c = true \/ c = ","%char) (grp_nat n) /\
  exists a d b, grp_nat n = a ++ ","%char :: d :: b /\ gplain d = true.
Proof.
  intros H. destruct (dec_nat_spec n) as [Hi _]; [lia|]. apply jint_digits in Hi. unfold grp_nat. split.
  - apply Forall_rev, group3_chars. now apply digits_rev.
  - destruct (group3_back (rev (dec_nat n)) 3) as (a & d & b & E & Hd); [|lia|].
    + rewrite rev_length. destruct (Nat.le_gt_cases (length (dec_nat n)) 3) as [Hl|Hl]; [|exact Hl]. apply dec_length in Hl; lia.
    + exists (rev b), d, (rev a). rewrite E, rev_app_distr. cbn [rev]. rewrite <- !app_assoc. split; [reflexivity|].
      apply digit_gplain. apply in_rev in Hd. unfold digits in Hi. rewrite Forall_forall in Hi. now apply Hi.
Qed.
Lemma grp_scan z st : (small z -> gscan (GOut false, true :: st) (grp_Z z) = Some (GOut false, true :: st)) /\
  (gscan (GOut false, true :: st) (grp_Z z) <> None -> small z).
Proof.
  split.
  - intros H. rewrite grp_small by exact H. apply (proj1 json_gscan _ _ (dec_Z_value z)). reflexivity.
  - intros H. unfold small. destruct (Z_lt_dec (Z.abs z) 1000) as [Hz|Hz]; [lia|]. exfalso. apply H. unfold grp_Z.
    destruct (z <? 0) eqn:E.
    + destruct (grp_nat_bad (- z)) as [H1 (a & d & b & E1 & Hd)]; [lia|]. apply grouped_bad.
      * constructor; [now left|exact H1].
      * exists ("-"%char :: a), d, b. rewrite E1. auto.
    + destruct (grp_nat_bad z) as [H1 H2]; [lia|]. now apply grouped_bad.
Qed.

(** *** The parts of the dump *)
(** [s] is read inside an object or array and leaves it as it was, exactly if [P]. *)
Definition gp (b k : bool) (s : str) (P : Prop) : Prop :=
  forall st, (P -> gscan (GOut k, b :: st) s = Some (GOut false, b :: st)) /\ (gscan (GOut k, b :: st) s <> None -> P).
Lemma gp_iff b k s P Q : gp b k s P -> (P <-> Q) -> gp b k s Q.
Proof. intros H E st. destruct (H st) as [H1 H2]. split; rewrite <- E; assumption. Qed.
Lemma gp_nil b : gp b false [] True.
Proof. intros st. split; auto. Qed.
Lemma gscan_wrap x y z w u a s c (P : Prop) :
  gscan x a = Some y -> gscan z c = Some w -> (P -> gscan y s = Some z) /\ (gscan y s <> None -> P) -> w = u ->
  (P -> gscan x (a ++ s ++ c) = Some u) /\ (gscan x (a ++ s ++ c) <> None -> P).
Proof.
  intros Ha Hc [H1 H2] <-. rewrite (gscan_then _ _ _ _ Ha), gscan_app. split.
  - intros HP. rewrite (H1 HP). exact Hc.
  - intros H. apply H2. destruct (gscan y s); congruence.
Qed.
Lemma gp_obj b k s P : k && b = false -> gp true false s P -> gp b k (lit "{" ++ s ++ lit "}") P.
Proof.
  intros Hk H st. eapply (gscan_wrap _ (GOut false, true :: b :: st) (GOut false, true :: b :: st)); [|reflexivity|apply H|reflexivity].
  cbn. now rewrite Hk.
Qed.
Lemma gp_arr b k s P : k && b = false -> gp false false s P -> gp b k (lit "[" ++ s ++ lit "]") P.
Proof.
  intros Hk H st. eapply (gscan_wrap _ (GOut false, false :: b :: st) (GOut false, false :: b :: st)); [|reflexivity|apply H|reflexivity].
  cbn. now rewrite Hk.
Qed.
Lemma gp_seq b k m w t P Q : ws w -> gp b k m P -> gp b true t Q -> gp b k (m ++ (lit "," ++ w) ++ t) (P /\ Q).
Proof.
  intros Hw Hm Ht st. destruct (Hm st) as [M1 M2], (Ht st) as [T1 T2].
  assert (E : gscan (GOut false, b :: st) (lit "," ++ w) = Some (GOut true, b :: st)).
  { rewrite (gscan_then _ (GOut true, b :: st)) by reflexivity. now apply ws_gscan. }
  rewrite gscan_app. split.
  - intros [HP HQ]. rewrite (M1 HP), (gscan_then _ _ _ _ E). auto.
  - destruct (gscan (GOut k, b :: st) m) eqn:Em; [|congruence]. assert (HP : P) by (apply M2; congruence).
    specialize (M1 HP). injection M1 as ->. rewrite (gscan_then _ _ _ _ E). auto.
Qed.
Lemma gp_SEP b k m t P Q : gp b k m P -> gp b true t Q -> gp b k (m ++ SEP ++ t) (P /\ Q).
Proof. apply (gp_seq b k m [SP]). apply ws_SP. Qed.
Lemma gp_NL b k m t P Q : gp b k m P -> gp b true t Q -> gp b k (m ++ NL ++ t) (P /\ Q).
Proof. apply (gp_seq b k m [LF]). apply ws_LF. Qed.
Lemma gp_comma b k m t P Q : gp b k m P -> gp b true t Q -> gp b k (m ++ lit "," ++ t) (P /\ Q).
Proof. apply (gp_seq b k m []). apply ws_nil. Qed.
Lemma escape_gscan s st : gscan (GIn, st) (escape s) = Some (GIn, st).
Proof.
  induction s as [|c s IH]; [reflexivity|]. cbn [escape flat_map]. fold (escape s).
  rewrite (gscan_then _ (GIn, st)); [exact IH|]. unfold escape_char.
  destruct (ceq c TAB) eqn:E1; [reflexivity|]. destruct (ceq c BSL) eqn:E2; [reflexivity|]. destruct (ceq c DQ) eqn:E3; [reflexivity|].
  cbn. change JQ with DQ. change JB with BSL. now rewrite E2, E3.
Qed.
Lemma quoted_gscan s k st : gscan (GOut k, st) (quoted (escape s)) = Some (GOut false, st).
Proof.
  unfold quoted. rewrite (gscan_then _ (GIn, st)) by reflexivity. rewrite (gscan_then _ (GIn, st)) by apply escape_gscan. reflexivity.
Qed.
Lemma gp_value b k s : gp b k (writeValue s) True.
Proof. intros st. split; [intros _; apply quoted_gscan|auto]. Qed.
Lemma gp_kv b k n v P : gp b false v P -> gp b k (writeKeyName n ++ v) P.
Proof.
  intros H st. unfold writeKeyName. rewrite <- app_assoc, (gscan_then _ _ _ _ (quoted_gscan n k (b :: st))).
  rewrite (gscan_then _ (GOut false, b :: st)) by reflexivity. apply H.
Qed.
Lemma gp_kvstr b k n s : gp b k (writeKvStr n s) True.
Proof. apply gp_kv, gp_value. Qed.
Lemma gp_null b : gp b false (lit "null") True.
Proof. intros st. split; [reflexivity|auto]. Qed.
Lemma gp_int k n z : gp true k (writeKvInt grp_Z n z) (small z).
Proof. apply gp_kv. intros st. apply grp_scan. Qed.
Lemma gp_list {A} w (f : A -> str) (P : A -> Prop) b l : ws w -> (forall a k, In a l -> gp b k (f a) (P a)) ->
  gp b false (sep_list (lit "," ++ w) f l) (Forall P l).
Proof.
  intros Hw H. destruct l as [|a l]; [eapply gp_iff; [apply gp_nil|]; split; auto|]. cbn [sep_list].
  enough (E : forall k, gp b k (f a ++ sep_tail (lit "," ++ w) f l) (Forall P (a :: l))) by apply E.
  revert a H. induction l as [|a' l IH]; intros a H k.
  - cbn [sep_tail]. rewrite app_nil_r. eapply gp_iff; [apply H; now left|]. rewrite Forall_cons_iff. intuition.
  - cbn [sep_tail]. eapply gp_iff; [apply (gp_seq _ _ _ w); [exact Hw|apply H; now left|apply IH; intros; apply H; now right]|].
    rewrite (Forall_cons_iff P a). tauto.
Qed.

Section DebugGroup.
Variable flt : Filter.
(** The numbers a line shows. *)
Definition line_numbers (l : asm_line_v) : list Z :=
  (match lv_address l with Some a => [a] | None => [] end) ++
  (if has_source l then [sv_column (lv_source l); sv_line (lv_source l)] else []) ++
  flat_map (fun r => [r_start (lbv_range r); r_end (lbv_range r)]) (lv_labels l).

Lemma gp_refs l : gp true false (writeLabelArray grp_Z l)
  (Forall small (flat_map (fun r => [r_start (lbv_range r); r_end (lbv_range r)]) (lv_labels l))).
Proof.
  unfold writeLabelArray. apply gp_arr; [reflexivity|]. eapply gp_iff; [|symmetry; apply Forall_flat_map].
  apply (gp_list []); [constructor|]. intros r k _. unfold writeLabelRef.
  assert (E : gp false k (lit "{" ++ (writeKvStr (lit "name") (v_str (lbv_name r)) ++ SEP
    ++ writeKeyName (lit "range") ++ lit "{" ++ (writeKvInt grp_Z (lit "startCol") (r_start (lbv_range r)) ++ SEP
    ++ writeKvInt grp_Z (lit "endCol") (r_end (lbv_range r))) ++ lit "}") ++ lit "}")
    (True /\ small (r_start (lbv_range r)) /\ small (r_end (lbv_range r)))).
  { apply gp_obj; [apply andb_false_r|]. apply gp_SEP; [apply gp_kvstr|]. apply gp_kv. apply gp_obj; [reflexivity|]. apply gp_SEP; apply gp_int. }
  rewrite <- !app_assoc in E. eapply gp_iff; [exact E|]. rewrite !Forall_cons_iff. intuition.
Qed.
Lemma gp_source l : gp true false (writeSource grp_Z flt l)
  (Forall small (if has_source l then [sv_column (lv_source l); sv_line (lv_source l)] else [])).
Proof.
  unfold writeSource. fold (has_source l). destruct (has_source l); [|eapply gp_iff; [apply gp_null|]; intuition].
  set (file := match shown_file flt (v_str (sv_file (lv_source l))) with
        | None => writeKvNull (lit "file")
        | Some f => writeKvStr (lit "file") f
        end).
  assert (Hf : forall k, gp true k file True) by (intros k; unfold file; destruct (shown_file _ _); [apply gp_kvstr|apply gp_kv, gp_null]).
  assert (Hr : forall k, gp true k (file ++ SEP ++ writeKvStr (lit "mainsource") (bool_str (isMainSource (v_str (sv_file (lv_source l))))) ++ SEP
       ++ writeKvInt grp_Z (lit "line") (sv_line (lv_source l))) (small (sv_line (lv_source l)))).
  { intros k. eapply gp_iff; [apply gp_SEP; [apply Hf|apply gp_SEP; [apply gp_kvstr|apply gp_int]]|]. tauto. }
  destruct (sv_column (lv_source l) =? 0) eqn:E; cbn [negb].
  - apply Z.eqb_eq in E. rewrite E. pose proof (gp_obj true false _ _ eq_refl (Hr false)) as H. rewrite <- ?app_assoc in H.
    eapply gp_iff; [exact H|]. rewrite !Forall_cons_iff. unfold small; intuition; lia.
  - pose proof (gp_obj true false _ _ eq_refl (gp_SEP _ _ _ _ _ _ (gp_int false (lit "column") (sv_column (lv_source l))) (Hr true))) as H.
    rewrite <- ?app_assoc in H. rewrite <- ?app_assoc. eapply gp_iff; [exact H|]. rewrite !Forall_cons_iff. intuition.
Qed.

Lemma gp_line k l : gp false k (writeDebugLine grp_Z flt l) (Forall small (line_numbers l)).
Proof.
  unfold writeDebugLine.
  set (addr := match lv_address l with Some a => writeKvInt grp_Z (lit "address") a | None => writeKvNull (lit "address") end).
  assert (Ha : gp true true addr (Forall small (match lv_address l with Some a => [a] | None => [] end))).
  { unfold addr. destruct (lv_address l) as [a|].
    - eapply gp_iff; [apply gp_int|]. rewrite Forall_cons_iff. intuition.
    - eapply gp_iff; [apply gp_kv, gp_null|]. intuition. }
  unfold line_numbers.
  eassert (H : gp false k (lit "{" ++ (writeKvStr (lit "text") (lv_text l) ++ SEP
  ++ addr ++ SEP
  ++ writeKvStr (lit "is_data") (bool_str (lv_is_data l)) ++ SEP
  ++ writeKvStr (lit "is_used") (bool_str (lv_is_used l)) ++ SEP
  ++ writeKvStr (lit "is_label") (bool_str (lv_is_label l)) ++ SEP
  ++ writeKvStr (lit "is_internal_label") (bool_str (lv_is_internal_label l)) ++ SEP
  ++ writeKvStr (lit "is_inline_asm") (bool_str (lv_is_inline_asm l)) ++ SEP
  ++ writeKvStr (lit "closest_parent_label") (lv_closest_parent_label l) ++ SEP
  ++ writeKvStr (lit "section") (v_str (lv_section l)) ++ SEP
  ++ writeKvStr (lit "has_opcode") (bool_str (lv_has_opcode l)) ++ SEP
  ++ writeKvStr (lit "is_directive") (bool_str (lv_is_directive l)) ++ SEP
  ++ writeKvStr (lit "is_assignment") (bool_str (lv_is_assignment l)) ++ SEP
  ++ (writeKeyName (lit "source") ++ writeSource grp_Z flt l) ++ NL
  ++ (writeKeyName (lit "labels") ++ writeLabelArray grp_Z l)) ++ lit "}") _).
  { apply gp_obj; [apply andb_false_r|]. apply gp_SEP; [apply gp_kvstr|]. apply gp_SEP; [exact Ha|].
    do 10 (apply gp_SEP; [apply gp_kvstr|]). apply gp_NL; apply gp_kv; [apply gp_source|apply gp_refs]. }
  rewrite <- !app_assoc in H. eapply gp_iff; [exact H|]. rewrite !Forall_app. tauto.
Qed.

Lemma gp_table k e : gp true k (writeRefs e) True.
Proof.
  apply gp_kv. apply gp_arr; [reflexivity|]. eapply gp_iff; [apply (gp_list [SP] writeValue (fun _ => True)); [apply ws_SP|intros; apply gp_value]|].
  rewrite Forall_forall. intuition.
Qed.

Lemma debug_scan lines labels used weak data aliased :
  gscan (GOut false, []) (writeDebug grp_Z flt lines labels used weak data aliased) <> None ->
  Forall (fun l => Forall small (line_numbers l)) lines /\ Forall (fun e => small (snd e)) labels.
Proof.
  assert (H : gp true false ((writeKeyName (lit "asm") ++ lit "[" ++ sep_list (lit ",") (writeDebugLine grp_Z flt) lines ++ lit "]") ++ lit ","
  ++ writeLabelDefs grp_Z labels ++ NL
  ++ (writeKeyName (lit "used_labels") ++ lit "["
  ++ sep_list (lit ",") (fun e => lit "{" ++ writeRefs e ++ lit "}") used ++ lit "]") ++ NL
  ++ (writeKeyName (lit "used_weak_labels") ++ lit "{" ++ sep_list (lit ",") writeRefs weak ++ lit "}") ++ NL
  ++ (writeKeyName (lit "used_data_labels") ++ lit "{" ++ sep_list (lit ",") writeRefs data ++ lit "}") ++ NL
  ++ (writeKeyName (lit "aliased_labels") ++ lit "{"
  ++ sep_list SEP (fun kv => writeKvStr (fst kv) (snd kv)) aliased ++ lit "}"))
   (Forall (fun l => Forall small (line_numbers l)) lines /\ Forall (fun e => small (snd e)) labels /\
    Forall (fun _ => True) used /\ Forall (fun _ => True) weak /\ Forall (fun _ => True) data /\ Forall (fun _ => True) aliased)).
  { apply gp_comma; [|apply gp_NL; [|apply gp_NL; [|apply gp_NL; [|apply gp_NL]]]].
    - apply gp_kv, gp_arr; [reflexivity|]. apply (gp_list []); [constructor|]. intros l k _. apply gp_line.
    - apply gp_kv, gp_obj; [reflexivity|]. apply (gp_list [SP]); [apply ws_SP|]. intros. apply gp_int.
    - apply gp_kv, gp_arr; [reflexivity|]. apply (gp_list []); [constructor|]. intros e k _. apply gp_obj; [apply andb_false_r|]. apply gp_table.
    - apply gp_kv, gp_obj; [reflexivity|]. apply (gp_list []); [constructor|]. intros. apply gp_table.
    - apply gp_kv, gp_obj; [reflexivity|]. apply (gp_list []); [constructor|]. intros. apply gp_table.
    - apply gp_kv, gp_obj; [reflexivity|]. apply (gp_list [SP]); [apply ws_SP|]. intros. apply gp_kvstr. }
  unfold writeDebug. intros Hs. destruct (H []) as [_ H2]. rewrite <- !app_assoc in H2. change (lit "],") with (lit "]" ++ lit ",") in Hs.
  rewrite <- !app_assoc in Hs. rewrite (gscan_then _ (GOut false, [true])) in Hs by reflexivity.
  assert (E : Forall (fun l => Forall small (line_numbers l)) lines /\ Forall (fun e => small (snd e)) labels /\
    Forall (fun _ => True) used /\ Forall (fun _ => True) weak /\ Forall (fun _ => True) data /\ Forall (fun _ => True) aliased); [|tauto].
  apply H2. intros Hn. apply Hs.
  match goal with |- gscan _ ?x = None => match type of Hn with gscan _ ?y = None => replace x with (y ++ lit "}") by (rewrite <- !app_assoc; reflexivity) end end.
  rewrite gscan_app, Hn. reflexivity.
Qed.

(** With small numbers grouping makes no difference. *)
Lemma sep_list_ext {A} sep (f g : A -> str) l : (forall a, In a l -> f a = g a) -> sep_list sep f l = sep_list sep g l.
Proof.
  intros H. assert (Ht : forall l, (forall a, In a l -> f a = g a) -> sep_tail sep f l = sep_tail sep g l).
  { clear l H. induction l as [|a l IH]; intros H; [reflexivity|]. cbn [sep_tail]. rewrite (H a) by now left.
    rewrite IH; [reflexivity|]. intros. apply H. now right. }
  destruct l as [|a l]; [reflexivity|]. cbn [sep_list]. rewrite (H a) by now left. rewrite Ht; [reflexivity|]. intros. apply H. now right.
Qed.
Lemma small_int n z : small z -> writeKvInt grp_Z n z = writeKvInt dec_Z n z.
Proof. intros H. unfold writeKvInt. now rewrite grp_small. Qed.
Lemma debug_small lines labels used weak data aliased :
  Forall (fun l => Forall small (line_numbers l)) lines -> Forall (fun e => small (snd e)) labels ->
  writeDebug grp_Z flt lines labels used weak data aliased = writeDebug dec_Z flt lines labels used weak data aliased.
Proof.
  intros H1 H2. rewrite Forall_forall in H1, H2. unfold writeDebug, writeLabelDefs.
  rewrite (sep_list_ext _ (fun kv => writeKvInt grp_Z (fst kv) (snd kv)) (fun kv => writeKvInt dec_Z (fst kv) (snd kv)) labels)
    by (intros e He; apply small_int; now apply H2).
  rewrite (sep_list_ext _ (writeDebugLine grp_Z flt) (writeDebugLine dec_Z flt) lines); [reflexivity|].
  intros l Hl. specialize (H1 l Hl). unfold line_numbers in H1. rewrite !Forall_app in H1. destruct H1 as (Ha & Hs & Hr).
  unfold writeDebugLine. replace (writeLabelArray grp_Z l) with (writeLabelArray dec_Z l).
  2: { unfold writeLabelArray. f_equal. f_equal. apply sep_list_ext. intros r Hi. rewrite Forall_flat_map, Forall_forall in Hr.
       specialize (Hr r Hi). rewrite !Forall_cons_iff in Hr. destruct Hr as (R1 & R2 & _). unfold writeLabelRef.
       now rewrite !small_int by assumption. }
  replace (writeSource grp_Z flt l) with (writeSource dec_Z flt l).
  2: { unfold writeSource. fold (has_source l). destruct (has_source l); [|reflexivity]. rewrite !Forall_cons_iff in Hs.
       destruct Hs as (S1 & S2 & _). now rewrite !small_int by assumption. }
  destruct (lv_address l) as [a|]; [|reflexivity]. rewrite Forall_cons_iff in Ha. rewrite small_int by apply Ha. reflexivity.
Qed.
End DebugGroup.
