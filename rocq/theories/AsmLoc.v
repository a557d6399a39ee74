(** The text parser: lines that give locations, in terms of their text. *)
From Coq Require Import Sorted.
From Verif Require Import RegexHead AsmLemmas AsmRead AsmMark AsmTrace AsmThms AsmPlace.

Definition blank (c : char) : Prop := c = SP \/ c = TAB.
Definition digit (c : char) : Prop := 48 <= code c <= 57.
Definition blanks (u : str) : Prop := Forall blank u.
Definition gap (u : str) : Prop := u <> [] /\ blanks u.
Definition numeral (u : str) : Prop := u <> [] /\ Forall digit u.
Definition ends_number (t : str) : Prop := match t with c :: _ => ~ digit c | [] => True end.
(** [t] continues with a gap and a number. *)
Definition more_number (t : str) : Prop := exists u c r, t = u ++ c :: r /\ gap u /\ digit c.

Lemma blank_iff c : is_hspace c = true <-> blank c.
Proof. unfold is_hspace, blank. rewrite orb_true_iff, !ceq_true. intuition. Qed.
Lemma digit_iff c : is_digit c = true <-> digit c.
Proof.
  unfold is_digit, in_range, digit. rewrite andb_true_iff, !Z.leb_le.
  change (code "0") with 48. change (code "9") with 57. reflexivity.
Qed.
Lemma blanks_iff u : Forall (fun c => is_hspace c = true) u <-> blanks u.
Proof. unfold blanks. split; apply Forall_impl; intros c; apply blank_iff. Qed.
Lemma digits_iff u : Forall (fun c => is_digit c = true) u <-> Forall digit u.
Proof. split; apply Forall_impl; intros c; apply digit_iff. Qed.
Lemma blank_not_digit c : blank c -> ~ digit c.
Proof. intros [-> | ->]; unfold digit; vm_compute; intros [A B]; congruence. Qed.
Lemma digit_not_blank c : digit c -> is_hspace c = false.
Proof. intros H. destruct (is_hspace c) eqn:E; [|reflexivity]. apply blank_iff in E. now apply blank_not_digit in E. Qed.
Lemma blank_no_digit c : blank c -> is_digit c = false.
Proof. intros H. destruct (is_digit c) eqn:E; [|reflexivity]. apply digit_iff in E. now apply blank_not_digit in H. Qed.
Lemma stop_digit t : ends_number t -> match t with c :: _ => is_digit c = false | [] => True end.
Proof. destruct t as [|c t]; [trivial|]. cbn. intros H. destruct (is_digit c) eqn:E; [|reflexivity]. now apply digit_iff in E. Qed.
Lemma gap_stop u t : gap u -> match u ++ t with c :: _ => is_digit c = false | [] => True end.
Proof. intros [Hn Hu]. destruct u as [|c u]; [congruence|]. inversion Hu; subst. cbn. now apply blank_no_digit. Qed.
Lemma numeral_stop u t : numeral u -> match u ++ t with c :: _ => is_hspace c = false | [] => True end.
Proof. intros [Hn Hu]. destruct u as [|c u]; [congruence|]. inversion Hu; subst. cbn. now apply digit_not_blank. Qed.

Ltac piece := first
  [ apply heads_bol
  | apply heads_L
  | apply heads_any
  | apply heads_plus; [assumption|assumption|assumption]
  | apply heads_star; [assumption|assumption] ].
Lemma heads_digits n pos u t caps : numeral u -> ends_number t ->
  heads (Grp n (Plus (Cls is_digit))) (mkM pos (u ++ t) caps) (mkM (pos + length u)%nat t ((n, (pos, u)) :: caps)).
Proof. intros [Hn Hu] Ht. apply heads_grp, heads_plus; [assumption|now apply digits_iff|now apply stop_digit]. Qed.
Lemma heads_gap pos u t caps : gap u -> match t with c :: _ => is_hspace c = false | [] => True end ->
  heads HP (mkM pos (u ++ t) caps) (mkM (pos + length u)%nat t caps).
Proof. intros [Hn Hu] Ht. apply heads_plus; [assumption|now apply blanks_iff|assumption]. Qed.
Lemma heads_blanks pos u t caps : blanks u -> match t with c :: _ => is_hspace c = false | [] => True end ->
  heads HS (mkM pos (u ++ t) caps) (mkM (pos + length u)%nat t caps).
Proof. intros Hu Ht. apply heads_star; [now apply blanks_iff|assumption]. Qed.
Lemma gap_ends u t : gap u -> ends_number (u ++ t).
Proof. intros [Hn Hu]. destruct u as [|c u]; [congruence|]. inversion Hu; subst. cbn. now apply blank_not_digit. Qed.

(** [.loc F N] and [.loc F N C] *)
Lemma loc_two u v a w b t : blanks u -> gap v -> numeral a -> gap w -> numeral b -> ends_number t ->
  exists st, re_match sourceTag (u ++ lit ".loc" ++ v ++ a ++ w ++ b ++ t) = Some st /\ cap 1 st = a /\ cap 2 st = b.
Proof.
  intros Hu Hv Ha Hw Hb Ht. eexists. split; [|split].
  - apply heads_whole. unfold sourceTag.
    hseq; [apply heads_bol|]. hseq; [apply heads_blanks; [assumption|reflexivity]|]. hseq; [apply heads_L|].
    hseq; [apply heads_gap; [assumption|now apply numeral_stop]|].
    hseq; [apply heads_digits; [assumption|now apply gap_ends]|].
    hseq; [apply heads_gap; [assumption|now apply numeral_stop]|].
    hseq; [apply heads_digits; [assumption|assumption]|]. apply heads_any.
  - reflexivity.
  - reflexivity.
Qed.
Lemma loc_three u v a w b x c t : blanks u -> gap v -> numeral a -> gap w -> numeral b -> gap x -> numeral c -> ends_number t ->
  exists st, re_match sourceTagWithColumn (u ++ lit ".loc" ++ v ++ a ++ w ++ b ++ x ++ c ++ t) = Some st /\ cap 3 st = c.
Proof.
  intros Hu Hv Ha Hw Hb Hx Hc Ht. eexists. split.
  - apply heads_whole. unfold sourceTagWithColumn.
    hseq; [apply heads_bol|]. hseq; [apply heads_blanks; [assumption|reflexivity]|]. hseq; [apply heads_L|].
    hseq; [apply heads_gap; [assumption|now apply numeral_stop]|].
    hseq; [apply heads_digits; [assumption|now apply gap_ends]|].
    hseq; [apply heads_gap; [assumption|now apply numeral_stop]|].
    hseq; [apply heads_digits; [assumption|now apply gap_ends]|].
    hseq; [apply heads_gap; [assumption|now apply numeral_stop]|].
    hseq; [apply heads_digits; [assumption|assumption]|]. apply heads_any.
  - reflexivity.
Qed.
Lemma loc_no_column u v a w b t : blanks u -> gap v -> numeral a -> gap w -> numeral b -> ends_number t -> ~ more_number t ->
  re_match sourceTagWithColumn (u ++ lit ".loc" ++ v ++ a ++ w ++ b ++ t) = None.
Proof.
  intros Hu Hv Ha Hw Hb Ht Hno. destruct (re_match sourceTagWithColumn _) as [st|] eqn:E; [exfalso|reflexivity].
  assert (H : is_some (re_match sourceTagWithColumn (u ++ lit ".loc" ++ v ++ a ++ w ++ b ++ t)) = true) by now rewrite E. clear E.
  apply (bol_hs_match ".loc") in H. destruct H as (u' & t' & E & Hu' & H). apply blanks_iff in Hu.
  apply run_unique with (p := is_hspace) in E; [|assumption|assumption|reflexivity|reflexivity]. destruct E as [<- E].
  apply app_inv_head in E. subst t'. cbn [Seqs] in H.
  repeat (rewrite den_seq_iff in H; let x := fresh "x" in let y := fresh "y" in let E := fresh "E" in let D := fresh "D" in destruct H as (x & y & E & D & H)).
  rewrite ?den_grp_iff, ?den_hp_iff, ?den_plus_iff in *.
  destruct Hv as [Hv0 Hv], Ha as [Ha0 Ha], Hw as [Hw0 Hw], Hb as [Hb0 Hb].
  destruct D as [Q0 Q], D0 as [F0 F], D1 as [G0 G], D2 as [I0 I], D3 as [J0 J], D4 as [K0 K].
  subst y y0 y1 y2 y3.
  apply blanks_iff in Hv, Hw. apply digits_iff in Ha, Hb.
  apply run_unique with (p := is_hspace) in E; [|assumption|assumption| |].
  2:{ apply numeral_stop. split; [assumption|now apply digits_iff]. }
  2:{ apply numeral_stop. split; [assumption|now apply digits_iff]. }
  destruct E as [-> E].
  apply run_unique with (p := is_digit) in E; [|assumption|assumption| |].
  2:{ apply gap_stop. split; [assumption|now apply blanks_iff]. }
  2:{ apply gap_stop. split; [assumption|now apply blanks_iff]. }
  destruct E as [-> E].
  apply run_unique with (p := is_hspace) in E; [|assumption|assumption| |].
  2:{ apply numeral_stop. split; [assumption|now apply digits_iff]. }
  2:{ apply numeral_stop. split; [assumption|now apply digits_iff]. }
  destruct E as [-> E].
  apply run_unique with (p := is_digit) in E; [|assumption|assumption|now apply stop_digit|].
  2:{ apply gap_stop. split; [assumption|now apply blanks_iff]. }
  destruct E as [-> E]. subst t. apply Hno. destruct x4 as [|c r]; [congruence|].
  inversion K; subst. eexists x3, c, (r ++ y4). split; [reflexivity|]. split; [split; [assumption|now apply blanks_iff]|now apply digit_iff].
Qed.

(** What a location directive looks like. *)
Definition location_words : list string := [".file"; ".loc"; ".stabn"; ".dbg"; ".d2line"; ".d2file"]%string.
Definition begins (w : string) (t : str) : Prop := exists u r, t = u ++ lit w ++ r /\ blanks u.
Lemma match_begins w r t : is_some (re_match (Seqs [Bol; HS; L w; r]) t) = true -> begins w t.
Proof. intros H. apply bol_hs_match in H. destruct H as (u & r' & -> & Hu & _). exists u, r'. split; [reflexivity|now apply blanks_iff]. Qed.
Lemma search_begins w r t : is_some (re_search (Seqs [Bol; HS; L w; r]) t) = true -> begins w t.
Proof.
  rewrite re_search_den. intros (a & u & b & -> & H). cbn [Seqs] in H. rewrite den_bol_seq in H. destruct H as [-> H].
  rewrite den_seq_iff in H. destruct H as (x & v & -> & Hu & H). rewrite den_hs_iff in Hu.
  rewrite den_seq_iff in H. destruct H as (y & r' & -> & Hx & H). rewrite den_L_iff in Hx. subst y.
  exists x, (r' ++ b). split; [|now apply blanks_iff]. cbn [app]. now rewrite <- !app_assoc.
Qed.
Lemma not_some {A} (o : option A) : (is_some o = true -> False) -> o = None.
Proof. destruct o; [intros H; now destruct H|reflexivity]. Qed.
Lemma place_directive_none w t : (forall x, In x location_words -> ~ begins x t) -> place_directive w t = None.
Proof.
  intros H. unfold place_directive, getFileDef, getSourceRef, getSourceInfoFromStabs, get6502DbgInfo, getD2LineInfo, getD2FileInfo.
  rewrite (not_some (re_match fileFind t)); [|intros X; apply (H ".file"%string); [cbn; tauto|exact (match_begins ".file" _ _ X)]].
  rewrite (not_some (re_match sourceTag t)); [|intros X; apply (H ".loc"%string); [cbn; tauto|exact (match_begins ".loc" _ _ X)]].
  rewrite (not_some (re_search sourceStab t)); [|intros X; apply (H ".stabn"%string); [cbn; tauto|exact (search_begins ".stabn" _ _ X)]].
  rewrite (not_some (re_match source6502Dbg t)); [|intros X; apply (H ".dbg"%string); [cbn; tauto|exact (match_begins ".dbg" _ _ X)]].
  rewrite (not_some (re_search source6502DbgEnd t)); [|intros X; apply (H ".dbg"%string); [cbn; tauto|exact (search_begins ".dbg" _ _ X)]].
  rewrite (not_some (re_match sourceD2Tag t)); [|intros X; apply (H ".d2line"%string); [cbn; tauto|exact (match_begins ".d2line" _ _ X)]].
  rewrite (not_some (re_match sourceD2File t)); [|intros X; apply (H ".d2file"%string); [cbn; tauto|exact (match_begins ".d2file" _ _ X)]].
  reflexivity.
Qed.
(** The words that end a block, and the one that starts a procedure, anywhere in a line. *)
Definition occurs (w : string) (t : str) : Prop := exists a b, t = a ++ lit w ++ b.
Definition end_words : list string := [".cfi_endproc"; ".data"; ".text"; ".section"]%string.
Lemma end_block_iff t : endBlock t = true <-> exists w, In w end_words /\ occurs w t.
Proof.
  unfold endBlock. rewrite re_search_den. unfold endBlockRe. split.
  - intros (a & u & b & -> & H). rewrite den_seq_iff in H. destruct H as (x & y & -> & Hx & H). rewrite den_chr_iff in Hx. subst x.
    rewrite den_grp_iff in H. cbn [Alts] in H. rewrite !den_alt_iff, !den_L_iff in H.
    destruct H as [-> |[-> |[-> | ->]]]; [exists ".cfi_endproc"%string|exists ".data"%string|exists ".text"%string|exists ".section"%string];
      (split; [cbn; tauto|exists a, b; reflexivity]).
  - intros (w & Hw & a & b & ->). exists a, (lit w), b. split; [reflexivity|]. rewrite den_seq_iff.
    exists (lit "."), (tl (lit w)). cbn [In end_words] in Hw.
    assert (E : lit w = lit "." ++ tl (lit w)) by (destruct Hw as [<-|[<-|[<-|[<-|[]]]]]; reflexivity).
    split; [exact E|]. rewrite den_chr_iff, den_grp_iff. split; [reflexivity|]. cbn [Alts]. rewrite !den_alt_iff, !den_L_iff.
    destruct Hw as [<-|[<-|[<-|[<-|[]]]]]; cbn; tauto.
Qed.
Lemma start_proc_iff t : startProcBlock t = true <-> occurs ".cfi_startproc" t.
Proof.
  unfold startProcBlock. rewrite re_search_den. unfold startProcBlockRe. split.
  - intros (a & u & b & -> & H). apply den_L_iff in H. subst u. now exists a, b.
  - intros (a & b & ->). exists a, (lit ".cfi_startproc"), b. split; [reflexivity|now apply den_L_iff].
Qed.

(** A line that gives no location and ends no block. *)
Record neutral (t : str) : Prop := {
  ne_end : forall w, In w end_words -> ~ occurs w t;
  ne_loc : forall w, In w location_words -> ~ begins w t }.
Lemma end_block_false t : (forall w, In w end_words -> ~ occurs w t) -> endBlock t = false.
Proof. intros H. destruct (endBlock t) eqn:E; [|reflexivity]. apply end_block_iff in E as (w & Hw & Ho). now apply H in Ho. Qed.
Lemma neutral_kept flt w raw t : neutral t -> pl_cuda w = false \/ ~ In "}"%char t -> pl_spot (place_text flt w raw t) = pl_spot w.
Proof.
  intros [He Hl] Hc. unfold place_text. destruct (_ && _); [reflexivity|]. rewrite (end_block_false t He). cbn [orb].
  assert (E : pl_cuda w && has_char "}" t = false).
  { destruct Hc as [-> |Hc]; [reflexivity|]. destruct (has_char "}" t) eqn:E; [|apply andb_false_r].
    apply has_char_In in E. contradiction. }
  rewrite E, (place_directive_none w t Hl). reflexivity.
Qed.
(** A line that ends a block. *)
Lemma end_forgets flt w raw t x : In x end_words -> occurs x t -> ~ occurs ".cfi_startproc" t -> pl_spot (place_text flt w raw t) = spot0.
Proof.
  intros Hx Ho Hs. unfold place_text. assert (E : startProcBlock t = false).
  { destruct (startProcBlock t) eqn:E; [|reflexivity]. now apply start_proc_iff in E. }
  rewrite E. cbn [andb]. rewrite andb_false_r. assert (E2 : endBlock t = true) by (apply end_block_iff; eauto). rewrite E2. reflexivity.
Qed.

(** A .loc line. *)
Definition loc_text (t a b : str) (c : option str) : Prop := exists u v w r, t = u ++ lit ".loc" ++ v ++ a ++ w ++ b ++ r /\
  blanks u /\ gap v /\ gap w /\ numeral a /\ numeral b /\
  match c with
  | Some c => exists x y, r = x ++ c ++ y /\ gap x /\ numeral c /\ ends_number y
  | None => ends_number r /\ ~ more_number r
  end.
Definition number (n : str) : Z := if dec_value n <=? 2147483647 then dec_value n else 0.
Lemma loc_source_ref t a b c : loc_text t a b c ->
  getSourceRef t = (number a, number b, match c with Some c => number c | None => 0 end).
Proof.
  intros (u & v & w & r & -> & Hu & Hv & Hw & Ha & Hb & Hr). unfold getSourceRef. destruct c as [c|].
  - destruct Hr as (x & y & -> & Hx & Hc & Hy).
    destruct (loc_two u v a w b (x ++ c ++ y)) as (st & -> & -> & ->); try assumption; [now apply gap_ends|].
    destruct (loc_three u v a w b x c y) as (st2 & -> & ->); try assumption. reflexivity.
  - destruct Hr as [Hr Hm]. destruct (loc_two u v a w b r) as (st & -> & -> & ->); try assumption.
    rewrite loc_no_column by assumption. reflexivity.
Qed.
Lemma loc_sets flt w raw t a b c : loc_text t a b c -> 0 < dec_value a <= 2147483647 ->
  (forall x, In x end_words -> ~ occurs x t) -> ~ occurs ".cfi_startproc" t -> pl_cuda w = false \/ ~ In "}"%char t ->
  let p := pl_spot w in
  place_text flt w raw t = mkPlace (mkSpot (sp_file p) (dec_value a) (number b) (match c with Some c => number c | None => 0 end)
     (sp_end p) (sp_user p) true) (pl_file w) (pl_files w) (pl_cuda w).
Proof.
  intros Hl Ha He Hs Hc. cbv zeta. unfold place_text.
  assert (E : startProcBlock t = false).
  { destruct (startProcBlock t) eqn:E; [|reflexivity]. now apply start_proc_iff in E. }
  rewrite E. cbn [andb]. rewrite andb_false_r, (end_block_false t He). cbn [orb].
  assert (E2 : pl_cuda w && has_char "}" t = false).
  { destruct Hc as [-> |Hc]; [reflexivity|]. destruct (has_char "}" t) eqn:E2; [|apply andb_false_r].
    apply has_char_In in E2. contradiction. }
  rewrite E2. unfold place_directive.
  assert (E3 : getFileDef t = None).
  { unfold getFileDef. rewrite (not_some (re_match fileFind t)); [reflexivity|]. intros X. apply (match_begins ".file") in X.
    destruct X as (u' & r' & E3 & Hu'), Hl as (u & v & y & r & -> & Hu & _).
    apply run_unique with (p := is_hspace) in E3; [|now apply blanks_iff..|reflexivity|reflexivity]. destruct E3 as [_ E3]. discriminate E3. }
  rewrite E3, (loc_source_ref t a b c Hl). assert (E4 : number a = dec_value a) by (unfold number; destruct (Z.leb_spec (dec_value a) 2147483647); lia).
  rewrite E4. destruct (Z.eqb_spec (dec_value a) 0); [lia|]. reflexivity.
Qed.
(** File 0 is not taken as a location. *)
Lemma begins_loc x t : begins ".loc" t -> begins x t -> In x location_words -> x = ".loc"%string.
Proof.
  intros (u & r & -> & Hu) (v & q & E & Hv) Hx. apply blanks_iff in Hu, Hv.
  apply run_unique with (p := is_hspace) in E; [|assumption|assumption|reflexivity|].
  2:{ cbn [In location_words] in Hx. repeat (destruct Hx as [<-|Hx]; [reflexivity|]). contradiction. }
  destruct E as [_ E]. cbn [In location_words] in Hx.
  repeat (destruct Hx as [<-|Hx]; [first [reflexivity|discriminate E]|]). contradiction.
Qed.
Lemma loc_zero flt w raw t a b c : loc_text t a b c -> dec_value a = 0 ->
  (forall x, In x end_words -> ~ occurs x t) -> pl_cuda w = false \/ ~ In "}"%char t ->
  pl_spot (place_text flt w raw t) = pl_spot w.
Proof.
  intros Hl Ha He Hc. unfold place_text. destruct (_ && _); [reflexivity|]. rewrite (end_block_false t He). cbn [orb].
  assert (E2 : pl_cuda w && has_char "}" t = false).
  { destruct Hc as [-> |Hc]; [reflexivity|]. destruct (has_char "}" t) eqn:E2; [|apply andb_false_r].
    apply has_char_In in E2. contradiction. }
  rewrite E2. pose proof (loc_source_ref t a b c Hl) as E.
  assert (Hb : begins ".loc" t) by (destruct Hl as (u & v & y & r & -> & Hu & _); eexists u, _; split; [reflexivity|assumption]).
  assert (H : forall x, In x location_words -> x <> ".loc"%string -> ~ begins x t) by (intros x Hx Hn X; apply Hn; now apply (begins_loc x t)).
  unfold place_directive. rewrite E. unfold number. rewrite Ha. cbn [Z.leb Z.compare Z.eqb negb].
  unfold getFileDef, getSourceInfoFromStabs, get6502DbgInfo, getD2LineInfo, getD2FileInfo.
  rewrite (not_some (re_match fileFind t)); [|intros X; apply (H ".file"%string); [cbn; tauto|discriminate|exact (match_begins ".file" _ _ X)]].
  rewrite (not_some (re_search sourceStab t)); [|intros X; apply (H ".stabn"%string); [cbn; tauto|discriminate|exact (search_begins ".stabn" _ _ X)]].
  rewrite (not_some (re_match source6502Dbg t)); [|intros X; apply (H ".dbg"%string); [cbn; tauto|discriminate|exact (match_begins ".dbg" _ _ X)]].
  rewrite (not_some (re_search source6502DbgEnd t)); [|intros X; apply (H ".dbg"%string); [cbn; tauto|discriminate|exact (search_begins ".dbg" _ _ X)]].
  rewrite (not_some (re_match sourceD2Tag t)); [|intros X; apply (H ".d2line"%string); [cbn; tauto|discriminate|exact (match_begins ".d2line" _ _ X)]].
  rewrite (not_some (re_match sourceD2File t)); [|intros X; apply (H ".d2file"%string); [cbn; tauto|discriminate|exact (match_begins ".d2file" _ _ X)]].
  reflexivity.
Qed.

(** *** The output *)
(** The location shown for a line, given the file table at the end. *)
Definition located (files : list (Z * str)) (p : spot) : spot :=
  if sp_idx p =? 0 then p
  else match files_at files (sp_idx p) with
       | Some f => mkSpot f (sp_idx p) (sp_line p) (sp_col p) (sp_end p) (isExampleOrStdin f || sp_user p) (sp_inside p)
       | None => spot0
       end.
Lemma shown_spot s l : spot_of (lv_source (shown s l)) = located (t_files s) (spot_of (lv_source l)).
Proof.
  unfold shown, resolve_file, located, filterOutReferedLabelsThatArentDefined. tsimp. vsimp. cbn [sp_idx spot_of].
  destruct (sv_file_idx (lv_source l) =? 0); [reflexivity|]. cbn [negb]. destruct (files_at _ _); [|reflexivity].
  cbn. unfold spot_of. cbn. destruct (isExampleOrStdin s0); reflexivity.
Qed.
(** An output line that comes from line [k] of the input. *)
Definition comes_from (flt : Filter) (files : list (Z * str)) (cs : list cand) (k : nat) (l : asm_line_v) : Prop :=
  match nth_error cs k with
  | Some (CText raw nest) => lv_text l = clean flt nest raw /\
      (lv_is_label l = false -> spot_of (lv_source l) = located files (pl_spot (places flt (firstn (S k) cs))))
  | Some (CBlank _) => lv_text l = [] /\ lv_is_label l = false /\ spot_of (lv_source l) = spot0
  | _ => False
  end.
Lemma subseq_select {A B} (R : A -> B -> Prop) ks : forall ls, Forall2 R ks ls -> forall sub, subseq sub ls ->
  exists js, subseq js ks /\ Forall2 R js sub.
Proof.
  intros ls H. induction H as [|k l ks ls Hk _ IH]; intros sub Hs.
  - inversion Hs; subst. exists []. split; constructor.
  - inversion Hs; subst.
    + destruct (IH _ H1) as (js & J1 & J2). exists (k :: js). split; now constructor.
    + destruct (IH _ H1) as (js & J1 & J2). exists js. split; [now constructor|assumption].
Qed.
Lemma subseq_sorted (js ks : list nat) : subseq js ks -> StronglySorted lt ks -> StronglySorted lt js.
Proof.
  induction 1 as [|k js ks H IH|k js ks H IH]; intros S; [constructor| |]; inversion S; subst; auto.
  constructor; [auto|]. apply Forall_forall. intros x Hx. rewrite Forall_forall in H3. apply H3. eapply subseq_in; eassumption.
Qed.
(** A .file line with one name, or with a directory and a name. *)
Definition quoted (s : str) : str := DQ :: s ++ [DQ].
Lemma quoted_app f r : quoted f ++ r = DQ :: f ++ DQ :: r.
Proof. unfold quoted. cbn. now rewrite <- app_assoc. Qed.
Definition file_name (s : str) : Prop := s <> [] /\ ~ In DQ s.
Lemma not_dq_all s : ~ In DQ s -> Forall (fun c => not_dq c = true) s.
Proof.
  intros H. apply Forall_forall. intros c Hc. unfold not_dq. destruct (ceq c DQ) eqn:E; [|reflexivity].
  apply ceq_true in E. now subst.
Qed.
Lemma heads_name n pos f t caps : file_name f ->
  heads (Grp n (Plus (Cls not_dq))) (mkM pos (f ++ DQ :: t) caps) (mkM (pos + length f)%nat (DQ :: t) ((n, (pos, f)) :: caps)).
Proof. intros [Hn Hf]. apply heads_grp, heads_plus; [assumption|now apply not_dq_all|reflexivity]. Qed.
Lemma file_one u v a w f r : blanks u -> gap v -> numeral a -> gap w -> file_name f ->
  match r with c :: _ => ~ blank c | [] => True end ->
  getFileDef (u ++ lit ".file" ++ v ++ a ++ w ++ quoted f ++ r) = Some (number a, f).
Proof.
  intros Hu Hv Ha Hw Hf Hr. unfold getFileDef. rewrite quoted_app.
  assert (E : exists st, re_match fileFind (u ++ lit ".file" ++ v ++ a ++ w ++ DQ :: f ++ DQ :: r) = Some st /\ cap 1 st = a /\ cap 2 st = f /\ cap 4 st = []).
  { eexists. split; [|split; [|split]].
    - apply heads_whole. unfold fileFind.
      hseq; [apply heads_bol|]. hseq; [apply heads_blanks; [assumption|reflexivity]|]. hseq; [apply heads_L|].
      hseq; [apply heads_gap; [assumption|now apply numeral_stop]|].
      hseq; [apply heads_digits; [assumption|now apply gap_ends]|].
      hseq; [apply heads_gap; [assumption|reflexivity]|].
      hseq; [apply heads_cls; reflexivity|]. hseq; [now apply heads_name|]. hseq; [apply heads_cls; reflexivity|].
      hseq; [apply heads_opt_none|apply heads_any].
      cbn [m Seqs HP Plus m_rest]. destruct r as [|c r]; [reflexivity|]. destruct (is_hspace c) eqn:E; [|reflexivity].
      apply blank_iff in E. contradiction.
    - reflexivity.
    - reflexivity.
    - reflexivity. }
  destruct E as (st & -> & -> & -> & ->). reflexivity.
Qed.
Lemma file_two u v a w d x f r : blanks u -> gap v -> numeral a -> gap w -> file_name d -> gap x -> file_name f ->
  getFileDef (u ++ lit ".file" ++ v ++ a ++ w ++ quoted d ++ x ++ quoted f ++ r) = Some (number a, d ++ lit "/" ++ f).
Proof.
  intros Hu Hv Ha Hw Hd Hx Hf. unfold getFileDef. rewrite !quoted_app.
  assert (E : exists st, re_match fileFind (u ++ lit ".file" ++ v ++ a ++ w ++ DQ :: d ++ DQ :: x ++ DQ :: f ++ DQ :: r) = Some st /\ cap 1 st = a /\ cap 2 st = d /\ cap 4 st = f).
  { eexists. split; [|split; [|split]].
    - apply heads_whole. unfold fileFind.
      hseq; [apply heads_bol|]. hseq; [apply heads_blanks; [assumption|reflexivity]|]. hseq; [apply heads_L|].
      hseq; [apply heads_gap; [assumption|now apply numeral_stop]|].
      hseq; [apply heads_digits; [assumption|now apply gap_ends]|].
      hseq; [apply heads_gap; [assumption|reflexivity]|].
      hseq; [apply heads_cls; reflexivity|]. hseq; [now apply heads_name|]. hseq; [apply heads_cls; reflexivity|].
      hseq; [apply heads_opt|apply heads_any].
      replace (x ++ DQ :: f ++ DQ :: r) with ((x ++ DQ :: f ++ [DQ]) ++ r) by (rewrite <- !app_assoc; cbn; rewrite <- app_assoc; reflexivity).
      apply heads_grp. rewrite <- !app_assoc. cbn [app]. rewrite <- app_assoc. cbn [app].
      hseq; [apply heads_gap; [assumption|reflexivity]|]. hseq; [apply heads_cls; reflexivity|].
      hseq; [now apply heads_name|].
      match goal with |- heads _ (mkM ?p _ ?c) (mkM ?q _ _) => replace q with (S p); [apply heads_cls; reflexivity|] end.
      rewrite !app_length. cbn [length]. rewrite app_length. cbn [length]. lia.
    - reflexivity.
    - reflexivity.
    - reflexivity. }
  destruct E as (st & -> & -> & -> & ->). destruct Hf as [Hf _]. destruct f; [congruence|]. reflexivity.
Qed.
Section Run.
Variables (mblen : str -> Z) (flt : Filter)
          (ord_refs : list view -> list view) (ord_labels : list (view * Z) -> list (view * Z)).
Lemma C50_run fuel input vis s' vis' : AsmText.run mblen flt ord_refs ord_labels fuel input vis = Ok (s', vis') ->
  let cs := scan_input flt input in
  exists ks, StronglySorted lt ks /\ Forall2 (comes_from flt (t_files s') cs) ks (t_lines s').
Proof.
  intros H. cbv zeta. destruct (run_ok _ _ _ _ _ _ _ _ _ H) as (L & kept & out & [A B C D E F]).
  destruct (f_library_functions flt) eqn:Hlib.
  { exists []. split; [constructor|]. assert (G : good flt (read_lines mblen flt tstate0 input)) by (apply (read_invariant mblen flt (good flt)); auto using good_set_text, eol_good; try reflexivity; apply good0).
    destruct (G Hlib) as [G0 _ _ _]. rewrite read_lines_eq, G0 in A. inversion A; subst. inversion B; subst. constructor. }
  destruct (read_placed mblen flt Hlib input) as (P & ks & S & K & R). rewrite read_lines_eq in A.
  set (cs := scan_input flt input) in *.
  assert (R2 : Forall2 (row flt cs) ks L).
  { clear -A R. revert ks R. induction A as [|x y a b M _ IH]; intros ks R; inversion R; subst; constructor; [|now apply IH].
    destruct M as [M _ _ _]. unfold row in *. assert (E1 : lv_text y = lv_text x) by (rewrite M; reflexivity).
    assert (E2 : lv_is_label y = lv_is_label x) by (rewrite M; reflexivity). assert (E3 : lv_source y = lv_source x) by (rewrite M; reflexivity).
    rewrite E1, E2, E3. assumption. }
  destruct (subseq_select _ _ _ R2 _ B) as (js & J1 & J2). exists js. split; [eapply subseq_sorted; eassumption|].
  subst s'. tsimp. apply forall2_map_r. eapply forall2_impl; [|exact J2]. intros k l Hr. unfold row, comes_from in *.
  assert (E1 : lv_text (shown (read mblen flt input) l) = lv_text l) by (rewrite shown_core; reflexivity).
  assert (E2 : lv_is_label (shown (read mblen flt input) l) = lv_is_label l) by (rewrite shown_core; reflexivity).
  destruct (nth_error cs k) as [[raw|raw|raw nest]|]; [assumption| | |assumption]; rewrite E1, E2, shown_spot.
  - destruct Hr as (-> & -> & ->). repeat split; reflexivity.
  - destruct Hr as (-> & Hr). split; [reflexivity|]. intros Hl. rewrite (Hr Hl).
    reflexivity.
Qed.
End Run.

(** A .loc line holds until the next location or the end of the block. *)
Definition quiet_cand (flt : Filter) (c : cand) : Prop :=
  match c with CText raw nest => neutral (clean flt nest raw) /\ ~ In "}"%char (clean flt nest raw) | _ => True end.
Lemma quiet_kept flt mid : Forall (quiet_cand flt) mid -> forall w, pl_spot (fold_left (place_cand flt) mid w) = pl_spot w.
Proof.
  induction 1 as [|c mid Hc _ IH]; intros w; [reflexivity|]. cbn [fold_left]. rewrite IH. destruct c as [raw|raw|raw nest]; [reflexivity..|].
  destruct Hc as [Hc Hb]. apply neutral_kept; [assumption|now right].
Qed.
Record is_loc (t a b : str) (c : option str) : Prop := {
  lo_text : loc_text t a b c;
  lo_file : 0 < dec_value a <= 2147483647;
  lo_end : forall x, In x end_words -> ~ occurs x t;
  lo_start : ~ occurs ".cfi_startproc" t;
  lo_brace : ~ In "}"%char t }.
Lemma loc_holds flt pre raw nest mid a b c : is_loc (clean flt nest raw) a b c -> Forall (quiet_cand flt) mid ->
  let p := pl_spot (places flt (pre ++ CText raw nest :: mid)) in
  sp_idx p = dec_value a /\ sp_line p = number b /\ sp_col p = match c with Some c => number c | None => 0 end.
Proof.
  intros [H1 H2 H3 H4 H5] Hm. cbv zeta. unfold places. rewrite fold_left_app. cbn [fold_left]. rewrite (quiet_kept flt mid Hm). cbn [place_cand].
  rewrite (loc_sets flt _ raw _ a b c H1 H2 H3 H4 (or_intror H5)). repeat split; reflexivity.
Qed.
Definition shown_at (l : asm_line_v) (f : str) (n c : Z) : Prop :=
  v_str (sv_file (lv_source l)) = f /\ sv_line (lv_source l) = n /\ sv_column (lv_source l) = c.
Definition no_location (l : asm_line_v) : Prop := shown_at l [] 0 0 /\ sv_file_idx (lv_source l) = 0.
Lemma C50_loc flt files cs k l pre raw nest mid post a b c : comes_from flt files cs k l ->
  cs = pre ++ CText raw nest :: mid ++ post -> (k = length pre + length mid)%nat ->
  is_loc (clean flt nest raw) a b c -> Forall (quiet_cand flt) mid -> lv_is_label l = false -> lv_text l <> [] ->
  match files_at files (dec_value a) with
  | Some f => shown_at l f (number b) (match c with Some c => number c | None => 0 end)
  | None => no_location l
  end.
Proof.
  intros H Ecs Ek Hl Hm Hlab Ht. unfold comes_from in H.
  assert (Ef : firstn (S k) cs = pre ++ CText raw nest :: mid).
  { subst. replace (pre ++ CText raw nest :: mid ++ post) with ((pre ++ CText raw nest :: mid) ++ post) by (rewrite <- app_assoc; reflexivity).
    replace (S (length pre + length mid)) with (length (pre ++ CText raw nest :: mid)) by (rewrite app_length; cbn; lia).
    rewrite firstn_app, Nat.sub_diag, firstn_all. apply app_nil_r. }
  destruct (nth_error cs k) as [[r|r|r n]|]; [contradiction|destruct H; congruence| |contradiction].
  destruct H as [_ H]. specialize (H Hlab). rewrite Ef in H.
  destruct (loc_holds flt pre raw nest mid a b c Hl Hm) as (E1 & E2 & E3). set (p := pl_spot (places flt (pre ++ CText raw nest :: mid))) in *. clearbody p.
  unfold located in H. rewrite E1 in H. destruct (Z.eqb_spec (dec_value a) 0); [destruct Hl; lia|].
  destruct (files_at _ _); unfold spot_of in H; injection H as A1 A2 A3 A4 A5 A6 A7; unfold no_location, shown_at; repeat split; congruence.
Qed.
