(** Consequences of reading every line as ObjEvery.v says. *)
From Verif Require Export ObjEveryProofs.

Definition one_line (l : str) : Prop := ~ In LF l.

Lemma unlines_app a b : unlines (a ++ b) = unlines a ++ unlines b.
Proof. apply flat_map_app. Qed.

Lemma after mb flt ls s : Forall one_line ls -> run mb flt (unlines ls) = Ok s ->
  exists d p, s = boot d p /\ Idx s /\ read_lines mb flt pstate0 (map drop_cr ls) = Ok p.
Proof.
  intros HF H. pose proof (lines_read mb flt ls (mkD false [] [] 0) pstate0 (Idx_start _ Idx0) HF) as G.
  unfold run, fromStream in H. change (set_o_inAddress true (set_o_total_lines 0 ostate0)) with (boot (mkD false [] [] 0) pstate0) in H.
  destruct (read_lines _ _ _ _) as [p|k| |]; try contradiction; [|rewrite H in G; discriminate].
  destruct G as [d' G]. rewrite G in H. injection H as <-. exists d', p. split; [reflexivity|]. split; [|reflexivity].
  eapply Idx_feed; [|exact G]. exact (Idx_start _ Idx0).
Qed.

Lemma after_next mb flt ls s l : Forall one_line ls -> run mb flt (unlines ls) = Ok s -> one_line l ->
  exists d p, s = boot d p /\
    match read_line mb flt p (drop_cr l) with
    | Ok p' => exists d', run mb flt (unlines (ls ++ [l])) = Ok (boot d' p')
    | UB k => run mb flt (unlines (ls ++ [l])) = UB k
    | _ => False
    end.
Proof.
  intros HF H Hl. destruct (after mb flt ls s HF H) as (d & p & -> & HI & _). exists d, p. split; [reflexivity|].
  rewrite unlines_app. cbn [unlines flat_map]. rewrite app_nil_r. unfold run, fromStream in *. rewrite feed_app, H. cbn [obind].
  assert (Hcr : feed mb flt (boot d p) (l ++ [LF]) = feed mb flt (boot d p) (drop_cr l ++ [LF])).
  { rewrite <- feed_drop_cr. f_equal. unfold drop_cr. rewrite filter_app. reflexivity. }
  assert (G : gives mb flt (boot d p) (drop_cr l) (read_line mb flt p (drop_cr l))).
  { apply (line_read mb flt d p (drop_cr l) HI).
    - intros X. apply filter_In in X as [X _]. exact (Hl X).
    - intros X. apply filter_In in X as [_ X]. discriminate. }
  unfold gives in G. rewrite <- Hcr in G. exact G.
Qed.

Lemma drop_cr_id l : ~ In CR l -> drop_cr l = l.
Proof.
  induction l as [|c l IH]; intros H; [reflexivity|]. unfold drop_cr in *. cbn [filter].
  destruct (Ascii.eqb c CR) eqn:E; [apply Ascii.eqb_eq in E; subst; exfalso; apply H; now left|].
  cbn [negb]. rewrite IH; [reflexivity|]. intros X. apply H. now right.
Qed.

Lemma nonblank c : ~ blank c -> is_whitespace c = false.
Proof. intros H. destruct (is_whitespace c) eqn:E; [|reflexivity]. apply blank_whitespace in E. contradiction. Qed.
Lemma field_char_end c : field_char c -> word_end c = false /\ Ascii.eqb c ";" = false /\ is_whitespace c = false.
Proof.
  intros (H1 & H3 & H2 & H4 & _). apply Ascii.eqb_neq in H1, H2, H3. apply nonblank in H4. unfold word_end. rewrite H1, H2, H4. auto.
Qed.
Lemma first_word b w rest : Forall blank b -> w <> [] -> Forall field_char w -> (forall c u, rest = c :: u -> word_end c = true) ->
  drop_while (fun c => is_whitespace c || Ascii.eqb c ";") (b ++ w ++ rest) = w ++ rest
  /\ filter (fun c => negb (Ascii.eqb c ";")) (take_while (fun c => negb (word_end c)) (w ++ rest)) = w
  /\ drop_while (fun c => negb (word_end c)) (w ++ rest) = rest.
Proof.
  intros Hb Hw HF Hr. split.
  - induction Hb as [|c b Hc Hb IH]; cbn [app].
    + destruct w as [|c w]; [contradiction|]. inversion HF as [|? ? Hc _]; subst. apply field_char_end in Hc as (_ & H1 & H2).
      cbn [app drop_while]. now rewrite H1, H2.
    + cbn [drop_while]. apply blank_whitespace in Hc. rewrite Hc. exact IH.
  - clear Hw. induction HF as [|c w Hc HF IH]; cbn [app].
    + destruct rest as [|c u]; [split; reflexivity|]. cbn [take_while drop_while]. rewrite (Hr c u eq_refl). split; reflexivity.
    + apply field_char_end in Hc as (H1 & H2 & _). cbn [take_while drop_while]. rewrite H1. cbn [negb filter]. rewrite H2. cbn [negb].
      destruct IH as [IH1 IH2]. rewrite IH1, IH2. split; reflexivity.
Qed.

Lemma show_shown a ad gs refs text : a_ignoring a = false -> text <> [] -> Z.of_nat (length (a_lines a)) < 5000 ->
  show a ad gs refs text = mkL (a_section a) (a_source a) false (a_stopped a)
    (a_lines a ++ [set_l_text (SP :: text) (set_l_address ad (set_l_opcodes gs (set_l_labels refs
          (set_l_source (a_source a) (set_l_section (a_section a) line0)))))]) (a_labels a).
Proof.
  intros H1 H2 H3. unfold show, emit. rewrite H1. destruct text; [contradiction|]. cbn [is_nil orb].
  replace (_ <? 5000) with true by lia. reflexivity.
Qed.

(** ** Single words *)
Lemma word_line_lemma mb flt ls s b w : Forall one_line ls -> run mb flt (unlines ls) = Ok s -> o_stopParsing s = false ->
  o_ignoreUntilNextLabel s = false -> Z.of_nat (length (o_lines s)) < 5000 ->
  Forall blank b -> w <> [] -> Forall field_char w ->
  exists s' l, run mb flt (unlines (ls ++ [b ++ w])) = Ok s' /\ o_lines s' = o_lines s ++ [l] /\ o_labels s' = o_labels s
    /\ l_text l = SP :: w /\ l_address l = None /\ l_opcodes l = [] /\ l_labels l = [] /\ l_is_label l = false
    /\ l_section l = o_currentSection s /\ l_source l = o_currentSourceRef s.
Proof.
  intros HF Hrun Hs Hi Hlt Hb Hw Hwc.
  assert (Hnl : forall c, c = LF \/ c = CR -> ~ In c (b ++ w)).
  { intros c Hc H. apply in_app_iff in H as [H|H].
    - rewrite Forall_forall in Hb. apply Hb in H as [->| ->]; destruct Hc; discriminate.
    - rewrite Forall_forall in Hwc. apply Hwc in H. unfold field_char in H. destruct Hc as [-> | ->]; tauto. }
  destruct (after_next mb flt ls s (b ++ w) HF Hrun (Hnl LF (or_introl eq_refl))) as (d & p & -> & H).
  rewrite drop_cr_id in H by (apply Hnl; now right). unfold read_line in H. cbn zeta in H.
  change (o_stopParsing (boot d p)) with (a_stopped (p_l p)) in Hs. rewrite Hs in H.
  destruct (first_word b w [] Hb Hw Hwc) as (F1 & F2 & F3); [discriminate|]. rewrite app_nil_r in F1, F2, F3.
  rewrite F1, F2, F3 in H. destruct H as [d' H]. unfold on_list in H. rewrite show_shown in H by assumption.
  eexists. eexists. split; [exact H|]. repeat split; reflexivity.
Qed.

(** ** Words followed by a blank *)
Lemma label_word_lemma mb flt ls s b w c t : Forall one_line ls -> run mb flt (unlines ls) = Ok s -> o_stopParsing s = false ->
  f_library_functions flt = false -> Z.of_nat (length (o_lines s)) < 5000 ->
  Forall blank b -> w <> [] -> Forall field_char w -> w <> lit "Disassembly" -> blank c -> starts_nonblank t -> same_line t ->
  (o_ignoreUntilNextLabel s = true \/ good_addr w) ->
  shouldIgnoreFunction (name_of_label t) flt = false ->
  exists s' l, run mb flt (unlines (ls ++ [b ++ w ++ c :: t])) = Ok s' /\ o_lines s' = o_lines s ++ [l]
    /\ o_labels s' = o_labels s ++ [(name_of_label t, Z.of_nat (length (o_lines s)) + 1)]
    /\ l_text l = name_of_label t ++ [":"%char] /\ l_is_label l = true /\ l_label l = name_of_label t
    /\ l_address l = (if o_ignoreUntilNextLabel s then None else hex_value w)
    /\ o_ignoreUntilNextLabel s' = false.
Proof.
  intros HF Hrun Hs Hlib Hlt Hb Hw Hwc Hdis Hc Ht Hsl Hor Hign.
  assert (Hcw : is_whitespace c = true) by now apply blank_whitespace.
  assert (Hnl : forall x, x = LF \/ x = CR -> ~ In x (b ++ w ++ c :: t)).
  { intros x Hx H. rewrite !in_app_iff in H. cbn [In] in H. destruct H as [H|[H|[H|H]]].
    - rewrite Forall_forall in Hb. apply Hb in H as [->| ->]; destruct Hx; discriminate.
    - rewrite Forall_forall in Hwc. apply Hwc in H. unfold field_char in H. destruct Hx as [-> | ->]; tauto.
    - subst x. destruct Hc as [->| ->]; destruct Hx; discriminate.
    - unfold same_line in Hsl. rewrite Forall_forall in Hsl. apply Hsl in H. destruct Hx as [-> | ->]; tauto. }
  destruct (after_next mb flt ls s _ HF Hrun (Hnl LF (or_introl eq_refl))) as (d & p & -> & H).
  rewrite drop_cr_id in H by (apply Hnl; now right). unfold read_line in H. cbn zeta in H.
  change (o_stopParsing (boot d p)) with (a_stopped (p_l p)) in Hs. rewrite Hs in H.
  change (o_ignoreUntilNextLabel (boot d p)) with (a_ignoring (p_l p)) in *.
  destruct (first_word b w (c :: t) Hb Hw Hwc) as (F1 & F2 & F3).
  { intros x u [= <- _]. unfold word_end. rewrite Hcw. now rewrite orb_true_r. }
  rewrite F1, F2, F3 in H.
  assert (X : Ascii.eqb c "/" = false /\ Ascii.eqb c ":" = false) by (destruct Hc as [->| ->]; split; reflexivity).
  destruct X as [X1 X2]. rewrite X1, X2 in H.
  replace (str_eqb w (lit "Disassembly")) with false in H by (symmetry; now apply str_eqb_neq).
  assert (Ha : address_word (p_l p) w = Ok (Some (if a_ignoring (p_l p) then None else hex_value w))).
  { unfold address_word. destruct (a_ignoring (p_l p)) eqn:Ei; [reflexivity|].
    destruct Hor as [?|(v & Hv & Hvl & Hl)]; [discriminate|]. rewrite (addr_loop_value _ _ Hv Hl).
    replace (v <? 4294967296) with true by lia. cbn [omap obind fst snd]. rewrite Hv. f_equal. f_equal. f_equal.
    rewrite as_int_small; [reflexivity|]. pose proof (good_addr_nonneg _ _ Hv). lia. }
  rewrite Ha in H. cbn [obind] in H.
  assert (Hdw : drop_while is_whitespace t = t).
  { destruct Ht as (x & u & -> & Hx). apply nonblank in Hx. cbn [drop_while]. now rewrite Hx. }
  rewrite Hdw in H. destruct t as [|x t]; [destruct Ht as (? & ? & ? & _); discriminate|]. destruct H as [d' H].
  unfold on_list, new_label, emit in H. rewrite Hlib in H. match type of H with context [shouldIgnoreFunction ?x flt] => replace (shouldIgnoreFunction x flt) with false in H by (symmetry; exact Hign) end. cbn [a_lines] in H.
  change (o_lines (boot d p)) with (a_lines (p_l p)) in *. replace (_ <? 5000) with true in H by lia.
  eexists. eexists. split; [exact H|]. repeat split; reflexivity.
Qed.

(** ** Source lines with several colons *)
Definition piece (t : str) : Prop := Forall (fun c => c <> ":"%char /\ ~ blank c /\ c <> LF /\ c <> CR) t.
Definition colon_joined (mids : list str) : str := List.concat (map (fun m => ":"%char :: m) mids).

Lemma last_first {A} (mids : list A) : forall first d, last (first :: mids) d = last mids first.
Proof.
  induction mids as [|m mids IH]; intros first d; [reflexivity|]. change (last (m :: mids) d = last (m :: mids) first). now rewrite !IH.
Qed.
Lemma split_joined mids : forall f, ~ In ":"%char f -> Forall piece mids -> split_on ":" (f ++ colon_joined mids) = f :: mids.
Proof.
  induction mids as [|m mids IH]; intros f Hf HF; cbn [colon_joined map List.concat].
  - rewrite app_nil_r. now apply split_on_none.
  - inversion HF as [|? ? Hm HF']; subst. cbn [app]. rewrite split_on_app_sep by exact Hf. f_equal.
    apply IH; [|exact HF']. intros H. unfold piece in Hm. rewrite Forall_forall in Hm. apply Hm in H. tauto.
Qed.

Lemma source_pieces_lemma mb flt ls s b w f mids num tail : Forall one_line ls -> run mb flt (unlines ls) = Ok s -> o_stopParsing s = false ->
  o_ignoreUntilNextLabel s = false -> Forall blank b -> Forall field_char w ->
  ~ In ":"%char f -> same_line f -> Forall piece mids -> num <> [] -> Forall decimal num -> 0 < dec_value num <= 2147483647 ->
  same_line tail -> (tail = [] \/ exists c t, tail = c :: t /\ blank c) ->
  let first := w ++ "/"%char :: f in
  exists s', run mb flt (unlines (ls ++ [b ++ first ++ colon_joined mids ++ ":"%char :: num ++ tail])) = Ok s'
    /\ o_lines s' = o_lines s /\ o_labels s' = o_labels s /\ o_currentSection s' = o_currentSection s
    /\ o_currentSourceRef s' = mkSource (last mids first) 0 (dec_value num) 0 (negb (file_in_library (last mids first))) false.
Proof.
  intros HF Hrun Hs Hi Hb Hwc Hf Hfl Hm Hn Hd Hv Htl Hta first.
  assert (Hnum : piece num).
  { eapply Forall_impl; [|exact Hd]. cbn beta. intros c Hc.
    destruct (decimal_digit c Hc) as (_ & _ & D & ? & ? & ? & _). repeat split; try assumption.
    intros X. apply blank_whitespace in X. congruence. }
  set (line := b ++ first ++ colon_joined mids ++ ":"%char :: num ++ tail).
  assert (Hnl : forall x, x = LF \/ x = CR -> ~ In x line).
  { assert (Hp : forall t, piece t -> forall x, x = LF \/ x = CR -> ~ In x t).
    { intros t Hp x Hx H. unfold piece in Hp. rewrite Forall_forall in Hp. apply Hp in H. destruct Hx as [-> | ->]; tauto. }
    assert (Hsl : forall t, same_line t -> forall x, x = LF \/ x = CR -> ~ In x t).
    { intros t Hp' x Hx H. unfold same_line in Hp'. rewrite Forall_forall in Hp'. apply Hp' in H. destruct Hx as [-> | ->]; tauto. }
    intros x Hx H. subst line first. rewrite !in_app_iff in H. cbn [In] in H. rewrite in_app_iff in H.
    destruct H as [H|[[H|[H|H]]|[H|[H|[H|H]]]]].
    - rewrite Forall_forall in Hb. apply Hb in H as [->| ->]; destruct Hx; discriminate.
    - rewrite Forall_forall in Hwc. apply Hwc in H. unfold field_char in H. destruct Hx as [-> | ->]; tauto.
    - subst x. destruct Hx; discriminate.
    - now apply (Hsl f Hfl x Hx).
    - unfold colon_joined in H. apply in_concat in H as (m & Hm1 & Hm2). apply in_map_iff in Hm1 as (m' & <- & Hm3).
      destruct Hm2 as [<-|Hm2]; [destruct Hx; discriminate|]. rewrite Forall_forall in Hm. now apply (Hp m' (Hm m' Hm3) x Hx).
    - subst x. destruct Hx; discriminate.
    - now apply (Hp num Hnum x Hx).
    - now apply (Hsl tail Htl x Hx). }
  destruct (after_next mb flt ls s line HF Hrun (Hnl LF (or_introl eq_refl))) as (d & p & -> & H).
  rewrite drop_cr_id in H by (apply Hnl; now right). unfold read_line in H. cbn zeta in H.
  change (o_stopParsing (boot d p)) with (a_stopped (p_l p)) in Hs. rewrite Hs in H.
  set (rest := f ++ colon_joined mids ++ ":"%char :: num ++ tail).
  assert (Hline : line = b ++ w ++ "/"%char :: rest) by (subst line first rest; now rewrite <- app_assoc).
  assert (F : drop_while (fun c => is_whitespace c || Ascii.eqb c ";") line = w ++ "/"%char :: rest
     /\ filter (fun c => negb (Ascii.eqb c ";")) (take_while (fun c => negb (word_end c)) (w ++ "/"%char :: rest)) = w
     /\ drop_while (fun c => negb (word_end c)) (w ++ "/"%char :: rest) = "/"%char :: rest).
  { rewrite Hline. destruct w as [|y w'] eqn:Ey; [|apply first_word; [exact Hb|discriminate|exact Hwc|now intros c u [= <- _]]].
    cbn [app]. repeat split. clear - Hb. induction Hb as [|c b Hc Hb IH]; [reflexivity|]. cbn [app drop_while]. apply blank_whitespace in Hc. now rewrite Hc. }
  destruct F as (F1 & F2 & F3). rewrite F1, F2, F3 in H. change (Ascii.eqb "/" "/") with true in H. cbn iota in H.
  set (q := colon_joined mids ++ ":"%char :: num ++ tail) in *.
  assert (Hq : exists q', q = ":"%char :: q').
  { subst q. destruct mids; cbn [colon_joined map List.concat app]; eauto. }
  destruct Hq as [q' Hq]. 
  assert (Hsplit : forall u, ~ In ":"%char u -> take_while (fun x => negb (Ascii.eqb x ":")) (u ++ ":"%char :: q') = u
      /\ drop_while (fun x => negb (Ascii.eqb x ":")) (u ++ ":"%char :: q') = ":"%char :: q').
  { clear. induction u as [|c u IH]; intros Hu; [split; reflexivity|]. cbn [app take_while drop_while].
    destruct (Ascii.eqb c ":") eqn:E; [apply Ascii.eqb_eq in E; subst; exfalso; apply Hu; now left|]. cbn [negb].
    destruct IH as [-> ->]; [intros X; apply Hu; now right|]. split; reflexivity. }
  subst rest. rewrite Hq in H. destruct (Hsplit f Hf) as [S1 S2]. rewrite S1, S2 in H. fold first in H.
  (* the number part *)
  assert (Htw : take_while (fun c => negb (is_whitespace c)) q' = tl (colon_joined (mids ++ [num]))).
  { assert (Hq2 : ":"%char :: q' = colon_joined (mids ++ [num]) ++ tail).
    { rewrite <- Hq. subst q. unfold colon_joined. rewrite map_app, concat_app. cbn [map List.concat]. rewrite app_nil_r, <- app_assoc. reflexivity. }
    assert (Hall : Forall (fun c => is_whitespace c = false) (colon_joined (mids ++ [num]))).
    { apply Forall_forall. intros c Hc. unfold colon_joined in Hc. apply in_concat in Hc as (m & Hm1 & Hm2).
      apply in_map_iff in Hm1 as (m' & <- & Hm3). destruct Hm2 as [<-|Hm2]; [reflexivity|].
      apply nonblank. apply in_app_iff in Hm3 as [Hm3|[<-|[]]].
      - rewrite Forall_forall in Hm. specialize (Hm _ Hm3). unfold piece in Hm. rewrite Forall_forall in Hm. apply Hm in Hm2. tauto.
      - unfold piece in Hnum. rewrite Forall_forall in Hnum. apply Hnum in Hm2. tauto. }
    destruct (colon_joined (mids ++ [num])) as [|x y] eqn:Ey.
    - exfalso. clear - Ey. destruct mids; discriminate.
    - cbn [app] in Hq2. injection Hq2 as _ Hq3. rewrite Hq3. cbn [tl]. inversion Hall as [|? ? _ Hy]; subst. clear - Hy Hta.
      induction Hy as [|c y Hc Hy IH]; cbn [app take_while].
      + destruct Hta as [->|(c & t & -> & Hc)]; [reflexivity|]. apply blank_whitespace in Hc. cbn [take_while]. now rewrite Hc.
      + rewrite Hc. cbn [negb]. now rewrite IH. }
  assert (Hfirst : ~ In ":"%char first).
  { subst first. rewrite in_app_iff. cbn [In]. intros [X|[X|X]]; [|discriminate|contradiction].
    rewrite Forall_forall in Hwc. apply Hwc in X. unfold field_char in X. tauto. }
  assert (Hpieces : split_on ":" (first ++ ":"%char :: take_while (fun c => negb (is_whitespace c)) q') = first :: mids ++ [num]).
  { rewrite Htw. replace (":"%char :: tl (colon_joined (mids ++ [num]))) with (colon_joined (mids ++ [num])).
    - apply split_joined; [exact Hfirst|]. apply Forall_app. split; [exact Hm|]. now constructor.
    - destruct mids; reflexivity. }
  change (o_ignoreUntilNextLabel (boot d p)) with (a_ignoring (p_l p)) in Hi.
  unfold source_part in H. cbn zeta in H. match type of H with context [split_on ":" ?x] => replace (split_on ":" x) with (first :: mids ++ [num]) in H by (symmetry; exact Hpieces) end. rewrite Hi in H. cbn [andb] in H.
  rewrite app_comm_cons, removelast_last, last_last in H. rewrite atoi_digits in H by assumption. cbn [omap obind] in H.
  destruct H as [d' H]. eexists. split; [exact H|]. repeat split.
  unfold boot, mk. cbn [o_currentSourceRef p_l a_source]. rewrite last_first. replace (0 <? dec_value num) with true by lia. reflexivity.
Qed.
