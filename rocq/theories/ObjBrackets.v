(** References of any objdump line: exactly the bracketed names. *)
From Verif Require Export ObjEveryThm ObjRefs.

Ltac slia := unfold str, char in *; lia.
Definition ender (c : char) : Prop := c = ">"%char \/ c = "+"%char.
Definition plain (n : str) : Prop := Forall (fun c => c <> "<"%char /\ ~ ender c) n.
Notation len t := (Z.of_nat (length t)).
Definition bracket : char := "<"%char.

(** [text] is [u]<NAME>[v] or [u]<NAME+[v], NAME being that of [r]; the range of
    [r] is where NAME stands, counted from [k]. *)
Definition bracketed (k : Z) (text u : str) (r : asm_label) : Prop :=
  exists d v, text = u ++ bracket :: lb_name r ++ d :: v /\ ender d /\ plain (lb_name r)
    /\ lb_range r = mkRange (len u + 1 + k) (len u + 1 + k + len (lb_name r)).

(** Every "<" is followed by ">" or "+", without "#" in between. *)
Definition ends (v : str) : Prop := exists v1 c v2, v = v1 ++ c :: v2 /\ ender c /\ ~ In "#"%char v1.
Definition closes (l : str) : Prop := forall u v, l = u ++ bracket :: v -> ends v.

Lemma ender_b c : Ascii.eqb c ">" || Ascii.eqb c "+" = true <-> ender c.
Proof. unfold ender. rewrite orb_true_iff, !Ascii.eqb_eq. tauto. Qed.
Lemma ender_not_bracket : ~ ender bracket.
Proof. intros [H|H]; discriminate. Qed.

Lemma at_pos (u name v : str) d k c : nth_error (u ++ bracket :: name ++ d :: v) k = Some c ->
  (length u <= k <= length u + 1 + length name)%nat ->
  (k = length u /\ c = bracket) \/ (k = length u + 1 + length name /\ c = d)%nat \/ ((length u < k < length u + 1 + length name)%nat /\ In c name).
Proof.
  intros H Hk. rewrite nth_error_app2 in H by slia. destruct (k - length u)%nat as [|j] eqn:E.
  - left. cbn [nth_error] in H. injection H as <-. split; [slia|reflexivity].
  - cbn [nth_error] in H. right. destruct (Nat.eq_dec j (length name)) as [->|Hj].
    + left. rewrite nth_error_app2, Nat.sub_diag in H by slia. cbn [nth_error] in H. injection H as <-. split; [slia|reflexivity].
    + right. rewrite nth_error_app1 in H by slia. split; [slia|]. now apply nth_error_In in H.
Qed.
Lemma plain_in n c : plain n -> In c n -> c <> bracket /\ ~ ender c.
Proof. intros H Hi. unfold plain in H. rewrite Forall_forall in H. now apply H. Qed.

Lemma last_bracket (u n u0 n0 : str) : u ++ bracket :: n = u0 ++ bracket :: n0 -> plain n -> plain n0 -> u = u0 /\ n = n0.
Proof.
  revert u0. induction u as [|c u IH]; intros u0 H Hn Hn0.
  - destruct u0 as [|c0 u0]; cbn [app] in H; [now injection H as <-|]. injection H as _ ->. exfalso.
    apply (plain_in _ bracket) in Hn; [tauto|]. apply in_or_app. right. now left.
  - destruct u0 as [|c0 u0]; cbn [app] in H.
    + injection H as -> <-. exfalso. apply (plain_in _ bracket) in Hn0; [tauto|]. apply in_or_app. right. now left.
    + injection H as -> H. destruct (IH u0 H Hn Hn0) as [-> ->]. split; reflexivity.
Qed.

Section Scan.
Variables (mb : str -> Z) (flt : Filter).
Hypothesis Hmb : ascii_compatible mb.

Definition waiting (pre : str) (col : Z) : Prop := exists u n, pre = u ++ bracket :: n /\ plain n /\ col = len u + 1.

Lemma prefix_eq {A} (a b c d : list A) : a ++ b = c ++ d -> length a = length c -> a = c /\ b = d.
Proof. revert c. induction a as [|x a IH]; intros [|y c] H Hl; try discriminate Hl; [split; [reflexivity|exact H]|]. cbn [app] in H. injection H as -> H. injection Hl as Hl. destruct (IH c H Hl) as [-> ->]. split; reflexivity. Qed.

Lemma scan_exact : forall rest open col pre, ascii_text (pre ++ rest) -> len (pre ++ rest) < 65534 -> (open = true -> waiting pre col) ->
  forall r, In r (fst (scan mb flt open col pre rest)) <->
    exists u, bracketed 0 (pre ++ rest) u r /\ shouldIgnoreFunction (lb_name r) flt = false
      /\ (length pre <= length u + 1 + length (lb_name r))%nat /\ (open = false -> (length pre <= length u)%nat).
Proof.
  induction rest as [|c rest IH]; intros open col pre Ha Hlen Hw r.
  - cbn [scan fst In]. split; [contradiction|]. intros (u & (d & v & H & _) & _ & Hk & _).
    rewrite app_nil_r in H. rewrite H in Hk. rewrite app_length in Hk. cbn [length] in Hk. rewrite app_length in Hk. cbn [length] in Hk. slia.
  - assert (Happ : pre ++ c :: rest = (pre ++ [c]) ++ rest) by now rewrite <- app_assoc.
    assert (Hnth : nth_error (pre ++ c :: rest) (length pre) = Some c) by (rewrite nth_error_app2, Nat.sub_diag by slia; reflexivity).
    assert (Hpre : ascii_text pre) by (apply ascii_app in Ha; tauto).
    assert (Hup : ustrlen mb pre = len pre) by now apply ustrlen_ascii.
    assert (Hlp : len pre + 1 < 65534).
    { rewrite app_length in Hlen. cbn [length] in Hlen. slia. }
    assert (Hl1 : length (pre ++ [c]) = S (length pre)) by (rewrite app_length; cbn [length]; slia).
    rewrite Happ in Ha, Hlen. cbn [scan]. destruct (Ascii.eqb c "<") eqn:Eb.
    + apply Ascii.eqb_eq in Eb. subst c. rewrite IH.
      2: exact Ha. 2: exact Hlen.
      2:{ intros _. exists pre, []. split; [reflexivity|]. split; [constructor|]. rewrite Hup. rewrite u16_small by slia. reflexivity. }
      rewrite <- Happ, Hl1. split; intros (u & Hb & Hi & Hk & Ho); exists u; (split; [exact Hb|]); (split; [exact Hi|]);
        destruct Hb as (d & v & Ht & Hd & Hp & _); rewrite Ht in Hnth; split.
      * slia.
      * intros _. destruct (Nat.le_gt_cases (length pre) (length u)) as [?|Hlt]; [assumption|]. exfalso.
        apply at_pos in Hnth; [|slia]. destruct Hnth as [[X _]|[[X _]|[_ X]]]; [slia|slia|]. apply (plain_in _ _ Hp) in X. tauto.
      * destruct (Nat.eq_dec (length pre) (length u + 1 + length (lb_name r))) as [E|E]; [|slia]. exfalso.
        apply at_pos in Hnth; [|slia]. destruct Hnth as [[X _]|[[_ X]|[X _]]]; [slia| |slia]. subst d. now apply ender_not_bracket.
      * discriminate.
    + apply Ascii.eqb_neq in Eb. destruct (open && (Ascii.eqb c ">" || Ascii.eqb c "+")) eqn:Ee.
      * apply andb_true_iff in Ee as [-> Ee]. apply ender_b in Ee. destruct (Hw eq_refl) as (u0 & n & -> & Hpn & ->).
        cbn zeta. cbn [fst]. rewrite in_app_iff. rewrite (IH false 0); [|exact Ha|exact Hlen|discriminate].
        assert (Hsub : substr_from (u0 ++ bracket :: n) (len u0 + 1) = Some n).
        { unfold substr_from. rewrite app_length. cbn [length]. replace (_ <? _) with false by slia.
          replace (Z.to_nat (len u0 + 1)) with (length u0 + 1)%nat by slia. f_equal.
          replace (u0 ++ bracket :: n) with ((u0 ++ [bracket]) ++ n) by now rewrite <- app_assoc.
          rewrite skipn_app, skipn_all2 by (rewrite app_length; cbn [length]; slia). rewrite app_length. cbn [length].
          replace (_ - _)%nat with 0%nat by slia. reflexivity. }
        rewrite Hsub, Hup, u16_small by slia. rewrite <- Happ, Hl1. split.
        -- intros [H|(u & Hb & Hi & Hk & Ho)].
           ++ destruct (shouldIgnoreFunction n flt) eqn:Ei; [contradiction|]. destruct H as [<-|[]]. cbn [lb_name].
              exists u0. split; [|split; [exact Ei|split; [rewrite app_length; cbn [length]; slia|discriminate]]].
              exists c, rest. split; [cbn [lb_name]; now rewrite <- app_assoc|]. split; [exact Ee|]. split; [exact Hpn|].
              cbn [lb_range lb_name]. rewrite app_length. cbn [length]. f_equal; slia.
           ++ exists u. split; [exact Hb|]. split; [exact Hi|]. split; [slia|discriminate].
        -- intros (u & Hb & Hi & Hk & _). destruct (Nat.le_gt_cases (S (length (u0 ++ bracket :: n))) (length u)) as [Hge|Hlt].
           ++ right. exists u. split; [exact Hb|]. split; [exact Hi|]. split; [slia|now intros _].
           ++ left. destruct Hb as (d & v & Ht & Hd & Hp & Hr). pose proof Hnth as Hn2. rewrite Ht in Hn2.
              apply at_pos in Hn2; [|slia]. destruct Hn2 as [[_ X]|[[X _]|[_ X]]].
              ** contradiction.
              ** assert (Hu : u ++ bracket :: lb_name r = u0 ++ bracket :: n).
                 { replace (u ++ bracket :: lb_name r ++ d :: v) with ((u ++ bracket :: lb_name r) ++ d :: v) in Ht by (rewrite <- app_assoc; reflexivity).
                   symmetry. refine (proj1 (prefix_eq _ _ _ _ Ht _)). rewrite X, app_length. cbn [length]. slia. }
                 apply last_bracket in Hu as [-> Hn]; [|exact Hp|exact Hpn]. subst n. rewrite Hi. left.
                 destruct r as [nm rg]. cbn [lb_name lb_range] in *. rewrite Hr. f_equal. rewrite app_length. cbn [length]. f_equal; slia.
              ** apply (plain_in _ _ Hp) in X. tauto.
      * rewrite IH.
        2: exact Ha. 2: exact Hlen.
        2:{ intros ->. destruct (Hw eq_refl) as (u0 & n & -> & Hpn & ->). exists u0, (n ++ [c]). split; [now rewrite <- app_assoc|]. split; [|reflexivity].
            apply Forall_app. split; [exact Hpn|]. constructor; [|constructor]. split; [exact Eb|]. cbn [andb] in Ee. intros X. apply ender_b in X. congruence. }
        rewrite <- Happ, Hl1. split; intros (u & Hb & Hi & Hk & Ho); exists u; (split; [exact Hb|]); (split; [exact Hi|]);
          destruct Hb as (d & v & Ht & Hd & Hp & _); rewrite Ht in Hnth; split.
        -- slia.
        -- intros X. specialize (Ho X). slia.
        -- destruct (Nat.eq_dec (length pre) (length u + 1 + length (lb_name r))) as [E|E]; [|slia]. exfalso.
           apply at_pos in Hnth; [|slia]. destruct Hnth as [[X _]|[[_ X]|[X _]]]; [slia| |slia]. subst d.
           apply ender_b in Hd. rewrite Hd in Ee. destruct open; [discriminate|]. specialize (Ho eq_refl). slia.
        -- intros X. specialize (Ho X). destruct (Nat.eq_dec (length pre) (length u)) as [E|E]; [|slia]. exfalso.
           apply at_pos in Hnth; [|slia]. destruct Hnth as [[_ Y]|[[Y _]|[Y _]]]; [contradiction|slia|slia].
Qed.
End Scan.

(** ** Closed lines leave nothing open *)
Lemma closes_tail c l : closes (c :: l) -> closes l.
Proof. intros H u v ->. apply (H (c :: u) v). reflexivity. Qed.
Lemma closes_suffix a : forall b, closes (a ++ b) -> closes b.
Proof. induction a as [|c a IH]; intros b H; [exact H|]. apply IH. now apply closes_tail in H. Qed.
Lemma suffix_drop {A} (f : A -> bool) l : exists a, l = a ++ drop_while f l.
Proof. induction l as [|c l [a IH]]; [now exists []|]. cbn [drop_while]. destruct (f c); [exists (c :: a); cbn [app]; now rewrite <- IH|now exists []]. Qed.
Lemma closes_drop f l : closes l -> closes (drop_while f l).
Proof. intros H. destruct (suffix_drop f l) as [a E]. rewrite E in H. now apply closes_suffix in H. Qed.
Lemma take_while_app {A} (f : A -> bool) a b : Forall (fun c => f c = true) a -> take_while f (a ++ b) = a ++ take_while f b.
Proof. induction 1 as [|c a Hc Ha IH]; [reflexivity|]. cbn [app take_while]. rewrite Hc. now rewrite IH. Qed.
Definition not_hash (c : char) : bool := negb (Ascii.eqb c "#").
Lemma not_hash_all v : ~ In "#"%char v -> Forall (fun c => not_hash c = true) v.
Proof.
  intros H. apply Forall_forall. intros c Hc. unfold not_hash. destruct (Ascii.eqb c "#") eqn:E; [|reflexivity].
  apply Ascii.eqb_eq in E. subst. contradiction.
Qed.
Lemma ends_take v : ends v -> ends (take_while not_hash v).
Proof.
  intros (v1 & c & v2 & -> & Hc & Hn). rewrite take_while_app by now apply not_hash_all. cbn [take_while].
  exists v1, c, (take_while not_hash v2). split; [|split; assumption]. destruct Hc as [->| ->]; reflexivity.
Qed.
Lemma closes_take l : closes l -> closes (take_while not_hash l).
Proof.
  induction l as [|c l IH]; intros H; [exact H|]. cbn [take_while]. destruct (not_hash c); [|intros u v X; destruct u; discriminate].
  intros u v X. destruct u as [|x u]; cbn [app] in X.
  - injection X as -> <-. apply ends_take. now apply (H [] l).
  - injection X as _ X. apply (IH (closes_tail _ _ H) u v X).
Qed.
Lemma scan_closed mb flt : forall rest open col pre, closes rest -> (open = true -> ends rest) ->
  fst (snd (scan mb flt open col pre rest)) = false.
Proof.
  induction rest as [|c rest IH]; intros open col pre Hc Ho; cbn [scan].
  - cbn [snd fst]. destruct open; [|reflexivity]. destruct (Ho eq_refl) as (v1 & x & v2 & H & _). destruct v1; discriminate.
  - destruct (Ascii.eqb c "<") eqn:Eb.
    + apply Ascii.eqb_eq in Eb. subst c. apply IH; [now apply closes_tail in Hc|]. intros _. now apply (Hc [] rest).
    + destruct (open && _) eqn:Ee.
      * cbn zeta. cbn [snd]. apply IH; [now apply closes_tail in Hc|discriminate].
      * apply IH; [now apply closes_tail in Hc|]. intros ->. destruct (Ho eq_refl) as (v1 & x & v2 & H & Hx & Hn). destruct v1 as [|y v1]; cbn [app] in H.
        -- injection H as -> ->. apply ender_b in Hx. cbn [andb] in Ee. congruence.
        -- injection H as -> ->. exists v1, x, v2. split; [reflexivity|]. split; [exact Hx|]. intros X. apply Hn. now right.
Qed.
Lemma closes_drop_cr l : closes l -> closes (drop_cr l).
Proof.
  induction l as [|c l IH]; intros H; [exact H|]. unfold drop_cr in *. cbn [filter]. destruct (negb _) eqn:E; [|apply IH; now apply closes_tail in H].
  intros u v X. destruct u as [|x u]; cbn [app] in X.
  - injection X as -> <-. destruct (H [] l eq_refl) as (v1 & d & v2 & -> & Hd & Hn). rewrite filter_app. cbn [filter].
    exists (filter (fun c => negb (Ascii.eqb c CR)) v1), d, (filter (fun c => negb (Ascii.eqb c CR)) v2).
    split; [destruct Hd as [->| ->]; reflexivity|]. split; [exact Hd|]. intros Y. apply filter_In in Y. tauto.
  - injection X as _ X. apply (IH (closes_tail _ _ H) u v X).
Qed.

(** ** The lines shown *)
Section Lines.
Variables (mb : str -> Z) (flt : Filter).
Hypothesis Hmb : ascii_compatible mb.

Definition good_refs (l : asm_line) : Prop := ascii_text (l_text l) -> len (l_text l) < 65535 ->
  (forall r, In r (l_labels l) -> exists u, bracketed 1 (l_text l) u r)
  /\ (l_opcodes l <> [] -> forall r, In r (l_labels l) <->
        exists u, bracketed 1 (l_text l) u r /\ shouldIgnoreFunction (lb_name r) flt = false /\ ~ In "#"%char (u ++ lb_name r)).
Definition inv (p : pstate) : Prop := p_open p = false /\ Forall good_refs (a_lines (p_l p)).

Lemma no_refs l : l_labels l = [] -> l_opcodes l = [] -> good_refs l.
Proof. intros H1 H2 _ _. rewrite H1, H2. split; [contradiction|]. now intros X. Qed.
Lemma emit_inv l a : Forall good_refs (a_lines a) -> good_refs l -> Forall good_refs (a_lines (emit l a)).
Proof.
  intros H Hl. unfold emit. destruct (_ <? _); cbn [a_lines]; apply Forall_app; (split; [exact H|]).
  - constructor; [exact Hl|constructor].
  - constructor; [now apply no_refs|constructor].
Qed.
Lemma show_inv a ad gs refs text : Forall good_refs (a_lines a) ->
  good_refs (set_l_text (SP :: text) (set_l_address ad (set_l_opcodes gs (set_l_labels refs (set_l_source (a_source a) (set_l_section (a_section a) line0)))))) ->
  Forall good_refs (a_lines (show a ad gs refs text)).
Proof. intros H Hl. unfold show. destruct (_ || _); [exact H|]. now apply emit_inv. Qed.
Lemma show_inv0 a ad text : Forall good_refs (a_lines a) -> Forall good_refs (a_lines (show a ad [] [] text)).
Proof. intros H. apply show_inv; [exact H|]. now apply no_refs. Qed.

Lemma bracketed_moved text u r : len text < 65534 -> bracketed 0 text u r -> bracketed 1 (SP :: text) (SP :: u) (moved r).
Proof.
  intros Hl (d & v & -> & Hd & Hp & Hr). exists d, v. unfold moved. cbn [lb_name lb_range]. split; [reflexivity|]. split; [exact Hd|]. split; [exact Hp|].
  rewrite Hr. cbn [r_start r_end length]. rewrite app_length in Hl. cbn [length] in Hl. rewrite app_length in Hl. cbn [length] in Hl.
  rewrite !u16_small by slia. f_equal; slia.
Qed.
Lemma bracketed_unmoved text u r : bracketed 1 (SP :: text) u r -> exists u', u = SP :: u' /\ bracketed 0 text u' (mkLabel (lb_name r) (mkRange (r_start (lb_range r) - 2) (r_end (lb_range r) - 2))).
Proof.
  intros (d & v & H & Hd & Hp & Hr). destruct u as [|x u]; cbn [app] in H; [discriminate|]. injection H as <- H. exists u. split; [reflexivity|].
  exists d, v. cbn [lb_name lb_range]. split; [exact H|]. split; [exact Hd|]. split; [exact Hp|]. rewrite Hr. cbn [r_start r_end length]. f_equal; slia.
Qed.

Lemma text_line a ad gs pre body col : (pre = [] \/ gs = []) -> good_refs
  (set_l_text (SP :: pre ++ body) (set_l_address ad (set_l_opcodes gs (set_l_labels
     (map moved (fst (scan mb flt false col pre (take_while not_hash body)))) (set_l_source (a_source a) (set_l_section (a_section a) line0)))))).
Proof.
  intros Hor Ha Hl. cbn [set_l_text set_l_address set_l_opcodes set_l_labels l_text l_labels l_opcodes] in *.
  inversion Ha as [|? ? _ Ha']; subst. cbn [length] in Hl.
  assert (Hsplit : exists w, body = take_while not_hash body ++ w) by (exists (drop_while not_hash body); clear; induction body as [|c b IH]; [reflexivity|]; cbn [take_while drop_while]; destruct (not_hash c); [cbn [app]; now rewrite <- IH|reflexivity]).
  destruct Hsplit as [w Hw]. set (tk := take_while not_hash body) in *.
  assert (Ha2 : ascii_text (pre ++ tk)) by (rewrite Hw, app_assoc in Ha'; now apply ascii_app in Ha').
  assert (Hl2 : len (pre ++ tk) < 65534) by (rewrite Hw, app_assoc, app_length in Hl; slia).
  assert (S := scan_exact mb flt Hmb tk false col pre Ha2 Hl2 ltac:(discriminate)).
  assert (Hfwd : forall r, In r (fst (scan mb flt false col pre tk)) -> exists u, bracketed 0 (pre ++ body) u r /\ shouldIgnoreFunction (lb_name r) flt = false /\ (length pre <= length u)%nat
      /\ exists d v, pre ++ tk = u ++ bracket :: lb_name r ++ d :: v).
  { intros r Hr. apply S in Hr as (u & (d & v & E & Hd & Hp & Hrg) & Hi & _ & Ho). exists u. split; [|split; [exact Hi|split; [now apply Ho|exists d, v; exact E]]].
    exists d, (v ++ w). split; [|auto]. transitivity ((pre ++ tk) ++ w).
    - rewrite <- app_assoc. f_equal. exact Hw.
    - transitivity ((u ++ bracket :: lb_name r ++ d :: v) ++ w); [f_equal; exact E|]. rewrite <- app_assoc. cbn [app]. f_equal. f_equal. rewrite <- app_assoc. reflexivity. }
  assert (Hl3 : len (pre ++ body) < 65534) by slia.
  split.
  - intros r Hr. apply in_map_iff in Hr as (r0 & <- & Hr). destruct (Hfwd r0 Hr) as (u & Hb & _). exists (SP :: u). now apply bracketed_moved.
  - intros Hg r. destruct Hor as [->|Hor]; [|contradiction]. cbn [app] in *. rewrite in_map_iff. split.
    + intros (r0 & <- & Hr). destruct (Hfwd r0 Hr) as (u & Hb & Hi & _ & d & v & E). exists (SP :: u). split; [now apply bracketed_moved|]. split; [exact Hi|].
      assert (Hnh : ~ In "#"%char tk).
      { intros X. subst tk. clear - X. induction body as [|c b IH]; cbn [take_while] in X; [contradiction|]. destruct (not_hash c) eqn:Eh; [|contradiction].
        destruct X as [->|X]; [discriminate|]. now apply IH. }
      rewrite E in Hnh. intros X. cbn [app In] in X. destruct X as [X|X]; [discriminate|]. apply Hnh. apply in_app_iff in X. cbn [moved lb_name] in X.
      apply in_or_app. destruct X as [X|X]; [now left|right]. right. apply in_or_app. now left.
    + intros (u & Hb & Hi & Hnh). destruct (bracketed_unmoved _ _ _ Hb) as (u' & -> & Hb').
      exists (mkLabel (lb_name r) (mkRange (r_start (lb_range r) - 2) (r_end (lb_range r) - 2))). split; [|apply S; exists u'; split; [|split; [exact Hi|split; [cbn [length]; slia|intros _; cbn [length]; slia]]]].
      * destruct Hb as (d & v & E & _ & _ & Hr). destruct r as [n rg]. cbn [lb_name lb_range] in *. unfold moved. cbn [lb_name lb_range r_start r_end].
        rewrite Hr. cbn [r_start r_end length]. injection E as E. rewrite E in Hl3. rewrite app_length in Hl3. cbn [length] in Hl3. rewrite app_length in Hl3. cbn [length] in Hl3.
        rewrite !u16_small by slia. f_equal. f_equal; slia.
      * destruct Hb' as (d & v & E & Hd & Hp & Hr). cbn [lb_name lb_range] in *. exists d, (take_while not_hash v). cbn [lb_name lb_range]. split; [|auto].
        subst tk. cbn [app]. rewrite E. rewrite take_while_app.
        -- f_equal. cbn [take_while]. change (not_hash bracket) with true. cbn iota. f_equal. rewrite take_while_app.
           ++ f_equal. cbn [take_while]. destruct Hd as [->| ->]; reflexivity.
           ++ apply not_hash_all. intros X. apply Hnh. apply in_or_app. now right.
        -- apply not_hash_all. intros X. apply Hnh. right. apply in_or_app. now left.
Qed.

Lemma text_part_inv p ad gs pre r : inv p -> closes r -> (pre = [] \/ gs = []) -> inv (text_part mb flt p ad gs pre r).
Proof.
  intros [Ho HF] Hc Hor. unfold text_part. cbn zeta. set (body := if is_nil pre then _ else _).
  assert (Hb : closes body) by (subst body; destruct (is_nil pre); [now apply closes_drop|exact Hc]).
  rewrite Ho. split.
  - cbn [p_open]. apply scan_closed; [now apply closes_take|discriminate].
  - cbn [p_l]. apply show_inv; [exact HF|]. now apply text_line.
Qed.
Lemma bytes_part_inv p ad : inv p -> forall r t, closes r -> inv (bytes_part mb flt p ad t r).
Proof.
  intros Hi. induction r as [|c r IH]; intros t Hc; cbn [bytes_part].
  - destruct Hi as [Ho HF]. split; [exact Ho|]. cbn [p_l]. now apply show_inv0.
  - assert (Hr : closes r) by now apply closes_tail in Hc.
    destruct (is_whitespace c); [destruct (is_nil t); [now apply IH|]; destruct (last_is SP t); [apply text_part_inv; auto|now apply IH]|].
    destruct (Ascii.eqb c "R"); [destruct Hi as [Ho HF]; split; [exact Ho|]; cbn [p_l]; now apply show_inv0|].
    destruct (hex_digit c); [now apply IH|]. apply text_part_inv; auto.
Qed.
Lemma drop_library_inv a : Forall good_refs (a_lines a) -> Forall good_refs (a_lines (drop_library_function a)).
Proof.
  intros H. unfold drop_library_function. destruct (rev (a_labels a)) as [|[n i] before]; [exact H|]. destruct (existsb _ _); [exact H|].
  cbn [a_lines]. rewrite <- (firstn_skipn (Z.to_nat (i - 1)) (a_lines a)) in H. now apply Forall_app in H as [H _].
Qed.
Lemma new_label_inv a ad name : Forall good_refs (a_lines a) -> Forall good_refs (a_lines (new_label flt a ad name)).
Proof.
  intros H. unfold new_label. cbn zeta. set (d := if f_library_functions flt then _ else _).
  assert (Hd : Forall good_refs (a_lines d)) by (subst d; destruct (f_library_functions flt); [now apply drop_library_inv|exact H]).
  destruct (shouldIgnoreFunction _ _); [exact Hd|]. apply emit_inv; [exact Hd|]. now apply no_refs.
Qed.

Lemma line_inv p l p' : inv p -> closes l -> read_line mb flt p l = Ok p' -> inv p'.
Proof.
  intros Hi Hc H. pose proof Hi as [Ho HF]. unfold read_line in H. cbn zeta in H.
  destruct (a_stopped _); [now injection H as <-|]. set (body := drop_while (fun c => is_whitespace c || Ascii.eqb c ";") l) in *.
  assert (Hb : closes body) by now apply closes_drop.
  match type of H with context [filter ?f ?t] => set (w := filter f t) in * end. destruct (drop_while (fun c => negb (word_end c)) body) as [|c r] eqn:Er.
  { injection H as <-. split; [exact Ho|]. cbn. now apply show_inv0. }
  assert (Hcr : closes r) by (apply (closes_tail c); exact (eq_ind _ closes (closes_drop (fun c => negb (word_end c)) body Hb) _ Er)).
  destruct (Ascii.eqb c "/").
  { match type of H with match ?e with _ => _ end = _ => destruct e as [|x q] end; [injection H as <-; split; [exact Ho|]; cbn; now apply show_inv0|].
    unfold source_part in H. cbn zeta in H. destruct (_ && _); [injection H as <-; split; [exact Ho|exact HF]|].
    destruct (atoi _); [injection H as <-; split; [exact Ho|exact HF]|discriminate]. }
  destruct (Ascii.eqb c ":").
  { destruct (is_nil w); [injection H as <-; apply text_part_inv; auto|].
    destruct (address_word _ _) as [[ad|]| | |]; try discriminate; injection H as <-; [now apply bytes_part_inv|exact Hi]. }
  destruct (str_eqb _ _).
  { destruct (starts_with _ _).
    - match type of H with match ?x with _ => _ end = _ => destruct x end; injection H as <-; (split; [exact Ho|]); cbn; [now apply show_inv0|exact HF].
    - injection H as <-; (split; [exact Ho|]); cbn; now apply show_inv0. }
  destruct (address_word _ _) as [[ad|]| | |]; try discriminate; injection H as <-; [|exact Hi].
  destruct (drop_while is_whitespace r); [exact Hi|]. split; [exact Ho|]. cbn. now apply new_label_inv.
Qed.
Lemma lines_inv : forall ls p p', inv p -> Forall closes ls -> read_lines mb flt p ls = Ok p' -> inv p'.
Proof.
  induction ls as [|l ls IH]; intros p p' Hi HF H; cbn [read_lines] in H; [now injection H as <-|].
  inversion HF as [|? ? Hl HF']; subst. destruct (read_line mb flt p l) as [p1| | |] eqn:E; try discriminate. cbn [obind] in H.
  eapply IH; [|exact HF'|exact H]. now apply (line_inv p l).
Qed.

Lemma refs_exact ls s l : Forall one_line ls -> Forall closes ls -> run mb flt (unlines ls) = Ok s -> In l (o_lines s) -> good_refs l.
Proof.
  intros H1 Hc Hrun Hin. destruct (after mb flt ls s H1 Hrun) as (d & p & -> & _ & Hp).
  assert (Hi : inv p).
  { eapply lines_inv; [|clear - Hc|exact Hp]; [split; [reflexivity|constructor]|].
    apply Forall_forall. intros x Hx. apply in_map_iff in Hx as (y & <- & Hy). apply closes_drop_cr. rewrite Forall_forall in Hc. now apply Hc. }
  destruct Hi as [_ HF]. rewrite Forall_forall in HF. now apply HF.
Qed.
End Lines.
