(** The writer against the grammar (C25-C31). *)
From Verif Require Export JsonParse Json.

(** *** What the document says *)
Definition JInt (z : Z) : json := JNum z 0.
Definition J (s : string) : str := lit s.
Definition JBoolStr (b : bool) : json := JStr (J (if b then "true" else "false")).
(** Characters that may occur in a string: no control character but tab. *)
Definition printable (s : str) : Prop := Forall (fun c => 32 <= code c \/ c = TAB) s.
(** Characters that may occur in an opcode. *)
Definition visible (s : str) : Prop := Forall (fun c => 32 <= code c) s.
Definition unquoted (s : str) : Prop := Forall (fun c => c <> JQ /\ c <> JB) s.

(** *** C25 *)
Lemma escape_jchars s : printable s -> jchars (escape s) (map Raw s).
Proof.
  induction 1 as [|c s Hc Hs IH]; [constructor|]. cbn [escape flat_map map]. fold (escape s). unfold escape_char.
  destruct (ceq c TAB) eqn:E1; [apply ceq_true in E1; subst; apply jc_esc; [cbn; tauto|exact IH]|].
  destruct (ceq c BSL) eqn:E2; [apply ceq_true in E2; subst; apply jc_esc; [cbn; tauto|exact IH]|].
  destruct (ceq c DQ) eqn:E3; [apply ceq_true in E3; subst; apply jc_esc; [cbn; tauto|exact IH]|].
  apply ceq_false in E1, E2, E3. apply jc_raw; auto. tauto.
Qed.
Lemma bytes_of_raw s : bytes_of (map Raw s) = s.
Proof. induction s as [|c s IH]; [reflexivity|]. cbn. now rewrite IH. Qed.
Lemma quoted_jstring s : printable s -> jstring (quoted (escape s)) s.
Proof. intros H. rewrite <- (bytes_of_raw s) at 2. apply js. now apply escape_jchars. Qed.
Lemma raw_jstring s : visible s -> unquoted s -> jstring (quoted s) s.
Proof.
  intros H H'. rewrite <- (bytes_of_raw s) at 2. apply js. induction H as [|c s Hc Hs IH]; [constructor|].
  inversion H' as [|? ? [H1 H2] H3]; subst. cbn. apply jc_raw; auto.
Qed.

(** Decoding for any string at all: a tab, a backslash and a quote each after a
    backslash, every other character itself. *)
Fixpoint unescape (s : str) : str :=
  match s with
  | [] => []
  | c :: t =>
      if ceq c JB then
        match t with
        | e :: t' => match assoc e escapes with Some d => d :: unescape t' | None => c :: unescape t end
        | [] => [c]
        end
      else c :: unescape t
  end.
Lemma unescape_cons c t : ceq c JB = false -> unescape (c :: t) = c :: unescape t.
Proof. intros H. cbn [unescape]. now rewrite H. Qed.
Lemma unescape_escape s : unescape (escape s) = s.
Proof.
  induction s as [|c s IH]; [reflexivity|]. cbn [escape flat_map]. fold (escape s). unfold escape_char.
  destruct (ceq c TAB) eqn:E1; [apply ceq_true in E1; subst; cbn; now rewrite IH|].
  destruct (ceq c BSL) eqn:E2; [apply ceq_true in E2; subst; cbn; now rewrite IH|].
  destruct (ceq c DQ) eqn:E3; [apply ceq_true in E3; subst; cbn; now rewrite IH|].
  cbn [app]. rewrite unescape_cons by exact E2. now rewrite IH.
Qed.

(** *** Numbers *)
Lemma value_snoc s c : value (s ++ [c]) = value s * 10 + (code c - 48).
Proof. unfold value. now rewrite fold_left_app. Qed.
Lemma code_digit d : 0 <= d < 10 -> code (digit_char d) = 48 + d.
Proof. intros H. unfold digit_char. apply ascii_code. lia. Qed.
Lemma digit_is d : 0 <= d < 10 -> is_digit (digit_char d) = true.
Proof. intros H. unfold is_digit, in_range. rewrite code_digit by assumption. change (code "0") with 48. change (code "9") with 57. lia. Qed.

Lemma dec_digits_spec : forall fuel n acc, (0 < fuel)%nat -> 0 <= n < 2 ^ Z.of_nat fuel ->
  exists d, dec_digits fuel n acc = d ++ acc /\ value d = n /\ jint d.
Proof.
  induction fuel as [|k IH]; intros n acc Hf Hn; [lia|]. cbn [dec_digits].
  pose proof (Z.mod_pos_bound n 10 ltac:(lia)) as Hm. pose proof (Z.div_mod n 10 ltac:(lia)) as Hd.
  destruct (n / 10 =? 0) eqn:E.
  - exists [digit_char (n mod 10)]. split; [reflexivity|]. split.
    + cbn. rewrite code_digit by assumption. lia.
    + destruct (Z.eq_dec (n mod 10) 0) as [Hz|Hz].
      * rewrite Hz. constructor.
      * apply ji_pos; [now apply digit_is| |constructor].
        intros Hc. apply (f_equal code) in Hc. rewrite code_digit in Hc by assumption. change (code "0") with 48 in Hc. lia.
  - assert (Hk : 0 <= n / 10 < 2 ^ Z.of_nat k).
    { rewrite Nat2Z.inj_succ, Z.pow_succ_r in Hn by lia. split; [apply Z.div_pos; lia|]. apply Z.div_lt_upper_bound; lia. }
    destruct (Nat.eq_dec k 0) as [->|Hk0]; [change (2 ^ Z.of_nat 0) with 1 in Hk; lia|].
    destruct (IH (n / 10) (digit_char (n mod 10) :: acc)) as (d & E1 & E2 & Hi); [lia|exact Hk|].
    exists (d ++ [digit_char (n mod 10)]). rewrite E1, <- app_assoc. split; [reflexivity|]. split.
    + rewrite value_snoc, E2, code_digit by assumption. lia.
    + destruct Hi as [|c s Hc Hz Hs].
      * exfalso. change (value ["0"%char]) with 0 in E2. lia.
      * cbn. apply ji_pos; auto. apply Forall_app. split; [exact Hs|]. constructor; [now apply digit_is|constructor].
Qed.
Lemma dec_nat_spec n : 0 <= n -> jint (dec_nat n) /\ value (dec_nat n) = n.
Proof.
  intros H. unfold dec_nat. destruct (dec_digits_spec (S (Z.to_nat (Z.log2 n))) n []) as (d & E & Hv & Hi); [lia| |].
  - split; [exact H|]. pose proof (Z.log2_nonneg n). rewrite Nat2Z.inj_succ, Z2Nat.id by lia.
    destruct (Z.eq_dec n 0) as [->|Hn]; [reflexivity|]. apply Z.log2_spec; lia.
  - rewrite E, app_nil_r. auto.
Qed.
Lemma jint_value i (neg : bool) z : jint i -> z = (if neg then - value i else value i) ->
  jvalue ((if neg then ["-"%char] else []) ++ i) (JNum z 0).
Proof.
  intros Hi ->. apply jv_num.
  pose proof (jn (if neg then ["-"%char] else []) i [] [] [] 0) as H. cbn [app length] in H. rewrite !app_nil_r in H.
  change (0 - Z.of_nat 0) with 0 in H. cbv zeta in H. destruct neg; cbn [is_nil] in H; apply H; auto; constructor.
Qed.
Lemma dec_Z_value z : jvalue (dec_Z z) (JInt z).
Proof.
  unfold dec_Z, JInt. destruct (z <? 0) eqn:E.
  - destruct (dec_nat_spec (- z)) as [Hi Hv]; [lia|]. apply (jint_value (dec_nat (- z)) true z Hi). rewrite Hv. lia.
  - destruct (dec_nat_spec z) as [Hi Hv]; [lia|]. apply (jint_value (dec_nat z) false z Hi). now rewrite Hv.
Qed.

(** *** Members and elements joined by separators *)
Definition jmember (m : str) (p : str * json) : Prop :=
  exists k s, m = k ++ lit ": " ++ s /\ jstring k (fst p) /\ jvalue s (snd p).
Inductive jtail : str -> list (str * json) -> Prop :=
| jt_nil : jtail [] []
| jt_cons : forall w m p t l, ws w -> jmember m p -> jtail t l -> jtail (lit "," ++ w ++ m ++ t) (p :: l).

Lemma ws_nil : ws []. Proof. constructor. Qed.
Lemma ws_SP : ws [SP]. Proof. repeat constructor. Qed.
Lemma ws_LF : ws [LF]. Proof. repeat constructor. Qed.
Lemma ws_app a b : ws a -> ws b -> ws (a ++ b). Proof. intros. now apply Forall_app. Qed.

Lemma jmembers_ws w s l : ws w -> jmembers s l -> jmembers (w ++ s) l.
Proof.
  intros Hw H. destruct H as [w1 k n w2 w3 s v w4|w1 k n w2 w3 s v w4 t l].
  - rewrite app_assoc. apply jm_one; auto using ws_app.
  - rewrite app_assoc. apply jm_more; auto using ws_app.
Qed.
Lemma jelements_ws w s l : ws w -> jelements s l -> jelements (w ++ s) l.
Proof.
  intros Hw H. destruct H as [w1 s v w2|w1 s v w2 t l].
  - rewrite app_assoc. apply je_one; auto using ws_app.
  - rewrite app_assoc. apply je_more; auto using ws_app.
Qed.
Lemma jmember_tail m p t l : jmember m p -> jtail t l -> jmembers (m ++ t) (p :: l).
Proof.
  intros Hm Ht. revert m p Hm. induction Ht as [|w m' p' t l Hw Hm' Ht IH]; intros m [n v] (k & s & -> & Hk & Hs); cbn [fst snd] in *.
  - rewrite app_nil_r. pose proof (jm_one [] k n [] [SP] s v [] ws_nil Hk ws_nil ws_SP Hs ws_nil) as H.
    cbn [app] in H. rewrite app_nil_r in H. exact H.
  - pose proof (jm_more [] k n [] [SP] s v [] (w ++ m' ++ t) (p' :: l) ws_nil Hk ws_nil ws_SP Hs ws_nil (jmembers_ws w _ _ Hw (IH m' p' Hm'))) as H.
    cbn [app] in H. rewrite <- !app_assoc. exact H.
Qed.
Lemma jtail_app a la b lb : jtail a la -> jtail b lb -> jtail (a ++ b) (la ++ lb).
Proof.
  induction 1 as [|w m p t l Hw Hm Ht IH]; intros Hb; [exact Hb|]. rewrite <- !app_assoc. cbn [app]. apply jt_cons; auto.
Qed.
Lemma jtail_one w m p : ws w -> jmember m p -> jtail (lit "," ++ w ++ m) [p].
Proof. intros Hw Hm. rewrite <- (app_nil_r m). rewrite <- (app_nil_r m) in Hm. apply jt_cons; auto; [now rewrite app_nil_r in Hm|constructor]. Qed.
Lemma jobject m p t l : jmember m p -> jtail t l -> jvalue (lit "{" ++ (m ++ t) ++ lit "}") (JObj (p :: l)).
Proof. intros Hm Ht. apply jv_obj. now apply jmember_tail. Qed.

Lemma sep_tail_members {A} w (f : A -> str) (g : A -> str * json) l : ws w -> Forall (fun a => jmember (f a) (g a)) l ->
  jtail (sep_tail (lit "," ++ w) f l) (map g l).
Proof.
  intros Hw H. induction H as [|a l Ha Hl IH]; [constructor|]. cbn [sep_tail map]. rewrite <- app_assoc. now apply jt_cons.
Qed.
Lemma sep_list_object {A} w (f : A -> str) (g : A -> str * json) l : ws w -> Forall (fun a => jmember (f a) (g a)) l ->
  jvalue (lit "{" ++ sep_list (lit "," ++ w) f l ++ lit "}") (JObj (map g l)).
Proof.
  intros Hw H. destruct H as [|a l Ha Hl].
  - apply (jv_obj0 []). constructor.
  - cbn [sep_list map]. apply jobject; [exact Ha|now apply sep_tail_members].
Qed.
Lemma sep_list_elements {A} w (f : A -> str) (g : A -> json) a l : ws w -> Forall (fun a => jvalue (f a) (g a)) (a :: l) ->
  jelements (f a ++ sep_tail (lit "," ++ w) f l) (map g (a :: l)).
Proof.
  intros Hw. revert a. induction l as [|b l IH]; intros a H; inversion H as [|? ? Ha Hl]; subst.
  - pose proof (je_one [] (f a) (g a) [] ws_nil Ha ws_nil) as E. exact E.
  - cbn [sep_tail map]. rewrite <- app_assoc.
    pose proof (je_more [] (f a) (g a) [] (w ++ f b ++ sep_tail (lit "," ++ w) f l) (map g (b :: l)) ws_nil Ha ws_nil
                        (jelements_ws w _ _ Hw (IH b Hl))) as E. exact E.
Qed.
Lemma sep_list_array {A} w (f : A -> str) (g : A -> json) l : ws w -> Forall (fun a => jvalue (f a) (g a)) l ->
  jvalue (lit "[" ++ sep_list (lit "," ++ w) f l ++ lit "]") (JArr (map g l)).
Proof.
  intros Hw H. destruct l as [|a l].
  - apply (jv_arr0 []). constructor.
  - cbn [sep_list]. apply jv_arr. now apply sep_list_elements.
Qed.

(** *** The parts of a document *)
Section Parts.
Variables (fmt : Z -> str) (flt : Filter).
Hypothesis Hfmt : forall z, jvalue (fmt z) (JInt z).

Lemma key_printable (k : string) : forallb (fun c => 32 <=? code c) (J k) = true -> printable (J k).
Proof. rewrite forallb_forall. intros H. apply Forall_forall. intros c Hc. specialize (H c Hc). lia. Qed.
Lemma kv_member k s v : printable k -> jvalue s v -> jmember (writeKeyName k ++ s) (k, v).
Proof.
  intros Hk Hv. exists (quoted (escape k)), s. split; [|split; [now apply quoted_jstring|exact Hv]].
  unfold writeKeyName. now rewrite <- app_assoc.
Qed.
Lemma str_member k s : printable k -> printable s -> jmember (writeKvStr k s) (k, JStr s).
Proof. intros Hk Hs. apply kv_member; [exact Hk|]. apply jv_str. now apply quoted_jstring. Qed.
Lemma int_member k z : printable k -> jmember (writeKvInt fmt k z) (k, JInt z).
Proof. intros Hk. apply kv_member; auto. Qed.
Lemma null_member k : printable k -> jmember (writeKvNull k) (k, JNull).
Proof. intros Hk. apply kv_member; [exact Hk|constructor]. Qed.
Lemma bool_member k b : printable k -> jmember (writeKvStr k (bool_str b)) (k, JBoolStr b).
Proof.
  intros Hk. replace (JBoolStr b) with (JStr (bool_str b)) by (destruct b; reflexivity). apply str_member; [exact Hk|].
  destruct b; now apply key_printable.
Qed.

(** A file name as shown. *)
Definition main_file (f : str) : bool := starts_with (J "/app/example.") f || starts_with (J "example.") f.
Definition file_value (f : str) : json :=
  if is_nil f then JNull
  else if main_file f && negb (f_dont_mask_filenames flt) then JNull
  else JStr (if starts_with (J "/app/") f then skipn 5 f else f).
Definition has_source (l : asm_line_v) : bool := (negb (lv_is_label l) || lv_has_opcode l) && (0 <? sv_line (lv_source l)).
Definition source_value (l : asm_line_v) : json :=
  let s := lv_source l in
  let f := v_str (sv_file s) in
  if has_source l then
    JObj ((if sv_column s =? 0 then [] else [(J "column", JInt (sv_column s))]) ++
          [(J "file", file_value f); (J "mainsource", JBoolStr (is_nil f || main_file f)); (J "line", JInt (sv_line s))])
  else JNull.
Definition ref_value (r : asm_label_v) : json :=
  JObj [(J "name", JStr (v_str (lbv_name r)));
        (J "range", JObj [(J "startCol", JInt (r_start (lbv_range r))); (J "endCol", JInt (r_end (lbv_range r)))])].
Definition line_value (l : asm_line_v) : json :=
  JObj ([(J "labels", JArr (map ref_value (lv_labels l)))] ++
        (if is_nil (lv_opcodes l) then [] else [(J "opcodes", JArr (map JStr (lv_opcodes l)))]) ++
        (match lv_address l with
         | Some a => if lv_is_label l && f_compatmode flt then [] else [(J "address", JInt a)]
         | None => []
         end) ++
        [(J "source", source_value l)] ++
        (if is_nil (v_str (lv_section l)) || f_compatmode flt then [] else [(J "section", JStr (v_str (lv_section l)))]) ++
        [(J "text", JStr (lv_text l))]).
Definition labels_value (labels : list (str * Z)) : json := JObj (map (fun p => (fst p, JInt (snd p))) labels).
Definition doc_value (lines : list asm_line_v) (labels : list (str * Z)) (time : option Z) (filtered : Z) : json :=
  JObj ([(J "asm", JArr (map line_value lines)); (J "labelDefinitions", labels_value labels)] ++
        (match time with Some t => [(J "parsingTime", JInt t)] | None => [] end) ++
        [(J "filteredCount", JInt filtered)]).

(** Every string shown is printable. *)
Definition source_printable (l : asm_line_v) : Prop := match file_value (v_str (sv_file (lv_source l))) with JStr f => has_source l = true -> printable f | _ => True end.
Definition line_printable (l : asm_line_v) : Prop :=
  Forall (fun r => printable (v_str (lbv_name r))) (lv_labels l) /\ Forall visible (lv_opcodes l) /\ source_printable l /\
  (f_compatmode flt = false -> printable (v_str (lv_section l))) /\ printable (lv_text l).

Ltac key := apply key_printable; reflexivity.
Lemma tail_SEP m p : jmember m p -> jtail (SEP ++ m) [p].
Proof. intros H. exact (jtail_one [SP] m p ws_SP H). Qed.
Lemma tail_NL m p : jmember m p -> jtail (NL ++ m) [p].
Proof. intros H. exact (jtail_one [LF] m p ws_LF H). Qed.
Lemma tail_SEP_cons m p t l : jmember m p -> jtail t l -> jtail (SEP ++ m ++ t) (p :: l).
Proof. intros H Ht. exact (jt_cons [SP] m p t l ws_SP H Ht). Qed.
Lemma tail_NL_cons m p t l : jmember m p -> jtail t l -> jtail (NL ++ m ++ t) (p :: l).
Proof. intros H Ht. exact (jt_cons [LF] m p t l ws_LF H Ht). Qed.

Lemma file_member l : source_printable l -> has_source l = true ->
  jmember (match shown_file flt (v_str (sv_file (lv_source l))) with
           | None => writeKvNull (lit "file") | Some f => writeKvStr (lit "file") f end)
          (J "file", file_value (v_str (sv_file (lv_source l)))).
Proof.
  unfold source_printable, shown_file, file_value, isMainSource, main_file, J. set (f := v_str (sv_file (lv_source l))). intros Hp Hs.
  destruct (is_nil f); [apply null_member; key|]. rewrite andb_comm.
  destruct (_ && _); [apply null_member; key|].
  destruct (starts_with (lit "/app/") f); apply str_member; auto; key.
Qed.
Lemma source_jvalue l : source_printable l -> jvalue (writeSource fmt flt l) (source_value l).
Proof.
  intros Hp. unfold writeSource, source_value. fold (has_source l). destruct (has_source l) eqn:Hs; [|constructor].
  assert (Hrest : forall f g, jmember f (J "file", g) ->
     forall pre lpre, (pre = [] /\ lpre = [] \/ exists m p, pre = m ++ SEP /\ lpre = [p] /\ jmember m p) ->
     jvalue (lit "{" ++ pre ++ f ++ SEP
       ++ writeKvStr (lit "mainsource") (bool_str (isMainSource (v_str (sv_file (lv_source l))))) ++ SEP
       ++ writeKvInt fmt (lit "line") (sv_line (lv_source l)) ++ lit "}")
     (JObj (lpre ++ [(J "file", g); (J "mainsource", JBoolStr (isMainSource (v_str (sv_file (lv_source l))))); (J "line", JInt (sv_line (lv_source l)))]))).
  { intros f g Hf pre lpre Hpre.
    assert (Ht : jtail (SEP ++ writeKvStr (lit "mainsource") (bool_str (isMainSource (v_str (sv_file (lv_source l))))) ++ SEP
       ++ writeKvInt fmt (lit "line") (sv_line (lv_source l)))
       [(J "mainsource", JBoolStr (isMainSource (v_str (sv_file (lv_source l))))); (J "line", JInt (sv_line (lv_source l)))]).
    { apply tail_SEP_cons; [apply bool_member; key|]. apply tail_SEP. apply int_member; key. }
    destruct Hpre as [[-> ->]|(m & p & -> & -> & Hm)].
    - pose proof (jobject _ _ _ _ Hf Ht) as E. rewrite <- !app_assoc in E. exact E.
    - pose proof (jobject _ _ _ _ Hm (tail_SEP_cons _ _ _ _ Hf Ht)) as E. rewrite <- !app_assoc in E. rewrite <- !app_assoc. exact E. }
  replace (is_nil (v_str (sv_file (lv_source l))) || main_file (v_str (sv_file (lv_source l))))
    with (isMainSource (v_str (sv_file (lv_source l)))) by (unfold isMainSource; destruct (is_nil _); reflexivity).
  cbv zeta. apply Hrest; [now apply file_member|].
  destruct (sv_column (lv_source l) =? 0); cbn [negb]; [now left|right].
  do 2 eexists. split; [reflexivity|]. split; [reflexivity|]. apply int_member; key.
Qed.

Lemma ref_jvalue r : printable (v_str (lbv_name r)) -> jvalue (writeLabelRef fmt r) (ref_value r).
Proof.
  intros H. unfold writeLabelRef, ref_value.
  assert (Hr : jvalue (lit "{" ++ (writeKvInt fmt (lit "startCol") (r_start (lbv_range r)) ++ SEP
    ++ writeKvInt fmt (lit "endCol") (r_end (lbv_range r))) ++ lit "}")
    (JObj [(J "startCol", JInt (r_start (lbv_range r))); (J "endCol", JInt (r_end (lbv_range r)))])).
  { apply jobject; [apply int_member; key|]. apply tail_SEP. apply int_member; key. }
  pose proof (jobject _ _ _ _ (str_member (lit "name") _ ltac:(key) H) (tail_SEP _ _ (kv_member (lit "range") _ _ ltac:(key) Hr))) as E.
  rewrite <- !app_assoc in E. exact E.
Qed.
Lemma refs_jvalue l : Forall (fun r => printable (v_str (lbv_name r))) (lv_labels l) ->
  jvalue (writeLabelArray fmt l) (JArr (map ref_value (lv_labels l))).
Proof.
  intros H. apply (sep_list_array []); [constructor|]. eapply Forall_impl; [|exact H]. intros r. apply ref_jvalue.
Qed.
Lemma opcodes_jvalue l : Forall visible (lv_opcodes l) -> Forall unquoted (lv_opcodes l) ->
  jvalue (writeOpcodesArray l) (JArr (map JStr (lv_opcodes l))).
Proof.
  intros H H'. apply (sep_list_array [SP]); [apply ws_SP|]. apply Forall_forall. intros o Ho.
  rewrite Forall_forall in H, H'. apply jv_str. apply raw_jstring; auto.
Qed.

Lemma line_jvalue l : line_printable l -> Forall unquoted (lv_opcodes l) -> jvalue (writeLine fmt flt l) (line_value l).
Proof.
  intros (H1 & H2 & H3 & H4 & H5) H6. unfold writeLine, line_value.
  assert (Ht : jtail ((if negb (is_nil (lv_opcodes l)) then SEP ++ writeKeyName (lit "opcodes") ++ writeOpcodesArray l else [])
    ++ (match lv_address l with
        | Some a => if negb (lv_is_label l && f_compatmode flt) then SEP ++ writeKvInt fmt (lit "address") a else []
        | None => [] end)
    ++ SEP ++ (writeKeyName (lit "source") ++ writeSource fmt flt l)
    ++ (if negb (is_nil (v_str (lv_section l))) && negb (f_compatmode flt)
        then SEP ++ writeKvStr (lit "section") (v_str (lv_section l)) else [])
    ++ SEP ++ writeKvStr (lit "text") (lv_text l))
    ((if is_nil (lv_opcodes l) then [] else [(J "opcodes", JArr (map JStr (lv_opcodes l)))]) ++
        (match lv_address l with
         | Some a => if lv_is_label l && f_compatmode flt then [] else [(J "address", JInt a)]
         | None => []
         end) ++
        [(J "source", source_value l)] ++
        (if is_nil (v_str (lv_section l)) || f_compatmode flt then [] else [(J "section", JStr (v_str (lv_section l)))]) ++
        [(J "text", JStr (lv_text l))])).
  { apply jtail_app.
    { destruct (is_nil (lv_opcodes l)); [constructor|]. apply tail_SEP. apply kv_member; [key|]. now apply opcodes_jvalue. }
    apply jtail_app.
    { destruct (lv_address l); [|constructor]. destruct (_ && _); [constructor|]. apply tail_SEP. apply int_member; key. }
    apply tail_SEP_cons; [apply kv_member; [key|now apply source_jvalue]|].
    apply jtail_app.
    { rewrite <- negb_orb. destruct (is_nil _ || _) eqn:E; [constructor|]. apply orb_false_iff in E as [_ E].
      apply tail_SEP. apply str_member; [key|auto]. }
    apply tail_SEP. apply str_member; [key|exact H5]. }
  pose proof (jobject _ _ _ _ (kv_member (lit "labels") _ _ ltac:(key) (refs_jvalue l H1)) Ht) as E.
  rewrite <- !app_assoc in E. rewrite <- ?app_assoc. exact E.
Qed.

Lemma labels_member labels : Forall (fun p => printable (fst p)) labels ->
  jmember (writeLabelDefs fmt labels) (J "labelDefinitions", labels_value labels).
Proof.
  intros H. apply kv_member; [key|]. apply (sep_list_object [SP]); [apply ws_SP|].
  eapply Forall_impl; [|exact H]. intros [k z] Hk. apply int_member. exact Hk.
Qed.

Lemma doc_jvalue lines labels count reproducible clock :
  Forall line_printable lines -> Forall (fun l => Forall unquoted (lv_opcodes l)) lines ->
  Forall (fun p => printable (fst p)) labels ->
  jvalue (write fmt flt lines labels count reproducible clock)
    (doc_value lines labels (if reproducible then None else Some clock) (filteredCount count (Z.of_nat (length lines)))).
Proof.
  intros H1 H2 H3. unfold write, doc_value.
  assert (Ha : jvalue (lit "[" ++ sep_list (lit ",") (writeLine fmt flt) lines ++ lit "]") (JArr (map line_value lines))).
  { apply (sep_list_array []); [constructor|]. apply Forall_forall. intros l Hl. rewrite Forall_forall in H1, H2.
    apply line_jvalue; auto. }
  assert (Ht : jtail (lit "," ++ [] ++ writeLabelDefs fmt labels ++
     (if negb reproducible then SEP ++ writeKvInt fmt (lit "parsingTime") clock else [])
     ++ SEP ++ writeKvInt fmt (lit "filteredCount") (filteredCount count (Z.of_nat (length lines))))
     ((J "labelDefinitions", labels_value labels) ::
      (match (if reproducible then None else Some clock) with Some t => [(J "parsingTime", JInt t)] | None => [] end) ++
      [(J "filteredCount", JInt (filteredCount count (Z.of_nat (length lines))))])).
  { apply jt_cons; [constructor|now apply labels_member|]. apply jtail_app.
    - destruct reproducible; [constructor|]. apply tail_SEP. apply int_member; key.
    - apply tail_SEP. apply int_member; key. }
  pose proof (jobject _ _ _ _ (kv_member (lit "asm") _ _ ltac:(key) Ha) Ht) as E.
  rewrite <- !app_assoc in E. rewrite <- ?app_assoc. exact E.
Qed.
End Parts.
