(** Pretty printing only adds line feeds, and only where JSON allows them. *)
From Verif Require Export JsonPretty.

(** *** Line feeds taken out *)
Definition strip (s : str) : str := filter (fun c => negb (ceq c LF)) s.
Lemma strip_app a b : strip (a ++ b) = strip a ++ strip b. Proof. apply filter_app. Qed.
Lemma strip_nl p : strip (nl p) = []. Proof. destruct p; reflexivity. Qed.
Lemma strip_pSEP p : strip (pSEP p) = strip SEP. Proof. destruct p; reflexivity. Qed.
Lemma strip_comma p : strip (lit "," ++ nl p) = strip (lit ","). Proof. destruct p; reflexivity. Qed.
Lemma strip_tail {A} sep sep' (f f' : A -> str) l : strip sep = strip sep' -> (forall x, strip (f x) = strip (f' x)) ->
  strip (sep_tail sep f l) = strip (sep_tail sep' f' l).
Proof. intros H1 H2. induction l as [|x l IH]; cbn [sep_tail]; [reflexivity|]. now rewrite !strip_app, H1, H2, IH. Qed.
Lemma strip_list {A} sep sep' (f f' : A -> str) l : strip sep = strip sep' -> (forall x, strip (f x) = strip (f' x)) ->
  strip (sep_list sep f l) = strip (sep_list sep' f' l).
Proof. intros H1 H2. destruct l; cbn [sep_list]; [reflexivity|]. now rewrite !strip_app, H2, (strip_tail sep sep' f f' l H1 H2). Qed.

Section Strip.
Variables (pretty : bool) (fmt : Z -> str) (flt : Filter).
Ltac st := rewrite ?strip_app, ?strip_nl, ?strip_pSEP, ?app_nil_r; cbn [app].
Lemma strip_source l : strip (pSource pretty fmt flt l) = strip (writeSource fmt flt l).
Proof.
  rewrite <- source_plain. unfold pSource. destruct (has_source l); [|reflexivity]. destruct (negb (sv_column (lv_source l) =? 0)); st; reflexivity.
Qed.
Lemma strip_label_array l : strip (pLabelArray pretty fmt l) = strip (writeLabelArray fmt l).
Proof.
  unfold pLabelArray, writeLabelArray. rewrite !strip_app. rewrite (strip_list _ (lit ",") _ (writeLabelRef fmt)); [reflexivity|apply strip_comma|].
  intros r. unfold pLabelRef, writeLabelRef. st. reflexivity.
Qed.
Lemma strip_line l : strip (pLine pretty fmt flt l) = strip (writeLine fmt flt l).
Proof.
  unfold pLine, writeLine. rewrite !strip_app, strip_label_array, strip_source, strip_nl.
  destruct (lv_address l) as [a|]; [destruct (negb (lv_is_label l && f_compatmode flt))|]; destruct (negb (is_nil (v_str (lv_section l))) && negb (f_compatmode flt)); st; reflexivity.
Qed.
Lemma strip_label_defs labels : strip (pLabelDefs pretty fmt labels) = strip (writeLabelDefs fmt labels).
Proof.
  unfold pLabelDefs, writeLabelDefs. rewrite !strip_app, strip_nl. rewrite (strip_list SEP SEP _ (fun kv => writeKvInt fmt (fst kv) (snd kv))); [reflexivity|reflexivity|].
  intros x. st. reflexivity.
Qed.
Lemma strip_write lines labels count reproducible clock :
  strip (pWrite pretty fmt flt lines labels count reproducible clock) = strip (write fmt flt lines labels count reproducible clock).
Proof.
  unfold pWrite, write. rewrite !strip_app, strip_label_defs, strip_nl, app_nil_r.
  rewrite (strip_list _ (lit ",") _ (writeLine fmt flt)) by (apply strip_comma || exact strip_line).
  destruct (negb reproducible); st; reflexivity.
Qed.
Lemma strip_debug_line l : strip (pDebugLine pretty fmt flt l) = strip (writeDebugLine fmt flt l).
Proof. unfold pDebugLine, writeDebugLine. rewrite !strip_app, strip_label_array, strip_source, strip_nl, !strip_pSEP. cbn [app]. reflexivity. Qed.
Lemma strip_refs e : strip (pRefs pretty e) = strip (writeRefs e).
Proof. unfold pRefs, writeRefs. rewrite !strip_app. rewrite (strip_list SEP SEP _ writeValue); [reflexivity|reflexivity|]. intros x. st. reflexivity. Qed.
Lemma strip_write_debug lines labels used weak data aliased :
  strip (pDebug pretty fmt flt lines labels used weak data aliased) = strip (writeDebug fmt flt lines labels used weak data aliased).
Proof.
  unfold pDebug, writeDebug. rewrite !strip_app, strip_label_defs, strip_nl, app_nil_r.
  rewrite (strip_list _ (lit ",") _ (writeDebugLine fmt flt)) by (apply strip_comma || exact strip_debug_line).
  rewrite (strip_list (lit ",") (lit ",") (fun e => lit "{" ++ pRefs pretty e ++ lit "}") (fun e => lit "{" ++ writeRefs e ++ lit "}")) by (reflexivity || (intros e; now rewrite !strip_app, strip_refs)).
  rewrite !(strip_list (lit ",") (lit ",") (pRefs pretty) writeRefs) by (reflexivity || exact strip_refs).
  rewrite (strip_list SEP SEP _ (fun kv => writeKvStr (fst kv) (snd kv))) by (reflexivity || (intros e; st; reflexivity)). reflexivity.
Qed.
End Strip.

(** *** Values with white space around them *)
Definition spaced_member (m : str) (p : str * json) : Prop := exists w1 m0 w2, m = w1 ++ m0 ++ w2 /\ ws w1 /\ ws w2 /\ jmember m0 p.
Inductive spaced_tail : str -> list (str * json) -> Prop :=
| st_nil : spaced_tail [] []
| st_cons : forall m p t l, spaced_member m p -> spaced_tail t l -> spaced_tail (lit "," ++ m ++ t) (p :: l).
Lemma spaced_members m p t l : spaced_member m p -> spaced_tail t l -> jmembers (m ++ t) (p :: l).
Proof.
  intros Hm Ht. revert m p Hm. induction Ht as [|m' p' t l Hm' Ht IH]; intros m [n v] (w1 & m0 & w2 & -> & H1 & H2 & k & s & -> & Hk & Hs); cbn [fst snd] in *.
  - pose proof (jm_one w1 k n [] [SP] s v w2 H1 Hk ws_nil ws_SP Hs H2) as H. rewrite app_nil_r. cbn [app] in H. rewrite <- !app_assoc. exact H.
  - pose proof (jm_more w1 k n [] [SP] s v w2 (m' ++ t) (p' :: l) H1 Hk ws_nil ws_SP Hs H2 (IH m' p' Hm')) as H.
    cbn [app] in H. rewrite <- !app_assoc. exact H.
Qed.
Lemma spaced_object m p t l : spaced_member m p -> spaced_tail t l -> jvalue (lit "{" ++ (m ++ t) ++ lit "}") (JObj (p :: l)).
Proof. intros Hm Ht. apply jv_obj. now apply spaced_members. Qed.
Lemma spaced_tail_app a la b lb : spaced_tail a la -> spaced_tail b lb -> spaced_tail (a ++ b) (la ++ lb).
Proof. induction 1 as [|m p t l Hm Ht IH]; intros Hb; [exact Hb|]. rewrite <- !app_assoc. cbn [app]. apply st_cons; auto. Qed.
(** Members with nothing around them, with white space after, before. *)
Lemma sm_bare m p : jmember m p -> spaced_member m p.
Proof. intros H. exists [], m, []. rewrite app_nil_r. auto using ws_nil. Qed.
Lemma sm_after m p w : ws w -> spaced_member m p -> spaced_member (m ++ w) p.
Proof. intros Hw (w1 & m0 & w2 & -> & H1 & H2 & H). exists w1, m0, (w2 ++ w). rewrite <- !app_assoc. auto using ws_app. Qed.
Lemma sm_before m p w : ws w -> spaced_member m p -> spaced_member (w ++ m) p.
Proof. intros Hw (w1 & m0 & w2 & -> & H1 & H2 & H). exists (w ++ w1), m0, w2. rewrite <- !app_assoc. auto using ws_app. Qed.
(** The comma options. *)
Lemma st_SEP m p t l : spaced_member m p -> spaced_tail t l -> spaced_tail (SEP ++ m ++ t) (p :: l).
Proof. intros H Ht. pose proof (st_cons _ _ _ _ (sm_before _ _ [SP] ws_SP H) Ht) as E. rewrite <- app_assoc in E. exact E. Qed.
Lemma st_SEP1 m p : spaced_member m p -> spaced_tail (SEP ++ m) [p].
Proof. intros H. pose proof (st_SEP _ _ _ _ H st_nil) as E. rewrite app_nil_r in E. exact E. Qed.
Lemma st_NL m p t l : spaced_member m p -> spaced_tail t l -> spaced_tail (NL ++ m ++ t) (p :: l).
Proof. intros H Ht. pose proof (st_cons _ _ _ _ (sm_before _ _ [LF] ws_LF H) Ht) as E. rewrite <- app_assoc in E. exact E. Qed.
Lemma st_NL1 m p : spaced_member m p -> spaced_tail (NL ++ m) [p].
Proof. intros H. pose proof (st_NL _ _ _ _ H st_nil) as E. rewrite app_nil_r in E. exact E. Qed.
Lemma sep_spaced_tail {A} w (f : A -> str) (g : A -> str * json) l : ws w -> Forall (fun a => spaced_member (f a) (g a)) l ->
  spaced_tail (sep_tail (lit "," ++ w) f l) (map g l).
Proof.
  intros Hw H. induction H as [|a l Ha Hl IH]; [constructor|]. cbn [sep_tail map]. pose proof (st_cons _ _ _ _ (sm_before _ _ w Hw Ha) IH) as E.
  rewrite <- !app_assoc in E |- *. exact E.
Qed.
(** [w0]: white space after the opening brace *)
Lemma sep_spaced_object {A} w0 w (f : A -> str) (g : A -> str * json) l : ws w0 -> ws w -> Forall (fun a => spaced_member (f a) (g a)) l ->
  jvalue (lit "{" ++ (w0 ++ sep_list (lit "," ++ w) f l) ++ lit "}") (JObj (map g l)).
Proof.
  intros H0 Hw H. destruct H as [|a l Ha Hl].
  - cbn [sep_list map]. rewrite app_nil_r. apply (jv_obj0 w0 H0).
  - cbn [sep_list map]. rewrite (app_assoc w0). apply spaced_object; [now apply sm_before|now apply sep_spaced_tail].
Qed.
(** [w2]: white space after each element *)
Lemma sep_spaced_elements {A} w w2 (f : A -> str) (g : A -> json) a l : ws w -> ws w2 -> Forall (fun a => jvalue (f a) (g a)) (a :: l) ->
  jelements ((f a ++ w2) ++ sep_tail (lit "," ++ w) (fun x => f x ++ w2) l) (map g (a :: l)).
Proof.
  intros Hw H2. revert a. induction l as [|b l IH]; intros a H; inversion H as [|? ? Ha Hl]; subst.
  - pose proof (je_one [] (f a) (g a) w2 ws_nil Ha H2) as E. cbn [sep_tail map]. rewrite app_nil_r. exact E.
  - cbn [sep_tail map]. rewrite <- !app_assoc.
    pose proof (je_more [] (f a) (g a) w2 (w ++ (f b ++ w2) ++ sep_tail (lit "," ++ w) (fun x => f x ++ w2) l) (map g (b :: l)) ws_nil Ha H2
                        (jelements_ws w _ _ Hw (IH b Hl))) as E. rewrite <- !app_assoc in E. exact E.
Qed.
Lemma sep_spaced_array {A} w w2 (f : A -> str) (g : A -> json) l : ws w -> ws w2 -> Forall (fun a => jvalue (f a) (g a)) l ->
  jvalue (lit "[" ++ sep_list (lit "," ++ w) (fun x => f x ++ w2) l ++ lit "]") (JArr (map g l)).
Proof.
  intros Hw H2 H. destruct l as [|a l].
  - apply (jv_arr0 []). constructor.
  - cbn [sep_list]. apply jv_arr. now apply sep_spaced_elements.
Qed.

Section Value.
Variables (pretty : bool) (fmt : Z -> str) (flt : Filter).
Hypothesis Hfmt : forall z, jvalue (fmt z) (JInt z).
Lemma ws_nl : ws (nl pretty). Proof. unfold nl. destruct pretty; [apply ws_LF|apply ws_nil]. Qed.
Lemma st_pSEP m p t l : spaced_member m p -> spaced_tail t l -> spaced_tail (pSEP pretty ++ m ++ t) (p :: l).
Proof.
  intros H Ht. pose proof (st_SEP _ _ _ _ (sm_before _ _ _ ws_nl H) Ht) as E. unfold pSEP. rewrite <- !app_assoc in E |- *. exact E.
Qed.
Lemma st_pSEP1 m p : spaced_member m p -> spaced_tail (pSEP pretty ++ m) [p].
Proof. intros H. pose proof (st_pSEP _ _ _ _ H st_nil) as E. rewrite app_nil_r in E. exact E. Qed.
Ltac key := apply key_printable; reflexivity.

Lemma p_source_jvalue l : source_printable flt l -> jvalue (pSource pretty fmt flt l) (source_value flt l).
Proof.
  intros Hp. unfold pSource, source_value. destruct (has_source l) eqn:Hs; [|constructor]. cbv zeta.
  pose proof (sm_bare _ _ (file_member flt l Hp Hs)) as Hf.
  replace (is_nil (v_str (sv_file (lv_source l))) || main_file (v_str (sv_file (lv_source l))))
    with (isMainSource (v_str (sv_file (lv_source l)))) by (unfold isMainSource; destruct (is_nil _); reflexivity).
  assert (Ht : spaced_tail (pSEP pretty ++ writeKvStr (lit "mainsource") (bool_str (isMainSource (v_str (sv_file (lv_source l))))) ++ pSEP pretty
     ++ (writeKvInt fmt (lit "line") (sv_line (lv_source l)) ++ nl pretty))
     [(J "mainsource", JBoolStr (isMainSource (v_str (sv_file (lv_source l))))); (J "line", JInt (sv_line (lv_source l)))]).
  { apply st_pSEP; [apply sm_bare, bool_member; key|]. apply st_pSEP1, sm_after; [apply ws_nl|]. apply sm_bare, int_member; [exact Hfmt|key]. }
  destruct (sv_column (lv_source l) =? 0); cbn [negb app].
  - pose proof (spaced_object _ _ _ _ Hf Ht) as E. rewrite <- !app_assoc in E. exact E.
  - pose proof (spaced_object _ _ _ _ (sm_bare _ _ (int_member fmt Hfmt (lit "column") (sv_column (lv_source l)) ltac:(key))) (st_pSEP _ _ _ _ Hf Ht)) as E.
    rewrite <- !app_assoc in E. rewrite <- !app_assoc. exact E.
Qed.
Lemma p_ref_jvalue r : printable (v_str (lbv_name r)) -> jvalue (pLabelRef pretty fmt r) (ref_value r).
Proof.
  intros H. unfold pLabelRef, ref_value.
  assert (Hr : jvalue (lit "{" ++ ((writeKvInt fmt (lit "startCol") (r_start (lbv_range r)) ++ nl pretty) ++ SEP
    ++ (writeKvInt fmt (lit "endCol") (r_end (lbv_range r)) ++ nl pretty)) ++ lit "}")
    (JObj [(J "startCol", JInt (r_start (lbv_range r))); (J "endCol", JInt (r_end (lbv_range r)))])).
  { apply spaced_object; [apply sm_after; [apply ws_nl|apply sm_bare, int_member; [exact Hfmt|key]]|].
    apply st_SEP1, sm_after; [apply ws_nl|]. apply sm_bare, int_member; [exact Hfmt|key]. }
  pose proof (spaced_object _ _ _ _ (sm_bare _ _ (str_member (lit "name") _ ltac:(key) H)) (st_pSEP1 _ _ (sm_bare _ _ (kv_member (lit "range") _ _ ltac:(key) Hr)))) as E.
  rewrite <- !app_assoc in E. exact E.
Qed.
Lemma p_refs_jvalue l : Forall (fun r => printable (v_str (lbv_name r))) (lv_labels l) ->
  jvalue (pLabelArray pretty fmt l) (JArr (map ref_value (lv_labels l))).
Proof.
  intros H. apply (sep_list_array (nl pretty)); [apply ws_nl|]. eapply Forall_impl; [|exact H]. intros r. apply p_ref_jvalue.
Qed.
Lemma p_line_jvalue l : line_printable flt l -> Forall unquoted (lv_opcodes l) -> jvalue (pLine pretty fmt flt l) (line_value flt l).
Proof.
  intros (H1 & H2 & H3 & H4 & H5) H6. unfold pLine, line_value.
  assert (Ht : spaced_tail ((if negb (is_nil (lv_opcodes l)) then SEP ++ writeKeyName (lit "opcodes") ++ writeOpcodesArray l else [])
    ++ (match lv_address l with
        | Some a => if negb (lv_is_label l && f_compatmode flt) then SEP ++ writeKvInt fmt (lit "address") a ++ nl pretty else []
        | None => [] end)
    ++ SEP ++ (writeKeyName (lit "source") ++ pSource pretty fmt flt l)
    ++ (if negb (is_nil (v_str (lv_section l))) && negb (f_compatmode flt)
        then SEP ++ writeKvStr (lit "section") (v_str (lv_section l)) ++ nl pretty else [])
    ++ SEP ++ (writeKvStr (lit "text") (lv_text l) ++ nl pretty) ++ nl pretty)
    ((if is_nil (lv_opcodes l) then [] else [(J "opcodes", JArr (map JStr (lv_opcodes l)))]) ++
        (match lv_address l with
         | Some a => if lv_is_label l && f_compatmode flt then [] else [(J "address", JInt a)]
         | None => []
         end) ++
        [(J "source", source_value flt l)] ++
        (if is_nil (v_str (lv_section l)) || f_compatmode flt then [] else [(J "section", JStr (v_str (lv_section l)))]) ++
        [(J "text", JStr (lv_text l))])).
  { apply spaced_tail_app.
    { destruct (is_nil (lv_opcodes l)); [constructor|]. apply st_SEP1, sm_bare, kv_member; [key|]. now apply opcodes_jvalue. }
    apply spaced_tail_app.
    { destruct (lv_address l); [|constructor]. destruct (_ && _); [constructor|]. apply st_SEP1, sm_after; [apply ws_nl|]. apply sm_bare, int_member; [exact Hfmt|key]. }
    apply st_SEP; [apply sm_bare, kv_member; [key|now apply p_source_jvalue]|].
    apply spaced_tail_app.
    { rewrite <- negb_orb. destruct (is_nil _ || _) eqn:E; [constructor|]. apply orb_false_iff in E as [_ E].
      apply st_SEP1, sm_after; [apply ws_nl|]. apply sm_bare, str_member; [key|auto]. }
    apply st_SEP1, sm_after; [apply ws_nl|]. apply sm_after; [apply ws_nl|]. apply sm_bare, str_member; [key|exact H5]. }
  pose proof (spaced_object _ _ _ _ (sm_before _ _ _ ws_nl (sm_bare _ _ (kv_member (lit "labels") _ _ ltac:(key) (p_refs_jvalue l H1)))) Ht) as E.
  rewrite <- !app_assoc in E. rewrite <- ?app_assoc. exact E.
Qed.
Lemma p_labels_member labels : Forall (fun p => printable (fst p)) labels ->
  jmember (pLabelDefs pretty fmt labels) (J "labelDefinitions", labels_value labels).
Proof.
  intros H. apply kv_member; [key|].
  pose proof (sep_spaced_object (nl pretty) [SP] (fun kv => writeKvInt fmt (fst kv) (snd kv) ++ nl pretty) (fun p => (fst p, JInt (snd p))) labels ws_nl ws_SP) as E.
  rewrite <- app_assoc in E. apply E. eapply Forall_impl; [|exact H]. intros [k z] Hk. apply sm_after; [apply ws_nl|]. apply sm_bare, int_member; [exact Hfmt|exact Hk].
Qed.
Definition p_doc_value lines labels count (reproducible : bool) clock :=
  doc_value flt lines labels (if reproducible then None else Some clock) (filteredCount count (Z.of_nat (length lines))).
Lemma p_doc_jvalue lines labels count reproducible clock :
  Forall (line_printable flt) lines -> Forall (fun l => Forall unquoted (lv_opcodes l)) lines ->
  Forall (fun p => printable (fst p)) labels ->
  json_text (pWrite pretty fmt flt lines labels count reproducible clock) (p_doc_value lines labels count reproducible clock).
Proof.
  intros H1 H2 H3. unfold pWrite, p_doc_value, doc_value.
  assert (Ha : jvalue (lit "[" ++ sep_list (lit "," ++ nl pretty) (pLine pretty fmt flt) lines ++ lit "]") (JArr (map (line_value flt) lines))).
  { apply (sep_list_array (nl pretty)); [apply ws_nl|]. apply Forall_forall. intros l Hl. rewrite Forall_forall in H1, H2. apply p_line_jvalue; auto. }
  assert (Ht : spaced_tail (lit "," ++ pLabelDefs pretty fmt labels ++
     (if negb reproducible then SEP ++ writeKvInt fmt (lit "parsingTime") clock ++ nl pretty else [])
     ++ SEP ++ writeKvInt fmt (lit "filteredCount") (filteredCount count (Z.of_nat (length lines))) ++ nl pretty)
     ((J "labelDefinitions", labels_value labels) ::
      (match (if reproducible then None else Some clock) with Some t => [(J "parsingTime", JInt t)] | None => [] end) ++
      [(J "filteredCount", JInt (filteredCount count (Z.of_nat (length lines))))])).
  { apply st_cons; [now apply sm_bare, p_labels_member|]. apply spaced_tail_app.
    - destruct reproducible; [constructor|]. apply st_SEP1, sm_after; [apply ws_nl|]. apply sm_bare, int_member; [exact Hfmt|key].
    - apply st_SEP1, sm_after; [apply ws_nl|]. apply sm_bare, int_member; [exact Hfmt|key]. }
  pose proof (spaced_object _ _ _ _ (sm_bare _ _ (kv_member (lit "asm") _ _ ltac:(key) Ha)) Ht) as E.
  eexists [], _, (nl pretty). split; [|split; [apply ws_nil|split; [apply ws_nl|exact E]]].
  cbn [app]. rewrite <- !app_assoc. reflexivity.
Qed.

Lemma p_debug_line_jvalue l : debug_line_printable flt l -> jvalue (pDebugLine pretty fmt flt l) (debug_line_value flt l).
Proof.
  intros (H1 & H2 & H3 & H4 & H5). unfold pDebugLine, debug_line_value.
  assert (Ht : spaced_tail (pSEP pretty ++ (match lv_address l with Some a => writeKvInt fmt (lit "address") a | None => writeKvNull (lit "address") end)
    ++ pSEP pretty ++ writeKvStr (lit "is_data") (bool_str (lv_is_data l))
    ++ pSEP pretty ++ writeKvStr (lit "is_used") (bool_str (lv_is_used l))
    ++ pSEP pretty ++ writeKvStr (lit "is_label") (bool_str (lv_is_label l))
    ++ pSEP pretty ++ writeKvStr (lit "is_internal_label") (bool_str (lv_is_internal_label l))
    ++ pSEP pretty ++ writeKvStr (lit "is_inline_asm") (bool_str (lv_is_inline_asm l))
    ++ pSEP pretty ++ writeKvStr (lit "closest_parent_label") (lv_closest_parent_label l)
    ++ pSEP pretty ++ writeKvStr (lit "section") (v_str (lv_section l))
    ++ pSEP pretty ++ writeKvStr (lit "has_opcode") (bool_str (lv_has_opcode l))
    ++ pSEP pretty ++ writeKvStr (lit "is_directive") (bool_str (lv_is_directive l))
    ++ pSEP pretty ++ writeKvStr (lit "is_assignment") (bool_str (lv_is_assignment l))
    ++ pSEP pretty ++ (writeKeyName (lit "source") ++ pSource pretty fmt flt l)
    ++ NL ++ ((writeKeyName (lit "labels") ++ pLabelArray pretty fmt l) ++ nl pretty))
    (match debug_line_value flt l with JObj (_ :: t) => t | _ => [] end)).
  { cbn [debug_line_value].
    apply st_pSEP. { destruct (lv_address l); apply sm_bare; [apply int_member; [exact Hfmt|key]|apply null_member; key]. }
    do 5 (apply st_pSEP; [apply sm_bare, bool_member; key|]).
    apply st_pSEP; [apply sm_bare, str_member; [key|assumption]|].
    apply st_pSEP; [apply sm_bare, str_member; [key|assumption]|].
    do 3 (apply st_pSEP; [apply sm_bare, bool_member; key|]).
    apply st_pSEP; [apply sm_bare, kv_member; [key|now apply p_source_jvalue]|].
    apply st_NL1, sm_after; [apply ws_nl|]. apply sm_bare, kv_member; [key|]. now apply p_refs_jvalue. }
  pose proof (spaced_object _ _ _ _ (sm_bare _ _ (str_member (lit "text") _ ltac:(key) H5)) Ht) as E.
  rewrite <- !app_assoc in E. rewrite <- ?app_assoc. exact E.
Qed.
Lemma p_refs_member e : refs_printable e -> jmember (pRefs pretty e) (refs_value e).
Proof.
  intros [H1 H2]. apply kv_member; [exact H1|]. apply (sep_spaced_array [SP] (nl pretty) writeValue JStr); [apply ws_SP|apply ws_nl|].
  eapply Forall_impl; [|exact H2]. intros s Hs. apply jv_str. now apply quoted_jstring.
Qed.
Lemma p_debug_jvalue lines labels used weak data aliased :
  Forall (debug_line_printable flt) lines -> Forall (fun p => printable (fst p)) labels ->
  Forall refs_printable used -> Forall refs_printable weak -> Forall refs_printable data ->
  Forall (fun p => printable (fst p) /\ printable (snd p)) aliased ->
  json_text (pDebug pretty fmt flt lines labels used weak data aliased) (debug_value flt lines labels used weak data aliased).
Proof.
  intros H1 H2 H3 H4 H5 H6. unfold pDebug, debug_value.
  assert (Ha : jvalue (lit "[" ++ sep_list (lit "," ++ nl pretty) (pDebugLine pretty fmt flt) lines ++ lit "]") (JArr (map (debug_line_value flt) lines))).
  { apply (sep_list_array (nl pretty)); [apply ws_nl|]. eapply Forall_impl; [|exact H1]. apply p_debug_line_jvalue. }
  assert (Hu : jvalue (lit "[" ++ sep_list (lit ",") (fun e => lit "{" ++ pRefs pretty e ++ lit "}") used ++ lit "]")
                      (JArr (map (fun e => JObj [refs_value e]) used))).
  { apply (sep_list_array []); [constructor|]. eapply Forall_impl; [|exact H3]. intros e He.
    pose proof (jobject _ _ _ _ (p_refs_member e He) jt_nil) as E. rewrite app_nil_r in E. exact E. }
  assert (Hw : jvalue (lit "{" ++ sep_list (lit ",") (pRefs pretty) weak ++ lit "}") (JObj (map refs_value weak))).
  { apply (sep_list_object []); [constructor|]. eapply Forall_impl; [|exact H4]. apply p_refs_member. }
  assert (Hd : jvalue (lit "{" ++ sep_list (lit ",") (pRefs pretty) data ++ lit "}") (JObj (map refs_value data))).
  { apply (sep_list_object []); [constructor|]. eapply Forall_impl; [|exact H5]. apply p_refs_member. }
  assert (Hal : jvalue (lit "{" ++ sep_list SEP (fun kv => writeKvStr (fst kv) (snd kv) ++ nl pretty) aliased ++ lit "}")
                       (JObj (map (fun p => (fst p, JStr (snd p))) aliased))).
  { apply (sep_spaced_object [] [SP] (fun kv => writeKvStr (fst kv) (snd kv) ++ nl pretty) (fun p => (fst p, JStr (snd p)))); [apply ws_nil|apply ws_SP|].
    eapply Forall_impl; [|exact H6]. intros p [Hp1 Hp2]. apply sm_after; [apply ws_nl|]. apply sm_bare. now apply str_member. }
  assert (Ht : spaced_tail (lit "," ++ pLabelDefs pretty fmt labels
      ++ NL ++ (writeKeyName (lit "used_labels") ++ lit "[" ++ sep_list (lit ",") (fun e => lit "{" ++ pRefs pretty e ++ lit "}") used ++ lit "]")
      ++ NL ++ (writeKeyName (lit "used_weak_labels") ++ lit "{" ++ sep_list (lit ",") (pRefs pretty) weak ++ lit "}")
      ++ NL ++ (writeKeyName (lit "used_data_labels") ++ lit "{" ++ sep_list (lit ",") (pRefs pretty) data ++ lit "}")
      ++ NL ++ (writeKeyName (lit "aliased_labels") ++ lit "{" ++ sep_list SEP (fun kv => writeKvStr (fst kv) (snd kv) ++ nl pretty) aliased ++ lit "}"))
      (match debug_value flt lines labels used weak data aliased with JObj (_ :: t) => t | _ => [] end)).
  { cbn [debug_value]. apply st_cons; [now apply sm_bare, p_labels_member|].
    do 3 (apply st_NL; [apply sm_bare, kv_member; [key|assumption]|]).
    apply st_NL1, sm_bare, kv_member; [key|assumption]. }
  pose proof (spaced_object _ _ _ _ (sm_bare _ _ (kv_member (lit "asm") _ _ ltac:(key) Ha)) Ht) as E. cbn [debug_value] in E.
  eexists [], _, (nl pretty). split; [|split; [apply ws_nil|split; [apply ws_nl|exact E]]].
  cbn [app]. rewrite <- !app_assoc. reflexivity.
Qed.
End Value.
