(** The statement-by-statement writers against Json.v, with and without pretty
    printing. *)
From Verif Require Export JsonSteps JsonDebug.
Local Open Scope act_scope.

Definition writes (a : act) (s : str) : Prop := forall out, a out = out ++ s.
Lemma w_put s : writes (put s) s. Proof. intros o. reflexivity. Qed.
Lemma w_skip : writes skip []. Proof. intros o. unfold skip. now rewrite app_nil_r. Qed.
Lemma w_seq a b s t : writes a s -> writes b t -> writes (a ;; b) (s ++ t).
Proof. intros H1 H2 o. unfold andthen. now rewrite H1, H2, app_assoc. Qed.
Lemma w_eq a s t : writes a s -> s = t -> writes a t. Proof. now intros H <-. Qed.
Lemma w_when b a s : writes a s -> writes (when b a) (if b then s else []).
Proof. destruct b; [auto|intros; apply w_skip]. Qed.
Lemma w_cond b a a' s s' : writes a s -> writes a' s' -> writes (cond b a a') (if b then s else s').
Proof. destruct b; auto. Qed.
Lemma w_loop {A} (body : bool -> A -> act) (f : A -> str) sep l :
  (forall x, In x l -> writes (body true x) (f x) /\ writes (body false x) (sep ++ f x)) ->
  writes (loop true body l) (sep_list sep f l).
Proof.
  intros H. assert (E : forall l', (forall x, In x l' -> writes (body false x) (sep ++ f x)) -> forall out,
    fst (fold_left (fun st x => (body (snd st) x (fst st), false)) l' (out, false)) = out ++ sep_tail sep f l').
  { induction l' as [|x l' IH]; intros H' out; cbn [fold_left sep_tail]; [now rewrite app_nil_r|]. cbn [fst snd].
    rewrite IH by (intros y Hy; apply H'; now right). rewrite (H' x (or_introl eq_refl)). now rewrite <- !app_assoc. }
  intros out. unfold loop. destruct l as [|x l]; cbn [fold_left sep_list]; [now rewrite app_nil_r|]. cbn [fst snd].
  rewrite E by (intros y Hy; apply H; now right). destruct (H x (or_introl eq_refl)) as [H1 _]. rewrite H1. now rewrite <- app_assoc.
Qed.

Lemma escape_same s : escape_steps s = escape s.
Proof.
  assert (E : forall s out, fold_left (fun out c =>
    if ceq c TAB then out ++ [BSL; "t"%char] else if ceq c BSL then out ++ [BSL; BSL]
    else if ceq c DQ then out ++ [BSL; DQ] else out ++ [c]) s out = out ++ escape s).
  { clear s. induction s as [|c s IH]; intros out; cbn [fold_left escape flat_map]; [now rewrite app_nil_r|].
    rewrite IH. unfold escape_char, escape. destruct (ceq c TAB), (ceq c BSL), (ceq c DQ); now rewrite <- app_assoc. }
  apply (E s []).
Qed.
Lemma escape_lit_plain k : forallb (fun c => negb (ceq c TAB) && negb (ceq c BSL) && negb (ceq c DQ)) k = true -> escape k = k.
Proof.
  induction k as [|c k IH]; [reflexivity|]. cbn [forallb escape flat_map]. rewrite !andb_true_iff. intros [[[H1 H2] H3] H]. unfold escape_char.
  destruct (ceq c TAB), (ceq c BSL), (ceq c DQ); try discriminate. cbn [app]. f_equal. now apply IH.
Qed.

Section Pretty.
Variables (pretty : bool) (fmt : Z -> str) (flt : Filter).
(** The line feed of pretty printing. *)
Definition nl : str := if pretty then [LF] else [].
Lemma w_nl : writes (newline pretty) nl.
Proof. unfold newline, nl. apply (w_when pretty (put [LF]) [LF]). apply w_put. Qed.

(** *** The documents with their line feeds *)
Definition pSEP : str := SEP ++ nl.
Definition pSource (l : asm_line_v) : str :=
  let src := lv_source l in
  if has_source l then
    lit "{"
    ++ (if negb (sv_column src =? 0) then writeKvInt fmt (lit "column") (sv_column src) ++ pSEP else [])
    ++ (match shown_file flt (v_str (sv_file src)) with
        | None => writeKvNull (lit "file")
        | Some f => writeKvStr (lit "file") f
        end) ++ pSEP
    ++ writeKvStr (lit "mainsource") (bool_str (isMainSource (v_str (sv_file src)))) ++ pSEP
    ++ writeKvInt fmt (lit "line") (sv_line src) ++ nl
    ++ lit "}"
  else lit "null".
Definition pLabelRef (r : asm_label_v) : str :=
  lit "{" ++ writeKvStr (lit "name") (v_str (lbv_name r)) ++ pSEP
  ++ writeKeyName (lit "range") ++ lit "{"
  ++ writeKvInt fmt (lit "startCol") (r_start (lbv_range r)) ++ nl ++ SEP
  ++ writeKvInt fmt (lit "endCol") (r_end (lbv_range r)) ++ nl ++ lit "}" ++ lit "}".
Definition pLabelArray (l : asm_line_v) : str := lit "[" ++ sep_list (lit "," ++ nl) pLabelRef (lv_labels l) ++ lit "]".
Definition pLine (l : asm_line_v) : str :=
  lit "{" ++ nl
  ++ writeKeyName (lit "labels") ++ pLabelArray l
  ++ (if negb (is_nil (lv_opcodes l)) then SEP ++ writeKeyName (lit "opcodes") ++ writeOpcodesArray l else [])
  ++ (match lv_address l with
      | Some a => if negb (lv_is_label l && f_compatmode flt) then SEP ++ writeKvInt fmt (lit "address") a ++ nl else []
      | None => []
      end)
  ++ SEP ++ writeKeyName (lit "source") ++ pSource l
  ++ (if negb (is_nil (v_str (lv_section l))) && negb (f_compatmode flt)
      then SEP ++ writeKvStr (lit "section") (v_str (lv_section l)) ++ nl else [])
  ++ SEP ++ writeKvStr (lit "text") (lv_text l) ++ nl ++ nl
  ++ lit "}".
Definition pLabelDefs (labels : list (str * Z)) : str :=
  writeKeyName (lit "labelDefinitions") ++ lit "{" ++ nl
  ++ sep_list SEP (fun kv => writeKvInt fmt (fst kv) (snd kv) ++ nl) labels ++ lit "}".
Definition pWrite (lines : list asm_line_v) (labels : list (str * Z)) (count : Z) (reproducible : bool) (clock : Z) : str :=
  lit "{" ++ writeKeyName (lit "asm") ++ lit "[" ++ sep_list (lit "," ++ nl) pLine lines ++ lit "],"
  ++ pLabelDefs labels
  ++ (if negb reproducible then SEP ++ writeKvInt fmt (lit "parsingTime") clock ++ nl else [])
  ++ SEP ++ writeKvInt fmt (lit "filteredCount") (filteredCount count (Z.of_nat (length lines))) ++ nl
  ++ lit "}" ++ nl.
Definition pDebugLine (l : asm_line_v) : str :=
  lit "{" ++ writeKvStr (lit "text") (lv_text l) ++ pSEP
  ++ (match lv_address l with Some a => writeKvInt fmt (lit "address") a | None => writeKvNull (lit "address") end) ++ pSEP
  ++ writeKvStr (lit "is_data") (bool_str (lv_is_data l)) ++ pSEP
  ++ writeKvStr (lit "is_used") (bool_str (lv_is_used l)) ++ pSEP
  ++ writeKvStr (lit "is_label") (bool_str (lv_is_label l)) ++ pSEP
  ++ writeKvStr (lit "is_internal_label") (bool_str (lv_is_internal_label l)) ++ pSEP
  ++ writeKvStr (lit "is_inline_asm") (bool_str (lv_is_inline_asm l)) ++ pSEP
  ++ writeKvStr (lit "closest_parent_label") (lv_closest_parent_label l) ++ pSEP
  ++ writeKvStr (lit "section") (v_str (lv_section l)) ++ pSEP
  ++ writeKvStr (lit "has_opcode") (bool_str (lv_has_opcode l)) ++ pSEP
  ++ writeKvStr (lit "is_directive") (bool_str (lv_is_directive l)) ++ pSEP
  ++ writeKvStr (lit "is_assignment") (bool_str (lv_is_assignment l)) ++ pSEP
  ++ writeKeyName (lit "source") ++ pSource l ++ NL
  ++ writeKeyName (lit "labels") ++ pLabelArray l ++ nl
  ++ lit "}".
Definition pRefs (e : str * list str) : str :=
  writeKeyName (fst e) ++ lit "[" ++ sep_list SEP (fun r => writeValue r ++ nl) (snd e) ++ lit "]".
Definition pDebug (lines : list asm_line_v) (labels : list (str * Z))
           (used weak data : list (str * list str)) (aliased : list (str * str)) : str :=
  lit "{" ++ writeKeyName (lit "asm") ++ lit "[" ++ sep_list (lit "," ++ nl) pDebugLine lines ++ lit "],"
  ++ pLabelDefs labels ++ NL
  ++ writeKeyName (lit "used_labels") ++ lit "["
  ++ sep_list (lit ",") (fun e => lit "{" ++ pRefs e ++ lit "}") used ++ lit "]" ++ NL
  ++ writeKeyName (lit "used_weak_labels") ++ lit "{" ++ sep_list (lit ",") pRefs weak ++ lit "}" ++ NL
  ++ writeKeyName (lit "used_data_labels") ++ lit "{" ++ sep_list (lit ",") pRefs data ++ lit "}" ++ NL
  ++ writeKeyName (lit "aliased_labels") ++ lit "{"
  ++ sep_list SEP (fun kv => writeKvStr (fst kv) (snd kv) ++ nl) aliased ++ lit "}"
  ++ lit "}" ++ nl.

(** *** The statements write them *)
Lemma w_key_lit k : forallb (fun c => negb (ceq c TAB) && negb (ceq c BSL) && negb (ceq c DQ)) (lit k) = true -> writes (out_key_lit k) (writeKeyName (lit k)).
Proof.
  intros H. unfold out_key_lit, writeKeyName, quoted. rewrite escape_lit_plain by exact H. eapply w_eq; [repeat (apply w_seq || apply w_put)|].
  rewrite <- !app_assoc. reflexivity.
Qed.
Lemma w_key k : writes (out_key k) (writeKeyName k).
Proof.
  unfold out_key, writeKeyName, quoted. rewrite escape_same. eapply w_eq; [repeat (apply w_seq || apply w_put)|]. rewrite <- !app_assoc. reflexivity.
Qed.
(** What an option puts before and after. *)
Definition opt_pre (o : jsonopt) : str := if is_prefix o then SEP else [].
Definition opt_post (o : jsonopt) : str := (if is_trailing o then SEP else []) ++ nl.
Lemma w_pre o : writes (when (is_prefix o) (put (lit ", "))) (opt_pre o).
Proof. apply w_when, w_put. Qed.
Lemma w_post o : writes (when (is_trailing o) (put (lit ", ")) ;; newline pretty) (opt_post o).
Proof. apply w_seq; [apply w_when, w_put|apply w_nl]. Qed.
Lemma w_value v o : writes (out_value pretty v o) (opt_pre o ++ writeValue v ++ opt_post o).
Proof.
  unfold out_value. apply w_seq; [apply w_pre|]. apply w_seq; [|apply w_post]. rewrite escape_same. apply w_seq; [apply w_put|]. apply w_seq; apply w_put.
Qed.
Notation plain k := (forallb (fun c => negb (ceq c TAB) && negb (ceq c BSL) && negb (ceq c DQ)) (lit k) = true).
Lemma w_null k o : plain k -> writes (out_null pretty k o) (opt_pre o ++ writeKvNull (lit k) ++ opt_post o).
Proof.
  intros H. unfold out_null, writeKvNull. apply w_seq; [apply w_pre|]. rewrite <- app_assoc. apply w_seq; [now apply w_key_lit|].
  apply w_seq; [apply w_put|apply w_post].
Qed.
Lemma w_long k v o : plain k -> writes (out_kv_long pretty fmt k v o) (opt_pre o ++ writeKvInt fmt (lit k) v ++ opt_post o).
Proof.
  intros H. unfold out_kv_long, writeKvInt. apply w_seq; [apply w_pre|]. rewrite <- app_assoc. apply w_seq; [now apply w_key_lit|].
  apply w_seq; [apply w_put|apply w_post].
Qed.
Lemma w_num k v o : writes (out_kv_num pretty fmt k v o) (opt_pre o ++ writeKvInt fmt k v ++ opt_post o).
Proof.
  unfold out_kv_num, writeKvInt. apply w_seq; [apply w_pre|]. rewrite <- app_assoc. apply w_seq; [apply w_key|]. apply w_seq; [apply w_put|apply w_post].
Qed.
Lemma w_str k v o : plain k -> writes (out_kv_str pretty k v o) (opt_pre o ++ writeKvStr (lit k) v ++ opt_post o).
Proof.
  intros H. unfold out_kv_str, writeKvStr. destruct o; cbn [cond is_prefix]; try (rewrite <- app_assoc; apply (w_seq _ _ _ _ (w_key_lit k H)); apply w_value).
  apply w_seq; [apply w_put|]. rewrite <- app_assoc. apply (w_seq _ _ _ _ (w_key_lit k H)). apply w_value.
Qed.
Lemma w_view k v o : writes (out_kv_view pretty k v o) (opt_pre o ++ writeKvStr k v ++ opt_post o).
Proof.
  unfold out_kv_view, writeKvStr. destruct o; cbn [cond is_prefix]; try (rewrite <- app_assoc; apply (w_seq _ _ _ _ (w_key k)); apply w_value).
  apply w_seq; [apply w_put|]. rewrite <- app_assoc. apply (w_seq _ _ _ _ (w_key k)). apply w_value.
Qed.
(** Each option by itself. *)
Lemma post_t x : opt_pre o_trailingcomma ++ x ++ opt_post o_trailingcomma = x ++ pSEP. Proof. reflexivity. Qed.
Lemma post_n x : opt_pre o_none ++ x ++ opt_post o_none = x ++ nl. Proof. reflexivity. Qed.
Lemma post_p x : opt_pre o_prefixwithcomma ++ x ++ opt_post o_prefixwithcomma = SEP ++ x ++ nl. Proof. reflexivity. Qed.

Lemma w_source l : writes (out_source pretty fmt flt l) (pSource l).
Proof.
  unfold out_source, pSource. cbv zeta. fold (has_source l). apply w_cond; [|apply w_put].
  apply w_seq; [apply w_put|]. apply w_seq; [apply w_when; apply (w_long "column" _ o_trailingcomma); reflexivity|].
  set (f := v_str (sv_file (lv_source l))).
  assert (E : let r := if negb (is_nil f) then
          (starts_with (lit "/app/example.") f || starts_with (lit "example.") f,
           if negb (f_dont_mask_filenames flt) && (starts_with (lit "/app/example.") f || starts_with (lit "example.") f) then out_null pretty "file" o_trailingcomma
           else if starts_with (lit "/app/") f then out_kv_view pretty (lit "file") (skipn 5 f) o_trailingcomma
           else out_kv_view pretty (lit "file") f o_trailingcomma)
        else (true, out_null pretty "file" o_trailingcomma) in
     fst r = isMainSource f /\ writes (snd r) ((match shown_file flt f with None => writeKvNull (lit "file") | Some f => writeKvStr (lit "file") f end) ++ pSEP)).
  { unfold isMainSource, shown_file, isMainSource. destruct (is_nil f); cbn [negb fst snd]; (split; [reflexivity|]).
    - apply (w_null "file" o_trailingcomma); reflexivity.
    - destruct (_ && _); [apply (w_null "file" o_trailingcomma); reflexivity|].
      destruct (starts_with (lit "/app/") f); apply (w_view _ _ o_trailingcomma). }
  cbv zeta in E. destruct E as [E1 E2].
  eapply w_eq.
  - apply w_seq; [apply w_seq; [exact E2|apply (w_str "mainsource" _ o_trailingcomma); reflexivity]|].
    apply w_seq; [apply (w_long "line" _ o_none); reflexivity|apply w_put].
  - rewrite post_t, post_n, E1. rewrite <- !app_assoc. reflexivity.
Qed.
Lemma w_quoted o : writes (put [DQ] ;; put o ;; put [DQ]) (quoted o).
Proof. exact (w_seq _ _ _ _ (w_put _) (w_seq _ _ _ _ (w_put _) (w_put _))). Qed.
Lemma w_opcodes l : writes (out_opcodes l) (writeOpcodesArray l).
Proof.
  unfold out_opcodes, writeOpcodesArray. apply w_seq; [apply w_put|]. apply w_seq; [|apply w_put]. apply w_loop. intros o _. split.
  - exact (w_seq _ _ _ _ w_skip (w_quoted o)).
  - exact (w_seq _ _ _ _ (w_put _) (w_quoted o)).
Qed.
Lemma w_label_ref r : writes (put (lit "{") ;; out_kv_view pretty (lit "name") (v_str (lbv_name r)) o_trailingcomma ;; out_key_lit "range" ;; put (lit "{") ;;
    out_kv_int pretty fmt "startCol" (r_start (lbv_range r)) o_none ;; out_kv_int pretty fmt "endCol" (r_end (lbv_range r)) o_prefixwithcomma ;;
    put (lit "}") ;; put (lit "}")) (pLabelRef r).
Proof.
  unfold out_kv_int. eapply w_eq.
  - apply w_seq; [apply w_put|]. apply w_seq; [apply w_view|]. apply w_seq; [apply (w_key_lit "range"); reflexivity|]. apply w_seq; [apply w_put|].
    apply w_seq; [apply w_long; reflexivity|]. apply w_seq; [apply w_long; reflexivity|]. apply w_seq; apply w_put.
  - unfold pLabelRef. rewrite post_t, post_n, post_p. rewrite <- !app_assoc. reflexivity.
Qed.
Lemma w_label_array l : writes (out_label_array pretty fmt l) (pLabelArray l).
Proof.
  unfold out_label_array, pLabelArray. apply w_seq; [apply w_put|]. apply w_seq; [|apply w_put]. apply w_loop. intros r _. split.
  - apply (w_seq _ _ _ _ w_skip), w_label_ref.
  - apply w_seq; [|apply w_label_ref]. apply w_seq; [apply w_put|apply w_nl].
Qed.
Lemma w_part b a s st t : writes a s -> snd st = true -> writes (fst st) t ->
  snd (part b a st) = true /\ writes (fst (part b a st)) (t ++ if b then SEP ++ s else []).
Proof.
  intros H1 H2 H3. unfold part. destruct b; cbn [fst snd]; [|split; [exact H2|now rewrite app_nil_r]]. split; [reflexivity|].
  apply w_seq; [exact H3|]. rewrite H2. apply w_seq; [apply w_put|exact H1].
Qed.
Lemma no_opcodes {A} (l : list A) : (0 <? Z.of_nat (length l)) = negb (is_nil l).
Proof. destruct l; [reflexivity|]. cbn [is_nil negb]. apply Z.ltb_lt. cbn [length]. lia. Qed.
Lemma w_line l : writes (out_line pretty fmt flt l) (pLine l).
Proof.
  unfold out_line. cbv zeta. rewrite no_opcodes.
  set (st1 := ((put (lit "{") ;; newline pretty ;; out_key_lit "labels" ;; out_label_array pretty fmt l)%act, true)).
  assert (H1 : snd st1 = true /\ writes (fst st1) (lit "{" ++ nl ++ writeKeyName (lit "labels") ++ pLabelArray l)).
  { split; [reflexivity|]. apply w_seq; [apply w_put|]. apply w_seq; [apply w_nl|]. apply w_seq; [now apply (w_key_lit "labels")|apply w_label_array]. }
  clearbody st1.
  destruct (w_part (negb (is_nil (lv_opcodes l))) _ _ st1 _ (w_seq _ _ _ _ (w_key_lit "opcodes" eq_refl) (w_opcodes l)) (proj1 H1) (proj2 H1)) as [A2 B2].
  remember (part _ _ st1) as st2 eqn:E2. clear E2 H1.
  assert (H3 : let st3 := match lv_address l with
            | Some a => part (negb (lv_is_label l && f_compatmode flt)) (out_kv_long pretty fmt "address" a o_none) st2
            | None => st2 end in snd st3 = true /\ writes (fst st3) (((lit "{" ++ nl ++ writeKeyName (lit "labels") ++ pLabelArray l) ++
         (if negb (is_nil (lv_opcodes l)) then SEP ++ writeKeyName (lit "opcodes") ++ writeOpcodesArray l else [])) ++
         match lv_address l with
         | Some a => if negb (lv_is_label l && f_compatmode flt) then SEP ++ writeKvInt fmt (lit "address") a ++ nl else []
         | None => [] end)).
  { cbv zeta. destruct (lv_address l) as [a|].
    - apply w_part; [apply (w_long "address" a o_none eq_refl)|exact A2|exact B2].
    - split; [exact A2|]. rewrite app_nil_r. exact B2. }
  cbv zeta in H3. destruct H3 as [A3 B3]. remember (match lv_address l with Some a => part _ _ st2 | None => st2 end) as st3 eqn:E3. clear E3 A2 B2.
  destruct (w_part true _ _ st3 _ (w_seq _ _ _ _ (w_key_lit "source" eq_refl) (w_source l)) A3 B3) as [A4 B4].
  remember (part _ _ st3) as st4 eqn:E4. clear E4 A3 B3.
  destruct (w_part (negb (is_nil (v_str (lv_section l))) && negb (f_compatmode flt)) _ _ st4 _ (w_view (lit "section") (v_str (lv_section l)) o_none) A4 B4) as [A5 B5].
  remember (part _ _ st4) as st5 eqn:E5. clear E5 A4 B4.
  destruct (w_part true _ _ st5 _ (w_str "text" (lv_text l) o_none eq_refl) A5 B5) as [A6 B6].
  eapply w_eq.
  - apply w_seq; [exact B6|]. apply w_seq; [apply w_nl|apply w_put].
  - unfold pLine. rewrite !post_n. rewrite <- !app_assoc. reflexivity.
Qed.
Lemma w_lines f p lines : (forall l, writes (f l) (p l)) ->
  writes (out_lines pretty f lines) (sep_list (lit "," ++ nl) p lines ++ lit "],").
Proof.
  intros H. apply w_seq; [|apply w_put]. apply w_loop. intros l _. split.
  - apply (w_seq _ _ _ _ w_skip), H.
  - apply w_seq; [|apply H]. apply w_seq; [apply w_put|apply w_nl].
Qed.
Lemma w_label_defs labels : writes (out_label_defs pretty fmt labels) (pLabelDefs labels).
Proof.
  unfold out_label_defs, pLabelDefs. apply w_seq; [now apply (w_key_lit "labelDefinitions")|]. apply w_seq; [apply w_put|]. apply w_seq; [apply w_nl|].
  apply w_seq; [|apply w_put]. apply w_loop. intros e _. split; cbn [cond]; [apply (w_num _ _ o_none)|apply (w_num _ _ o_prefixwithcomma)].
Qed.
Theorem w_write lines labels count reproducible clock :
  writes (out_write pretty fmt flt lines labels count reproducible clock) (pWrite lines labels count reproducible clock).
Proof.
  unfold out_write. eapply w_eq.
  - apply w_seq; [apply w_put|]. apply w_seq; [now apply (w_key_lit "asm")|]. apply w_seq; [apply w_put|].
    apply w_seq; [apply w_lines, w_line|]. apply w_seq; [apply w_label_defs|].
    apply w_seq; [apply w_when, w_long; reflexivity|]. apply w_seq; [apply w_long; reflexivity|]. apply w_seq; [apply w_put|apply w_nl].
  - unfold pWrite. rewrite !post_p. rewrite <- !app_assoc. reflexivity.
Qed.
Lemma w_debug_line l : writes (out_debug_line pretty fmt flt l) (pDebugLine l).
Proof.
  unfold out_debug_line. eapply w_eq.
  - apply w_seq; [apply w_put|]. apply w_seq; [apply w_str; reflexivity|].
    apply w_seq; [instantiate (1 := (match lv_address l with Some a => writeKvInt fmt (lit "address") a | None => writeKvNull (lit "address") end) ++ pSEP);
                  destruct (lv_address l); [apply (w_long "address" _ o_trailingcomma)|apply (w_null "address" o_trailingcomma)]; reflexivity|].
    do 6 (apply w_seq; [apply w_str; reflexivity|]). apply w_seq; [apply w_view|]. do 3 (apply w_seq; [apply w_str; reflexivity|]).
    apply w_seq; [apply (w_key_lit "source"); reflexivity|]. apply w_seq; [apply w_source|]. apply w_seq; [apply w_put|].
    apply w_seq; [apply (w_key_lit "labels"); reflexivity|]. apply w_seq; [apply w_label_array|]. apply w_seq; [apply w_nl|apply w_put].
  - unfold pDebugLine. rewrite !post_t. rewrite <- !app_assoc. reflexivity.
Qed.
Lemma w_refs e : writes (out_refs pretty e) (pRefs e).
Proof.
  unfold out_refs, pRefs. apply w_seq; [apply w_key|]. apply w_seq; [apply w_put|]. apply w_seq; [|apply w_put]. apply w_loop. intros r _.
  split; cbn [cond]; [apply (w_value r o_none)|apply (w_value r o_prefixwithcomma)].
Qed.
Lemma w_ref_object e : writes (put (lit "{") ;; out_refs pretty e ;; put (lit "}")) (lit "{" ++ pRefs e ++ lit "}").
Proof. exact (w_seq _ _ _ _ (w_put _) (w_seq _ _ _ _ (w_refs e) (w_put _))). Qed.
Lemma w_ref_loop l : writes (loop true (fun first e => cond first skip (put (lit ",")) ;; out_refs pretty e) l) (sep_list (lit ",") pRefs l).
Proof. apply w_loop. intros e _. split; [apply (w_seq _ _ _ _ w_skip), w_refs|]. apply w_seq; [apply w_put|apply w_refs]. Qed.
Theorem w_write_debug lines labels used weak data aliased :
  writes (out_write_debug pretty fmt flt lines labels used weak data aliased) (pDebug lines labels used weak data aliased).
Proof.
  unfold out_write_debug. eapply w_eq.
  - apply w_seq; [apply w_put|]. apply w_seq; [now apply (w_key_lit "asm")|]. apply w_seq; [apply w_put|].
    apply w_seq; [apply w_lines, w_debug_line|]. apply w_seq; [apply w_label_defs|]. apply w_seq; [apply w_put|].
    apply w_seq; [now apply (w_key_lit "used_labels")|]. apply w_seq; [apply w_put|].
    apply w_seq.
    { apply (w_loop _ (fun e => lit "{" ++ pRefs e ++ lit "}") (lit ",")). intros e _. split.
      - exact (w_seq _ _ _ _ w_skip (w_ref_object e)).
      - exact (w_seq _ _ _ _ (w_put _) (w_ref_object e)). }
    apply w_seq; [apply w_put|]. apply w_seq; [apply w_put|].
    apply w_seq; [now apply (w_key_lit "used_weak_labels")|]. apply w_seq; [apply w_put|]. apply w_seq; [apply w_ref_loop|].
    apply w_seq; [apply w_put|]. apply w_seq; [apply w_put|].
    apply w_seq; [now apply (w_key_lit "used_data_labels")|]. apply w_seq; [apply w_put|]. apply w_seq; [apply w_ref_loop|].
    apply w_seq; [apply w_put|]. apply w_seq; [apply w_put|].
    apply w_seq; [now apply (w_key_lit "aliased_labels")|]. apply w_seq; [apply w_put|].
    apply w_seq.
    { apply (w_loop _ (fun kv => writeKvStr (fst kv) (snd kv) ++ nl) SEP). intros e _. split; cbn [cond]; [apply (w_view _ _ o_none)|apply (w_view _ _ o_prefixwithcomma)]. }
    apply w_seq; [apply w_put|]. apply w_seq; [apply w_put|apply w_nl].
  - unfold pDebug. rewrite <- !app_assoc. reflexivity.
Qed.
End Pretty.

(** *** Without pretty printing *)
Lemma sep_tail_ext {A} sep (f g : A -> str) l : (forall x, f x = g x) -> sep_tail sep f l = sep_tail sep g l.
Proof. intros H. induction l as [|x l IH]; cbn [sep_tail]; [reflexivity|]. now rewrite H, IH. Qed.
Lemma sep_list_ext {A} sep (f g : A -> str) l : (forall x, f x = g x) -> sep_list sep f l = sep_list sep g l.
Proof. intros H. destruct l; cbn [sep_list]; [reflexivity|]. rewrite H. f_equal. now apply sep_tail_ext. Qed.

Section Plain.
Variables (fmt : Z -> str) (flt : Filter).
Lemma nl_false : nl false = []. Proof. reflexivity. Qed.
Lemma pSEP_false : pSEP false = SEP. Proof. reflexivity. Qed.
Lemma source_plain l : pSource false fmt flt l = writeSource fmt flt l. Proof. reflexivity. Qed.
Lemma label_array_plain l : pLabelArray false fmt l = writeLabelArray fmt l. Proof. reflexivity. Qed.
Lemma line_plain l : pLine false fmt flt l = writeLine fmt flt l.
Proof.
  unfold pLine, writeLine. rewrite nl_false, label_array_plain, source_plain, !app_nil_r.
  destruct (lv_address l) as [a|]; rewrite ?app_nil_r; reflexivity.
Qed.
Lemma label_defs_plain labels : pLabelDefs false fmt labels = writeLabelDefs fmt labels.
Proof. unfold pLabelDefs, writeLabelDefs. rewrite nl_false. cbn [app]. rewrite (sep_list_ext SEP _ (fun kv => writeKvInt fmt (fst kv) (snd kv))); [reflexivity|]. intros x. apply app_nil_r. Qed.
Lemma write_plain lines labels count reproducible clock : pWrite false fmt flt lines labels count reproducible clock = write fmt flt lines labels count reproducible clock.
Proof.
  unfold pWrite, write. rewrite nl_false, !app_nil_r, label_defs_plain. rewrite (sep_list_ext (lit ",") _ (writeLine fmt flt)) by exact line_plain. reflexivity.
Qed.
Lemma debug_line_plain l : pDebugLine false fmt flt l = writeDebugLine fmt flt l. Proof. reflexivity. Qed.
Lemma refs_plain e : pRefs false e = writeRefs e.
Proof. unfold pRefs, writeRefs. rewrite (sep_list_ext SEP _ writeValue); [reflexivity|]. intros x. apply app_nil_r. Qed.
Lemma write_debug_plain lines labels used weak data aliased :
  pDebug false fmt flt lines labels used weak data aliased = writeDebug fmt flt lines labels used weak data aliased.
Proof.
  unfold pDebug, writeDebug. rewrite nl_false, label_defs_plain. rewrite (sep_list_ext (lit ",") (pDebugLine false fmt flt) (writeDebugLine fmt flt)) by exact debug_line_plain.
  rewrite (sep_list_ext (lit ",") (fun e => lit "{" ++ pRefs false e ++ lit "}") (fun e => lit "{" ++ writeRefs e ++ lit "}")) by (intros e; now rewrite refs_plain).
  rewrite !(sep_list_ext (lit ",") (pRefs false) writeRefs) by exact refs_plain.
  rewrite (sep_list_ext SEP _ (fun kv => writeKvStr (fst kv) (snd kv))) by (intros e; apply app_nil_r). rewrite !app_nil_r. reflexivity.
Qed.
End Plain.
