(** The text parser: how the lines stored follow from the lines of the input. *)
From Verif Require Import AsmLemmas AsmRead AsmMark.

(** *** Lines of the input *)
Fixpoint raw_lines (cur input : str) : list str * str :=
  match input with
  | [] => ([], cur)
  | c :: t => if ceq c LF then let '(ls, r) := raw_lines [] t in (cur :: ls, r) else raw_lines (cur ++ [c]) t
  end.

(** What is carried from line to line: white space text not yet used, whether a
    block comment is open, the depth of inline assembly. *)
Record scan := mkScan { sc_pend : str; sc_block : bool; sc_nest : Z }.
Definition scan0 : scan := mkScan [] false 0.
(** What a line of the input is: part of a block comment, blank, or text. *)
Inductive cand := CBlock (raw : str) | CBlank (raw : str) | CText (raw : str) (nest : Z).
Definition all_blank (t : str) : bool := forallb (fun c => ceq c SP || ceq c TAB) t.
Definition scan_line (flt : Filter) (sc : scan) (line : str) : cand * scan :=
  let t := sc_pend sc ++ line in
  let block := f_comment_only flt && (sc_block sc || startCommentBlock t) in
  if block then (CBlock t, mkScan [] (negb (endCommentBlock t)) (sc_nest sc))
  else if all_blank t then (CBlank t, mkScan t (sc_block sc && negb (f_comment_only flt)) (sc_nest sc))
  else
    let n := if startAppBlock t || startAsmNesting t then sc_nest sc + 1
             else if endAppBlock t || endAsmNesting t then sc_nest sc - 1 else sc_nest sc in
    (CText t n, mkScan [] (sc_block sc && negb (f_comment_only flt)) n).
Fixpoint scan_lines (flt : Filter) (sc : scan) (ls : list str) : list cand * scan :=
  match ls with
  | [] => ([], sc)
  | l :: t => let '(c, sc1) := scan_line flt sc l in let '(cs, sc2) := scan_lines flt sc1 t in (c :: cs, sc2)
  end.
(** An unfinished last line, or white space that is still carried, is a line too. *)
Definition scan_input (flt : Filter) (input : str) : list cand :=
  let '(ls, rest) := raw_lines [] input in
  let '(cs, sc) := scan_lines flt scan0 ls in
  if is_nil (sc_pend sc ++ rest) then cs else cs ++ [fst (scan_line flt sc rest)].

(** The text of a line as it is stored. *)
Definition clean (flt : Filter) (nest : Z) (raw : str) : str :=
  let t := if 0 <? nest then fixLabelIndentation raw else raw in
  let t := expandTabs t in
  if f_whitespace flt then squashHorizontalWhitespaceWithQuotes t true else t.

(** *** Stored lines *)
Record kept_line (mblen : str -> Z) (flt : Filter) (code : bool) (raw : str) (nest : Z) (handled : bool) (l : asm_line_v) : Prop := {
  kl_text : lv_text l = clean flt nest raw;
  kl_label : (handled = false -> match label_of (lv_text l) with
                | Some (n, (a, _)) => lv_is_label l = true /\ lv_label l = slice l n /\ lv_is_internal_label l = isInternalLabel n /\ lv_is_assignment l = a
                | None => lv_is_label l = false /\ lv_label l = view0 /\ lv_is_internal_label l = false /\ lv_is_assignment l = false
                end) /\
             (handled = true -> lv_is_label l = false /\ lv_label l = view0 /\ lv_is_internal_label l = false /\ lv_is_assignment l = false);
  kl_data : lv_is_data l = negb handled && isDataDefn (lv_text l);
  kl_refs : lv_labels l = if negb (lv_is_label l) && (lv_has_opcode l || lv_is_data l) then used_labels_in mblen l else [];
  kl_opcode : exists c, lv_has_opcode l = hasOpcode (lv_text l) c /\ (c = true -> code = true);
  kl_handled : handled = true -> source_directive (lv_text l) = true;
  kl_inline : lv_is_inline_asm l = (0 <? nest);
  kl_unmarked : lv_is_used l = false /\ lv_is_used_through_alias l = false /\ lv_is_used_data_through_alias l = false;
  kl_directive : code = false -> f_directives flt = true -> lv_is_label l = false -> lv_is_data l = false ->
                 isDirective (lv_text l) = true \/ handled = true -> isInstOpcode (lv_text l) = true;
  kl_comment : code = false -> f_comment_only flt = true -> isJustComments raw = false }.

(** The lines the directives filter is about. *)
Definition directive_text (t : str) : bool :=
  startProcBlock t ||
  (negb (isInstOpcode t) && (source_directive t || (isDirective t && negb (is_some (label_of t)) && negb (isDataDefn t)))).
(** Why a line of text is not stored: there is always a filter asking for it. *)
Definition dropped (flt : Filter) (raw : str) (nest : Z) : Prop :=
  f_library_functions flt = true \/
  (f_comment_only flt = true /\ (isJustComments raw = true \/ isJustNvccComments raw = true)) \/
  (f_directives flt = true /\ directive_text (clean flt nest raw) = true).

Definition ends_blank (ls : list asm_line_v) : bool := match rev ls with [] => true | l :: _ => is_nil (lv_text l) end.
Inductive reads (mblen : str -> Z) (flt : Filter) (code : bool) : list cand -> list asm_line_v -> Prop :=
| RD_nil : reads mblen flt code [] []
| RD_block cs ls raw : reads mblen flt code cs ls -> reads mblen flt code (cs ++ [CBlock raw]) ls
| RD_blank cs ls raw : reads mblen flt code cs ls -> ends_blank ls = true -> reads mblen flt code (cs ++ [CBlank raw]) ls
| RD_add cs ls raw i : reads mblen flt code cs ls -> ends_blank ls = false ->
    reads mblen flt code (cs ++ [CBlank raw]) (ls ++ [line_v0 i])
| RD_drop cs ls ls' raw nest : reads mblen flt code cs ls -> same_lines ls ls' -> dropped flt raw nest ->
    reads mblen flt code (cs ++ [CText raw nest]) ls'
| RD_keep cs ls ls' raw nest handled l : reads mblen flt code cs ls -> same_lines ls ls' ->
    f_library_functions flt = false ->
    kept_line mblen flt code raw nest handled l -> reads mblen flt code (cs ++ [CText raw nest]) (ls' ++ [l]).
Lemma kept_mono mblen flt code raw nest h l : kept_line mblen flt false raw nest h l -> kept_line mblen flt code raw nest h l.
Proof.
  destruct code; [|auto]. intros []. constructor; auto; try discriminate.
  destruct kl_opcode0 as (c & A & B). exists c. auto.
Qed.
Lemma reads_mono mblen flt code cs ls : reads mblen flt false cs ls -> reads mblen flt code cs ls.
Proof.
  induction 1; [constructor|now apply RD_block|now apply RD_blank|now apply RD_add|eapply RD_drop; eassumption|].
  eapply RD_keep; eauto using kept_mono.
Qed.

(** *** One line *)
Lemma all_blank_eq t : isEmptyOrJustWhitespace t = all_blank t. Proof. reflexivity. Qed.
Definition scan_of (s : tstate) : scan := mkScan (t_text s) (t_hasStartedCommentBlock s) (t_inCustomAssembly s).
Lemma block_of_eq flt t b :
  block_of flt t b = (f_comment_only flt && (b || startCommentBlock t),
                      if f_comment_only flt && (b || startCommentBlock t) then negb (endCommentBlock t) else b && negb (f_comment_only flt)).
Proof.
  unfold block_of. destruct (f_comment_only flt); cbn [andb negb]; [|now rewrite andb_true_r].
  destruct (b || startCommentBlock t) eqn:E; [reflexivity|]. now rewrite andb_false_r.
Qed.

Lemma keep_code mblen l s : t_inNvccCode (eol_keep mblen l s) = t_inNvccCode s.
Proof. destruct (keep_shape mblen l s) as (a & p & ->). reflexivity. Qed.
Lemma define_code n c s : t_inNvccCode (define_label n c s) = (c || t_inNvccCode s) /\
  t_inNvccDef (define_label n c s) = (c || t_inNvccDef s).
Proof. unfold define_label. destruct c; split_if; split; reflexivity. Qed.

(** nvcc mode: the definition flag implies the code flag *)
Definition nv_inv (s : tstate) : Prop := t_inNvccCode s = false -> t_inNvccDef s = false.

Lemma handled_directive b l : lv_is_directive (set_lv_is_directive b l) = b. Proof. reflexivity. Qed.

(** A line of text that defines a CUDA label. *)
Definition cuda_cand (flt : Filter) (c : cand) : Prop :=
  match c with
  | CText raw nest => exists n a, label_of (clean flt nest raw) = Some (n, (a, true))
  | _ => False
  end.

Record line_step (mblen : str -> Z) (flt : Filter) (s s' : tstate) : Prop := {
  ls_scan : scan_of s' = snd (scan_line flt (mkScan (t_text s) (t_hasStartedCommentBlock s) (t_inCustomAssembly s)) []);
  ls_code : t_inNvccCode s = true -> t_inNvccCode s' = true;
  ls_nv : nv_inv s -> nv_inv s';
  ls_cuda : t_inNvccCode s' = true -> t_inNvccCode s = true \/ cuda_cand flt (fst (scan_line flt (scan_of s) []));
  ls_reads : forall cs, nv_inv s -> reads mblen flt (t_inNvccCode s) cs (t_lines s) ->
    reads mblen flt (t_inNvccCode s') (cs ++ [fst (scan_line flt (scan_of s) [])]) (t_lines s') }.

Lemma scan_line_eq flt s :
  scan_line flt (scan_of s) [] =
  if fst (block_of flt (t_text s) (t_hasStartedCommentBlock s)) then
    (CBlock (t_text s), mkScan [] (next_block flt s) (t_inCustomAssembly s))
  else if all_blank (t_text s) then (CBlank (t_text s), mkScan (t_text s) (next_block flt s) (t_inCustomAssembly s))
  else (CText (t_text s) (next_nest s), mkScan [] (next_block flt s) (next_nest s)).
Proof.
  unfold scan_line, scan_of, next_block, next_nest, nest_of. cbn [sc_pend sc_block sc_nest]. rewrite app_nil_r, block_of_eq. cbn [fst snd].
  destruct (f_comment_only flt && _); [reflexivity|]. destruct (all_blank _); reflexivity.
Qed.
Lemma filtered_clean flt s : filteredLine flt (base2 flt s) = clean flt (next_nest s) (t_text s).
Proof. reflexivity. Qed.

Lemma keep_scan mblen l s : scan_of (eol_keep mblen l s) = mkScan [] (t_hasStartedCommentBlock s) (t_inCustomAssembly s).
Proof. destruct (keep_shape mblen l s) as (a & p & ->). reflexivity. Qed.
Lemma keep_def mblen l s : t_inNvccDef (eol_keep mblen l s) = t_inNvccDef s.
Proof. destruct (keep_shape mblen l s) as (a & p & ->). reflexivity. Qed.
Lemma keep_lines mblen l s : t_lines (eol_keep mblen l s) = t_lines s ++ [final_line mblen l s].
Proof. destruct (keep_shape mblen l s) as (a & p & ->). reflexivity. Qed.

Lemma eol_step mblen flt s : good flt s -> line_step mblen flt s (eol mblen flt s).
Proof.
  intros Hg. 
  change (mkScan (t_text s) (t_hasStartedCommentBlock s) (t_inCustomAssembly s)) with (scan_of s) in *.
  destruct (eol_cases mblen flt s Hg) as [Hb|Hb Hws|s1 l Hb Hws Hq [Hn Hk] Hl Hwhy|handled s1 l Hb Hws Hq [Hn Hk] Hf Hl Hj Hh].
  - constructor; change (mkScan (t_text s) (t_hasStartedCommentBlock s) (t_inCustomAssembly s)) with (scan_of s) in *; rewrite ?scan_line_eq, ?Hb; cbn [fst snd]; auto.
    intros cs _ H. now apply RD_block.
  - rewrite all_blank_eq in Hws. assert (E : scan_of (keep_text (line_v0 (t_next_id s)) (maybeAddBlank (base1 flt s)))
      = mkScan (t_text s) (next_block flt s) (t_inCustomAssembly s)).
    { destruct (blank_cases (base1 flt s)) as [[_ ->]|[_ ->]]; reflexivity. }
    assert (E2 : t_inNvccCode (keep_text (line_v0 (t_next_id s)) (maybeAddBlank (base1 flt s))) = t_inNvccCode s /\
                 t_inNvccDef (keep_text (line_v0 (t_next_id s)) (maybeAddBlank (base1 flt s))) = t_inNvccDef s).
    { destruct (blank_cases (base1 flt s)) as [[_ ->]|[_ ->]]; split; reflexivity. }
    destruct E2 as [E2 E3].
    constructor; change (mkScan (t_text s) (t_hasStartedCommentBlock s) (t_inCustomAssembly s)) with (scan_of s) in *;
      rewrite ?scan_line_eq, ?Hb, ?Hws; cbn [fst snd]; try assumption; rewrite ?E2; auto.
    + unfold nv_inv. rewrite E2, E3. auto.
    + intros cs _ H. unfold keep_text, maybeAddBlank. change (t_lines (base1 flt s)) with (t_lines s).
      fold (ends_blank (t_lines s)). destruct (ends_blank (t_lines s)) eqn:Ee; cbn [negb]; tsimp.
      * now apply RD_blank.
      * now apply RD_add.
  - rewrite all_blank_eq in Hws.
    assert (E1 : t_inNvccCode s1 = t_inNvccCode s) by (rewrite (q_nvcode _ _ Hq); reflexivity).
    assert (E2 : t_inNvccDef s1 = t_inNvccDef s) by (rewrite (q_nvdef _ _ Hq); reflexivity).
    constructor; change (mkScan (t_text s) (t_hasStartedCommentBlock s) (t_inCustomAssembly s)) with (scan_of s) in *;
      rewrite ?scan_line_eq, ?Hb, ?Hws; cbn [fst snd]; unfold drop_line, nv_inv; tsimp; rewrite ?E1, ?E2; auto.
    + unfold scan_of. tsimp. rewrite Hn, Hk. reflexivity.
    + intros cs _ H. eapply RD_drop; [exact H|exact (q_lines _ _ Hq)|]. unfold dropped.
      destruct Hwhy as [[A A']|[A|A]]; [|auto|].
      { right. right. split; [assumption|]. unfold directive_text. rewrite <- filtered_clean. rewrite Hl in A'.
        change (lv_text (set_lv_text ?x ?y)) with x in A'. now rewrite A'. }
      right. left. unfold justComment in A.
      apply andb_true_iff in A as [A B]. split; [assumption|]. rewrite (q_text _ _ Hq) in B. change (t_text (begun s)) with (t_text s) in B.
      apply orb_true_iff in B as [B|B]; apply andb_true_iff in B as [B _]; auto.
  - rewrite all_blank_eq in Hws.
    assert (E1 : t_inNvccCode s1 = t_inNvccCode s) by (rewrite (q_nvcode _ _ Hq); reflexivity).
    assert (E2 : t_inNvccDef s1 = t_inNvccDef s) by (rewrite (q_nvdef _ _ Hq); reflexivity).
    pose proof (label_cases handled l s1) as HL. pose proof (classify_cases mblen flt handled l s1) as Hc.
    destruct (label_step handled l s1) as [l2 s2]. cbn [fst snd] in *.
    assert (Hcode : t_inNvccCode s = true -> t_inNvccCode s2 = true).
    { destruct HL as [|_|n a c _]; try congruence. destruct (define_code (slice l n) c s1) as [-> _]. intros H. rewrite E1, H. apply orb_true_r. }
    assert (Hcode' : t_inNvccCode s2 = false -> t_inNvccCode s = false) by (destruct (t_inNvccCode s); intuition congruence).
    assert (Hnv : nv_inv s -> nv_inv s2).
    { unfold nv_inv. destruct HL as [|_|n a c _]; rewrite ?E1, ?E2; auto. destruct (define_code (slice l n) c s1) as [-> ->].
      rewrite E1, E2. destruct c; cbn [orb]; auto. }
    assert (Hlines : t_lines s2 = t_lines s1) by (destruct HL as [|_|n a c _]; auto; apply define_frame).
    assert (Hscan : t_hasStartedCommentBlock s2 = next_block flt s /\ t_inCustomAssembly s2 = next_nest s).
    { destruct HL as [|_|n a c _]; try (split; assumption). unfold define_label. split_if; split; assumption. }
    destruct Hscan as [Hs1 Hs2].
    (* the facts about the line that do not depend on how it was filtered *)
    assert (Htext : lv_text l = clean flt (next_nest s) (t_text s)) by (subst l; reflexivity).
    assert (Hcuda : t_inNvccCode s2 = true -> t_inNvccCode s = true \/ cuda_cand flt (CText (t_text s) (next_nest s))).
    { destruct HL as [|_|n a c Hlb]; [left; congruence|left; congruence|]. destruct (define_code (slice l n) c s1) as [-> _].
      intros H. apply orb_true_iff in H as [->|H]; [right|left; congruence]. cbn [cuda_cand]. rewrite <- Htext. eauto. }
    assert (Hdt : handled = true \/ isDirective (lv_text l2) = true -> isInstOpcode (lv_text l2) = false -> lv_is_label l2 = false ->
        lv_is_data l2 = false -> directive_text (clean flt (next_nest s) (t_text s)) = true).
    { intros A B C D. unfold directive_text. rewrite <- Htext.
      assert (Hid : lv_text l2 = lv_text l) by (destruct HL as [|_|n a c _]; try reflexivity; destruct a; reflexivity).
      rewrite Hid in *. rewrite B. cbn [negb andb]. destruct A as [A|A]; [rewrite (Hh A); cbn [orb]; apply orb_true_r|].
      rewrite A. destruct HL as [|Hlb|n a c Hlb].
      - rewrite (Hh eq_refl). cbn [orb]. apply orb_true_r.
      - rewrite Hlb. change (isDataDefn (lv_text l) = false) in D. rewrite D. cbn. rewrite ?orb_true_r. reflexivity.
      - destruct a; discriminate. }
    assert (Hkept : forall l3 s3 code,
        t_inNvccCode s3 = t_inNvccCode s2 -> t_inCustomAssembly s3 = t_inCustomAssembly s2 ->
        (exists b, l3 = set_lv_is_directive b l2) -> (t_inNvccCode s2 = true -> code = true) ->
        (code = false -> f_directives flt = true -> lv_is_label l3 = false -> lv_is_data l3 = false ->
            isDirective (lv_text l3) = true \/ handled = true -> isInstOpcode (lv_text l3) = true) ->
        kept_line mblen flt code (t_text s) (next_nest s) handled (final_line mblen l3 s3)).
    { intros l3 s3 code A B (b & Hb3) Hcd D.
      assert (Hid : lv_text l2 = lv_text l) by (destruct HL as [|_|n a c _]; try reflexivity; destruct a; reflexivity).
      assert (Ht3 : lv_text l3 = lv_text l) by (rewrite Hb3; exact Hid).
      constructor.
      - rewrite final_text, Ht3. exact Htext.
      - rewrite final_text, Ht3. split.
        + intros Hh0. destruct HL as [|Hlb|n a c Hlb]; [discriminate| |]; rewrite Hlb, Hb3.
          * subst l; repeat split; reflexivity.
          * unfold labelled, slice. destruct a; subst l; repeat split; reflexivity.
        + intros Hh0. destruct HL as [|Hlb|n a c Hlb]; [|discriminate..]. rewrite Hb3. subst l. repeat split; reflexivity.
      - rewrite final_text, Ht3. change (lv_is_data (final_line mblen l3 s3)) with (lv_is_data l3). rewrite Hb3.
        destruct HL as [|_|n a c _]; try reflexivity.
      - unfold final_line, used_labels_in, slice. vsimp. reflexivity.
      - exists (t_inNvccCode s3). split; [reflexivity|]. rewrite A. auto.
      - rewrite final_text, Ht3. exact Hh.
      - unfold final_line. vsimp. rewrite B, Hs2. reflexivity.
      - unfold final_line. vsimp. rewrite Hb3. destruct HL as [|_|n a c _]; subst l; try (repeat split; reflexivity). destruct a; repeat split; reflexivity.
      - exact D.
      - intros Hcf Hco. unfold justComment in Hj. rewrite Hco, (q_text _ _ Hq) in Hj. change (t_text (begun s)) with (t_text s) in Hj.
        assert (Hs1c : t_inNvccCode s1 = false).
        { rewrite E1. apply Hcode'. destruct (t_inNvccCode s2); [|reflexivity]. rewrite <- Hcf. symmetry. auto. }
        rewrite Hs1c in Hj. cbn [andb negb] in Hj. rewrite andb_true_r, andb_false_r, orb_false_r in Hj. exact Hj. }
    assert (Heta : exists b, l2 = set_lv_is_directive b l2) by (exists (lv_is_directive l2); now destruct l2).
    assert (Heta3 : exists b, (if handled then l2 else set_lv_is_directive (isDirective (lv_text l2)) l2) = set_lv_is_directive b l2)
      by (destruct handled; [exact Heta|eexists; reflexivity]).
    assert (Hfin : forall l3 s3, t_inNvccCode s3 = t_inNvccCode s2 -> (t_inNvccDef s3 = t_inNvccDef s2 \/ t_inNvccDef s3 = false) ->
        t_inCustomAssembly s3 = t_inCustomAssembly s2 -> t_hasStartedCommentBlock s3 = t_hasStartedCommentBlock s2 ->
        t_lines s3 = t_lines s2 -> (exists b, l3 = set_lv_is_directive b l2) ->
        (nv_inv s2 -> t_inNvccCode s2 = false -> f_directives flt = true -> lv_is_label l3 = false -> lv_is_data l3 = false ->
            isDirective (lv_text l3) = true \/ handled = true -> isInstOpcode (lv_text l3) = true) ->
        line_step mblen flt s (eol_keep mblen l3 s3)).
    { intros l3 s3 A A2 B C D E F.
      constructor; change (mkScan (t_text s) (t_hasStartedCommentBlock s) (t_inCustomAssembly s)) with (scan_of s) in *;
        rewrite ?scan_line_eq, ?Hb, ?Hws; cbn [fst snd].
      - rewrite keep_scan, C, B, Hs1, Hs2. reflexivity.
      - rewrite keep_code, A. exact Hcode.
      - intros Hi. unfold nv_inv. rewrite keep_code, keep_def, A. destruct A2 as [-> | ->]; [apply Hnv; assumption|auto].
      - rewrite keep_code, A. exact Hcuda.
      - intros cs Hi H. rewrite keep_code, keep_lines, A, D, Hlines.
        eapply RD_keep with (ls := t_lines s); [|exact (q_lines _ _ Hq)|exact Hf|apply Hkept; auto].
        destruct (t_inNvccCode s2) eqn:Ec; [|now rewrite (Hcode' eq_refl) in H].
        destruct (t_inNvccCode s); [assumption|now apply reads_mono]. }
    destruct Hc as [Hnd|l3 Hnd Hnl Hnda Hd Hdir Hni El3|l3 Hnd Hnl Hnda Hd Hdir Hni El3|l3 Hnd Hnl Hnda Hor El3|Hnd Hor].
    + apply Hfin; try (destruct (isCudaEndDef _); auto; fail); auto.
      intros Hi Hc0. rewrite (Hi Hc0) in Hnd. discriminate.
    + constructor; change (mkScan (t_text s) (t_hasStartedCommentBlock s) (t_inCustomAssembly s)) with (scan_of s) in *;
        rewrite ?scan_line_eq, ?Hb, ?Hws; cbn [fst snd];
        unfold move_filtered; edestruct directive_frame as (u & c & ->); unfold scan_of, nv_inv; tsimp.
      * rewrite Hs1, Hs2. reflexivity.
      * exact Hcode.
      * intros Hi. now apply Hnv.
      * exact Hcuda.
      * intros cs Hi H. rewrite Hlines. eapply RD_drop with (ls := t_lines s); [|exact (q_lines _ _ Hq)|].
        2: { unfold dropped. right. right. split; [assumption|]. apply Hdt; [|congruence..]. subst l3. destruct handled; [left; reflexivity|right; exact Hdir]. }
        destruct (t_inNvccCode s2) eqn:Ec; [|now rewrite (Hcode' eq_refl) in H].
        destruct (t_inNvccCode s); [assumption|now apply reads_mono].
    + edestruct directive_frame as (u & c & ->). apply Hfin; auto; [subst l3; assumption|]. congruence.
    + subst l3. apply Hfin; auto. intros _ _ Hfd Hl3 Hd3 Hwhy.
      assert (Ht : lv_text (if handled then l2 else set_lv_is_directive (isDirective (lv_text l2)) l2) = lv_text l2) by (destruct handled; reflexivity).
      rewrite Ht in *. destruct Hor as [Hor|Hor]; [|exact Hor]. exfalso.
      destruct handled.
      * inversion HL; subst l2. discriminate.
      * rewrite handled_directive in Hor. destruct Hwhy; congruence.
    + apply Hfin; auto. intros _ _ _ Hl3 Hd3. destruct Hor; congruence.
Qed.

(** *** The whole input *)
Lemma scan_line_app flt p c b n line : scan_line flt (mkScan (p ++ c) b n) line = scan_line flt (mkScan p b n) (c ++ line).
Proof. unfold scan_line. cbn [sc_pend sc_block sc_nest]. now rewrite app_assoc. Qed.

Lemma fold_trace mblen flt input : forall s cur sc, good flt s -> t_stopParsing s = false -> nv_inv s ->
  scan_of s = mkScan (sc_pend sc ++ cur) (sc_block sc) (sc_nest sc) ->
  let s' := fold_left (step mblen flt) input s in
  let '(ls, rest) := raw_lines cur input in
  let '(cs, sc') := scan_lines flt sc ls in
  good flt s' /\ t_stopParsing s' = false /\ nv_inv s' /\
  scan_of s' = mkScan (sc_pend sc' ++ rest) (sc_block sc') (sc_nest sc') /\
  (forall cs0, reads mblen flt (t_inNvccCode s) cs0 (t_lines s) -> reads mblen flt (t_inNvccCode s') (cs0 ++ cs) (t_lines s')) /\
  (t_inNvccCode s' = true -> t_inNvccCode s = true \/ Exists (cuda_cand flt) cs) /\
  t_total_lines s' = t_total_lines s + Z.of_nat (length ls).
Proof.
  induction input as [|c t IH]; intros s cur sc Hg Hst Hnv Hsc; cbn [raw_lines fold_left].
  - cbn [scan_lines]. do 4 (split; [assumption|]). split; [|split; [auto|cbn [length]; lia]]. intros cs0 H. now rewrite app_nil_r.
  - assert (Hstep : step mblen flt s c = if ceq c LF then eol mblen flt s else set_t_text (t_text s ++ [c]) s)
      by (unfold step; now rewrite Hst).
    rewrite Hstep. clear Hstep. destruct (ceq c LF) eqn:Ec.
    + destruct (eol_step mblen flt s Hg) as [A B C Cu D].
      change (mkScan (t_text s) (t_hasStartedCommentBlock s) (t_inCustomAssembly s)) with (scan_of s) in A. 
      rewrite Hsc in A, D, Cu. rewrite scan_line_app, app_nil_r in A, D, Cu.
      assert (Hsc0 : mkScan (sc_pend sc) (sc_block sc) (sc_nest sc) = sc) by now destruct sc. rewrite Hsc0 in A, D, Cu.
      specialize (IH (eol mblen flt s) [] (snd (scan_line flt sc cur))).
      assert (Hs' : t_stopParsing (eol mblen flt s) = false) by now rewrite eol_stop.
      specialize (IH (eol_good _ _ _ Hg) Hs' (C Hnv)). cbv zeta in IH.
      destruct (raw_lines [] t) as [ls rest]. cbn [scan_lines]. destruct (scan_line flt sc cur) as [c0 sc1]. cbn [fst snd] in *.
      destruct (scan_lines flt sc1 ls) as [cs sc2].
      destruct IH as (I1 & I2 & I3 & I4 & I5 & Icu & I6); [rewrite app_nil_r, A; now destruct sc1|].
      do 4 (split; [assumption|]). split.
      * intros cs0 H. specialize (I5 _ (D _ Hnv H)). now rewrite <- app_assoc in I5.
      * split. { intros H. destruct (Icu H) as [H1|H1]; [destruct (Cu H1); auto|auto]. }
        rewrite I6. destruct (eol_lines mblen flt s Hg) as (-> & _). cbn [length]. lia.
    + apply (IH (set_t_text (t_text s ++ [c]) s) (cur ++ [c]) sc); auto; [now apply good_set_text|].
      unfold scan_of in *. tsimp. injection Hsc as E1 E2 E3. rewrite E1, E2, E3, app_assoc. reflexivity.
Qed.

Record traced (mblen : str -> Z) (flt : Filter) (input : str) (s : tstate) : Prop := {
  tr_reads : reads mblen flt (t_inNvccCode s) (scan_input flt input) (t_lines s);
  tr_nv : nv_inv s;
  tr_cuda : t_inNvccCode s = true -> Exists (cuda_cand flt) (scan_input flt input);
  tr_total : t_total_lines s = Z.of_nat (length (scan_input flt input)) }.
Lemma scan_lines_length flt ls : forall sc, length (fst (scan_lines flt sc ls)) = length ls.
Proof.
  induction ls as [|l t IH]; intros sc; [reflexivity|]. cbn [scan_lines]. destruct (scan_line flt sc l) as [c sc1].
  specialize (IH sc1). destruct (scan_lines flt sc1 t). cbn [fst length] in *. congruence.
Qed.
Lemma read_trace mblen flt input : traced mblen flt input (read_lines mblen flt tstate0 input).
Proof.
  unfold read_lines.
  assert (Hg : good flt (set_t_total_lines 0 tstate0)) by (intros _; now constructor).
  pose proof (fold_trace mblen flt input (set_t_total_lines 0 tstate0) [] scan0 Hg eq_refl (fun _ => eq_refl) eq_refl) as H.
  cbv zeta in H. set (s := fold_left (step mblen flt) input (set_t_total_lines 0 tstate0)) in *. clearbody s.
  assert (E : scan_input flt input = (let '(ls, rest) := raw_lines [] input in
    let '(cs, sc) := scan_lines flt scan0 ls in if is_nil (sc_pend sc ++ rest) then cs else cs ++ [fst (scan_line flt sc rest)])) by reflexivity.
  destruct (raw_lines [] input) as [ls rest]. pose proof (scan_lines_length flt ls scan0) as Hlen.
  destruct (scan_lines flt scan0 ls) as [cs sc]. cbn [fst] in Hlen.
  destruct H as (I1 & I2 & I3 & I4 & I5 & Icu & I6). specialize (I5 [] (RD_nil _ _ _)). cbn [app] in I5. change (t_total_lines (set_t_total_lines 0 tstate0)) with 0 in I6.
  assert (Et : t_text s = sc_pend sc ++ rest) by (unfold scan_of in I4; now injection I4).
  rewrite Et. destruct (is_nil (sc_pend sc ++ rest)); cbn [negb].
  - constructor; rewrite ?E; auto; [|lia]. intros H. destruct (Icu H); [discriminate|assumption].
  - destruct (eol_step mblen flt s I1) as [A B C Cu D]. specialize (D _ I3 I5).
    rewrite I4, scan_line_app, app_nil_r in D, Cu.
    assert (Hsc0 : mkScan (sc_pend sc) (sc_block sc) (sc_nest sc) = sc) by now destruct sc. rewrite Hsc0 in D, Cu.
    constructor; rewrite ?E; auto.
    { intros H. apply Exists_app. destruct (Cu H) as [H1|H1]; [destruct (Icu H1); [discriminate|auto]|auto]. }
    destruct (eol_lines mblen flt s I1) as (-> & _). rewrite app_length. cbn [length]. lia.
Qed.

(** The number of lines is bounded by the size of the input. *)
Lemma raw_lines_bound input : forall cur, 
  (length (fst (raw_lines cur input)) + length (snd (raw_lines cur input)) <= length input + length cur)%nat /\
  (length (fst (raw_lines cur input)) <= length input)%nat.
Proof.
  induction input as [|c t IH]; intros cur; cbn [raw_lines]; [cbn; lia|]. destruct (ceq c LF).
  - specialize (IH []). destruct (raw_lines [] t) as [ls r]. cbn [fst snd length] in *. lia.
  - specialize (IH (cur ++ [c])). rewrite app_length in IH. cbn [length] in IH. destruct (raw_lines (cur ++ [c]) t) as [ls r]. cbn [fst snd length] in *. lia.
Qed.
Lemma raw_lines_chars input : forall cur,
  (length (List.concat (fst (raw_lines cur input))) + length (fst (raw_lines cur input)) + length (snd (raw_lines cur input)) = length input + length cur)%nat.
Proof.
  induction input as [|c t IH]; intros cur; cbn [raw_lines]; [cbn; lia|]. destruct (ceq c LF).
  - specialize (IH []). destruct (raw_lines [] t) as [ls r]. cbn [fst snd length List.concat] in *. rewrite app_length. lia.
  - specialize (IH (cur ++ [c])). rewrite app_length in IH. cbn [length] in IH. destruct (raw_lines (cur ++ [c]) t) as [ls r]. cbn [fst snd length] in *. lia.
Qed.
Lemma scan_pend_bound flt ls : forall sc, (length (sc_pend (snd (scan_lines flt sc ls))) <= length (sc_pend sc) + length (List.concat ls))%nat.
Proof.
  induction ls as [|l t IH]; intros sc; cbn [scan_lines List.concat]; [cbn; lia|].
  assert (H : (length (sc_pend (snd (scan_line flt sc l))) <= length (sc_pend sc) + length l)%nat).
  { unfold scan_line. destruct (_ && _); [cbn; lia|]. destruct (all_blank _); cbn [snd sc_pend]; [rewrite app_length; lia|cbn; lia]. }
  destruct (scan_line flt sc l) as [c sc1]. specialize (IH sc1). destruct (scan_lines flt sc1 t). cbn [fst snd] in *. rewrite app_length. lia.
Qed.
Lemma scan_input_bound flt input : (length (scan_input flt input) <= length input)%nat.
Proof.
  unfold scan_input. pose proof (raw_lines_chars input []) as H. cbn [length] in H. destruct (raw_lines [] input) as [ls rest]. cbn [fst snd] in H.
  pose proof (scan_pend_bound flt ls scan0) as Hp. pose proof (scan_lines_length flt ls scan0) as Hl.
  destruct (scan_lines flt scan0 ls) as [cs sc]. cbn [fst snd sc_pend scan0 length] in *.
  destruct (is_nil (sc_pend sc ++ rest)) eqn:E; [lia|]. rewrite app_length. cbn [length].
  assert (0 < length (sc_pend sc ++ rest))%nat by (destruct (sc_pend sc ++ rest); [discriminate|cbn; lia]).
  rewrite app_length in H0. lia.
Qed.
Lemma read_total mblen flt input : t_total_lines (read_lines mblen flt tstate0 input) <= Z.of_nat (length input).
Proof. rewrite (tr_total _ _ _ _ (read_trace mblen flt input)). pose proof (scan_input_bound flt input). lia. Qed.
