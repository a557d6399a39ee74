(** The objdump parser's character step as a list of transitions, and the
    invariants of the parser. *)
From Verif Require Export ObjLemmas.

Definition app_text (c : char) (t : str) : str := if is_whitespace c && is_nil t then t else t ++ [c].

Lemma append_char_eq c s : append_char c s = set_o_text (app_text c (o_text s)) s.
Proof. unfold append_char, app_text. destruct s; osimp. now destruct (_ && _). Qed.

(** The references one call of labelref adds. *)
Definition new_ref (mb : str -> Z) (flt : Filter) (s : ostate) : list asm_label :=
  let start := r_start (lb_range (o_currentLabelReference s)) in
  if o_ignoreUntilNextLabel s then []
  else match substr_from (o_text s) start with
       | Some name => if shouldIgnoreFunction name flt then []
                      else [mkLabel name (mkRange start (u16 (ustrlen mb (o_text s))))]
       | None => []
       end.
Definition add_refs (rs : list asm_label) (l : asm_line) : asm_line := set_l_labels (l_labels l ++ rs) l.
Lemma add_refs_nil l : add_refs [] l = l.
Proof. destruct l; unfold add_refs; lsimp. now rewrite app_nil_r. Qed.

Lemma labelref_eq mb flt s :
  labelref mb flt s =
  set_o_currentLabelReference label0 (set_o_currentLine (add_refs (new_ref mb flt s) (o_currentLine s)) s).
Proof.
  unfold labelref, new_ref. destruct s; osimp.
  destruct o_ignoreUntilNextLabel; cbn [negb]; [now rewrite add_refs_nil|].
  destruct (substr_from _ _); [|now rewrite add_refs_nil].
  destruct (shouldIgnoreFunction _ _); cbn [negb]; [now rewrite add_refs_nil|]. reflexivity.
Qed.

Definition new_ops (s : ostate) : list str := if o_ignoreUntilNextLabel s then [] else split_opcodes (o_text s) [].
Definition add_ops (os : list str) (l : asm_line) : asm_line := set_l_opcodes (l_opcodes l ++ os) l.
Lemma add_ops_nil l : add_ops [] l = l.
Proof. destruct l; unfold add_ops; lsimp. now rewrite app_nil_r. Qed.
Lemma opcodes_eq s :
  opcodes s = set_o_inOpcodes false (set_o_text [] (set_o_currentLine (add_ops (new_ops s) (o_currentLine s)) s)).
Proof.
  unfold opcodes, new_ops. destruct s; osimp.
  destruct o_ignoreUntilNextLabel; cbn [negb]; [now rewrite add_ops_nil|]. reflexivity.
Qed.

(** Where [actually_address] leads, without its effect on the address. *)
Inductive addr_trans (s : ostate) : ostate -> Prop :=
| AT_empty : o_text s = [] -> addr_trans s (set_o_text [] (set_o_inOpcodes false (set_o_inAddress false s)))
| AT_file t : o_text s = "/"%char :: t -> addr_trans s (set_o_text [] (actually_filename s))
| AT_ignoring c t : o_text s = c :: t -> c <> "/"%char -> o_ignoreUntilNextLabel s = true ->
    addr_trans s (set_o_text [] (set_o_inOpcodes true (set_o_inAddress false s)))
| AT_hex c t a : o_text s = c :: t -> c <> "/"%char -> o_ignoreUntilNextLabel s = false ->
    addr_loop (rev (o_text s)) 0 0 = Ok (a, false) ->
    addr_trans s (set_o_text [] (set_o_inOpcodes true (set_o_inAddress false
                    (set_o_currentLine (set_l_address (Some a) (o_currentLine s)) s))))
| AT_nothex c t a : o_text s = c :: t -> c <> "/"%char -> o_ignoreUntilNextLabel s = false ->
    addr_loop (rev (o_text s)) 0 0 = Ok (a, true) ->
    addr_trans s (set_o_text [] (set_o_inAddress false (set_o_skipRestOfTheLine true
                    (set_o_currentLine (set_l_address (Some a) (o_currentLine s)) s)))).

Lemma address_trans s s' : address s = Ok s' -> addr_trans s s'.
Proof.
  unfold address. destruct (o_text s) as [|c t] eqn:Et.
  - intros [= <-]. now constructor.
  - destruct (ceq c "/") eqn:Ec.
    + apply ceq_true in Ec. subst. intros [= <-]. econstructor. eassumption.
    + apply ceq_false in Ec. unfold actually_address. destruct (o_ignoreUntilNextLabel s) eqn:Ei.
      * cbn [negb obind]. intros [= <-]. eapply AT_ignoring; eassumption.
      * cbn [negb]. destruct (addr_loop _ _ _) as [[a b]| | |] eqn:Ea; cbn [obind fst snd]; try discriminate.
        destruct b; intros [= <-]; [eapply AT_nothex|eapply AT_hex]; eassumption.
Qed.

(** Every way a character other than LF is consumed. *)
Inductive trans (mb : str -> Z) (flt : Filter) (s : ostate) (c : char) : ostate -> Prop :=
| T_same :
    o_stopParsing s = true \/ c = CR \/ o_skipRestOfTheLine s = true
    \/ (o_inAddress s = true /\ (c = ";"%char \/ (is_whitespace c = true /\ o_text s = [])))
    \/ (o_inAddress s = false /\ o_inLabel s = false /\ o_inOpcodes s = true /\ is_whitespace c = true /\ o_text s = []) ->
    trans mb flt s c s
| T_slash : o_skipRestOfTheLine s = false -> c <> CR -> o_inAddress s = true -> c = "/"%char ->
    trans mb flt s c (set_o_text (o_text s ++ [c]) (set_o_inSourceRef true (set_o_inAddress false s)))
| T_addr s' : o_skipRestOfTheLine s = false -> c <> CR -> o_inAddress s = true -> c = ":"%char ->
    addr_trans s s' -> trans mb flt s c s'
| T_dis : o_skipRestOfTheLine s = false -> c <> CR -> o_inAddress s = true -> is_whitespace c = true ->
    o_text s = lit "Disassembly" ->
    trans mb flt s c (set_o_text (o_text s ++ [c]) (set_o_currentSection [] (set_o_inSectionStart true (set_o_inAddress false s))))
| T_label s' : o_skipRestOfTheLine s = false -> c <> CR -> o_inAddress s = true -> is_whitespace c = true ->
    o_text s <> [] -> addr_trans s s' ->
    trans mb flt s c (set_o_inLabel true (set_o_inAddress false s'))
| T_addr_char : o_skipRestOfTheLine s = false -> c <> CR -> o_inAddress s = true ->
    c <> "/"%char -> c <> ";"%char -> c <> ":"%char -> is_whitespace c = false ->
    trans mb flt s c (set_o_text (o_text s ++ [c]) s)
| T_label_char : o_skipRestOfTheLine s = false -> c <> CR -> o_inAddress s = false -> o_inLabel s = true ->
    trans mb flt s c (set_o_text (app_text c (o_text s)) s)
| T_opc_end : o_skipRestOfTheLine s = false -> c <> CR -> o_inAddress s = false -> o_inLabel s = false -> o_inOpcodes s = true ->
    is_whitespace c = true -> last_is SP (o_text s) = true ->
    trans mb flt s c (set_o_inOpcodes false (set_o_text [] (set_o_currentLine (add_ops (new_ops s) (o_currentLine s)) s)))
| T_opc_char : o_skipRestOfTheLine s = false -> c <> CR -> o_inAddress s = false -> o_inLabel s = false -> o_inOpcodes s = true ->
    ((is_whitespace c = true /\ o_text s <> [] /\ last_is SP (o_text s) = false) \/ (is_whitespace c = false /\ is_hex c = true)) ->
    trans mb flt s c (set_o_text (o_text s ++ [c]) s)
| T_opc_reloc : o_skipRestOfTheLine s = false -> c <> CR -> o_inAddress s = false -> o_inLabel s = false -> o_inOpcodes s = true ->
    c = "R"%char ->
    trans mb flt s c (set_o_text (o_text s ++ lit "   " ++ [c]) (set_o_inOpcodes false (set_o_inRelocation true s)))
| T_opc_text : o_skipRestOfTheLine s = false -> c <> CR -> o_inAddress s = false -> o_inLabel s = false -> o_inOpcodes s = true ->
    c <> "R"%char -> is_whitespace c = false -> is_hex c = false ->
    trans mb flt s c (set_o_text (o_text s ++ [c]) (set_o_inOpcodes false s))
| T_reloc : o_skipRestOfTheLine s = false -> c <> CR -> o_inAddress s = false -> o_inLabel s = false -> o_inOpcodes s = false ->
    o_inRelocation s = true ->
    trans mb flt s c (set_o_text (if ceq c TAB then o_text s ++ [SP] else app_text c (o_text s)) s)
| T_sec_open : o_skipRestOfTheLine s = false -> c <> CR -> o_inAddress s = false -> o_inLabel s = false -> o_inOpcodes s = false ->
    o_inRelocation s = false -> o_inSectionStart s = true -> o_inSectionName s = false ->
    o_text s = lit "Disassembly of section " ->
    trans mb flt s c (set_o_currentSection [c] (set_o_text [] (set_o_inSectionName true s)))
| T_sec_pre : o_skipRestOfTheLine s = false -> c <> CR -> o_inAddress s = false -> o_inLabel s = false -> o_inOpcodes s = false ->
    o_inRelocation s = false -> o_inSectionStart s = true -> o_inSectionName s = false ->
    o_text s <> lit "Disassembly of section " ->
    trans mb flt s c (set_o_text (app_text c (o_text s)) (set_o_inSectionName false s))
| T_sec_close : o_skipRestOfTheLine s = false -> c <> CR -> o_inAddress s = false -> o_inLabel s = false -> o_inOpcodes s = false ->
    o_inRelocation s = false -> o_inSectionStart s = true -> o_inSectionName s = true -> c = ":"%char ->
    trans mb flt s c (set_o_text [] (set_o_skipRestOfTheLine true s))
| T_sec_char : o_skipRestOfTheLine s = false -> c <> CR -> o_inAddress s = false -> o_inLabel s = false -> o_inOpcodes s = false ->
    o_inRelocation s = false -> o_inSectionStart s = true -> o_inSectionName s = true -> c <> ":"%char ->
    trans mb flt s c (set_o_currentSection (o_currentSection s ++ [c]) s)
| T_src_colon : o_skipRestOfTheLine s = false -> c <> CR -> o_inAddress s = false -> o_inLabel s = false -> o_inOpcodes s = false ->
    o_inRelocation s = false -> o_inSectionStart s = false -> o_inSourceRef s = true -> c = ":"%char ->
    trans mb flt s c
      (set_o_inSourceRefLineNumber true (set_o_inSourceRef true
         (set_o_currentSourceRef (mkSource (o_text s) 0 0 0 (negb (file_in_library (o_text s))) false)
           (set_o_text [] (set_o_currentFilename (o_text s) s)))))
| T_src_num n : o_skipRestOfTheLine s = false -> c <> CR -> o_inAddress s = false -> o_inLabel s = false -> o_inOpcodes s = false ->
    o_inRelocation s = false -> o_inSectionStart s = false -> o_inSourceRef s = true ->
    o_inSourceRefLineNumber s = true -> is_whitespace c = true -> atoi (o_text s) = Some n ->
    trans mb flt s c
      (set_o_skipRestOfTheLine true (set_o_text []
         (set_o_currentSourceRef
            (let r := o_currentSourceRef s in
             mkSource (s_file r) (s_file_idx r) (if 0 <? n then n else s_line r) (s_column r) (s_is_usercode r) (s_inside_proc r)) s)))
| T_src_char : o_skipRestOfTheLine s = false -> c <> CR -> o_inAddress s = false -> o_inLabel s = false -> o_inOpcodes s = false ->
    o_inRelocation s = false -> o_inSectionStart s = false -> o_inSourceRef s = true -> c <> ":"%char ->
    o_inSourceRefLineNumber s && is_whitespace c = false ->
    trans mb flt s c (set_o_text (app_text c (o_text s)) s)
| T_comment : o_skipRestOfTheLine s = false -> c <> CR -> o_inAddress s = false -> o_inLabel s = false -> o_inOpcodes s = false ->
    o_inRelocation s = false -> o_inSectionStart s = false -> o_inSourceRef s = false -> o_inComment s = true ->
    trans mb flt s c (set_o_text (app_text c (o_text s)) s)
| T_hash : o_skipRestOfTheLine s = false -> c <> CR -> o_inAddress s = false -> o_inLabel s = false -> o_inOpcodes s = false ->
    o_inRelocation s = false -> o_inSectionStart s = false -> o_inSourceRef s = false -> o_inComment s = false ->
    c = "#"%char ->
    trans mb flt s c (set_o_text (app_text c (o_text s)) (set_o_inComment true s))
| T_open : o_skipRestOfTheLine s = false -> c <> CR -> o_inAddress s = false -> o_inLabel s = false -> o_inOpcodes s = false ->
    o_inRelocation s = false -> o_inSectionStart s = false -> o_inSourceRef s = false -> o_inComment s = false ->
    c = "<"%char ->
    trans mb flt s c (set_o_text (app_text c (o_text s))
       (set_o_currentLabelReference
         (mkLabel (lb_name (o_currentLabelReference s)) (mkRange (u16 (ustrlen mb (o_text s) + 1)) 0))
         (set_o_inSomethingWithALabel true s)))
| T_ref : o_skipRestOfTheLine s = false -> c <> CR -> o_inAddress s = false -> o_inLabel s = false -> o_inOpcodes s = false ->
    o_inRelocation s = false -> o_inSectionStart s = false -> o_inSourceRef s = false -> o_inComment s = false ->
    o_inSomethingWithALabel s = true ->
    c = "+"%char \/ (c = ">"%char /\ lb_name (o_currentLabelReference s) = []) ->
    trans mb flt s c (set_o_text (app_text c (o_text s))
       (set_o_currentLabelReference label0 (set_o_currentLine (add_refs (new_ref mb flt s) (o_currentLine s))
          (set_o_inSomethingWithALabel false s))))
| T_noref : o_skipRestOfTheLine s = false -> c <> CR -> o_inAddress s = false -> o_inLabel s = false -> o_inOpcodes s = false ->
    o_inRelocation s = false -> o_inSectionStart s = false -> o_inSourceRef s = false -> o_inComment s = false ->
    o_inSomethingWithALabel s = true -> c = ">"%char -> lb_name (o_currentLabelReference s) <> [] ->
    trans mb flt s c (set_o_text (app_text c (o_text s)) (set_o_inSomethingWithALabel false s))
| T_text : o_skipRestOfTheLine s = false -> c <> CR -> o_inAddress s = false -> o_inLabel s = false -> o_inOpcodes s = false ->
    o_inRelocation s = false -> o_inSectionStart s = false -> o_inSourceRef s = false -> o_inComment s = false ->
    c <> "#"%char -> c <> "<"%char ->
    (o_inSomethingWithALabel s = false \/ (c <> ">"%char /\ c <> "+"%char)) ->
    trans mb flt s c (set_o_text (app_text c (o_text s)) s).

Lemma app_text_nows c t : is_whitespace c = false -> app_text c t = t ++ [c].
Proof. unfold app_text. now intros ->. Qed.
Lemma app_text_ne c t : t <> [] -> app_text c t = t ++ [c].
Proof. unfold app_text. destruct t; [congruence|]. now rewrite andb_false_r. Qed.

Ltac cnv := repeat match goal with
  | H : ceq _ _ = true |- _ => apply ceq_true in H
  | H : ceq _ _ = false |- _ => apply ceq_false in H
  | H : is_nil _ = true |- _ => apply is_nil_true in H
  | H : is_nil _ = false |- _ => apply is_nil_false in H
  | H : str_eqb _ _ = true |- _ => apply str_eqb_eq in H
  | H : str_eqb _ _ = false |- _ => apply str_eqb_neq in H
  | H : negb _ = true |- _ => apply negb_true_iff in H
  | H : negb _ = false |- _ => apply negb_false_iff in H
  end.

Lemma step_trans mb flt s c s' : c <> LF -> step mb flt s c = Ok s' -> trans mb flt s c s'.
Proof.
  intros Hc H. unfold step in H.
  destruct (o_stopParsing s) eqn:Hstop; [injection H as <-; apply (T_same mb flt s c); tauto|].
  destruct (ceq c CR) eqn:Hcr; cnv; [injection H as <-; apply (T_same mb flt s c); tauto|].
  destruct (ceq c LF) eqn:E; cnv; [contradiction|]. clear E.
  destruct (o_skipRestOfTheLine s) eqn:Hskip; [injection H as <-; apply (T_same mb flt s c); tauto|].
  destruct (o_inAddress s) eqn:Hina.
  { unfold step_address in H.
    destruct (ceq c "/") eqn:E1; cnv.
    { injection H as <-. rewrite append_char_eq, app_text_nows by now subst. apply (T_slash mb flt s c); auto. }
    destruct (ceq c ";") eqn:E2; cnv; [injection H as <-; apply (T_same mb flt s c); tauto|].
    destruct (ceq c ":") eqn:E3; cnv; [apply address_trans in H; eapply (T_addr mb flt s c); eauto|].
    destruct (is_whitespace c) eqn:Ew.
    - destruct (str_eqb _ _) eqn:E4; cnv.
      + injection H as <-. rewrite append_char_eq, app_text_ne by (osimp; now rewrite E4). apply (T_dis mb flt s c); auto.
      + destruct (negb _) eqn:E5; cnv; [|injection H as <-; apply (T_same mb flt s c); tauto].
        apply obind_Ok in H as (s1 & H1 & [= <-]). apply address_trans in H1. eapply (T_label mb flt s c); eauto.
    - injection H as <-. rewrite append_char_eq, app_text_nows by auto. apply (T_addr_char mb flt s c); auto. }
  destruct (o_inLabel s) eqn:Hinl; [injection H as <-; rewrite append_char_eq; apply (T_label_char mb flt s c); auto|].
  destruct (o_inOpcodes s) eqn:Hop.
  { injection H as <-. unfold step_opcodes. destruct (is_whitespace c) eqn:Ew.
    - destruct (is_nil _) eqn:En; cnv; [apply (T_same mb flt s c); tauto|].
      destruct (last_is _ _) eqn:El; [rewrite opcodes_eq; apply (T_opc_end mb flt s c); auto|].
      rewrite append_char_eq, app_text_ne by auto. apply (T_opc_char mb flt s c); auto.
    - destruct (ceq c "R") eqn:Er; cnv.
      + rewrite append_char_eq, app_text_nows by auto. osimp. rewrite <- app_assoc. apply (T_opc_reloc mb flt s c); auto.
      + destruct (negb _) eqn:Eh; cnv; rewrite append_char_eq, app_text_nows by auto;
          [apply (T_opc_text mb flt s c)|apply (T_opc_char mb flt s c)]; auto. }
  destruct (o_inRelocation s) eqn:Hrel.
  { injection H as <-. unfold step_relocation. pose proof (T_reloc mb flt s c Hskip Hcr Hina Hinl Hop Hrel) as H.
    destruct (ceq c TAB); [exact H|rewrite append_char_eq; exact H]. }
  destruct (o_inSectionStart s) eqn:Hsec.
  { injection H as <-. unfold step_section. destruct (o_inSectionName s) eqn:Hsn; cbn [negb].
    - destruct (ceq c ":") eqn:E1; cnv; [apply (T_sec_close mb flt s c)|apply (T_sec_char mb flt s c)]; auto.
    - destruct (str_eqb _ _) eqn:E1; cnv; [apply (T_sec_open mb flt s c)|rewrite append_char_eq; apply (T_sec_pre mb flt s c)]; auto. }
  destruct (o_inSourceRef s) eqn:Hsrc.
  { unfold step_sourceref in H. destruct (ceq c ":") eqn:E1; cnv.
    - injection H as <-. apply (T_src_colon mb flt s c); auto.
    - destruct (_ && _) eqn:E2.
      + apply andb_true_iff in E2 as [E2 E3]. apply obind_Ok in H as (s1 & H1 & [= <-]).
        unfold updateSourceRefLineNumber in H1. destruct (atoi _) as [n|] eqn:En; [|discriminate].
        pose proof (T_src_num mb flt s c n Hskip Hcr Hina Hinl Hop Hrel Hsec Hsrc E2 E3 En) as HH.
        destruct (0 <? n); injection H1 as <-; [exact HH|].
        cbn zeta in HH. destruct s, o_currentSourceRef. exact HH.
      + injection H as <-. rewrite append_char_eq. apply (T_src_char mb flt s c); auto. }
  destruct (o_inComment s) eqn:Hcom; cbn [negb] in H; injection H as <-.
  { rewrite append_char_eq. apply (T_comment mb flt s c); auto. }
  unfold step_text. rewrite append_char_eq.
  destruct (ceq c "#") eqn:E1; cnv; [apply (T_hash mb flt s c); auto|].
  destruct (ceq c "<") eqn:E2; cnv; [apply (T_open mb flt s c); auto|].
  destruct (o_inSomethingWithALabel s) eqn:Hsw; [|apply (T_text mb flt s c); auto].
  destruct (ceq c ">") eqn:E3; cnv.
  - destruct (is_nil _) eqn:E4; cnv; osimp; [|apply (T_noref mb flt s c); auto].
    rewrite labelref_eq. apply (T_ref mb flt s c); auto.
  - destruct (ceq c "+") eqn:E4; cnv; [|apply (T_text mb flt s c); auto].
    rewrite labelref_eq. apply (T_ref mb flt s c); auto.
Qed.

(** ** End of line *)
Definition rm_last (lines : list asm_line) (labels : list (str * Z)) : outcome (list asm_line * list (str * Z)) :=
  match rev labels with
  | [] => Ok (lines, labels)
  | (_, second) :: before =>
      let idx := second - 1 in
      if (idx <? 0) || (Z.of_nat (length lines) <? idx) then UB IndexRange
      else if existsb (fun l => s_is_usercode (l_source l)) (skipn (Z.to_nat idx) lines) then Ok (lines, labels)
      else Ok (firstn (Z.to_nat idx) lines, rev before)
  end.
Lemma maybe_remove_eq s :
  maybe_remove_last_function s =
  omap (fun p => set_o_lines (fst p) (set_o_labels (snd p) s)) (rm_last (o_lines s) (o_labels s)).
Proof.
  unfold maybe_remove_last_function, rm_last. destruct s; osimp.
  destruct (rev o_labels) as [|[n k] b]; [reflexivity|]. destruct (_ || _); [reflexivity|].
  destruct (existsb _ _); reflexivity.
Qed.

Definition rm (flt : Filter) (s : ostate) : outcome (list asm_line * list (str * Z)) :=
  if f_library_functions flt then rm_last (o_lines s) (o_labels s) else Ok (o_lines s, o_labels s).

Definition label_name (t : str) : str :=
  match getLabelFromObjdumpLabel t with Some n => n | None => t end.

Inductive eol_trans (flt : Filter) (s : ostate) : ostate -> Prop :=
| E_ignored_label lines labels :
    o_inLabel s = true -> o_text s <> [] -> shouldIgnoreFunction (label_name (o_text s)) flt = true ->
    rm flt s = Ok (lines, labels) ->
    eol_trans flt s (set_o_lines lines (set_o_labels labels (set_o_ignoreUntilNextLabel true s)))
| E_label lines labels :
    o_inLabel s = true -> o_text s <> [] -> shouldIgnoreFunction (label_name (o_text s)) flt = false ->
    rm flt s = Ok (lines, labels) -> o_inSourceRefLineNumber s = false ->
    let nm := label_name (o_text s) in
    eol_trans flt s
      (push_line (set_l_source (o_currentSourceRef s) (set_l_section (o_currentSection s) (set_l_text (nm ++ lit ":")
                    (set_l_is_label true (set_l_label nm (o_currentLine s))))))
         (set_o_lines lines (set_o_labels (labels ++ [(nm, i32 (Z.of_nat (length lines) + 1))])
           (set_o_previousLabel nm (set_o_checkNextFileForLibraryCode (f_library_functions flt || o_checkNextFileForLibraryCode s)
             (set_o_ignoreUntilNextLabel false s))))))
| E_label_srln lines labels n :
    o_inLabel s = true -> o_text s <> [] -> shouldIgnoreFunction (label_name (o_text s)) flt = false ->
    rm flt s = Ok (lines, labels) -> o_inSourceRefLineNumber s = true ->
    let nm := label_name (o_text s) in
    atoi (nm ++ lit ":") = Some n ->
    eol_trans flt s
      (set_o_currentSourceRef
            (let r := o_currentSourceRef s in
             mkSource (s_file r) (s_file_idx r) (if 0 <? n then n else s_line r) (s_column r) (s_is_usercode r) (s_inside_proc r))
         (set_o_lines lines (set_o_labels (labels ++ [(nm, i32 (Z.of_nat (length lines) + 1))])
           (set_o_previousLabel nm (set_o_checkNextFileForLibraryCode (f_library_functions flt || o_checkNextFileForLibraryCode s)
             (set_o_ignoreUntilNextLabel false s))))))
| E_ignoring :
    (o_inLabel s = true -> o_text s = []) -> o_ignoreUntilNextLabel s = true -> eol_trans flt s s
| E_srcnum n :
    (o_inLabel s = true -> o_text s = []) -> o_ignoreUntilNextLabel s = false -> o_inSourceRefLineNumber s = true ->
    atoi (o_text s) = Some n ->
    eol_trans flt s
      (set_o_currentSourceRef
            (let r := o_currentSourceRef s in
             mkSource (s_file r) (s_file_idx r) (if 0 <? n then n else s_line r) (s_column r) (s_is_usercode r) (s_inside_proc r)) s)
| E_line :
    o_inLabel s = false -> o_ignoreUntilNextLabel s = false -> o_inSourceRefLineNumber s = false ->
    o_text s <> [] -> eol_trans flt s (push_line (finish_line s) s)
| E_blank :
    o_ignoreUntilNextLabel s = false -> o_inSourceRefLineNumber s = false -> o_text s = [] -> eol_trans flt s s.

(** The state at the start of the next line. *)
Definition next_line (s : ostate) : ostate := commonReset (set_o_total_lines (o_total_lines s + 1) s).


Lemma label_eq flt s : o_text s <> [] ->
  label flt s =
  (p <- rm flt s ;;
   let nm := label_name (o_text s) in
   let s := set_o_lines (fst p) (set_o_labels (snd p) (set_o_text nm s)) in
   if shouldIgnoreFunction nm flt then Ok (set_o_ignoreUntilNextLabel true s)
   else Ok (set_o_labels (snd p ++ [(nm, i32 (Z.of_nat (length (fst p)) + 1))])
             (set_o_text (nm ++ lit ":")
               (set_o_currentLine (set_l_is_label true (set_l_label nm (o_currentLine s)))
                 (set_o_previousLabel nm
                   (set_o_checkNextFileForLibraryCode (f_library_functions flt || o_checkNextFileForLibraryCode s)
                     (set_o_ignoreUntilNextLabel false s))))))).
Proof.
  intros Ht. unfold label, label_name. rewrite !maybe_remove_eq. destruct s; osimp.
  destruct (is_nil o_text) eqn:En; cnv; [contradiction|]. clear En.
  unfold rm. osimp.
  destruct (getLabelFromObjdumpLabel o_text) as [nm|]; osimp.
  - destruct (f_library_functions flt); cbn [orb]; osimp.
    + destruct (rm_last _ _) as [[ls lb]| | |]; cbn [obind omap fst snd]; try reflexivity. osimp.
      destruct (shouldIgnoreFunction _ _); reflexivity.
    + cbn [obind fst snd]. destruct (shouldIgnoreFunction _ _); reflexivity.
  - destruct (f_library_functions flt); cbn [orb]; osimp.
    + destruct (rm_last _ _) as [[ls lb]| | |]; cbn [obind omap fst snd]; try reflexivity. osimp.
      destruct (shouldIgnoreFunction _ _); reflexivity.
    + cbn [obind fst snd]. destruct (shouldIgnoreFunction _ _); reflexivity.
Qed.

Lemma next_line_push l s :
  commonReset (push_line l (set_o_total_lines (o_total_lines s + 1) s)) = next_line (push_line l s).
Proof. unfold next_line, push_line. destruct s; osimp. destruct (_ <? _); reflexivity. Qed.

Lemma updateSourceRef_Ok s s' : updateSourceRefLineNumber s = Ok s' ->
  exists n, atoi (o_text s) = Some n /\
  s' = set_o_currentSourceRef
            (let r := o_currentSourceRef s in
             mkSource (s_file r) (s_file_idx r) (if 0 <? n then n else s_line r) (s_column r) (s_is_usercode r) (s_inside_proc r)) s.
Proof.
  unfold updateSourceRefLineNumber. destruct (atoi _) as [n|]; [|discriminate]. intros H. exists n. split; [reflexivity|].
  destruct (0 <? n); injection H as <-; [reflexivity|]. now destruct s, o_currentSourceRef.
Qed.

Lemma eol_Ok flt s s' : eol flt s = Ok s' -> exists x, eol_trans flt s x /\ s' = next_line x.
Proof.
  intros H. unfold eol in H. apply obind_Ok in H as (s1 & H1 & H2).
  destruct (o_inLabel s) eqn:Hl; osimp; rewrite Hl in H1.
  - destruct (o_text s) as [|c t] eqn:Et.
    + unfold label in H1. osimp. rewrite Et in H1. cbn [is_nil] in H1. injection H1 as <-. osimp.
      destruct (o_ignoreUntilNextLabel s) eqn:Hi.
      { injection H2 as <-. exists s. split; [apply E_ignoring; auto|]. now destruct s. }
      destruct (o_inSourceRefLineNumber s) eqn:Hs.
      { apply obind_Ok in H2 as (s2 & H2 & [= <-]). apply updateSourceRef_Ok in H2 as (n & Hn & ->). osimp.
        eexists. split; [eapply E_srcnum; eauto|]. now destruct s. }
      rewrite Et in H2. cbn [is_nil negb] in H2. injection H2 as <-.
      exists s. split; [apply E_blank; auto|]. now destruct s.
    + assert (Hne : o_text s <> []) by (rewrite Et; discriminate).
      rewrite label_eq in H1 by exact Hne. apply obind_Ok in H1 as ([ls lb] & Hrm & H1).
      cbn [fst snd] in H1. osimp.
      change (rm flt s = Ok (ls, lb)) in Hrm.
      destruct (shouldIgnoreFunction _ _) eqn:Hig.
      * injection H1 as <-. osimp. injection H2 as <-. eexists. split; [eapply E_ignored_label; eauto|]. now destruct s.
      * injection H1 as <-. osimp. destruct (o_inSourceRefLineNumber s) eqn:Hs.
        -- apply obind_Ok in H2 as (s2 & H2 & [= <-]). apply updateSourceRef_Ok in H2 as (n & Hn & ->). osimp.
           eexists. split; [eapply E_label_srln; eauto|]. now destruct s.
        -- rewrite is_nil_app, andb_false_r in H2. cbn [negb] in H2.
           injection H2 as <-. eexists. split; [eapply E_label; eauto|].
           unfold next_line, push_line, finish_line. destruct s, o_currentLine; osimp; lsimp. destruct (_ <? _); reflexivity.
  - injection H1 as <-. osimp.
    destruct (o_ignoreUntilNextLabel s) eqn:Hi.
    { injection H2 as <-. exists s. split; [apply E_ignoring; auto; congruence|]. now destruct s. }
    destruct (o_inSourceRefLineNumber s) eqn:Hs.
    { apply obind_Ok in H2 as (s2 & H2 & [= <-]). apply updateSourceRef_Ok in H2 as (n & Hn & ->). osimp.
      eexists. split; [eapply E_srcnum; eauto; congruence|]. now destruct s. }
    destruct (is_nil _) eqn:En; cbn [negb] in H2; cnv; injection H2 as <-.
    + exists s. split; [apply E_blank; auto|]. now destruct s.
    + eexists. split; [apply E_line; auto|]. 
      change (finish_line (set_o_total_lines (o_total_lines s + 1) s)) with (finish_line s).
      apply next_line_push.
Qed.

Lemma next_line_lines s : o_lines (next_line s) = o_lines s. Proof. reflexivity. Qed.
Lemma next_line_labels s : o_labels (next_line s) = o_labels s. Proof. reflexivity. Qed.
Lemma next_line_stop s : o_stopParsing (next_line s) = o_stopParsing s. Proof. reflexivity. Qed.

Lemma step_LF mb flt s s' : step mb flt s LF = Ok s' ->
  (o_stopParsing s = true /\ s' = s)
  \/ (o_stopParsing s = false /\ exists x, eol_trans flt s x /\ s' = next_line x).
Proof.
  unfold step. destruct (o_stopParsing s); [intros [= <-]; now left|].
  change (ceq LF CR) with false. change (ceq LF LF) with true. cbn iota. intros H. right. split; [reflexivity|].
  now apply eol_Ok.
Qed.
