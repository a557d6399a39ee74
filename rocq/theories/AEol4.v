(** AssemblyTextParser::eol (parser.cpp:487-518), one statement after the other. *)
From Coq Require Import String List ZArith Ascii Bool Lia.
From Verif Require Import Bytes Types Utils AsmText CppSyntax SourceText SourceAst PropPatterns CppSem AStep AUtil AScan ALine ASquash AUsed AMap AObj ABack AHand ALabel AEol1.
Import ListNotations.
Local Open Scope string_scope.
Local Open Scope Z_scope.

Section Eol.
Variables (N : nat) (mb : str -> Z) (order : val -> list val) (flt : Filter) (rep : bool) (vis : list str) (d : nat).
Hypothesis mb_le : forall s, mb s <= Z.of_nat (length s).
Notation D := (S (S (S (S d)))).
Notation A := (A N mb order).
Notation enc s := (enc flt rep s vis).
Notation exec n e := (exec N mb asm_tys isfn ismeth (A D) (seq_nth n assembly_parser_eol) e).
Lemma eol_15 h t l s : exec 15 (E1 h t (enc (on l s))) = Val Next (E1 h t (enc (on (set_lv_is_inline_asm (0 <? t_inCustomAssembly s) l) s))).
Proof. unfold E1. stmt. dsl l. dst s. unplain. gor. reflexivity. Qed.
Lemma eol_16 h t l s : (length (lv_text l) < N)%nat ->
  exec 16 (E1 h t (enc (on l s))) = Val Next (E1 h t (enc (on (set_lv_has_opcode (hasOpcode (lv_text l) (t_inNvccCode s)) l) s))).
Proof. intros HN. unfold E1. stmt. dsl l. dst s. norms. unplain. gor. pose proof (src_hasOpcode N mb order (S d) l_text f_code HN) as H. rewrite H. gor. reflexivity. Qed.
Lemma eol_17 h t l s : exec 17 (E1 h t (enc (on l s))) = Val Next (E1 h t (enc (on (set_lv_labels [] l) s))).
Proof. unfold E1. stmt. dsl l. dst s. unplain. gor. reflexivity. Qed.
Lemma eol_18 h t l s : (length (lv_text l) < N)%nat -> Z.of_nat (length (lv_text l)) < 2 ^ 31 ->
  exec 18 (E1 h t (enc (on l s))) =
  let '(l', s') := if negb (lv_is_label l) && lv_has_opcode l then extractUsedLabelsFromOpcodeLine mb l s else (l, s) in Val Next (E1 h t (enc (on l' s'))).
Proof.
  intros HN HL. pose proof (src_extractUsedLabelsFromOpcodeLine N mb order flt rep vis mb_le d l s HN HL) as H. clear HN HL.
  destruct (extractUsedLabelsFromOpcodeLine mb l s) as [l' s']. unfold E1. stmt. 
  dsl l. dst s. norms. unplain. destruct l_isl; cbn [negb andb]; [gor; reflexivity|]. destruct l_op; [|gor; reflexivity].
  gor. meth H. gor. reflexivity.
Qed.
Lemma eol_19 h t l s : (length (lv_text l) < N)%nat -> Z.of_nat (length (lv_text l)) < 2 ^ 31 ->
  exec 19 (E1 h t (enc (on l s))) =
  let '(l', s') := if negb (lv_is_label l) && lv_is_data l then extractUsedLabelsFromDataLine mb l s else (l, s) in Val Next (E1 h t (enc (on l' s'))).
Proof.
  intros HN HL. pose proof (src_extractUsedLabelsFromDataLine N mb order flt rep vis mb_le d l s HN HL) as H. clear HN HL.
  destruct (extractUsedLabelsFromDataLine mb l s) as [l' s']. unfold E1. stmt. 
  dsl l. dst s. norms. unplain. destruct l_isl; cbn [negb andb]; [gor; reflexivity|]. destruct l_data; [|gor; reflexivity].
  gor. meth H. gor. reflexivity.
Qed.
Lemma eol_20 h t l s : exec 20 (E1 h t (enc (on l s))) =
  Val Next (E1 h t (enc (on (set_lv_closest_parent_label (if lv_is_assignment l || str_eqb (v_str (lv_label l)) (v_str (t_previousParentLabel s)) then []
              else v_str (t_previousParentLabel s)) l) s))).
Proof.
  unfold E1. stmt. dsl l. dst s. norms. unplain. destruct l_asg; cbn [orb]; [gor; reflexivity|]. gor. destruct (str_eqb l_label parent); gor; reflexivity.
Qed.
Lemma eol_21 h t l s : exec 21 (E1 h t (enc (on l s))) = Val Next (E1 h t (enc (on (set_lv_source (t_currentSourceRef s) l) s))).
Proof. unfold E1. stmt. dsl l. dst s. unplain. gor. reflexivity. Qed.
Lemma eol_22 h t l s : exec 22 (E1 h t (enc (on l s))) = Val Next (E1 h t (enc (on (set_lv_section (t_currentSection s) l) s))).
Proof. unfold E1. stmt. dsl l. dst s. unplain. gor. reflexivity. Qed.
Lemma eol_23 h t l s : exec 23 (E1 h t (enc (on l s))) = Val Next (E1 h t (enc (on l (handleLabelAliasing l s)))).
Proof.
  pose proof (src_handleLabelAliasing N mb order flt rep vis (S (S (S d))) l s) as H. unfold E1. stmt.
  set (s' := handleLabelAliasing l s) in *. clearbody s'. dsl l. dst s. unplain. gor. meth H. gor. reflexivity.
Qed.
Lemma eol_24 h t l s : exec 24 (E1 h t (enc (on l s))) = Val Next (E1 h t (enc (set_t_currentLine None (set_t_lines (t_lines s ++ [l]) s)))).
Proof.
  unfold E1. stmt. dsl l. dst s. unplain. gor. 
  snocl (mkLineV l_id l_text (mkView l_section_o l_section) l_labels l_opcodes l_parent l_isl l_isi (mkView l_label_o l_label)
         (mkSourceV (mkView l_file_o l_file) l_idx l_line l_column l_end l_user l_proc) l_addr l_u1 l_u2 l_u3 l_data l_inline l_op l_dir l_asg). reflexivity.
Qed.
Lemma eol_25 h t s : t_currentLine s = None -> exec 25 (E1 h t (enc s)) = Val Next (E1 h t (enc (set_t_text [] s))).
Proof. unfold E1. stmt. dst s. cbn [t_currentLine]. intros ->. unplain. gor. reflexivity. Qed.
End Eol.
