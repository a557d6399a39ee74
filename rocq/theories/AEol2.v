(** AssemblyTextParser::eol (parser.cpp:367-485), one statement after the other. *)
From Coq Require Import String List ZArith Ascii Bool Lia.
From Verif Require Import Bytes Types Utils AsmText CppSyntax SourceText SourceAst PropPatterns CppSem AStep AUtil AScan ALine ASquash AUsed AMap AObj ABack AHand ALabel AEol1.
Import ListNotations.
Local Open Scope string_scope.
Local Open Scope Z_scope.

Section Eol.
Variables (N : nat) (mb : str -> Z) (order : val -> list val) (flt : Filter) (rep : bool) (vis : list str) (d : nat).
Notation D := (S (S (S (S d)))).
Notation A := (A N mb order).
Notation enc s := (enc flt rep s vis).
Notation exec n e := (exec N mb asm_tys isfn ismeth (A D) (seq_nth n assembly_parser_eol) e).
Ltac dsf := destruct flt as [g1 g2 g3 g4 g5 g6 g7 g8 g9 g10]; fcbn.
(** the mark of a procedure *)
Lemma eol_7 t l s : (0 < N)%nat -> exec 7 (E0 t (enc (on l s))) =
  if startProcBlock (lv_text l) && (sv_line (t_currentSourceRef s) =? 0) then
    if f_directives flt then Val (Returned VUnit) (E0 t (enc (on l (set_t_text [] (markPreviousInternalLabelAsInsideProc s)))))
    else Val Next (E0 t (enc (on l (markPreviousInternalLabelAsInsideProc s))))
  else Val Next (E0 t (enc (on l s))).
Proof.
  intros HN. pose proof (src_markPrevious N mb order flt rep vis (S (S (S d))) l s HN) as H. clear HN.
  set (s' := markPreviousInternalLabelAsInsideProc s) in *. clearbody s'. unfold E0. stmt. dst s. dsl l. norms. unplain.
  pose proof (src_startProcBlock N mb order (S (S (S d))) l_text) as H1.
  gor. rewrite H1. gor. destruct (startProcBlock l_text); cbn [andb]; gor; [|reflexivity].
  change (norm I32 0) with 0. destruct (s_line =? 0); gor; [|reflexivity]. meth H. clear H H1. 
  dsf. gof. destruct g4; gor; reflexivity.
Qed.
Lemma eol_8 t o : exec 8 (E0 t o) = Val Next (E1 false t o).
Proof. reflexivity. Qed.
(** the source of the lines that follow *)
Definition sources (l : asm_line_v) (s : tstate) : bool * tstate :=
  if endBlock (lv_text l) || (t_inNvccCode s && str_contains (lv_text l) "}") then
    (false, set_t_lastOwnSource source_v0 (set_t_previousLabel view0 (set_t_currentSourceRef source_v0 s)))
  else match handleSourceDirective l s with Some s' => (true, s') | None => (false, s) end.
Ltac handler H := gor; meth H; match type of H with _ = CVal (VBool (is_some ?r)) _ => destruct r as [?s'|]; cbn [is_some]; [gor; reflexivity|]; unplain end.
Definition c9c := Eval cbv in match seq_nth 9 assembly_parser_eol with SIf c _ _ => c | _ => ENum 0 end.
Definition c9a := Eval cbv in match seq_nth 9 assembly_parser_eol with SIf _ a _ => a | s => s end.
Definition c9b := Eval cbv in match seq_nth 9 assembly_parser_eol with SIf _ _ b => b | s => s end.
Lemma eol_9b t l s : (length (t_lines s) < N)%nat ->
  CppSem.exec N mb asm_tys isfn ismeth (A D) c9b (E1 false t (enc (on l s))) =
  let '(h, s') := match handleSourceDirective l s with Some s' => (true, s') | None => (false, s) end in Val Next (E1 h t (enc (on l s'))).
Proof.
  intros HN.
  pose proof (src_handleFiledef N mb order flt rep vis (S (S d)) l s (lv_text l)) as H1.
  pose proof (src_handleSource N mb order flt rep vis (S (S d)) l s (lv_text l) HN) as H2.
  pose proof (src_handleStabs N mb order flt rep vis (S (S d)) l s (lv_text l)) as H3.
  pose proof (src_handle6502 N mb order flt rep vis (S (S d)) l s) as H4.
  pose proof (src_handleD2 N mb order flt rep vis (S (S d)) l s HN) as H5. clear HN.
  unfold handleSourceDirective. unfold E1. dst s. dsl l. norms. unplain.
  handler H1. handler H2. handler H3. handler H4. handler H5. gor. reflexivity.
Qed.
Lemma eol_9 t l s : (length (t_lines s) < N)%nat -> Z.of_nat (length (lv_text l)) < 2 ^ 31 ->
  exec 9 (E1 false t (enc (on l s))) = let '(h, s') := sources l s in Val Next (E1 h t (enc (on l s'))).
Proof.
  intros HN HL. change (seq_nth 9 assembly_parser_eol) with (SIf c9c c9a c9b). rewrite exec_if.
  assert (C : eval mb asm_tys isfn ismeth (A D) c9c (E1 false t (enc (on l s))) =
    Val (VBool (endBlock (lv_text l) || (t_inNvccCode s && str_contains (lv_text l) "}"))) (E1 false t (enc (on l s)))).
  { pose proof (src_endBlock N mb order (S (S (S d))) (lv_text l)) as H6.
    pose proof (src_str_contains N mb order (S (S (S d))) (lv_text l) "}" HL) as H7. clear HL HN.
    unfold E1, c9c. dst s. dsl l. norms. unplain. gor. rewrite H6. gor. destruct (endBlock l_text); cbn [orb]; gor; [reflexivity|].
    destruct f_code; cbn [andb]; gor; [|reflexivity]. rewrite H7. gor. reflexivity. }
  rewrite C, ifk_bool. clear C. unfold sources. destruct (_ || _).
  - clear. unfold E1. dst s. dsl l. unplain. gor. reflexivity.
  - apply eol_9b, HN.
Qed.
Lemma eol_10 h t l s : exec 10 (E1 h t (enc (on l s))) = Val Next (E1 h t (enc (on l (if negb h then handleSection l s else s)))).
Proof.
  pose proof (src_handleSection N mb order flt rep vis (S (S d)) l s) as H. set (s' := handleSection l s) in *. clearbody s'.
  unfold E1. stmt. dst s. dsl l. norms. unplain. destruct h; cbn [negb]; gor; [reflexivity|]. meth H. gor. reflexivity.
Qed.
End Eol.
