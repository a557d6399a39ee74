(** C118: what the text parser does at the end of a line is what the text of its source
    says.

    The program is that of PropTextSource.v.  [object s] is the parser object of the model
    state [s].  AssemblyTextParser::eol (parser.cpp:297-519), run by the interpreter of
    CppSem.v on that object, leaves the object of the state the model function [eol]
    computes: every call it makes on the way is interpreted too.  The conditions: the
    counters and lengths stay clear of the ends of their types, the loops may go round as
    often as there are lines and (expanded) characters, and the calls may nest as deeply
    as there are characters (the squashing of white space between quotes recurs). *)
From Coq Require Import String List ZArith Ascii Bool Lia.
From Verif Require Import Bytes Types Utils AsmText CppSyntax SourceText SourceAst CppSem AStep AUtil AScan ALine ASquash AUsed AMap AObj ABack AHand ALabel AEol1 AEol PropTextSource.
Import ListNotations.
Local Open Scope string_scope.
Local Open Scope Z_scope.

Theorem text_eol_is_its_source :
  forall N mb order d flt rep vis s, (forall s, mb s <= Z.of_nat (length s)) ->
  0 <= t_total_lines s < 2 ^ 62 -> - 2 ^ 30 < t_inCustomAssembly s < 2 ^ 30 - 1 ->
  (length (t_lines s) < N)%nat -> Z.of_nat (length (t_lines s)) < 2 ^ 62 ->
  (8 * length (t_text s) < N)%nat -> (8 * length (t_text s) <= S d)%nat -> 8 * Z.of_nat (length (t_text s)) < 2 ^ 31 ->
  let object s := enc flt rep s vis in
  call_text text_sources N mb order (S (S (S (S (S d))))) "eol" (object s) [] = Some (CVal VUnit (object (eol mb flt s))).
Proof. intros. cbv zeta. rewrite call_A. f_equal. now apply src_eol. Qed.
Print Assumptions text_eol_is_its_source.

(** The text of eol run on a parser with a line at hand: a label is stored with its line
    number, a tab is expanded, a directive goes to the filtered lines. *)
Definition ex_text (t : string) : tstate := set_t_text (chars t) tstate0.
Definition ex_flt : Filter := mkFilter false false false true false false false false false false.
Example text_eol_label_run :
  A 100 ascii_mb (fun _ => []) 30 "eol" (enc ex_flt false (ex_text "f:") []) [] =
  let v := mkView (OLine 0) (chars "f") in
  CVal VUnit (enc ex_flt false
    (set_t_text [] (set_t_total_lines 1 (set_t_next_id 1%N (set_t_labels_defined [(v, 1)] (set_t_previousLabel v (set_t_previousParentLabel v
      (set_t_previousLabelOnSameAddress v (set_t_mayRemovePreviousLabel true
      (set_t_lines [set_lv_has_opcode true (set_lv_label v (set_lv_is_label true (set_lv_text (chars "f:") (line_v0 0%N))))] (ex_text "f:")))))))))) []).
Proof. vm_compute. reflexivity. Qed.
Example text_eol_directive_run :
  A 100 ascii_mb (fun _ => []) 60 "eol" (enc ex_flt false (ex_text "  .text") []) [] =
  CVal VUnit (enc ex_flt false (eol ascii_mb ex_flt (ex_text "  .text")) []) /\
  map lv_text (t_filteredlines (eol ascii_mb ex_flt (ex_text "  .text"))) = [chars "  .text"] /\
  t_lines (eol ascii_mb ex_flt (ex_text "  .text")) = [].
Proof. vm_compute. auto. Qed.
