(** C115: the model of the objdump parser is what the text of its source says.

    The texts of the source files (SourceText.v, copied by tools/gen_source.py) are
    read by the reader of CppSyntax.v, and the program they form is run by the
    interpreter of CppSem.v.  Every function of the model gives the result of the
    interpreted function of the same name, and a run of the model is the interpreted
    run of fromStream, for every filter and every input. *)
From Coq Require Import String List ZArith Ascii Bool Lia.
From Verif Require Import Bytes Types Utils ObjDump CppSyntax SourceText SourceAst CppSem SrcStep SrcUtil SrcObj SrcAddr SrcScan SrcLabel SrcEol SrcBody SrcInv SrcRun.
Import ListNotations.
Local Open Scope string_scope.
Local Open Scope Z_scope.

(** The files the objdump parser is made of. *)
Definition objdump_sources : list string :=
  [objdump_parser_cpp; objdump_parser_hpp; types_line_hpp; types_filter_hpp; utils_utils_cpp; utils_utils_hpp;
   utils_library_detection_cpp; utils_library_detection_hpp; utils_regexwrappers_cpp; utils_regexwrappers_hpp].
Fixpoint read_files (l : list string) : option (list item) :=
  match l with
  | [] => Some []
  | f :: r => match read_file f, read_files r with Some a, Some b => Some (a ++ b)%list | _, _ => None end
  end.
(** Calling the function [f] of a program on the object [this]: loops of at most [N]
    rounds, calls nested at most [d] deep. *)
Definition call_source (files : list string) (N : nat) (mb : str -> Z) (d : nat) (f : string) (this : val) (args : list val) : option cres :=
  match read_files files with Some l => Some (prog (functions l) (types l) N mb d f this args) | None => None end.
(** The result of a call that changes the object. *)
Definition new_object (flt : Filter) (rep : bool) (o : outcome ostate) : cres :=
  match o with
  | Ok s => CVal VUnit (enc flt rep s)
  | UB u => CUndef (Known u)
  | Throws => CStuck
  | Diverges => CStuck
  end.

Lemma files_read : read_files objdump_sources = Some obj_items.
Proof.
  cbn [read_files objdump_sources].
  rewrite objdump_parser_read, objdump_parser_h_read, types_line_h_read, types_filter_h_read, utils_utils_read, utils_utils_h_read,
    utils_library_detection_read, utils_library_detection_h_read, utils_regexwrappers_read, utils_regexwrappers_h_read.
  rewrite app_nil_r. reflexivity.
Qed.
Lemma call_P N mb d f this args : call_source objdump_sources N mb d f this args = Some (P N mb d f this args).
Proof. unfold call_source. rewrite files_read. reflexivity. Qed.
Lemma out_eq flt rep o : out flt rep o = new_object flt rep o. Proof. destruct o; reflexivity. Qed.

(** The object as the program makes it: every member value-initialised. *)
Theorem source_objects :
  exists l, read_files objdump_sources = Some l /\
  zero_of (types l) depth (Ty "ObjDumpParser" []) = Some (enc no_filter false ostate0).
Proof. exists obj_items. split; [exact files_read|]. rewrite <- obj_tys_eq. exact enc_fresh. Qed.
Print Assumptions source_objects.

(** The functions of src/utils. *)
Theorem source_utilities :
  forall N mb d, (forall s, mb s <= Z.of_nat (length s)) ->
  let call := call_source objdump_sources N mb (S d) in
  (forall c, call "is_hex" VUnit [VChr c] = Some (CVal (VBool (is_hex c)) VUnit)) /\
  (forall c, call "is_whitespace" VUnit [VChr c] = Some (CVal (VBool (is_whitespace c)) VUnit)) /\
  (forall c, call "hex2int" VUnit [VChr c] = Some (CVal (VInt I8 (hex2int c)) VUnit)) /\
  (forall s, Z.of_nat (length s) < 2 ^ 32 -> (length s < N)%nat ->
     call "ustrlen" VUnit [VStr s] = Some (CVal (VInt U64 (ustrlen mb s)) VUnit)) /\
  (forall l, call "getLabelFromObjdumpLabel" VUnit [VStr l] =
     Some (CVal (VOpt (VStr []) (option_map VStr (getLabelFromObjdumpLabel l))) VUnit)) /\
  (forall f flt, call "shouldIgnoreFunction" VUnit [VStr f; encF flt] = Some (CVal (VBool (shouldIgnoreFunction f flt)) VUnit)).
Proof.
  intros N mb d Hmb call. unfold call.
  refine (conj _ (conj _ (conj _ (conj _ (conj _ _))))); intros; rewrite call_P; f_equal.
  - apply src_is_hex. - apply src_is_whitespace. - apply src_hex2int. - now apply src_ustrlen.
  - apply src_getLabelFromObjdumpLabel. - apply src_shouldIgnoreFunction.
Qed.
Print Assumptions source_utilities.

(** The methods of the parser, on any object (the conditions are those under which
    the loops end and the C++ is defined). *)
Theorem source_methods :
  forall N mb d flt rep, (forall s, mb s <= Z.of_nat (length s)) -> 5010 < Z.of_nat N ->
  let call := call_source objdump_sources N mb (S (S (S (S d)))) in
  let same f args (m : ostate -> outcome ostate) s := call f (enc flt rep s) args = Some (new_object flt rep (m s)) in
  let short s := Z.of_nat (length (o_text s)) < 2 ^ 31 /\ (length (o_text s) < N)%nat in
  forall s,
  same "updateSourceRefLineNumber" [] updateSourceRefLineNumber s /\
  (forall f, same "do_file_check" [VStr f] (fun s => Ok (do_file_check f s)) s) /\
  same "actually_filename" [] (fun s => Ok (actually_filename s)) s /\
  same "opcodes" [] (fun s => Ok (opcodes s)) s /\
  (short s -> same "actually_address" [] actually_address s) /\
  (short s -> same "address" [] address s) /\
  (short s -> same "labelref" [] (fun s => Ok (labelref mb flt s)) s) /\
  (tidy s -> same "maybe_remove_last_function" [] maybe_remove_last_function s) /\
  (tidy s -> same "label" [] (label flt) s) /\
  (tidy s -> 0 <= o_total_lines s < 2 ^ 64 - 1 -> same "eol" [] (eol flt) s).
Proof.
  intros N mb d flt rep Hmb HN call same short s. unfold same, call, short.
  refine (conj _ (conj _ (conj _ (conj _ (conj _ (conj _ (conj _ (conj _ (conj _ _))))))))); intros; rewrite call_P, <- out_eq; f_equal.
  - apply src_updateSourceRefLineNumber.
  - apply src_do_file_check.
  - apply src_actually_filename.
  - apply src_opcodes.
  - now apply src_actually_address.
  - now apply src_address.
  - destruct H. apply src_labelref; [exact Hmb|lia|lia].
  - now apply src_maybe_remove_last_function.
  - now apply src_label.
  - now apply src_eol.
Qed.
Print Assumptions source_methods.

(** A run of the parser. *)
Theorem objdump_is_its_source :
  forall N mb d flt rep input,
  (forall s, mb s <= Z.of_nat (length s)) -> 5010 < Z.of_nat N ->
  4 * Z.of_nat (length input) < Z.of_nat N -> 4 * Z.of_nat (length input) < 2 ^ 31 ->
  call_source objdump_sources N mb (5 + d) "fromStream" (enc flt rep ostate0) [VStream input] =
  Some (match run mb flt input with
        | Ok s => CVal VUnit (enc flt rep s)
        | UB u => CUndef (Known u)
        | Throws => CStuck
        | Diverges => CStuck
        end).
Proof.
  intros N mb d flt rep input Hmb HN HL HB. rewrite call_P. f_equal. cbn [Nat.add].
  rewrite src_fromStream by assumption. now destruct (run mb flt input).
Qed.
Print Assumptions objdump_is_its_source.

(** The program text run on a listing of two lines: a label and an instruction; the
    label and the line are recorded. *)
Definition nl : string := String (ascii_of_nat 10) "".
Definition tab : string := String (ascii_of_nat 9) "".
Definition small_input : str := list_ascii_of_string ("0000000000001130 <main>:" ++ nl ++ "  1130:" ++ tab ++ "c3" ++ tab ++ "ret" ++ nl).
Definition len_mb (s : str) : Z := Z.of_nat (length s).
Example source_run :
  prog obj_fns obj_tys 200 len_mb 8 "fromStream" (enc no_filter false ostate0) [VStream small_input] =
  match run len_mb no_filter small_input with Ok s => CVal VUnit (enc no_filter false s) | _ => CStuck end.
Proof. vm_compute. reflexivity. Qed.
Example source_run_lines :
  exists s, run len_mb no_filter small_input = Ok s /\ length (o_lines s) = 2%nat.
Proof. eexists. split; vm_compute; reflexivity. Qed.
Example source_hex2int : prog obj_fns obj_tys 10 len_mb 3 "hex2int" VUnit [VChr "f"%char] = CVal (VInt I8 15) VUnit.
Proof. vm_compute. reflexivity. Qed.
(** A line whose address has ten digits: the program stops in the undefined shift
    that the model reports. *)
Definition wide_input : str := list_ascii_of_string ("  1234567890:" ++ tab ++ "c3" ++ tab ++ "ret" ++ nl).
Example source_run_undefined :
  prog obj_fns obj_tys 200 len_mb 8 "fromStream" (enc no_filter false ostate0) [VStream wide_input] = CUndef (Known ShiftRange) /\
  run len_mb no_filter wide_input = UB ShiftRange.
Proof. split; vm_compute; reflexivity. Qed.
