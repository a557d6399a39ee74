(** C120: the run of the text parser is what the text of its source says.

    The program is that of PropTextSource.v, [object s v] the parser object of the model
    state [s] with [v] the contents of the static variable of isUsed.  The methods
    removeUnused and fromStream (parser.cpp:709-842), run by the interpreter of CppSem.v,
    do what the model functions do.  The second theorem is about the whole of
    src/assembly/parser.cpp and of the functions it uses from src/utils: the read loop
    calls eol, eol calls the handlers of a line, and the passes at the end are those of
    C119.  The interpreter takes the number [N] of turns a loop may make and the depth of
    calls from outside; any large enough numbers do. *)
From Coq Require Import String List ZArith Ascii Bool Lia.
From Verif Require Import Bytes Types Utils AsmText CppSyntax SourceText SourceAst CppSem AStep AUtil AMap AObj AMark5 AStream PropTextSource PropTextMark.
Import ListNotations.
Local Open Scope string_scope.
Local Open Scope Z_scope.

Theorem text_removal_is_its_source :
  forall N mb order flt rep,
  let object s v := enc flt rep s v in
  forall s v d, (length (t_lines s) < N)%nat -> (forall l, In l (t_lines s) -> (length (lv_labels l) < N)%nat) ->
  call_text text_sources N mb order (S (S (S d))) "removeUnused" (object s v) [] = Some (CVal VUnit (object (removeUnused flt s) v)).
Proof. intros N mb order flt rep. cbv zeta. intros s v d H1 H2. rewrite call_A. f_equal. apply src_removeUnused; [assumption|]. now apply Forall_forall. Qed.
Print Assumptions text_removal_is_its_source.

(** [mb] is mblen, [order] the order in which the unordered containers are gone through. *)
Theorem text_parser_is_its_source :
  forall mb order flt rep (ord_refs : list view -> list view) (ord_labels : list (view * Z) -> list (view * Z)),
  (forall s, mb s <= Z.of_nat (length s)) ->
  (forall l, order (VSet (encVs l)) = encVs (ord_refs l)) ->
  (forall m, order (VMap (VInt I32 0) (encMI m)) = map pair_of (encMI (ord_labels m))) ->
  let object s v := enc flt rep s v in
  forall fuel input v s' v',
  run mb flt ord_refs ord_labels fuel input v = Ok (s', v') ->
  forall d, (fuel <= d)%nat -> (8 * length input <= d)%nat -> Z.of_nat d < 2 ^ 30 ->
  exists enough, forall N, (enough <= N)%nat ->
  call_text text_sources N mb order (d + 6) "fromStream" (object tstate0 v) [VStream input] = Some (CVal VUnit (object s' v')).
Proof.
  intros mb order flt rep ord_refs ord_labels H1 H2 H3. cbv zeta. intros fuel input v s' v' H d Hf Hd Hz.
  destruct (src_fromStream_all mb order flt rep ord_refs ord_labels H1 H2 H3 fuel input v s' v' d Hf Hd Hz H) as [n Hn].
  exists n. intros N HN. rewrite call_A. f_equal. rewrite Nat.add_comm. now apply Hn.
Qed.
Print Assumptions text_parser_is_its_source.

(** A text with a global label, a label only called by a name without a dot, and data
    nobody uses: with the filters for unused labels and directives the interpreted source
    and the model keep the same two lines. *)
Definition ex_flt : Filter := mkFilter false true false true false false false false false false.
Definition ex_in : str := chars "  .globl main
main:
  call f
f:
  ret
dead:
  .long 1
".
Definition kept (r : cres) : option (list string) :=
  match r with
  | CVal VUnit (VRec l) =>
      match lookup "lines" l with
      | Some (VVec _ ls) => Some (map (fun v => match v with VRec ((_, VStr t) :: _) => string_of_list_ascii t | _ => "?" end) ls)
      | _ => None
      end
  | _ => None
  end.
Example text_parser_run : kept (A 400 ascii_mb in_order 500 "fromStream" (enc ex_flt false tstate0 []) [VStream ex_in]) = Some ["main:"; "  call f"].
Proof. vm_compute. reflexivity. Qed.
Example text_parser_ok : match run ascii_mb ex_flt (fun l => l) (fun l => l) 60 ex_in [] with Ok (s, _) => map (fun l => string_of_list_ascii (lv_text l)) (t_lines s) | _ => [] end = ["main:"; "  call f"].
Proof. vm_compute. reflexivity. Qed.
