(** C119: which labels count as used is what the text of the parser's source says.

    The program is that of PropTextSource.v, [object s v] the parser object of the model
    state [s] with [v] the contents of the static variable of isUsed.  The methods
    isUsed, isUsedThroughAlias, isDataUsedThroughAlias, filterNonLabels,
    filterOutReferedLabelsThatArentDefined and markLabelUsage (parser.cpp:572-707), run by
    the interpreter of CppSem.v, do what the model functions do, with the iteration order
    of the unordered containers any that is given from outside.  The recursion of isUsed
    is that of the model call by call: the interpreter needs the depth [k] exactly when
    the model needs the fuel [k]. *)
From Coq Require Import String List ZArith Ascii Bool Lia.
From Verif Require Import Bytes Types Utils AsmText CppSyntax SourceText SourceAst CppSem AStep AUtil AMap AObj AMark1 AMark2 AMark3 AMark4 PropTextSource.
Import ListNotations.
Local Open Scope string_scope.
Local Open Scope Z_scope.

Theorem text_use_is_its_source :
  forall N mb order flt rep (ord_refs : list view -> list view),
  (forall l, order (VSet (encVs l)) = encVs (ord_refs l)) ->
  let object s v := enc flt rep s v in
  let result s r := match r with Ok (b, v) => CVal (VBool b) (object s v) | _ => CFuel end in
  forall s label v k, Z.of_nat k + 1 < 2 ^ 31 ->
  (forall depth, Z.of_nat k + Z.abs depth < 2 ^ 31 ->
    call_text text_sources N mb order k "isUsed" (object s v) [VStr label; VInt I32 depth] = Some (result s (isUsed ord_refs s k label depth v))) /\
  call_text text_sources N mb order (S k) "isUsedThroughAlias" (object s v) [VStr label] = Some (result s (isUsedThroughAlias ord_refs s k label v)) /\
  call_text text_sources N mb order (S (S k)) "isDataUsedThroughAlias" (object s v) [VStr label] = Some (result s (isDataUsedThroughAlias ord_refs s k label v)).
Proof.
  intros N mb order flt rep ord_refs HO. cbv zeta. intros s label v k Hk. split; [|split].
  - intros depth Hd. rewrite call_A. f_equal. now apply src_isUsed.
  - rewrite call_A. f_equal. now apply src_isUsedThroughAlias.
  - rewrite call_A. f_equal. now apply src_isDataUsedThroughAlias.
Qed.
Print Assumptions text_use_is_its_source.

Theorem text_marking_is_its_source :
  forall N mb order flt rep (ord_refs : list view -> list view) (ord_labels : list (view * Z) -> list (view * Z)),
  (forall l, order (VSet (encVs l)) = encVs (ord_refs l)) ->
  (forall m, order (VMap (VInt I32 0) (encMI m)) = map pair_of (encMI (ord_labels m))) ->
  let object s v := enc flt rep s v in
  forall s v,
  (forall d, call_text text_sources N mb order (S d) "filterNonLabels" (object s v) [] = Some (CVal VUnit (object (filterNonLabels s) v))) /\
  (forall d l, (length (lv_labels l) < N)%nat ->
    call_text text_sources N mb order (S d) "filterOutReferedLabelsThatArentDefined" (object s v) [encL l] =
    Some (CVal VUnit (VBrace [object s v; encL (filterOutReferedLabelsThatArentDefined s l)]))) /\
  (forall fuel d s' v', (fuel <= d)%nat -> Z.of_nat d + 3 < 2 ^ 31 -> Z.of_nat (length (t_lines s)) < 2 ^ 31 ->
    markLabelUsage ord_refs ord_labels fuel s v = Ok (s', v') ->
    call_text text_sources N mb order (S (S (S d))) "markLabelUsage" (object s v) [] = Some (CVal VUnit (object s' v'))).
Proof.
  intros N mb order flt rep ord_refs ord_labels HR HL. cbv zeta. intros s v. split; [|split].
  - intros d. rewrite call_A. f_equal. now apply src_filterNonLabels.
  - intros d l Hl. rewrite call_A. f_equal. now apply src_filterOut.
  - intros fuel d s' v' Hf Hd Hs H. rewrite call_A. f_equal. now apply (src_markLabelUsage N mb order flt rep ord_refs ord_labels HR HL d fuel Hf Hd).
Qed.
Print Assumptions text_marking_is_its_source.

(** An order there is, and the text run with it: [g] is used by [f], [f] by code outside
    any label; the cycle of [a] and [b] is not a use; the line of [g] is marked. *)
Definition in_order (v : val) : list val := match v with VSet l => l | VMap _ m => map pair_of m | _ => [] end.
Lemma in_order_refs l : in_order (VSet (encVs l)) = encVs l. Proof. reflexivity. Qed.
Lemma in_order_labels m : in_order (VMap (VInt I32 0) (encMI m)) = map pair_of (encMI m). Proof. reflexivity. Qed.
Definition vw (s : string) : view := mkView (OLine 0) (chars s).
Definition ex_use : tstate :=
  set_t_labels_defined [(vw "g", 1); (vw "a", 2)] (set_t_lines [set_lv_label (vw "g") (line_v0 0%N); set_lv_label (vw "a") (line_v0 1%N)]
  (set_t_used_labels [(vw "g", [vw "f"]); (vw "f", [vw ""]); (vw "a", [vw "b"]); (vw "b", [vw "a"])] tstate0)).
Definition used_run (k : string) : option bool :=
  match A 100 ascii_mb in_order 9 "isUsed" (enc no_filter false ex_use []) [VStr (chars k); VInt I32 1] with CVal (VBool b) _ => Some b | _ => None end.
Example text_use_run : map used_run ["g"; "f"; "a"; "b"; "z"] = [Some true; Some true; Some false; Some false; Some false].
Proof. vm_compute. reflexivity. Qed.
Example text_marking_run :
  A 100 ascii_mb in_order 12 "markLabelUsage" (enc no_filter false ex_use []) [] =
  CVal VUnit (enc no_filter false (set_t_lines [set_lv_is_used true (set_lv_label (vw "g") (line_v0 0%N)); set_lv_label (vw "a") (line_v0 1%N)] ex_use) [chars "f"; chars "g"]).
Proof. vm_compute. reflexivity. Qed.
Example text_filter_run :
  A 100 ascii_mb in_order 3 "filterNonLabels" (enc no_filter false ex_use []) [] =
  CVal VUnit (enc no_filter false (set_t_used_labels [(vw "g", [vw "f"]); (vw "a", [vw "b"])] ex_use) []).
Proof. vm_compute. reflexivity. Qed.
