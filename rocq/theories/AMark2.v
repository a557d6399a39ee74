(** Aliases and the removal of references to labels that are not defined
    (src/assembly/parser.cpp:572-597 and 658-687). *)
From Coq Require Import String List ZArith Ascii Bool Lia.
From Verif Require Lemmas.
From Verif Require Import Bytes Types Utils AsmText CppSyntax SourceText SourceAst CppSem AStep AMap AMark1.
Import ListNotations.
Local Open Scope string_scope.
Local Open Scope Z_scope.

Lemma erase_loop_filter {T} (g : T -> val) (keep : view * T -> bool) f e m :
  (forall k a, f (encV k, g a) e = Val (negb (keep (k, a))) e) -> erase_loop f (encM g m) e = Val (encM g (filter keep m)) e.
Proof.
  intros H. unfold encM. induction m as [|[k a] m IH]; [reflexivity|]. cbn [map erase_loop fst snd filter]. rewrite H. cbn [rbind]. rewrite IH. cbn [rbind].
  destruct (keep (k, a)); reflexivity.
Qed.
Section Erase.
Variables (N : nat) (mb : str -> Z) (call : string -> val -> list val -> cres).
Notation exec := (exec N mb asm_tys isfn ismeth call).
Notation eval := (eval mb asm_tys isfn ismeth call).
(** std::erase_if *)
Lemma exec_erase {T} X (x : string) c n q p (g : T -> val) (keep : view * T -> bool) (E : list (val * val) -> env) m :
  eval X (E (encM g m)) = Val (VMap p (encM g m)) (E (encM g m)) -> place X (E (encM g m)) = Some (n, q) ->
  set_at (n, q) (VMap p (encM g (filter keep m))) (E (encM g m)) = Some (E (encM g (filter keep m))) ->
  (forall k a, scope (E (encM g m)) (eval c ((x, pair_of (encV k, g a)) :: E (encM g m))) = Val (VBool (negb (keep (k, a)))) (E (encM g m))) ->
  exec (SExpr (ECall (EId "std::erase_if") [X; ELam x c])) (E (encM g m)) = Val Next (E (encM g (filter keep m))).
Proof.
  intros HX HP HS HC. cbn [CppSem.exec CppSem.eval]. cbn [String.eqb Ascii.eqb Bool.eqb String.prefix].
  rewrite HX. cbn [rbind].
  rewrite (erase_loop_filter g keep) by (intros k a; rewrite HC; reflexivity).
  cbn [rbind]. rewrite HP. unfold store. rewrite HS. reflexivity.
Qed.
End Erase.
Lemma defined_get k m : map_get (VStr k) (encMI m) = option_map (VInt I32) (map_find m k).
Proof. exact (map_get_enc (VInt I32) k m). Qed.
Lemma alias_get k m : map_get (VStr k) (encMV m) = option_map encV (map_find m k).
Proof. exact (map_get_enc encV k m). Qed.

Section Functions.
Variables (N : nat) (mb : str -> Z) (order : val -> list val) (flt : Filter) (rep : bool) (ord_refs : list view -> list view).
Hypothesis order_refs : forall l, order (VSet (encVs l)) = encVs (ord_refs l).
Notation A := (A N mb order).
Notation enc s v := (enc flt rep s v).

Ltac opaque s :=
  unfold AStep.enc in *;
  set (xF := encF flt) in *; set (xS := encS s) in *; set (xfiles := VMap (VStr []) (encFiles (t_files s))) in *;
  set (xlines := VVec VNone (encLs (t_lines s))) in *; set (xdef := t_labels_defined s) in *; set (xuc := VSet (encVs (t_usercode_labels s))) in *;
  set (xal := t_aliased_labels s) in *;
  set (xus := t_used_labels s) in *; set (xda := t_data_used_labels s) in *; set (xwe := t_weakly_used_labels s) in *;
  set (xtot := VInt U64 (t_total_lines s)) in *.

(** parser.cpp:588-597 *)
Lemma src_isUsedThroughAlias s k label v : Z.of_nat k + 1 < 2 ^ 31 ->
  A (S k) "isUsedThroughAlias" (enc s v) [VStr label] = used_cres (fun v => enc s v) (isUsedThroughAlias ord_refs s k label v).
Proof.
  intros HD. pose proof (fun l v => src_isUsed N mb order flt rep ord_refs order_refs s k l 1 v ltac:(lia)) as HU.
  unfold isUsedThroughAlias. opaque s. enter. go. rewrite alias_get.
  destruct (map_find xal label) as [a|]; cbn [option_map]; [|go; reflexivity]. go.
  rewrite HU. unfold used_cres. destruct (isUsed _ _ _ _ _ _) as [[b w]| | |]; cbv beta iota; go; reflexivity.
Qed.
(** parser.cpp:658-672 *)
Lemma src_isDataUsedThroughAlias s k label v : Z.of_nat k + 1 < 2 ^ 31 ->
  A (S (S k)) "isDataUsedThroughAlias" (enc s v) [VStr label] = used_cres (fun v => enc s v) (isDataUsedThroughAlias ord_refs s k label v).
Proof.
  intros HD. pose proof (fun l v => src_isUsedThroughAlias s k l v HD) as HU.
  unfold isDataUsedThroughAlias, refs_of. opaque s. enter. go. change (encMS xda) with (encM encT xda). rewrite map_get_enc.
  destruct (map_find xda label) as [a|]; cbn [option_map]; [|go; reflexivity].
  change (encT a) with (VSet (encVs a)). go. loop (fun ref vis => isUsedThroughAlias ord_refs s k (v_str ref) vis) v.
  - match goal with |- context [any_ref ?f ?l ?v] => destruct (any_ref f l v) as [[[] w]| | |] end; cbn [outc]; go; reflexivity.
  - intros [o r] w. cbv beta. gor. rewrite HU. unfold used_cres. cbn [v_str]. match goal with |- context [match ?x with Ok _ => _ | _ => _ end] => destruct x as [[[] ?w]| | |] end; cbv beta iota; gor; reflexivity.
Qed.
(** parser.cpp:674-687 *)
Lemma src_filterNonLabels s k v : A (S k) "filterNonLabels" (enc s v) [] = CVal VUnit (enc (filterNonLabels s) v).
Proof.
  set (R := CVal VUnit (enc (filterNonLabels s) v)). opaque s.
  set (keep := fun e : view * list view => map_contains xdef (v_str (fst e))).
  enter. unfold assembly_parser_filterNonLabels. rewrite exec_seq.
  Local Ltac erase f us keep E0 :=
    rewrite (exec_erase N mb _ _ "label" _ "this" [Fld f] (VSet []) encT keep E0 us);
      [cbv beta; rewrite seqk_next
      |match goal with |- ?l = ?r => let x := ev l in change l with x end; reflexivity
      |reflexivity
      |match goal with |- ?l = ?r => let x := ev l in change l with x end; reflexivity
      |intros [ko kn] a; match goal with |- ?l = ?r => let x := ev l in change l with x end; rewrite defined_get; unfold keep, map_contains; cbn [fst v_str];
        destruct (map_find _ kn); reflexivity].
  match goal with |- context [seqk _ _ _ (exec _ _ _ _ _ _ _ ?e) _] => change e with ((fun w => [("this", VRec [("filter", xF); ("state", xS); ("files", xfiles); ("lines", xlines); ("labels_defined", VMap (VInt I32 0) (encMI xdef));
     ("usercode_labels", xuc); ("used_labels", VMap (VSet []) w); ("data_used_labels", VMap (VSet []) (encMS xda)); ("weakly_used_labels", VMap (VSet []) (encMS xwe));
     ("aliased_labels", VMap (VStr []) (encMV xal)); ("reproducible", VBool rep); ("total_lines", xtot); ("visited", VSet (encStrs (rev v)))])]) (encM encT xus)) end.
  match goal with |- context [seqk _ _ _ (exec _ _ _ _ _ _ _ (?E (encM encT xus))) _] => erase "used_labels" xus keep E end.
  rewrite exec_seq.
  match goal with |- context [seqk _ _ _ (exec _ _ _ _ _ _ _ ?e) _] => change e with ((fun w => [("this", VRec [("filter", xF); ("state", xS); ("files", xfiles); ("lines", xlines); ("labels_defined", VMap (VInt I32 0) (encMI xdef));
     ("usercode_labels", xuc); ("used_labels", VMap (VSet []) (encMS (filter keep xus))); ("data_used_labels", VMap (VSet []) (encMS xda)); ("weakly_used_labels", VMap (VSet []) w);
     ("aliased_labels", VMap (VStr []) (encMV xal)); ("reproducible", VBool rep); ("total_lines", xtot); ("visited", VSet (encStrs (rev v)))])]) (encM encT xwe)) end.
  match goal with |- context [seqk _ _ _ (exec _ _ _ _ _ _ _ (?E (encM encT xwe))) _] => erase "weakly_used_labels" xwe keep E end.
  reflexivity.
Qed.
End Functions.
