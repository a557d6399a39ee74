(** The methods of src/assembly/parser.cpp that find out which labels are used
    (parser.cpp:588-687). *)
From Coq Require Import String List ZArith Ascii Bool Lia.
From Verif Require Lemmas.
From Verif Require Import Bytes Types Utils AsmText CppSyntax SourceText SourceAst CppSem AStep AMap.
Import ListNotations.
Local Open Scope string_scope.
Local Open Scope Z_scope.

(** ** The set of the labels looked at *)
Lemma visited_has k v : set_has (VStr k) (encStrs (rev v)) = mem_str k v.
Proof.
  unfold set_has, mem_str, encStrs. rewrite map_rev. induction v as [|x v IH]; [reflexivity|]. cbn [map rev existsb].
  rewrite existsb_app, IH. cbn [existsb key_eqb]. rewrite orb_false_r, orb_comm. now rewrite (Lemmas.str_eqb_sym x k).
Qed.
Lemma visited_put k v : mem_str k v = false -> set_put (VStr k) (encStrs (rev v)) = encStrs (rev (k :: v)).
Proof. intros H. unfold set_put. rewrite visited_has, H. unfold encStrs. cbn [rev]. now rewrite map_app. Qed.
Lemma visited_del k v : set_del (VStr k) (encStrs (rev v)) = encStrs (rev (remove_str k v)).
Proof.
  unfold set_del, remove_str, encStrs. rewrite !map_rev. induction v as [|x v IH]; [reflexivity|]. cbn [map rev filter].
  rewrite filter_app, IH. cbn [filter key_eqb]. destruct (str_eqb x k); cbn [negb map rev]; [now rewrite app_nil_r|reflexivity].
Qed.

(** ** A loop that ends at the first label in use *)
Definition outc (E : list str -> env) (r : outcome (bool * list str)) : res ctl :=
  match r with Ok (true, v) => Val (Returned (VBool true)) (E v) | Ok (false, v) => Val Next (E v) | _ => Fuel end.
Lemma for_any x b (E : list str -> env) f refs : (forall r v, scope (E v) (b ((x, encV r) :: E v)) = outc E (f r v)) ->
  forall v, for_in x b (encVs refs) (E v) = outc E (any_ref f refs v).
Proof.
  intros H. unfold encVs. induction refs as [|r refs IH]; intros v; cbn [map for_in any_ref]; [reflexivity|].
  rewrite H. destruct (f r v) as [[u w]| | |]; try reflexivity. cbn [obind fst snd]. destruct u; [reflexivity|]. apply IH.
Qed.

Ltac loop f v :=
  match goal with H : forall l, ?order (VSet (encVs l)) = encVs _ |- _ => rewrite A_order, H end;
  match goal with |- context [unordk "ref" ?b (CVal (VVec ?p (encVs ?l)) ?o) ?e] =>
    change (unordk "ref" b (CVal (VVec p (encVs l)) o) e) with (for_in "ref" b (encVs l) e);
    let x := eval pattern v in e in match x with ?E _ => rewrite (for_any "ref" b E f l) end end.

Section Functions.
Variables (N : nat) (mb : str -> Z) (order : val -> list val) (flt : Filter) (rep : bool) (ord_refs : list view -> list view).
Hypothesis order_refs : forall l, order (VSet (encVs l)) = encVs (ord_refs l).
Notation A := (A N mb order).
Notation enc s v := (enc flt rep s v).
Definition used_cres (o : list str -> val) (r : outcome (bool * list str)) : cres :=
  match r with Ok (b, v) => CVal (VBool b) (o v) | _ => CFuel end.

(** parser.cpp:599-656 *)
Lemma src_isUsed s : forall k label depth v, Z.of_nat k + Z.abs depth < 2 ^ 31 ->
  A k "isUsed" (enc s v) [VStr label; VInt I32 depth] = used_cres (fun v => enc s v) (isUsed ord_refs s k label depth v).
Proof.
  induction k as [|k IH]; intros label depth v HD; [reflexivity|].
  cbn [isUsed]. unfold refs_of.
  assert (F1 : fits I32 (depth + 1) = true) by (clear - HD; unfold fits, INT_MIN, INT_MAX; lia).
  assert (F2 : fits I32 (depth - 1) = true) by (clear - HD; unfold fits, INT_MIN, INT_MAX; lia).
  assert (IH1 : forall l v, A k "isUsed" (enc s v) [VStr l; VInt I32 (depth + 1)] = used_cres (fun v => enc s v) (isUsed ord_refs s k l (depth + 1) v)) by (intros; apply IH; lia).
  assert (IH2 : forall l v, A k "isUsed" (enc s v) [VStr l; VInt I32 (depth - 1)] = used_cres (fun v => enc s v) (isUsed ord_refs s k l (depth - 1) v)) by (intros; apply IH; lia).
  clear IH HD. unfold AStep.enc in *.
  change (encMS (t_used_labels s)) with (encM encT (t_used_labels s)) in *. change (encMS (t_weakly_used_labels s)) with (encM encT (t_weakly_used_labels s)) in *.
  change (encMS (t_data_used_labels s)) with (encM encT (t_data_used_labels s)) in *.
  revert IH1 IH2. generalize (isUsed ord_refs s k) as rec. intros rec.
  generalize (encF flt) as xF, (encS s) as xS, (VMap (VStr []) (encFiles (t_files s))) as xfiles, (VVec VNone (encLs (t_lines s))) as xlines,
    (VMap (VInt I32 0) (encMI (t_labels_defined s))) as xdef, (VMap (VStr []) (encMV (t_aliased_labels s))) as xal, (VInt U64 (t_total_lines s)) as xtot.
  generalize (t_usercode_labels s) as uc, (t_used_labels s) as us, (t_data_used_labels s) as da, (t_weakly_used_labels s) as we. intros uc us da we xF xS xfiles xlines xdef xal xtot IH1 IH2.
  enter. go. cbv zeta.
  match goal with |- fin ?p ?r (seqk ?n ?m ?c (if _ then _ else _) ?y) = ?rhs =>
    match rhs with context [if depth =? 0 then ?a else ?b] =>
    let f := eval pattern (if depth =? 0 then a else b) in rhs in
    match f with ?f _ =>
    match c with context [A _ _ _ _] => idtac | _ => idtac end;
    assert (Main : forall v, fin p r (exec n m asm_tys isfn ismeth c y [("depth", VInt I32 depth); ("label", VStr label);
      ("this", VRec [("filter", xF); ("state", xS); ("files", xfiles); ("lines", xlines); ("labels_defined", xdef);
            ("usercode_labels", VSet (encVs uc)); ("used_labels", VMap (VSet []) (encM encT us)); ("data_used_labels", VMap (VSet []) (encM encT da));
            ("weakly_used_labels", VMap (VSet []) (encM encT we)); ("aliased_labels", xal); ("reproducible", VBool rep); ("total_lines", xtot);
            ("visited", VSet (encStrs (rev v)))])]) = f v); cbv beta
    end end end.
  2:{ rewrite <- Main. clear Main. destruct (depth =? 0); go; reflexivity. }
  clear v. intros v. go. rewrite visited_has. destruct (mem_str label v) eqn:Em; cbn [Z.eqb]; go; [reflexivity|].
  rewrite (visited_put label v Em). rewrite set_has_enc. destruct (set_contains uc label); go; [reflexivity|]. clear Em. set (v1 := label :: v). clearbody v1.
  Local Ltac callu H := rewrite H; unfold used_cres; cbn [v_str]; match goal with |- context [match ?x with Ok _ => _ | _ => _ end] => destruct x as [[[] ?w]| | |] end; cbv beta iota; gor; try reflexivity.
  Local Ltac tail2 rec depth label da IH2 F2 v :=
    rewrite (map_get_enc encT label da); destruct (map_find da label) as [rd|]; cbn [option_map is_some];
    [change (encT rd) with (VSet (encVs rd)); go; loop (fun ref vis => rec (v_str ref) (depth - 1) vis) v;
      [match goal with |- context [any_ref ?f ?l ?v] => destruct (any_ref f l v) as [[[] v5]| | |] end; cbn [outc obind fst snd]; [go; reflexivity|go; rewrite visited_del; reflexivity|reflexivity..]
      |intros [ro r] w; cbv beta; gor; rewrite F2; gor; callu IH2]
    |go; cbn [any_ref obind fst snd]; rewrite visited_del; reflexivity].
  Local Ltac tail rec depth label we da IH2 F2 v :=
    destruct (0 <? depth); go; [|rewrite visited_del; reflexivity];
    rewrite (map_get_enc encT label we); destruct (map_find we label) as [rw|]; cbn [option_map is_some];
    [change (encT rw) with (VSet (encVs rw)); go; loop (fun ref vis => rec (v_str ref) (depth - 1) vis) v;
      [let v4 := fresh in match goal with |- context [any_ref ?f ?l ?v] => destruct (any_ref f l v) as [[[] v4]| | |] end; cbn [outc obind fst snd]; [go; reflexivity|go; tail2 rec depth label da IH2 F2 v4|reflexivity..]
      |intros [ro r] w; cbv beta; gor; rewrite F2; gor; callu IH2]
    |go; cbn [any_ref obind fst snd]; tail2 rec depth label da IH2 F2 v].
  rewrite map_get_enc. destruct (map_find us label) as [ru|]; cbn [option_map is_some].
  - change (encT ru) with (VSet (encVs ru)). go. 
    loop (fun ref vis => if is_nil (v_str ref) then Ok (true, vis) else rec (v_str ref) (depth + 1) vis) v1.
    2:{ intros [ro r] w. cbv beta. gor. cbn [v_str]. destruct (is_nil r); gor; [reflexivity|]. rewrite F1. gor. callu IH1. }
    destruct (any_ref _ _ v1) as [[[] v3]| | |]; cbn [outc obind fst snd]; [go; reflexivity| |reflexivity..].
    go. tail rec depth label we da IH2 F2 v3.
  - go. cbn [any_ref obind fst snd]. tail rec depth label we da IH2 F2 v1.
Qed.
End Functions.
