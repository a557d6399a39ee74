(** maybe_remove_last_function of src/objdump/parser.cpp. *)
From Coq Require Import String List ZArith Ascii Bool Lia.
From Verif Require Import Bytes Types Utils ObjDump CppSyntax SourceText SourceAst PropPatterns CppSem SrcStep SrcUtil SrcObj SrcAddr.
Import ListNotations.
Local Open Scope string_scope.
Local Open Scope Z_scope.

(** What holds between two lines: the last label is not beyond the lines, and there
    are at most 5001 lines. *)
Definition tidy (s : ostate) : Prop :=
  Z.of_nat (length (o_lines s)) <= 5001 /\
  match rev (o_labels s) with [] => True | (_, k) :: _ => 1 <= k <= Z.of_nat (length (o_lines s)) end.

Lemma i32_small z : - 2 ^ 31 <= z < 2 ^ 31 -> i32 z = z.
Proof.
  intros H. unfold i32, wrap_s. cbv zeta. change (2 ^ (32 - 1)) with (2 ^ 31).
  destruct (z <? 0) eqn:E.
  - replace (z mod 2 ^ 32) with (z + 2 ^ 32) by (apply Z.mod_unique with (-1); lia). destruct (z + 2 ^ 32 <? 2 ^ 31) eqn:E2; lia.
  - rewrite Z.mod_small by lia. destruct (z <? 2 ^ 31) eqn:E2; lia.
Qed.
Lemma is_nil_encPs l : is_nil (encPs l) = is_nil l. Proof. now destruct l. Qed.
Lemma last_of_encPs l p : last_of (encPs (l ++ [p])) = Some (encP p).
Proof. unfold last_of, encPs. rewrite map_app, rev_app_distr. reflexivity. Qed.
Lemma without_last_encPs l p : without_last (encPs (l ++ [p])) = encPs l.
Proof. unfold without_last, encPs. rewrite map_app, rev_app_distr. cbn [rev app map tl]. apply rev_involutive. Qed.

Definition scan_env (v : val) (i : Z) (h : bool) (p : val) : env :=
  [("lineIdx", VInt U64 i); ("hasUserCode", VBool h); ("previousFunc", p); ("this", v)].
Lemma scan_while (c : env -> res val) (b : env -> res ctl) (st : env -> res val) (v p : val) (ls : list asm_line) :
  Z.of_nat (length ls) <= 5001 ->
  (forall i, c (scan_env v i false p) = Val (VBool (i <? Z.of_nat (length ls))) (scan_env v i false p)) ->
  (forall i, wrap_u 64 (i + 1) = i + 1 -> exists w, st (scan_env v i false p) = Val w (scan_env v (i + 1) false p)) ->
  (forall i l, 0 <= i -> nth_error ls (Z.to_nat i) = Some l ->
     b (scan_env v i false p) = if s_is_usercode (l_source l) then Val Broken (scan_env v i true p) else Val Next (scan_env v i false p)) ->
  forall n rest i, skipn (Z.to_nat i) ls = rest -> 0 <= i -> i + Z.of_nat (length rest) = Z.of_nat (length ls) -> (length rest < n)%nat ->
  exists i', while_loop n c b st (scan_env v i false p) = Val Next (scan_env v i' (existsb (fun l => s_is_usercode (l_source l)) rest) p).
Proof.
  intros HU HC HST HB. induction n as [|n IH]; intros rest i Hs Hi Hl Hn; [lia|].
  destruct rest as [|l rest]; cbn [existsb]; cbn [length] in Hl.
  - exists i. eapply while_end; [apply HC|]. cbn [truthy]. f_equal. lia.
  - cbn [length] in Hn.
    assert (Hc : nth_error ls (Z.to_nat i) = Some l).
    { rewrite <- nth_error_skipn0, Hs. reflexivity. }
    assert (Hs' : skipn (Z.to_nat (i + 1)) ls = rest).
    { replace (Z.to_nat (i + 1)) with (1 + Z.to_nat i)%nat by lia. rewrite <- skipn_skipn, Hs. reflexivity. }
    assert (Hne : truthy (VBool (i <? Z.of_nat (length ls))) = Some true) by (cbn [truthy]; f_equal; lia).
    assert (B := HB i l Hi Hc). destruct (s_is_usercode (l_source l)).
    + exists i. exact (while_break c b st _ _ _ _ _ (HC i) Hne B).
    + destruct (HST i) as (w & S1); [apply wrap64; lia|].
      rewrite (while_next c b st _ _ _ _ _ _ _ _ (HC i) Hne B (or_introl eq_refl) S1).
      apply IH; try assumption; lia.
Qed.

Section Functions.
Variables (N : nat) (mb : str -> Z) (flt : Filter) (rep : bool).
Notation P := (P N mb).
Notation out := (out flt rep).
Hypothesis HN : 5010 < Z.of_nat N.

(** parser.cpp:96-120 *)
Lemma src_maybe_remove_last_function d s : tidy s ->
  P (S d) "maybe_remove_last_function" (enc flt rep s) [] = out (maybe_remove_last_function s).
Proof.
  dst s. unfold tidy, maybe_remove_last_function. cbn [o_lines o_labels]. intros (HL & HT). enter. go. rewrite is_nil_encPs.
  destruct (rev labels) as [|[nm k] before] eqn:EL.
  { replace labels with (@nil (str * Z)) by (rewrite <- (rev_involutive labels), EL; reflexivity). go. reflexivity. }
  assert (El : labels = (rev before ++ [(nm, k)])%list) by (rewrite <- (rev_involutive labels), EL; reflexivity).
  replace (is_nil labels) with false by (rewrite El; now destruct (rev before)).
  rewrite El. cbn [negb]. go. rewrite last_of_encPs. go.
  assert (Hg : (k - 1 <? 0) || (Z.of_nat (length lines) <? k - 1) = false) by (clear - HT; lia). rewrite Hg.
  assert (Hf : fits I32 (k - 1) = true) by (unfold fits, INT_MIN, INT_MAX; clear - HT HL; lia). rewrite Hf. go.
  assert (Hw : norm U64 (k - 1) = k - 1) by (apply wrap64; clear - HT HL; lia). rewrite Hw.
  match goal with |- context [while_loop N ?c ?b ?st ?e] =>
    match e with _ :: _ :: ("previousFunc", ?p) :: [("this", ?v)] =>
    change e with (scan_env v (k - 1) false p); assert (H := scan_while c b st v p lines HL) end
  end.
  match type of H with ?A -> ?B -> ?C -> ?D => assert (HA : A); [|assert (HB : B); [|assert (HC : C)]] end.
  { intros i. unfold scan_env. gor. rewrite encLs_length. reflexivity. }
  { intros i Hi. eexists. unfold scan_env. gor. change (norm U64 1) with 1. rewrite Hi. reflexivity. }
  { intros i l Hi Hl. unfold scan_env. gor. unfold vec_at. assert (Hi0 : (i <? 0) = false) by (clear - Hi; lia). rewrite Hi0, (map_nth_error encL _ _ Hl : nth_error (encLs lines) (Z.to_nat i) = Some (encL l)).
    destruct l as [? ? ? ? ? ? ? ? [? ? ? ? us ?] ? ? ? ? ? ? ? ? ?]. gor. destruct us; gor; reflexivity. }
  specialize (H HA HB HC N (skipn (Z.to_nat (k - 1)) lines) (k - 1) eq_refl). clear HA HB HC.
  destruct H as (i' & H); [..|rewrite H; clear H].
  { clear - HT; lia. } { rewrite skipn_length. clear - HT; lia. } { rewrite skipn_length. clear - HL HN; lia. }
  unfold scan_env. destruct (existsb _ (skipn (Z.to_nat (k - 1)) lines)); go; [rewrite <- El; reflexivity|].
  rewrite encLs_length.
  assert (B1 : in_bounds (Z.of_nat (length lines)) (0 + k) = true) by (unfold in_bounds; clear - HT; lia). rewrite B1. go.
  assert (B2 : in_bounds (Z.of_nat (length lines)) (0 + k - 1) = true) by (unfold in_bounds; clear - HT; lia). rewrite B2. go.
  rewrite encLs_length.
  assert (B3 : (0 <=? 0 + k - 1) && (0 + k - 1 <=? Z.of_nat (length lines)) && (Z.of_nat (length lines) <=? Z.of_nat (length lines)) = true)
    by (clear - HT; lia). rewrite B3. go.
  rewrite last_of_encPs. go. rewrite without_last_encPs.
  rewrite Nat2Z.id, <- encLs_length, skipn_all, app_nil_r. unfold encLs at 1. rewrite firstn_map. reflexivity.
Qed.
End Functions.
