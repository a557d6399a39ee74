(** actually_address and address of src/objdump/parser.cpp. *)
From Coq Require Import String List ZArith Ascii Bool Lia.
From Verif Require Import Bytes Types Utils ObjDump CppSyntax SourceText SourceAst PropPatterns CppSem SrcStep SrcUtil SrcObj.
Import ListNotations.
Local Open Scope string_scope.
Local Open Scope Z_scope.

Lemma nth_error_skipn0 {A} (l : list A) n : nth_error (skipn n l) 0 = nth_error l n.
Proof. revert l. induction n as [|n IH]; intros [|x l]; try reflexivity. apply IH. Qed.
Lemma skipn_skipn {A} (a b : nat) (l : list A) : skipn a (skipn b l) = skipn (a + b) l.
Proof. revert l. induction b as [|b IH]; intros l; [now rewrite Nat.add_0_r|]. destruct l as [|x l]; [now rewrite !skipn_nil|]. rewrite Nat.add_succ_r. apply IH. Qed.
Lemma i8_small z : -128 <= z <= 127 -> i8 z = z.
Proof.
  intros H. unfold i8, wrap_s. cbv zeta. change (2 ^ 8) with 256. change (2 ^ (8 - 1)) with 128.
  destruct (z <? 0) eqn:E.
  - replace (z mod 256) with (z + 256) by (apply Z.mod_unique with (-1); lia). destruct (z + 256 <? 128) eqn:E2; lia.
  - rewrite Z.mod_small by lia. destruct (z <? 128) eqn:E2; lia.
Qed.
Lemma i8_range z : -128 <= i8 z <= 127.
Proof.
  unfold i8, wrap_s. cbv zeta. change (2 ^ 8) with 256. change (2 ^ (8 - 1)) with 128.
  assert (H := Z.mod_pos_bound z 256 eq_refl). destruct (z mod 256 <? 128) eqn:E2; lia.
Qed.
Lemma i32_range z : - 2 ^ 31 <= i32 z < 2 ^ 31.
Proof.
  unfold i32, wrap_s. cbv zeta. change (2 ^ (32 - 1)) with (2 ^ 31).
  assert (H := Z.mod_pos_bound z (2 ^ 32) eq_refl). destruct (z mod 2 ^ 32 <? 2 ^ 31) eqn:E2; lia.
Qed.
Lemma wrap_s64_small z : - 2 ^ 63 <= z < 2 ^ 63 -> wrap_s 64 z = z.
Proof.
  intros H. unfold wrap_s. cbv zeta. change (2 ^ (64 - 1)) with (2 ^ 63).
  destruct (z <? 0) eqn:E.
  - replace (z mod 2 ^ 64) with (z + 2 ^ 64) by (apply Z.mod_unique with (-1); lia). destruct (z + 2 ^ 64 <? 2 ^ 63) eqn:E2; lia.
  - rewrite Z.mod_small by lia. destruct (z <? 2 ^ 63) eqn:E2; lia.
Qed.
Lemma hex_range c : is_hex c = true -> 0 <= hex2int c <= 15.
Proof. destruct c as [[] [] [] [] [] [] [] []]; vm_compute; intuition discriminate. Qed.


Section Functions.
Variables (N : nat) (mb : str -> Z) (flt : Filter) (rep : bool).
Notation P := (P N mb).
Notation out := (out flt rep).
Definition addr_env (v : val) (u : str) (i b a : Z) (nh : bool) : env :=
  [("c", VSit u i); ("bitsdone", VInt I8 b); ("addr", VInt I64 a); ("maybeNotHexAfterall", VBool nh); ("this", v)].
(** The loop, given what its parts do. *)
Lemma addr_while (c : env -> res val) (b : env -> res ctl) (st : env -> res val) (v : val) (u : str) :
  Z.of_nat (length u) < 2 ^ 31 ->
  (forall i bd ad, c (addr_env v u i bd ad false) =
     Val (VBool (if i =? Z.of_nat (length u) then false else true)) (addr_env v u i bd ad false)) ->
  (forall i bd ad, in_bounds (Z.of_nat (length u)) (i + 1) = true -> exists w, st (addr_env v u i bd ad false) = Val w (addr_env v u (i + 1) bd ad false)) ->
  (forall i bd ad ch, (forall e, at_pos u i e = Val (VChr ch) e) -> i8 bd = bd -> fits I32 (bd + 4) = true ->
     b (addr_env v u i bd ad false) =
       if negb (is_hex ch) then Val Broken (addr_env v u i bd ad true)
       else if hex2int ch =? 0 then Val Next (addr_env v u i (i8 (bd + 4)) ad false)
       else if (bd <? 0) || (32 <=? bd) then Undef (Known ShiftRange)
       else if fits I64 (ad + i32 (Z.shiftl (hex2int ch) bd)) then Val Next (addr_env v u i (i8 (bd + 4)) (ad + i32 (Z.shiftl (hex2int ch) bd)) false)
       else Undef Overflow) ->
  forall n rest i ad bd, skipn (Z.to_nat i) u = rest -> 0 <= i -> i + Z.of_nat (length rest) = Z.of_nat (length u) ->
    (length rest < n)%nat -> -128 <= bd <= 127 -> - 2 ^ 31 * i <= ad <= 2 ^ 31 * i ->
    match addr_loop rest ad bd with
    | Ok (a', nh) => exists i' b', while_loop n c b st (addr_env v u i bd ad false) = Val Next (addr_env v u i' b' a' nh)
    | UB u' => while_loop n c b st (addr_env v u i bd ad false) = Undef (Known u')
    | _ => False
    end.
Proof.
  intros HU HC HST HB. induction n as [|n IH]; intros rest i ad bd Hs Hi Hl Hn Hb Ha; [lia|].
  destruct rest as [|ch rest].
  - cbn [addr_loop]. cbn [length] in Hl. exists i, bd. eapply while_end; [apply HC|].
    cbn [truthy]. replace (i =? Z.of_nat (length u)) with true by lia. reflexivity.
  - cbn [addr_loop]. cbn [length] in Hl, Hn.
    assert (Hc : forall e : env, at_pos u i e = Val (VChr ch) e).
    { intros e. unfold at_pos.
      assert (Hn' : nth_error (skipn (Z.to_nat i) u) 0 = Some ch) by (rewrite Hs; reflexivity).
      rewrite nth_error_skipn0 in Hn'. rewrite Hn'. reflexivity. }
    assert (Hne : truthy (VBool (if i =? Z.of_nat (length u) then false else true)) = Some true) by (replace (i =? Z.of_nat (length u)) with false by lia; reflexivity).
    assert (Hib : in_bounds (Z.of_nat (length u)) (i + 1) = true) by (unfold in_bounds; lia).
    assert (Hs' : skipn (Z.to_nat (i + 1)) u = rest).
    { replace (Z.to_nat (i + 1)) with (1 + Z.to_nat i)%nat by lia. rewrite <- skipn_skipn, Hs. reflexivity. }
    assert (Hbd : i8 bd = bd) by (apply i8_small; lia).
    assert (Hf : fits I32 (bd + 4) = true) by (unfold fits, INT_MIN, INT_MAX; lia).
    assert (B := HB i bd ad ch Hc Hbd Hf).
    destruct (is_hex ch) eqn:E; cbn [negb] in *.
    + assert (Hh := hex_range ch E).
      destruct (hex2int ch =? 0) eqn:E0.
      * destruct (HST i (i8 (bd + 4)) ad Hib) as (w & S1).
        rewrite (while_next c b st _ _ _ _ _ _ _ _ (HC i bd ad) Hne B (or_introl eq_refl) S1).
        apply IH; try assumption; try lia. apply i8_range.
      * destruct ((bd <? 0) || (32 <=? bd)) eqn:E3.
        -- exact (while_undef c b st _ _ _ _ _ (HC i bd ad) Hne B).
        -- assert (Hr := i32_range (Z.shiftl (hex2int ch) bd)).
           assert (Hfi : fits I64 (ad + i32 (Z.shiftl (hex2int ch) bd)) = true) by (unfold fits, LONG_MAX; lia).
           rewrite Hfi in B.
           destruct (HST i (i8 (bd + 4)) (ad + i32 (Z.shiftl (hex2int ch) bd)) Hib) as (w & S1).
           rewrite (while_next c b st _ _ _ _ _ _ _ _ (HC i bd ad) Hne B (or_introl eq_refl) S1).
           apply IH; try assumption; try lia. apply i8_range.
    + exists i, bd. exact (while_break c b st _ _ _ _ _ (HC i bd ad) Hne B).
Qed.

(** parser.cpp:203-245 *)
Lemma src_actually_address d s : Z.of_nat (length (o_text s)) < 2 ^ 31 -> (length (o_text s) < N)%nat ->
  P (S (S d)) "actually_address" (enc flt rep s) [] = out (actually_address s).
Proof.
  dst s. cbn [o_text]. intros HL HN. enter. go. br; go; [reflexivity|].
  change (norm I8 0) with 0. change (norm I64 0) with 0.
  match goal with |- context [while_loop N ?c ?b ?st ?e] =>
    match e with ("c", VSit (rev text) 0) :: _ :: _ :: _ :: [("this", ?v)] =>
    change e with (addr_env v (rev text) 0 0 0 false);
    assert (H := addr_while c b st v (rev text)) end
  end.
  specialize (fun x1 x2 x3 x4 => H x1 x2 x3 x4 N (rev text) 0 0 0 eq_refl (Z.le_refl 0)).
  rewrite rev_length in H. specialize (fun x2 x3 x4 => H HL x2 x3 x4 eq_refl HN).
  assert (H0 : -128 <= 0 <= 127) by lia. assert (H1 : - 2 ^ 31 * 0 <= 0 <= 2 ^ 31 * 0) by lia.
  specialize (fun x2 x3 x4 => H x2 x3 x4 H0 H1). clear H0 H1.
  match type of H with ?A -> ?B -> ?C -> ?D => assert (HA : A); [|assert (HB : B); [|assert (HC : C)]] end.
  { intros i bd ad. unfold addr_env. gor. reflexivity. }
  { intros i bd ad Hib. eexists. unfold addr_env. gor. rewrite rev_length, Hib. gor. reflexivity. }
  { clear H HA HB. intros i bd ad ch Hc Hbd Hf. unfold addr_env.
    match goal with |- context [("this", VRec ?v)] => generalize (VRec v); intros this end.
    gor. rewrite Hc. gor. rewrite src_is_hex. gor. destruct (is_hex ch) eqn:E; [|gob E; reflexivity].
    assert (Hh8 : i8 (hex2int ch) = hex2int ch) by (apply i8_small; generalize (hex_range ch E); clear; lia).
    gob E. rewrite Hc. gor. rewrite src_hex2int. gor. rewrite Hh8. destruct (hex2int ch =? 0) eqn:E0.
    - gob E0. rewrite Hbd, Hf. gor. reflexivity.
    - gob E0. rewrite Hbd. 
      assert (Hw : norm I64 (norm I32 (Z.shiftl (hex2int ch) bd)) = i32 (Z.shiftl (hex2int ch) bd)).
      { apply wrap_s64_small. generalize (i32_range (Z.shiftl (hex2int ch) bd)). clear. change (norm I32) with i32. lia. }
      destruct (bd <? 0) eqn:E3; [gob E3; reflexivity|]. destruct (32 <=? bd) eqn:E4; [gob E4; reflexivity|]. gob E4. rewrite Hh8, Hw.
      destruct (fits I64 (ad + i32 (Z.shiftl (hex2int ch) bd))); gor; [|reflexivity]. rewrite Hbd, Hf. gor. reflexivity.
  }
  specialize (H HA HB HC). clear HA HB HC. unfold actually_address. cbn [o_ignoreUntilNextLabel o_text negb].
  destruct (addr_loop (rev text) 0 0) as [[a' nh]|u| |]; cbn [obind].
  - destruct H as (i' & b' & ->). unfold addr_env. go. br; go; reflexivity.
  - rewrite H. go. reflexivity.
  - destruct H.
  - destruct H.
Qed.
(** parser.cpp:276-298 *)
Lemma src_address d s : Z.of_nat (length (o_text s)) < 2 ^ 31 -> (length (o_text s) < N)%nat ->
  P (S (S (S (S d)))) "address" (enc flt rep s) [] = out (address s).
Proof.
  dst s. cbn [o_text]. intros HL HN. enter. go. br; go; [destruct text; [reflexivity|discriminate]|].
  destruct text as [|x text]; [discriminate|]. unfold address. cbn [o_text].
  cbv [at_pos nth_error Z.to_nat]. go. br; go.
  - refold. rewrite src_actually_filename. cbv [SrcObj.out]. go. reflexivity.
  - refold. rewrite src_actually_address by assumption.
    destruct (actually_address _) as [s'|u| |]; cbn [SrcObj.out obind]; [|go; reflexivity|reflexivity|reflexivity].
    dst2 s'. go. reflexivity.
Qed.
End Functions.
