(** The functions of src/utils the objdump parser calls: the interpreter of CppSem.v
    on the syntax trees of their text gives what Utils.v says. *)
From Coq Require Import String List ZArith Ascii Bool Lia.
From Verif Require Import Bytes Types Utils ObjDump CppSyntax SourceText SourceAst PropPatterns CppSem SrcStep.
Import ListNotations.
Local Open Scope string_scope.
Local Open Scope Z_scope.

Lemma hex_signed c :
  (if (if chr_int "a" <=? chr_int c then chr_int c <=? chr_int "f" else false) then true
   else if chr_int "0" <=? chr_int c then chr_int c <=? chr_int "9" else false) = is_hex c.
Proof. destruct c as [[] [] [] [] [] [] [] []]; vm_compute; reflexivity. Qed.
Lemma digit_signed c : (if chr_int "0" <=? chr_int c then chr_int c <=? chr_int "9" else false) = in_range "0" "9" c.
Proof. destruct c as [[] [] [] [] [] [] [] []]; vm_compute; reflexivity. Qed.
Lemma space_signed c : (chr_int c =? 32) = ceq c SP.
Proof. destruct c as [[] [] [] [] [] [] [] []]; vm_compute; reflexivity. Qed.

Lemma objdump_label_len (l : str) :
  starts_with ["<"%char] l = true -> ends_with [">"%char; ":"%char] l = true -> (3 <= length l)%nat.
Proof.
  unfold ends_with. change (rev [">"%char; ":"%char]) with [":"%char; ">"%char].
  destruct l as [|x [|y [|z l]]]; cbn [rev app starts_with length]; try discriminate; try lia.
  rewrite !andb_true_r. intros H1 H2. apply andb_true_iff in H2 as (_ & H2).
  apply Ascii.eqb_eq in H1, H2. subst x. discriminate.
Qed.
Section Functions.
Variables (N : nat) (mb : str -> Z).
Notation P := (P N mb).

(** utils.cpp:4-7 *)
Lemma src_is_hex d c : P (S d) "is_hex" VUnit [VChr c] = CVal (VBool (is_hex c)) VUnit.
Proof.
  rewrite <- hex_signed. enter. goes; try reflexivity.
Qed.
(** utils.hpp:9-12 *)
Lemma src_is_whitespace d c : P (S d) "is_whitespace" VUnit [VChr c] = CVal (VBool (is_whitespace c)) VUnit.
Proof.
  unfold is_whitespace. rewrite <- space_signed. unfold TAB. enter. goes; try reflexivity.
Qed.
(** library_detection.cpp:7-11 *)
Lemma src_file_in_library d f this : P (S d) "file_in_library" (VRec this) [VStr f] = CVal (VBool (file_in_library f)) (VRec this).
Proof.
  unfold file_in_library. cbv [lit list_ascii_of_string]. enter. goes; try reflexivity.
Qed.
(** regexwrappers.cpp:655-669 *)
Lemma src_shouldIgnoreFunction d f flt :
  P (S d) "shouldIgnoreFunction" VUnit [VStr f; encF flt] = CVal (VBool (shouldIgnoreFunction f flt)) VUnit.
Proof.
  destruct patterns_of_others as (_ & H & _). rewrite H. clear H. repeat match goal with |- context [Tests.T ?x] => let y := eval vm_compute in (Tests.T x) in change (Tests.T x) with y end. enter.
  goes; try reflexivity.
Qed.

(** utils.cpp:9-19 *)
Lemma src_hex2int d c : P (S d) "hex2int" VUnit [VChr c] = CVal (VInt I8 (hex2int c)) VUnit.
Proof.
  destruct c as [[] [] [] [] [] [] [] []]; vm_compute; reflexivity.
Qed.
(** regexwrappers.cpp:432-440 *)
Lemma src_getLabelFromObjdumpLabel d l :
  P (S d) "getLabelFromObjdumpLabel" VUnit [VStr l] = CVal (VOpt (VStr []) (option_map VStr (getLabelFromObjdumpLabel l))) VUnit.
Proof.
  unfold getLabelFromObjdumpLabel. cbv [lit list_ascii_of_string]. enter.
  go. br; go; [|reflexivity]. br; [|go; reflexivity].
  assert (H : (3 <= length l)%nat).
  { now apply objdump_label_len. }
  go.
  assert (B1 : in_bounds (Z.of_nat (length l)) (0 + 1) = true) by (unfold in_bounds; lia).
  assert (B2 : in_bounds (Z.of_nat (length l)) (Z.of_nat (length l) - 2) = true) by (unfold in_bounds; lia).
  rewrite B1. go. rewrite B2. go.
  unfold slice. assert (B3 : (0 + 1 <=? Z.of_nat (length l) - 2) = true) by lia. rewrite B3. go.
  cbn [andb option_map]. replace (Z.to_nat (Z.of_nat (length l) - 2 - (0 + 1))) with (length l - 3)%nat by lia. reflexivity.
Qed.

Lemma ustrlen_fuel n s : (length s <= n)%nat -> ustrlen_loop mb n s = ustrlen_loop mb (length s) s.
Proof.
  enough (H : forall k n s, (length s <= k)%nat -> (length s <= n)%nat -> ustrlen_loop mb n s = ustrlen_loop mb k s) by (intros; now apply H).
  clear n s. induction k as [|k IH]; intros n s Hk Hn.
  - destruct s; [|cbn in Hk; lia]. now destruct n.
  - destruct s as [|x s]; [now destruct n|]. destruct n as [|n]; [cbn in Hn; lia|].
    cbn [ustrlen_loop]. destruct (mb (x :: s) <? 1) eqn:E; [reflexivity|].
    destruct (mb (x :: s) <? Z.of_nat (length (x :: s))); [|reflexivity]. f_equal.
    assert (HS := skipn_length (Z.to_nat (mb (x :: s))) (x :: s)). cbn [length] in *. apply IH; lia.
Qed.
(** utils.cpp:21-50.  [mblen] never claims more bytes than it was given. *)
Hypothesis mb_le : forall s, mb s <= Z.of_nat (length s).
Definition ustrlen_env (u m : Z) (p s : str) : env := [("ulen", VInt U64 u); ("maxlen", VInt U64 m); ("cstrptr", VPtr p); ("s", VStr s)].
Lemma wrap64 z : 0 <= z < 2 ^ 64 -> wrap_u 64 z = z.
Proof. intros H. unfold wrap_u. now apply Z.mod_small. Qed.

Lemma src_ustrlen d s : Z.of_nat (length s) < 2 ^ 32 -> (length s < N)%nat ->
  P (S d) "ustrlen" VUnit [VStr s] = CVal (VInt U64 (ustrlen mb s)) VUnit.
Proof.
  intros HL HN. enter. go.
  change (norm U64 0) with 0.
  match goal with |- fin _ (seqk _ _ _ (while_loop ?nn (eval ?m ?ts ?f ?g ?k ?c) (exec _ _ _ _ _ _ ?b) _ ?e) ?r) = ?rhs =>
    change e with (ustrlen_env 0 (Z.of_nat (length s)) s s);
    assert (Loop : forall n t u s0, (length t < n)%nat -> 0 <= u -> u + Z.of_nat (length t) < 2 ^ 32 ->
      exists m' p', while_loop n (eval m ts f g k c) (exec N m ts f g k b) (fun e9 : env => @Val val VUnit e9) (ustrlen_env u (Z.of_nat (length t)) t s0) =
        Val Next (ustrlen_env (u + ustrlen_loop mb (length t) t) m' p' s0))
  end.
  { clear s HL HN. induction n as [|n IH]; intros t u s0 Hn Hu Hb; [lia|].
    unfold ustrlen_env in *. destruct t as [|x t].
    - exists 0, []. cbn [length ustrlen_loop]. rewrite Z.add_0_r. erewrite while_end; [reflexivity| |].
      + gor. reflexivity.
      + reflexivity.
    - assert (E : firstn (Z.to_nat (Z.of_nat (length (x :: t)))) (x :: t) = x :: t) by (rewrite Nat2Z.id; apply firstn_all).
      assert (E0 : wrap_u 64 0 = 0) by reflexivity.
      assert (Hm := mb_le (x :: t)).
      remember (x :: t) as t' eqn:Et. assert (Ht : (0 < length t')%nat) by (subst t'; cbn; lia).
      destruct (mb t' <? 1) eqn:E1.
      + exists (Z.of_nat (length t')), t'. 
        assert (EL : ustrlen_loop mb (length t') t' = 0) by (subst t'; cbn [length ustrlen_loop]; now rewrite E1).
        rewrite EL, Z.add_0_r. eapply while_break.
        * gor. reflexivity.
        * cbn [truthy]. change (norm U64 0) with 0. replace (Z.of_nat (length t') =? 0) with false by lia. reflexivity.
        * gor. rewrite E, E1. gor. reflexivity.
      + assert (B1 : in_bounds (Z.of_nat (length t')) (mb t') = true) by (unfold in_bounds; lia).
        assert (B2 : norm U64 (mb t') = mb t') by (apply wrap64; lia).
        assert (B3 : wrap_u 64 (u + norm U64 1) = u + 1) by (change (norm U64 1) with 1; apply wrap64; lia).
        assert (B4 : wrap_u 64 (Z.of_nat (length t') - mb t') = Z.of_nat (length t') - mb t') by (apply wrap64; lia).
        assert (EL : ustrlen_loop mb (length t') t' =
                     1 + (if mb t' <? Z.of_nat (length t') then ustrlen_loop mb (length t) (skipn (Z.to_nat (mb t')) t') else 0))
          by (subst t'; cbn [length ustrlen_loop]; cbn [length] in E1; now rewrite E1).
        destruct (mb t' <? Z.of_nat (length t')) eqn:E2.
        * assert (HS : length (skipn (Z.to_nat (mb t')) t') = (length t' - Z.to_nat (mb t'))%nat) by apply skipn_length.
          destruct (IH (skipn (Z.to_nat (mb t')) t') (u + 1) s0) as (m' & p' & HI); [lia|lia|lia|].
          exists m', p'.
          rewrite EL, Z.add_assoc. 
          rewrite (ustrlen_fuel (length t) (skipn (Z.to_nat (mb t')) t')) by (subst t'; cbn [length] in *; lia).
          rewrite <- HI. eapply while_next.
          -- gor. reflexivity.
          -- cbn [truthy]. change (norm U64 0) with 0. replace (Z.of_nat (length t') =? 0) with false by lia. reflexivity.
          -- gor. rewrite E, E1. gor. rewrite B1. gor. rewrite B3, B2, E2. gor. rewrite B2, B4. reflexivity.
          -- now left.
          -- cbn [norm].
             replace (Z.of_nat (length t') - mb t') with (Z.of_nat (length (skipn (Z.to_nat (mb t')) t'))) by lia.
             reflexivity.
        * exists (Z.of_nat (length t')), (skipn (Z.to_nat (mb t')) t'). rewrite EL, Z.add_0_r. eapply while_break.
          -- gor. reflexivity.
          -- cbn [truthy]. change (norm U64 0) with 0. replace (Z.of_nat (length t') =? 0) with false by lia. reflexivity.
          -- gor. rewrite E, E1. gor. rewrite B1. gor. rewrite B3, B2, E2. gor. reflexivity. }
  destruct (Loop N s 0 s) as (m' & p' & ->); [exact HN|lia|lia|].
  unfold ustrlen_env. go. reflexivity.
Qed.
End Functions.
