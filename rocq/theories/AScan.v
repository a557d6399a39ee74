(** The functions of src/utils that go through a line character by character: the
    interpreter on the syntax trees of their text gives what Utils.v says. *)
From Coq Require Import String List ZArith Ascii Bool Lia.
From Verif Require Import Bytes Types Utils AsmText CppSyntax SourceText SourceAst PropPatterns CppSem AStep AUtil.
Import ListNotations.
Local Open Scope string_scope.
Local Open Scope Z_scope.

Lemma space_signed c : (chr_int c =? 32) = ceq c SP.
Proof. destruct c as [[] [] [] [] [] [] [] []]; vm_compute; reflexivity. Qed.

Lemma wrap64 z : 0 <= z < 2 ^ 64 -> wrap_u 64 z = z.
Proof. intros H. unfold wrap_u. now apply Z.mod_small. Qed.
(** A loop with an iterator through a string: [f] is one turn, [inr] a break. *)
Section Iterate.
Variables (X : Type) (f : nat -> ascii -> str -> X -> X + X).
Fixpoint iterate (i : nat) (t : str) (x : X) : X :=
  match t with [] => x | c :: r => match f i c r x with inl y => iterate (S i) r y | inr y => y end end.
Definition turn (E : X -> Z -> env) (i : Z) (r : res ctl) (o : X + X) : Prop :=
  match o with
  | inl y => r = Val Next (E y i) \/ r = Val Continued (E y i)
  | inr y => r = Val Broken (E y i)
  end.
Lemma iter_while (l : str) (E : X -> Z -> env) (c : env -> res val) (b : env -> res ctl) (st : env -> res val) :
  (forall x i, c (E x i) = Val (VBool (negb (i =? Z.of_nat (length l)))) (E x i)) ->
  (forall x i t ch, skipn i l = ch :: t -> nth_error l i = Some ch -> Z.of_nat i < Z.of_nat (length l) ->
     turn E (Z.of_nat i) (b (E x (Z.of_nat i))) (f i ch t x)) ->
  (forall x i, in_bounds (Z.of_nat (length l)) (i + 1) = true -> exists w, st (E x i) = Val w (E x (i + 1))) ->
  forall t n i x, skipn i l = t -> (i + length t = length l)%nat -> (length t < n)%nat ->
  exists j, while_loop n c b st (E x (Z.of_nat i)) = Val Next (E (iterate i t x) j).
Proof.
  intros HC HB HS. induction t as [|ch t IH]; intros n i x Ht Hl Hn; (destruct n as [|n]; [inversion Hn|]); cbn [length] in *; cbn [iterate].
  - exists (Z.of_nat i). eapply while_end; [apply HC|]. cbn [truthy]. replace (Z.of_nat i =? Z.of_nat (length l)) with true by lia. reflexivity.
  - assert (Hnth : nth_error l i = Some ch).
    { assert (Z : forall (m : list ascii) k, nth_error m k = hd_error (skipn k m)).
      { induction m as [|y m IHm]; intros [|k]; try reflexivity. cbn. apply IHm. }
      rewrite Z, Ht. reflexivity. }
    assert (Ht' : skipn (S i) l = t).
    { assert (Z : forall (m : list ascii) k, skipn (S k) m = tl (skipn k m)).
      { induction m as [|y m IHm]; intros [|k]; try reflexivity. cbn [skipn] in *. rewrite <- IHm. reflexivity. }
      rewrite Z, Ht. reflexivity. }
    assert (Hne : truthy (VBool (negb (Z.of_nat i =? Z.of_nat (length l)))) = Some true) by (cbn [truthy]; f_equal; lia).
    assert (B := HB x i t ch Ht Hnth ltac:(lia)). destruct (f i ch t x) as [y|y].
    + assert (B' : exists ct, (ct = Next \/ ct = Continued) /\ b (E x (Z.of_nat i)) = Val ct (E y (Z.of_nat i))) by (destruct B as [B|B]; eauto).
      clear B. destruct B' as (ct & Hct & B). destruct (HS y (Z.of_nat i)) as (w & S1); [unfold in_bounds; lia|].
      rewrite (while_next c b st _ _ _ _ _ _ _ _ (HC x (Z.of_nat i)) Hne B Hct S1).
      replace (Z.of_nat i + 1) with (Z.of_nat (S i)) by lia. apply IH; [exact Ht'|lia|lia].
    + exists (Z.of_nat i). exact (while_break c b st _ _ _ _ _ (HC x (Z.of_nat i)) Hne B).
Qed.
End Iterate.
Ltac got := match goal with |- turn ?X ?E ?i ?t ?o => let r := run t in change (turn X E i r o) end.

Section Functions.
Variables (N : nat) (mb : str -> Z) (order : val -> list val).
Notation A := (A N mb order).
(** utils.hpp:9-12 *)
Lemma src_is_whitespace d c : A (S d) "is_whitespace" VUnit [VChr c] = CVal (VBool (is_whitespace c)) VUnit.
Proof.
  unfold is_whitespace. rewrite <- space_signed. unfold TAB. enter. goes; try reflexivity.
Qed.
(** regexwrappers.cpp:47-71 *)
Definition ex_env (out : str) (x : Z) (l : str) : env :=
  [("extraChars", VInt U64 x); ("spaces", VStr (lit "        ")); ("expandedLine", VStr out); ("line", VStr l)].
Lemma land7 z : 0 <= Z.land z 7 < 8.
Proof. change 7 with (Z.ones 3). rewrite Z.land_ones by lia. apply Z.mod_pos_bound. lia. Qed.
Lemma src_expandTabs d l : Z.of_nat (length l) < 2 ^ 32 -> A (S d) "expandTabs" VUnit [VStr l] = CVal (VStr (expandTabs l)) VUnit.
Proof.
  intros HL. unfold expandTabs. enter. go.
  match goal with |- fin _ _ (seqk _ _ _ (for_in _ ?b _ ?e) ?r) = ?rhs =>
    change e with (ex_env [] 0 l);
    assert (Loop : forall t out x l, 0 <= x -> x + Z.of_nat (length out) + 16 * Z.of_nat (length t) < 2 ^ 40 ->
      exists x', for_in "c" b (map VChr t) (ex_env out x l) = Val Next (ex_env (expandTabs_loop t out x) x' l))
  end.
  { clear l HL. induction t as [|c t IH]; intros out x l Hx Hb; [exists x; reflexivity|].
    cbn [map expandTabs_loop]. cbn [length] in Hb.
    destruct (ceq c TAB) eqn:Ec.
    - set (n := Z.land (Z.of_nat (length out) + x + 8) 7).
      assert (Hn : 0 <= n < 8) by apply land7.
      assert (W1 : wrap_u 64 (Z.of_nat (length out) + x) = Z.of_nat (length out) + x) by (apply wrap64; lia).
      assert (W2 : wrap_u 64 (Z.of_nat (length out) + x + norm U64 8) = Z.of_nat (length out) + x + 8) by (change (norm U64 8) with 8; apply wrap64; lia).
      assert (W3 : wrap_u 64 (x + n) = x + n) by (apply wrap64; lia).
      assert (W4 : Z.land (Z.of_nat (length out) + x + 8) (norm U64 7) = n) by reflexivity.
      edestruct (IH (out ++ skipn (Z.to_nat n) (lit "        "))%list (x + n) l) as (x' & HI); [lia| |].
      { rewrite app_length, skipn_length. change (length (lit "        ")) with 8%nat. lia. }
      exists x'. rewrite <- HI. eapply for_in_next; [|now left].
      unfold ex_env. gor. change "009"%char with TAB. rewrite Ec. gor. rewrite W1. gor. rewrite W2. gor. rewrite W4, W3.
      assert (W5 : substr_from [" "%char; " "%char; " "%char; " "%char; " "%char; " "%char; " "%char; " "%char] n = Some (skipn (Z.to_nat n) (lit "        ")))
        by (unfold substr_from; cbn [length]; replace (Z.of_nat 8 <? n) with false by lia; reflexivity).
      cbv [lit list_ascii_of_string] in *. rewrite W5. gor. reflexivity.
    - edestruct (IH (out ++ [c])%list x l) as (x' & HI); [lia| |].
      { rewrite app_length. cbn [length]. lia. }
      exists x'. rewrite <- HI. eapply for_in_next; [|now left].
      unfold ex_env. gor. change "009"%char with TAB. rewrite Ec. gor. reflexivity. }
  destruct (Loop l [] 0 l) as (x' & ->); [lia|cbn [length]; lia|]. unfold ex_env. go. reflexivity.
Qed.
(** regexwrappers.cpp:84-91 *)
Lemma find_space f e : (forall c, f (VChr c) e = Val (negb (is_space c)) e) ->
  forall l i, find_loop f (map VChr l) i e = Val (i + Z.of_nat (length (take_while is_space l))) e.
Proof.
  intros Hf. induction l as [|c l IH]; intros i; cbn [map find_loop take_while length]; [now rewrite Z.add_0_r|].
  rewrite Hf. cbn [rbind]. destruct (is_space c); cbn [negb length]; [rewrite IH; f_equal; lia|now rewrite Z.add_0_r].
Qed.
Lemma drop_take l : skipn (length (take_while is_space l)) l = ltrim l.
Proof. induction l as [|c l IH]; [reflexivity|]. unfold ltrim. cbn [take_while drop_while]. destruct (is_space c); [exact IH|reflexivity]. Qed.
Lemma src_ltrim d l : A (S d) "ltrim" VUnit [VStr l] = CVal VUnit (VBrace [VUnit; VStr (ltrim l)]).
Proof.
  enter. go.
  match goal with |- context [find_loop ?f ?v ?i ?e] =>
    assert (H : find_loop f v i e = Val (Z.of_nat (length (take_while is_space l))) e)
  end.
  { rewrite Z.sub_0_r, Nat2Z.id. change (Z.to_nat 0) with O. rewrite skipn_O, firstn_all. apply (find_space _ _) with (i := 0).
    intros c. cbn. destruct (is_space c) eqn:E; reflexivity. }
  rewrite H. go.
  assert (HL : (length (take_while is_space l) <= length l)%nat) by (clear; induction l as [|c l IH]; cbn [take_while length]; [lia|destruct (is_space c); cbn [length]; lia]).
  assert (E : (0 <=? 0) && (0 <=? Z.of_nat (length (take_while is_space l))) && (Z.of_nat (length (take_while is_space l)) <=? Z.of_nat (length l)) = true) by lia.
  rewrite E. go. rewrite Nat2Z.id, drop_take. reflexivity.
Qed.
Lemma ustrlen_fuel n s : (length s <= n)%nat -> ustrlen_loop mb n s = ustrlen_loop mb (length s) s.
Proof.
  enough (H : forall k n s, (length s <= k)%nat -> (length s <= n)%nat -> ustrlen_loop mb n s = ustrlen_loop mb k s) by (intros; now apply H).
  clear n s. induction k as [|k IH]; intros n s Hk Hn.
  - destruct s; [|cbn in Hk; lia]. now destruct n.
  - destruct s as [|x s]; [now destruct n|]. destruct n as [|n]; [cbn in Hn; lia|].
    cbn [ustrlen_loop]. destruct (mb (x :: s) <? 1) eqn:E; [reflexivity|].
    destruct (mb (x :: s) <? Z.of_nat (length (x :: s))); [|reflexivity]. f_equal.
    assert (HS := skipn_length (Z.to_nat (mb (x :: s))) (x :: s)). cbn [length] in *. apply IH; lia.
Qed.
(** utils.cpp:21-50.  [mblen] never claims more bytes than it was given. *)
Hypothesis mb_le : forall s, mb s <= Z.of_nat (length s).
Definition ustrlen_env (u m : Z) (p s : str) : env := [("ulen", VInt U64 u); ("maxlen", VInt U64 m); ("cstrptr", VPtr p); ("s", VStr s)].

Lemma src_ustrlen d s : Z.of_nat (length s) < 2 ^ 32 -> (length s < N)%nat ->
  A (S d) "ustrlen" VUnit [VStr s] = CVal (VInt U64 (ustrlen mb s)) VUnit.
Proof.
  intros HL HN. enter. go.
  change (norm U64 0) with 0.
  match goal with |- fin _ _ (seqk _ _ _ (while_loop ?nn (eval ?m ?ts ?f ?g ?k ?c) (exec _ _ _ _ _ _ ?b) _ ?e) ?r) = ?rhs =>
    change e with (ustrlen_env 0 (Z.of_nat (length s)) s s);
    assert (Loop : forall n t u s0, (length t < n)%nat -> 0 <= u -> u + Z.of_nat (length t) < 2 ^ 32 ->
      exists m' p', while_loop n (eval m ts f g k c) (exec N m ts f g k b) (fun e9 : env => @Val val VUnit e9) (ustrlen_env u (Z.of_nat (length t)) t s0) =
        Val Next (ustrlen_env (u + ustrlen_loop mb (length t) t) m' p' s0))
  end.
  { clear s HL HN. induction n as [|n IH]; intros t u s0 Hn Hu Hb; [lia|].
    unfold ustrlen_env in *. destruct t as [|x t].
    - exists 0, []. cbn [length ustrlen_loop]. rewrite Z.add_0_r. erewrite while_end; [reflexivity| |].
      + gor. reflexivity.
      + reflexivity.
    - assert (E : firstn (Z.to_nat (Z.of_nat (length (x :: t)))) (x :: t) = x :: t) by (rewrite Nat2Z.id; apply firstn_all).
      assert (E0 : wrap_u 64 0 = 0) by reflexivity.
      assert (Hm := mb_le (x :: t)).
      remember (x :: t) as t' eqn:Et. assert (Ht : (0 < length t')%nat) by (subst t'; cbn; lia).
      destruct (mb t' <? 1) eqn:E1.
      + exists (Z.of_nat (length t')), t'. 
        assert (EL : ustrlen_loop mb (length t') t' = 0) by (subst t'; cbn [length ustrlen_loop]; now rewrite E1).
        rewrite EL, Z.add_0_r. eapply while_break.
        * gor. reflexivity.
        * cbn [truthy]. change (norm U64 0) with 0. replace (Z.of_nat (length t') =? 0) with false by lia. reflexivity.
        * gor. rewrite E, E1. gor. reflexivity.
      + assert (B1 : in_bounds (Z.of_nat (length t')) (mb t') = true) by (unfold in_bounds; lia).
        assert (B2 : norm U64 (mb t') = mb t') by (apply wrap64; lia).
        assert (B3 : wrap_u 64 (u + norm U64 1) = u + 1) by (change (norm U64 1) with 1; apply wrap64; lia).
        assert (B4 : wrap_u 64 (Z.of_nat (length t') - mb t') = Z.of_nat (length t') - mb t') by (apply wrap64; lia).
        assert (EL : ustrlen_loop mb (length t') t' =
                     1 + (if mb t' <? Z.of_nat (length t') then ustrlen_loop mb (length t) (skipn (Z.to_nat (mb t')) t') else 0))
          by (subst t'; cbn [length ustrlen_loop]; cbn [length] in E1; now rewrite E1).
        destruct (mb t' <? Z.of_nat (length t')) eqn:E2.
        * assert (HS : length (skipn (Z.to_nat (mb t')) t') = (length t' - Z.to_nat (mb t'))%nat) by apply skipn_length.
          destruct (IH (skipn (Z.to_nat (mb t')) t') (u + 1) s0) as (m' & p' & HI); [lia|lia|lia|].
          exists m', p'.
          rewrite EL, Z.add_assoc. 
          rewrite (ustrlen_fuel (length t) (skipn (Z.to_nat (mb t')) t')) by (subst t'; cbn [length] in *; lia).
          rewrite <- HI. eapply while_next.
          -- gor. reflexivity.
          -- cbn [truthy]. change (norm U64 0) with 0. replace (Z.of_nat (length t') =? 0) with false by lia. reflexivity.
          -- gor. rewrite E, E1. gor. rewrite B1. gor. rewrite B3, B2, E2. gor. rewrite B2, B4. reflexivity.
          -- now left.
          -- cbn [norm].
             replace (Z.of_nat (length t') - mb t') with (Z.of_nat (length (skipn (Z.to_nat (mb t')) t'))) by lia.
             reflexivity.
        * exists (Z.of_nat (length t')), (skipn (Z.to_nat (mb t')) t'). rewrite EL, Z.add_0_r. eapply while_break.
          -- gor. reflexivity.
          -- cbn [truthy]. change (norm U64 0) with 0. replace (Z.of_nat (length t') =? 0) with false by lia. reflexivity.
          -- gor. rewrite E, E1. gor. rewrite B1. gor. rewrite B3, B2, E2. gor. reflexivity. }
  destruct (Loop N s 0 s) as (m' & p' & ->); [exact HN|lia|lia|].
  unfold ustrlen_env. go. reflexivity.
Qed.


End Functions.
