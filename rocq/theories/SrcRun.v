(** The whole of fromStream (src/objdump/parser.cpp:305-486), and a run of the parser. *)
From Coq Require Import String List ZArith Ascii Bool Lia.
From Verif Require Import Bytes Types Utils ObjDump CppSyntax SourceText SourceAst PropPatterns CppSem SrcStep SrcUtil SrcObj SrcAddr SrcScan SrcLabel SrcEol SrcBody SrcInv ObjLemmas.
Import ListNotations.
Local Open Scope string_scope.
Local Open Scope Z_scope.

Lemma flat_next r e : flat r = Val Next e -> exists ct, (ct = Next \/ ct = Continued) /\ r = Val ct e.
Proof. destruct r as [[| | |v] e'| | | |]; cbn [flat]; intros H; try discriminate; injection H as ->; eauto. Qed.
Lemma flat_undef r u : flat r = Undef u -> r = Undef u.
Proof. destruct r as [[| | |v] e'| | | |]; cbn [flat]; intros H; congruence. Qed.

Lemma flat_stuck r : flat r = Stuck -> r = Stuck.
Proof. destruct r as [[| | |v] e'| | | |]; cbn [flat]; intros H; congruence. Qed.
Lemma while_stuck c b st k e v e1 :
  c e = Val v e1 -> truthy v = Some true -> b e1 = Stuck -> while_loop (S k) c b st e = Stuck.
Proof. intros H1 H2 H3. cbn [while_loop]. rewrite H1. cbn [rbind]. now rewrite H2, H3. Qed.

Section Functions.
Variables (N : nat) (mb : str -> Z) (flt : Filter) (rep : bool).
Notation P := (P N mb).
Notation out := (out flt rep).
Notation step := (step mb flt).
Notation feed := (feed mb flt).
Hypothesis mb_le : forall s, mb s <= Z.of_nat (length s).
Hypothesis HN : 5010 < Z.of_nat N.

Definition lenv (v : ascii) (rest : str) (s : ostate) : env := [("c", VChr v); ("in", VStream rest); ("this", enc flt rep s)].
(** What the loop leaves behind. *)
Definition after (r : res ctl) (o : outcome ostate) : Prop :=
  match o with
  | Ok s => exists v rest, r = Val Next (lenv v rest s)
  | UB u => r = Undef (Known u)
  | _ => r = Stuck
  end.

Lemma read_while (c : env -> res val) (b : env -> res ctl) (st : env -> res val) :
  (forall v rest s, o_stopParsing s = true -> c (lenv v rest s) = Val (VBool false) (lenv v rest s)) ->
  (forall v s, o_stopParsing s = false -> c (lenv v [] s) = Val (VBool false) (lenv v [] s)) ->
  (forall v x rest s, o_stopParsing s = false -> c (lenv v (x :: rest) s) = Val (VBool true) (lenv x rest s)) ->
  (forall e, st e = Val VUnit e) ->
  forall bound,
  (forall x rest s, Ord s -> o_stopParsing s = false -> Z.of_nat (length (o_text s)) <= bound -> 0 <= o_total_lines s <= bound ->
    flat (b (lenv x rest s)) = bout flt rep x rest (step s x)) ->
  forall input n s v, (length input < n)%nat -> Ord s -> Z.of_nat (length (o_text s)) + 4 * Z.of_nat (length input) <= bound ->
  0 <= o_total_lines s -> o_total_lines s + Z.of_nat (length input) <= bound ->
  after (while_loop n c b st (lenv v input s)) (feed s input).
Proof.
  intros C1 C2 C3 S1 bound B. induction input as [|x input IH]; intros n s v Hn HO HT H0 HC.
  - destruct n as [|n]; [inversion Hn|]. cbn [ObjDump.feed after]. exists v, []. destruct (o_stopParsing s) eqn:E.
    + eapply while_end; [apply C1; exact E|reflexivity].
    + eapply while_end; [apply C2; exact E|reflexivity].
  - destruct n as [|n]; [inversion Hn|]. destruct (o_stopParsing s) eqn:E.
    + rewrite feed_stopped by exact E. exists v, (x :: input). eapply while_end; [apply C1; exact E|reflexivity].
    + cbn [length] in *. assert (Hb := B x input s HO E ltac:(lia) ltac:(lia)). cbn [ObjDump.feed].
      destruct (step s x) as [s'|u| |] eqn:Es; cbn [obind bout] in *; [| |apply flat_stuck in Hb; cbn [after]; exact (while_stuck c b st _ _ _ _ (C3 v x input s E) eq_refl Hb)..].
      * apply flat_next in Hb as (ct & Hct & Hb).
        rewrite (while_next c b st _ _ _ _ _ _ _ _ (C3 v x input s E) eq_refl Hb Hct (S1 _)).
        destruct (step_bounds _ _ _ _ _ Es) as (Q1 & Q2).
        apply (IH n s' x); [lia|exact (Ord_step _ _ _ _ _ HO Es)|lia|lia|lia].
      * apply flat_undef in Hb. cbn [after]. exact (while_undef c b st _ _ _ _ _ (C3 v x input s E) eq_refl Hb).
Qed.

(** parser.cpp:305-486, on an object that has just been made *)
Lemma src_fromStream d input : 4 * Z.of_nat (length input) < Z.of_nat N -> 4 * Z.of_nat (length input) < 2 ^ 31 ->
  P (S (S (S (S (S d))))) "fromStream" (enc flt rep ostate0) [VStream input] = out (run mb flt input).
Proof.
  intros HL HB. unfold run, fromStream. enter. go.
  set (s0 := set_o_inAddress true (set_o_total_lines 0 ostate0)).
  match goal with |- fin ?ret (seqk _ _ _ (while_loop N ?c ?b ?st [("c", VChr ?v); ("in", VStream input); ("this", ?t)]) ?k) = ?rhs =>
    change (fin ret (seqk N mb (P (S (S (S (S d))))) (while_loop N c b st (lenv v input s0)) k) = rhs);
    assert (H : after (while_loop N c b st (lenv v input s0)) (feed s0 input)); [apply read_while with (bound := 4 * Z.of_nat (length input))|]
  end.
  - intros v rest s E. unfold lenv. dst s. change (f_stop = true) in E. subst f_stop. gor. reflexivity.
  - intros v s E. unfold lenv. dst s. change (f_stop = false) in E. subst f_stop. gor. reflexivity.
  - intros v x rest s E. unfold lenv. dst s. change (f_stop = false) in E. subst f_stop. gor. reflexivity.
  - reflexivity.
  - intros x rest s HO E Hl Ht.
    apply (src_body N mb flt rep mb_le HN d s x rest); [clear - Hl HB; lia|clear - Hl HL; lia|apply Ord_tidy; exact HO|clear - Ht HB; lia|exact E].
  - clear - HL; lia.
  - exact Ord_start.
  - change (length (o_text s0)) with O. clear; lia.
  - change (o_total_lines s0) with 0. clear; lia.
  - change (o_total_lines s0) with 0. clear; lia.
  - destruct (feed s0 input) as [s1|u| |]; cbn [after] in H.
    + destruct H as (v & rest & H). rewrite H. clear. unfold lenv. dst s1. go. reflexivity.
    + rewrite H. reflexivity.
    + rewrite H. reflexivity.
    + rewrite H. reflexivity.
Qed.
End Functions.
