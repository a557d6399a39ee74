(** Objdump parser: what precedes the first word of a line, and line counts of a
    parser that is used again. *)
From Verif Require Import Bytes Lemmas Types Utils ObjDump ObjLemmas ObjSpec ObjBasic ObjThm1 ObjPieces.
Local Open Scope Z_scope.

Definition lead (c : char) : Prop := c = ";"%char \/ c = CR \/ (is_whitespace c = true /\ c <> LF).

Lemma start_of_line mb flt a s : whole_lines a -> run mb flt a = Ok s ->
  o_stopParsing s = true \/ (o_inAddress s = true /\ o_text s = [] /\ o_skipRestOfTheLine s = false).
Proof.
  intros [->|[b ->]] H; [injection H as <-; right; now split|].
  unfold run, fromStream in H. rewrite feed_app in H. apply obind_Ok in H as (s0 & H0 & H).
  cbn [feed] in H. apply obind_Ok in H as (s2 & H & [= <-]).
  apply step_LF in H as [[Hs ->]|(_ & x & _ & ->)]; [now left|]. right. now split.
Qed.

Lemma step_lead mb flt s c : lead c ->
  o_stopParsing s = true \/ (o_inAddress s = true /\ o_text s = [] /\ o_skipRestOfTheLine s = false) -> step mb flt s c = Ok s.
Proof.
  intros Hc [Hs|(Ha & Ht & Hk)]; unfold step.
  - now rewrite Hs.
  - destruct (o_stopParsing s); [reflexivity|]. destruct Hc as [->|[->|[Hw Hn]]].
    + cbn [ceq]. rewrite Hk, Ha. reflexivity.
    + reflexivity.
    + unfold ceq. destruct (Ascii.eqb c CR); [reflexivity|]. rewrite (proj2 (Ascii.eqb_neq c LF) Hn). rewrite Hk, Ha.
      unfold step_address. rewrite Hw, Ht.
      destruct (ceq c "/") eqn:E1; [unfold ceq in E1; apply Ascii.eqb_eq in E1; subst c; discriminate Hw|].
      destruct (ceq c ";") eqn:E2; [reflexivity|].
      destruct (ceq c ":") eqn:E3; [unfold ceq in E3; apply Ascii.eqb_eq in E3; subst c; discriminate Hw|].
      reflexivity.
Qed.

Lemma lead_skipped mb flt a p b : whole_lines a -> Forall lead p -> run mb flt (a ++ p ++ b) = run mb flt (a ++ b).
Proof.
  intros Ha Hp. unfold run, fromStream. rewrite !feed_app.
  destruct (feed mb flt (set_o_inAddress true (set_o_total_lines 0 ostate0)) a) as [s| | |] eqn:E; cbn [obind]; try reflexivity.
  pose proof (start_of_line mb flt a s Ha E) as Hs. clear E.
  induction Hp as [|c p Hc Hp IH]; [reflexivity|].
  cbn [app feed]. rewrite (step_lead mb flt s c Hc Hs). cbn [obind]. exact IH.
Qed.

Lemma count_again mb flt s input s' : fromStream mb flt s input = Ok s' -> o_stopParsing s = false ->
  (o_stopParsing s' = false /\ o_total_lines s' = count_lf input)
  \/ (exists a b s0, input = a ++ LF :: b /\ fromStream mb flt s a = Ok s0 /\ o_stopParsing s0 = false
        /\ fromStream mb flt s (a ++ [LF]) = Ok s' /\ o_stopParsing s' = true /\ o_total_lines s' = count_lf (a ++ [LF])).
Proof.
  intros H Hs. unfold fromStream in *. apply feed_split in H; [|exact Hs].
  destruct H as [[A B]|(a & b & s0 & A & B & C & D & E & F)].
  - left. split; [exact A|]. rewrite B. cbn. lia.
  - right. exists a, b, s0. repeat split; auto.
    + rewrite feed_app, B. cbn [obind feed]. now rewrite D.
    + rewrite F, count_lf_app. cbn. lia.
Qed.

Lemma count_after_cap mb flt s input s' : reachable mb flt s -> o_stopParsing s = true -> fromStream mb flt s input = Ok s' ->
  o_total_lines s' = 0 /\ filteredCount (o_total_lines s') (Z.of_nat (length (o_lines s'))) = -5001.
Proof.
  intros Hr Hs H. rewrite fromStream_stopped in H by exact Hs. injection H as <-. split; [reflexivity|].
  destruct (C03_cap mb flt s Hr) as (_ & Hl & _). cbn [o_total_lines o_lines set_o_inAddress set_o_total_lines].
  rewrite (proj2 Hl Hs). reflexivity.
Qed.
