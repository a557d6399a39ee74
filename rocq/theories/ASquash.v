(** White space and quotes: squashHorizontalWhitespace (regexwrappers.cpp:555-653). *)
From Coq Require Import String List ZArith Ascii Bool Lia.
From Verif Require Import Bytes Types Utils AsmText UtilQuotes CppSyntax SourceText SourceAst PropPatterns CppSem AStep AUtil AScan.
Import ListNotations.
Local Open Scope string_scope.
Local Open Scope Z_scope.

Lemma for_each (X : Type) (f : X -> ascii -> X) (E : X -> env) (v : string) (b : env -> res ctl) :
  (forall x c, scope (E x) (b ((v, VChr c) :: E x)) = Val Next (E (f x c))) ->
  forall l x, for_in v b (map VChr l) (E x) = Val Next (E (fold_left f l x)).
Proof.
  intros H. induction l as [|c l IH]; intros x; [reflexivity|]. cbn [map fold_left]. rewrite <- IH. eapply for_in_next; [apply H|now left].
Qed.
Definition hs_enum (h : hs_state) : string :=
  match h with HStart => "HorSpaceState::Start" | HSecond => "HorSpaceState::Second" | HStop => "HorSpaceState::Stop" | HJustOne => "HorSpaceState::JustOne" end.
Definition sq_env (b : bool) (l : str) (x : bool * hs_state * str) : env :=
  let '(j, h, out) := x in [("justspaces", VBool j); ("state", VEnum (hs_enum h)); ("squashed", VStr out); ("atStart", VBool b); ("line", VStr l)].
Definition sq_turn (x : bool * hs_state * str) (c : ascii) : bool * hs_state * str :=
  let '(j, h, out) := x in
  match h with
  | HStop => if is_whitespace c then (j, HStop, out) else (false, HJustOne, (out ++ [c])%list)
  | HJustOne => if is_whitespace c then (j, HStop, (out ++ [SP])%list) else (false, HJustOne, (out ++ [c])%list)
  | HStart => if is_whitespace c then (j, HSecond, (out ++ [SP])%list) else (false, HStop, (out ++ [c])%list)
  | HSecond => if is_whitespace c then (j, HStop, (out ++ [SP])%list) else (false, HStop, (out ++ [c])%list)
  end.
Lemma sq_fold l : forall j h out, (let '(j', _, out') := fold_left sq_turn l (j, h, out) in (out', j')) = squash_loop l h j out.
Proof.
  induction l as [|c l IH]; intros j h out; [reflexivity|]. cbn [fold_left squash_loop sq_turn]. destruct h, (is_whitespace c); apply IH.
Qed.

Section Functions.
Variables (N : nat) (mb : str -> Z) (order : val -> list val).
Notation A := (A N mb order).
Lemma src_squashHorizontalWhitespace d l b :
  A (S (S d)) "squashHorizontalWhitespace" VUnit [VStr l; VBool b] = CVal (VStr (squashHorizontalWhitespace l b)) VUnit.
Proof.
  unfold squashHorizontalWhitespace. rewrite <- (sq_fold l true (if b then HStart else HJustOne) []).
  enter. go. br; go.
  all: match goal with |- context [for_in _ ?b _ ?e] =>
    first [change e with (sq_env true l (true, HStart, [])) | change e with (sq_env false l (true, HJustOne, []))];
    let HB := fresh in
    assert (HB : forall a x c, scope (sq_env a l x) (b (("c", VChr c) :: sq_env a l x)) = Val Next (sq_env a l (sq_turn x c))) end.
  1, 3: clear; intros a [[j h] out] c; unfold sq_env, sq_turn; destruct h; cbn [hs_enum];
    gor; rewrite src_is_whitespace; gor; destruct (is_whitespace c); gor; reflexivity.
  all: rewrite (for_each _ sq_turn (sq_env _ l) _ _ (H _)); clear H; destruct (fold_left _ _ _) as [[j h] out]; unfold sq_env; goes; reflexivity.
Qed.
Lemma src_squash_default d l : A (S (S d)) "squashHorizontalWhitespace" VUnit [VStr l] = CVal (VStr (squashHorizontalWhitespace l true)) VUnit.
Proof. rewrite <- (src_squashHorizontalWhitespace d). rewrite !A_S by reflexivity. reflexivity. Qed.
Lemma src_squashHorizontalWhitespaceWithQuotes : forall d l b, (length l <= d)%nat ->
  A (S (S (S d))) "squashHorizontalWhitespaceWithQuotes" VUnit [VStr l; VBool b] = CVal (VStr (squashHorizontalWhitespaceWithQuotes l b)) VUnit.
Proof.
  destruct patterns_of_others as (_ & _ & H & _).
  induction d as [d IH] using lt_wf_ind; intros l b HL. rewrite H.
  enter. go. br; [|go; rewrite src_squash_default; go; reflexivity].
  assert (Q' : re_search findQuotes l = Some m) by (by_name "findQuotes"%string; exact Heqo).
  apply search_quotes_some in Q' as (Hl & Hq & _). apply quoted_len in Hq.
  assert (Hlen : (length l = length (cap 1 m) + (length (cap 2 m) + length (cap 3 m)))%nat) by (rewrite Hl at 1; now rewrite !app_length).
  destruct d as [|d]; [lia|].
  go. rewrite !IH by lia. go. cbn [andb]. rewrite app_nil_r. reflexivity.
Qed.
End Functions.
