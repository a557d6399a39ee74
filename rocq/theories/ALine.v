(** The functions of src/utils that look for the parts of a line. *)
From Coq Require Import String List ZArith Ascii Bool Lia.
From Verif Require UtilComment.
From Verif Require Import Bytes Types Utils AsmText CppSyntax SourceText SourceAst PropPatterns CppSem AStep AUtil AScan.
Import ListNotations.
Local Open Scope string_scope.
Local Open Scope Z_scope.

Lemma slice_nat l a b : (a <= b)%nat -> slice l (Z.of_nat a) (Z.of_nat b) = Some (firstn (b - a) (skipn a l)).
Proof.
  intros H. unfold slice. replace (Z.of_nat a <=? Z.of_nat b) with true by lia. do 2 f_equal; [lia|now rewrite Nat2Z.id].
Qed.

Section Functions.
Variables (N : nat) (mb : str -> Z) (order : val -> list val).
Notation A := (A N mb order).
(** regexwrappers.cpp:93-130 *)
Definition gl_env (l : str) (x : bool * bool * nat) (i : Z) : env :=
  let '(sp, ss, k) := x in
  [("it", VSit l i); ("lastit", VSit l (Z.of_nat k)); ("stillStarting", VBool ss); ("spacing", VBool sp); ("line", VStr l)].
Definition gl_turn (i : nat) (c : ascii) (t : str) (x : bool * bool * nat) : (bool * bool * nat) + (bool * bool * nat) :=
  let '(sp, ss, k) := x in
  if ceq c ";" || ceq c "#" then inr (sp, ss, if negb sp then i else k)
  else if sp then inl (negb (negb (is_whitespace c)), ss, k)
  else if is_whitespace c then (if negb ss then inl (true, ss, i) else inl (sp, ss, k))
  else inl (sp, false, k).
Lemma gl_iterate t : forall i sp ss k, snd (iterate _ gl_turn i t (sp, ss, k)) = glwc_loop t i sp ss k.
Proof.
  induction t as [|c t IH]; intros i sp ss k; [reflexivity|]. cbn [iterate glwc_loop gl_turn].
  destruct (ceq c ";" || ceq c "#"); [reflexivity|].
  destruct sp; [destruct (is_whitespace c); apply IH|]. destruct (is_whitespace c); [destruct ss; apply IH|apply IH].
Qed.
Lemma glwc_le t : forall i sp ss k n, (k <= n)%nat -> (i + length t <= n)%nat -> (glwc_loop t i sp ss k <= n)%nat.
Proof.
  induction t as [|c t IH]; intros i sp ss k n Hk Hi; cbn [length glwc_loop] in *; [exact Hk|].
  destruct (ceq c ";" || ceq c "#"); [destruct sp; cbn [negb]; lia|].
  destruct sp, (is_whitespace c), ss; cbn [negb]; apply IH; lia.
Qed.
Lemma src_getLineWithoutComment d l : (length l < N)%nat -> A (S (S d)) "getLineWithoutComment" VUnit [VStr l] = CVal (VStr (getLineWithoutComment l)) VUnit.
Proof.
  intros HL. enter. go.
  match goal with |- context [while_loop N ?c ?b ?st ?e] =>
    change e with (gl_env l (false, true, length l) (Z.of_nat 0));
    assert (H := iter_while _ gl_turn l (gl_env l) c b st)
  end.
  match type of H with ?A -> ?B -> ?C -> ?D => assert (HA : A); [|assert (HB : B); [|assert (HC : C)]] end.
  { intros [[sp ss] k] i. unfold gl_env. gor. reflexivity. }
  { intros [[sp ss] k] i t ch _ Hn Hlt. unfold gl_env, gl_turn.
    assert (AP : forall e, at_pos l (Z.of_nat i) e = Val (VChr ch) e).
    { intros e. unfold at_pos. rewrite Nat2Z.id, Hn. reflexivity. }
    got. rewrite AP. repeat first [progress got | br; cbv beta iota delta [negb]; got | rewrite src_is_whitespace].
    all: cbn [orb negb turn gl_env]; auto. }
  { intros [[sp ss] k] i Hi. eexists. unfold gl_env. gor. rewrite Hi. gor. reflexivity. }
  destruct (H HA HB HC l N 0%nat (false, true, length l)) as (j & E); [reflexivity|reflexivity|exact HL|]. rewrite E. clear.
  unfold getLineWithoutComment. rewrite <- (gl_iterate l 0 false true (length l)).
  assert (HK := glwc_le l 0 false true (length l) (length l) (le_n _) (le_n _)). rewrite <- gl_iterate in HK.
  destruct (iterate _ _ _ _ _) as [[sp ss] k]. cbn [snd] in *. unfold gl_env. go.
  change 0 with (Z.of_nat 0). rewrite slice_nat by lia. go. rewrite Nat.sub_0_r. reflexivity.
Qed.

(** regexwrappers.cpp:132-191 *)
Definition st_env (l : str) (x : bool * bool * bool * nat * nat) (i : Z) : env :=
  let '(ws, we, sp, a, k) := x in
  [("it", VSit l i); ("afterfirstword", VSit l (Z.of_nat a)); ("lastit", VSit l (Z.of_nat k)); ("spacing", VBool sp);
   ("wordended", VBool we); ("wordstarted", VBool ws); ("line", VStr l)].
Definition st_turn (n : nat) (i : nat) (c : ascii) (t : str) (x : bool * bool * bool * nat * nat) :
  (bool * bool * bool * nat * nat) + (bool * bool * bool * nat * nat) :=
  let '(ws, we, sp, a, k) := x in
  if ceq c ";" || ceq c "#" then
    if match t with [] => true | d :: _ => ceq d SP || ceq d TAB end then inr (ws, we, sp, a, if negb sp then i else k) else inl x
  else if negb ws && (in_range "a" "z" c || in_range "A" "Z" c) then inl (true, we, sp, a, k)
  else if ws && negb we && is_whitespace c then inl (ws, true, sp, i, k)
  else if we then
    (if sp then (if negb (is_whitespace c) then inl (ws, we, false, a, n) else inl x)
     else if is_whitespace c then inl (ws, we, true, a, i) else inl x)
  else inl x.
Lemma st_iterate n t : forall i ws we sp a k,
  (let '(_, _, _, a', k') := iterate _ (st_turn n) i t (ws, we, sp, a, k) in (a', k')) = strip_loop n t i ws we sp a k.
Proof.
  induction t as [|c t IH]; intros i ws we sp a k; [reflexivity|]. cbn [iterate strip_loop st_turn].
  destruct (ceq c ";" || ceq c "#"); [destruct t as [|x t]; [reflexivity|destruct (ceq x SP || ceq x TAB); [reflexivity|apply IH]]|].
  destruct (negb ws && _); [apply IH|]. destruct (ws && _ && _); [apply IH|].
  destruct we; [|apply IH]. destruct sp; destruct (is_whitespace c); apply IH.
Qed.
Lemma letter_signed c :
  (if chr_int "a" <=? chr_int c then chr_int c <=? chr_int "z" else false) = in_range "a" "z" c /\
  (if chr_int "A" <=? chr_int c then chr_int c <=? chr_int "Z" else false) = in_range "A" "Z" c.
Proof. destruct c as [[] [] [] [] [] [] [] []]; vm_compute; auto. Qed.
Lemma src_getLineWithoutCommentAndStripFirstWord d l : (length l < N)%nat ->
  A (S (S d)) "getLineWithoutCommentAndStripFirstWord" VUnit [VStr l] = CVal (VStr (getLineWithoutCommentAndStripFirstWord l)) VUnit.
Proof.
  intros HL. enter. go.
  match goal with |- context [while_loop N ?c ?b ?st ?e] =>
    change e with (st_env l (false, false, false, 0%nat, length l) (Z.of_nat 0));
    assert (H := iter_while _ (st_turn (length l)) l (st_env l) c b st)
  end.
  match type of H with ?A -> ?B -> ?C -> ?D => assert (HA : A); [|assert (HB : B); [|assert (HC : C)]] end.
  { intros [[[[ws we] sp] a] k] i. unfold st_env. gor. reflexivity. }
  { clear H HA. intros [[[[ws we] sp] a] k] i t ch Hs Hn Hlt. unfold st_env, st_turn.
    assert (AP : forall e, at_pos l (Z.of_nat i) e = Val (VChr ch) e).
    { intros e. unfold at_pos. rewrite Nat2Z.id, Hn. reflexivity. }
    assert (B1 : in_bounds (Z.of_nat (length l)) (Z.of_nat i + 1) = true) by (unfold in_bounds; lia).
    assert (HT : (Z.of_nat i + 1 =? Z.of_nat (length l)) = match t with [] => true | _ => false end /\
                 match t with [] => True | x :: _ => forall e, at_pos l (Z.of_nat i + 1) e = Val (VChr x) e end).
    { assert (HLt : (length l = i + S (length t))%nat) by (assert (Z := skipn_length i l); rewrite Hs in Z; cbn [length] in Z; lia).
      destruct t as [|x t]; cbn [length] in HLt; (split; [lia|]); [exact I|]. intros e. unfold at_pos.
      replace (Z.to_nat (Z.of_nat i + 1)) with (S i) by lia.
      rewrite <- (firstn_skipn i l), Hs, nth_error_app2 by (rewrite firstn_length; lia).
      rewrite firstn_length. replace (S i - Nat.min i (length l))%nat with 1%nat by lia. reflexivity. }
    destruct (letter_signed ch) as (L1 & L2). rewrite <- L1, <- L2. clear L1 L2 HL Hs Hn Hlt.
    change SP with " "%char. change TAB with "009"%char.
    destruct HT as (T1 & T2).
    got. rewrite AP.
    repeat first [progress got | rewrite B1 | rewrite src_is_whitespace
      | match goal with |- context [Z.of_nat i + 1 =? Z.of_nat (length l)] => rewrite T1; destruct t end | rewrite T2 | br; cbv beta iota delta [negb]; got ].
    all: cbn [orb andb negb turn st_env]; auto. }
  { clear H HA HB. intros [[[[ws we] sp] a] k] i Hi. eexists. unfold st_env. gor. rewrite Hi. gor. reflexivity. }
  destruct (H HA HB HC l N 0%nat (false, false, false, 0%nat, length l)) as (j & E); [reflexivity|reflexivity|exact HL|]. rewrite E. clear.
  assert (HI := st_iterate (length l) l 0 false false false 0 (length l)).
  destruct (iterate _ _ _ _ _) as [[[[ws we] sp] a] k].
  unfold getLineWithoutCommentAndStripFirstWord, strip_offsets. rewrite <- HI.
  assert (HO := UtilComment.strip_bound (length l) l 0 false false false 0 (length l) eq_refl (le_n _) (conj (Nat.le_0_l _) (le_n _)) (fun _ => eq_refl)).
  cbv zeta in HO. rewrite <- HI in HO. cbn [fst snd] in HO.
  unfold st_env. go. rewrite slice_nat by lia. go. reflexivity.
Qed.

(** regexwrappers.cpp:193-207 *)
Lemma src_is_probably_label d l : (length l < N)%nat -> A (S (S (S d))) "is_probably_label" VUnit [VStr l] = CVal (VBool (is_probably_label l)) VUnit.
Proof. intros HL. enter. go. rewrite src_getLineWithoutComment by exact HL. go. reflexivity. Qed.
Lemma src_fixLabelIndentation d l : (length l < N)%nat -> A (S (S (S (S d)))) "fixLabelIndentation" VUnit [VStr l] = CVal (VStr (fixLabelIndentation l)) VUnit.
Proof.
  intros HL. unfold fixLabelIndentation. enter. go. rewrite src_is_probably_label by exact HL. go. br; go; [|reflexivity].
  rewrite src_ltrim. go. reflexivity.
Qed.
(** regexwrappers.cpp:251-275 *)
Lemma src_hasOpcode d l nv : (length l < N)%nat -> A (S (S (S d))) "hasOpcode" VUnit [VStr l; VBool nv] = CVal (VBool (hasOpcode l nv)) VUnit.
Proof.
  intros HL. destruct patterns_of_others as (H & _). by_text H. cbv zeta. enter. 
  repeat first [progress go | rewrite src_getLineWithoutComment by exact HL | br; go]; try reflexivity.

Qed.
End Functions.
