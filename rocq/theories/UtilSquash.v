(** C54: white space squashing.  C55: quoted strings. *)
From Verif Require Export RegexCaps Utils.
Local Open Scope nat_scope.

(** A line as an indentation and a list of words, each with the white space after it. *)
Definition blank (s : str) : Prop := Forall (fun c => is_whitespace c = true) s.
Definition word (s : str) : Prop := s <> [] /\ Forall (fun c => is_whitespace c = false) s.
Definition text_of (l : list (str * str)) : str := List.concat (map (fun p => fst p ++ snd p) l).
Inductive word_list : list (str * str) -> Prop :=
| wl_nil : word_list []
| wl_last : forall w g, word w -> blank g -> word_list [(w, g)]
| wl_cons : forall w g p l, word w -> blank g -> g <> [] -> word_list (p :: l) -> word_list ((w, g) :: p :: l).

(** One space for any amount of white space. *)
Definition one_space (g : str) : str := match g with [] => [] | _ => [SP] end.
Definition squashed (l : list (str * str)) : str := text_of (map (fun p => (fst p, one_space (snd p))) l).

(** The exact result at the start of a line: up to two spaces of indentation
    are kept, then the words with single spaces, except that the space after a
    one-character first word in column 0 or 1 is lost. *)
Definition squash_result (ind : str) (l : list (str * str)) : str :=
  match l with
  | [] => []
  | (w, g) :: l' =>
      repeat SP (Nat.min 2 (length ind)) ++ w ++
      (if Nat.eqb (length w) 1 && Nat.ltb (length ind) 2 then [] else one_space g) ++ squashed l'
  end.

Lemma decompose line : exists ind l, blank ind /\ word_list l /\ line = ind ++ text_of l.
Proof.
  induction line as [|c t (ind & l & Hi & Hl & ->)].
  - exists [], []. split; [apply Forall_nil|]. split; [constructor|reflexivity].
  - destruct (is_whitespace c) eqn:E.
    + exists (c :: ind), l. split; [apply Forall_cons; assumption|]. split; [exact Hl|reflexivity].
    + assert (Hw : word [c]) by (split; [discriminate|apply Forall_cons; [exact E|apply Forall_nil]]).
      exists []. destruct ind as [|d ind'].
      * destruct l as [|[w g] l'].
        -- exists [([c], [])]. split; [apply Forall_nil|]. split; [|reflexivity].
           constructor; [exact Hw|apply Forall_nil].
        -- exists ((c :: w, g) :: l'). split; [apply Forall_nil|]. split; [|reflexivity].
           inversion Hl as [|w' g' [Hw1 Hw2] Hg|w' g' p l'' [Hw1 Hw2] Hg Hg' Hl']; subst; constructor; auto;
             (split; [discriminate|apply Forall_cons; assumption]).
      * exists (([c], d :: ind') :: l). split; [apply Forall_nil|]. split; [|reflexivity].
        destruct l as [|p l']; constructor; auto. discriminate.
Qed.

Lemma loop_stop_blank g : blank g -> forall t js out, squash_loop (g ++ t) HStop js out = squash_loop t HStop js out.
Proof. induction 1 as [|c g Hc Hg IH]; intros; cbn; [reflexivity|]. rewrite Hc. apply IH. Qed.
Lemma loop_one_word w : Forall (fun c => is_whitespace c = false) w ->
  forall t out, squash_loop (w ++ t) HJustOne false out = squash_loop t HJustOne false (out ++ w).
Proof.
  induction 1 as [|c w Hc Hw IH]; intros; cbn; [now rewrite app_nil_r|]. rewrite Hc, IH, <- app_assoc. reflexivity.
Qed.
Lemma loop_one_word' w js : word w ->
  forall t out, squash_loop (w ++ t) HJustOne js out = squash_loop t HJustOne false (out ++ w).
Proof.
  intros [Hn Hw] t out. destruct w as [|c w]; [congruence|]. inversion Hw as [|? ? Hc Hw']; subst.
  cbn. rewrite Hc, loop_one_word, <- app_assoc by assumption. reflexivity.
Qed.
Lemma loop_stop_word w js : word w ->
  forall t out, squash_loop (w ++ t) HStop js out = squash_loop t HJustOne false (out ++ w).
Proof.
  intros [Hn Hw] t out. destruct w as [|c w]; [congruence|]. inversion Hw as [|? ? Hc Hw']; subst.
  cbn. rewrite Hc, loop_one_word, <- app_assoc by assumption. reflexivity.
Qed.
Lemma loop_one_blank g : blank g -> g <> [] -> forall t js out,
  squash_loop (g ++ t) HJustOne js out = squash_loop t HStop js (out ++ [SP]).
Proof.
  intros Hg Hn t js out. destruct g as [|c g]; [congruence|]. inversion Hg as [|? ? Hc Hg']; subst.
  cbn. rewrite Hc. apply loop_stop_blank. exact Hg'.
Qed.

(** The rest of a word list, after a word's gap. *)
Definition tail_ok (g : str) (l : list (str * str)) : Prop := blank g /\ word_list l /\ (l <> [] -> g <> []).

Lemma wl_tail w g l : word_list ((w, g) :: l) -> word w /\ tail_ok g l.
Proof.
  intros H. inversion H; subst; (split; [assumption|]); (split; [assumption|]); (split; [|congruence]);
    [apply wl_nil|assumption].
Qed.

Lemma loop_tail l : forall g out, tail_ok g l ->
  squash_loop (g ++ text_of l) HJustOne false out = (out ++ one_space g ++ squashed l, false).
Proof.
  induction l as [|[w g'] l IH]; intros g out (Hg & Hl & Hne).
  - cbn [text_of map List.concat]. destruct g as [|c g]; [cbn; now rewrite app_nil_r|].
    rewrite loop_one_blank by (assumption || discriminate). cbn. reflexivity.
  - apply wl_tail in Hl as [Hw Ht]. assert (Hn : g <> []) by (apply Hne; discriminate).
    rewrite loop_one_blank by assumption.
    change (text_of ((w, g') :: l)) with ((w ++ g') ++ text_of l). rewrite <- app_assoc.
    rewrite loop_stop_word, IH by assumption.
    destruct g; [congruence|]. cbn [one_space]. unfold squashed, text_of. cbn [map List.concat fst snd].
    rewrite <- !app_assoc. reflexivity.
Qed.
Lemma loop_tail_stop l : forall g js out, tail_ok g l ->
  squash_loop (g ++ text_of l) HStop js out = (out ++ squashed l, match l with [] => js | _ => false end).
Proof.
  intros g js out (Hg & Hl & Hne). rewrite loop_stop_blank by assumption.
  destruct l as [|[w g'] l]; [cbn; now rewrite app_nil_r|].
  apply wl_tail in Hl as [Hw Ht].
  change (text_of ((w, g') :: l)) with ((w ++ g') ++ text_of l). rewrite <- app_assoc.
  rewrite loop_stop_word, loop_tail by assumption.
  unfold squashed, text_of. cbn [map List.concat fst snd]. rewrite <- !app_assoc. reflexivity.
Qed.

(** First word in column 0 or 1. *)
Lemma first_word st w g l js out : (st = HStart \/ st = HSecond) -> word w -> tail_ok g l ->
  squash_loop (w ++ g ++ text_of l) st js out =
  (out ++ w ++ (if Nat.eqb (length w) 1 then [] else one_space g) ++ squashed l, false).
Proof.
  intros Hst [Hn Hw] Ht. destruct w as [|c w]; [congruence|]. inversion Hw as [|? ? Hc Hw']; subst.
  cbn [app squash_loop].
  assert (E : squash_loop (c :: w ++ g ++ text_of l) st js out = squash_loop (w ++ g ++ text_of l) HStop false (out ++ [c])).
  { destruct Hst; subst; cbn; now rewrite Hc. }
  cbn in E. rewrite E. clear E. destruct w as [|d w].
  - cbn [app length Nat.eqb]. rewrite loop_tail_stop by assumption.
    rewrite <- app_assoc. cbn. destruct l; reflexivity.
  - cbn [length Nat.eqb]. rewrite loop_stop_word by (split; [discriminate|assumption]).
    rewrite loop_tail by assumption. rewrite <- !app_assoc. reflexivity.
Qed.

Lemma loop_blank_start ind : blank ind -> fst (squash_loop ind HStart true []) = repeat SP (Nat.min 2 (length ind)) /\
  snd (squash_loop ind HStart true []) = true.
Proof.
  intros H. destruct ind as [|a [|b r]]; [now cbn| |].
  - inversion H as [|? ? Ha _]; subst. cbn. rewrite Ha. now cbn.
  - inversion H as [|? ? Ha H1]; subst. inversion H1 as [|? ? Hb H2]; subst. cbn [squash_loop]. rewrite Ha. cbn [squash_loop]. rewrite Hb.
    rewrite <- (app_nil_r r) at 1 3. rewrite loop_stop_blank by assumption. cbn [squash_loop fst snd length]. split; reflexivity.
Qed.

Lemma C54_lemma ind l : blank ind -> word_list l ->
  squashHorizontalWhitespace (ind ++ text_of l) true = squash_result ind l.
Proof.
  intros Hi Hl. unfold squashHorizontalWhitespace. destruct l as [|[w g] l].
  - cbn [text_of map List.concat]. rewrite app_nil_r. destruct (loop_blank_start ind Hi) as [_ H].
    destruct (squash_loop ind HStart true []) as [o j]. cbn in H. subst. reflexivity.
  - apply wl_tail in Hl as [Hw Ht].
    change (text_of ((w, g) :: l)) with ((w ++ g) ++ text_of l). rewrite <- app_assoc.
    unfold squash_result.
    destruct ind as [|a [|b r]].
    + cbn [app length Nat.min repeat Nat.ltb Nat.leb]. rewrite (first_word HStart) by auto.
      rewrite andb_true_r. reflexivity.
    + inversion Hi as [|? ? Ha _]; subst. cbn [app squash_loop]. rewrite Ha.
      rewrite (first_word HSecond) by auto. cbn [length Nat.min repeat Nat.ltb Nat.leb].
      rewrite andb_true_r. reflexivity.
    + inversion Hi as [|? ? Ha H1]; subst. inversion H1 as [|? ? Hb H2]; subst.
      cbn [app squash_loop]. rewrite Ha. cbn [squash_loop]. rewrite Hb.
      rewrite loop_stop_blank, loop_stop_word, loop_tail by assumption.
      cbn [length Nat.min repeat Nat.ltb Nat.leb andb]. rewrite andb_false_r. cbn [andb].
      rewrite <- !app_assoc. cbn. reflexivity.
Qed.

(** Away from the start of a line the indentation becomes one space. *)
Lemma C54_inner ind l : blank ind -> word_list l ->
  squashHorizontalWhitespace (ind ++ text_of l) false = one_space ind ++ squashed l.
Proof.
  intros Hi Hl. unfold squashHorizontalWhitespace. cbn [andb].
  destruct ind as [|a r].
  - destruct l as [|[w g] l]; [reflexivity|]. apply wl_tail in Hl as [Hw Ht]. cbn [app].
    change (text_of ((w, g) :: l)) with ((w ++ g) ++ text_of l). rewrite <- app_assoc.
    rewrite loop_one_word', loop_tail by assumption. unfold squashed, text_of. cbn. now rewrite <- app_assoc.
  - rewrite loop_one_blank by (assumption || discriminate).
    destruct l as [|[w g] l]; [reflexivity|]. apply wl_tail in Hl as [Hw Ht].
    change (text_of ((w, g) :: l)) with ((w ++ g) ++ text_of l). rewrite <- app_assoc.
    rewrite loop_stop_word, loop_tail by assumption. unfold squashed, text_of. cbn. now rewrite <- !app_assoc.
Qed.
