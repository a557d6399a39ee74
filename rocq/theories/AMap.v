(** The unordered containers of the interpreter and those of AsmText.v. *)
From Coq Require Import String List ZArith Ascii Bool Lia.
From Verif Require Lemmas.
From Verif Require Import Bytes Types Utils AsmText CppSyntax CppSem AStep.
Import ListNotations.
Local Open Scope string_scope.
Local Open Scope Z_scope.

(** * Sets *)
Lemma set_has_enc k l : set_has (VStr k) (encVs l) = set_contains l k.
Proof.
  unfold set_has, set_contains, encVs. induction l as [|v l IH]; [reflexivity|]. cbn [map existsb]. rewrite IH. reflexivity.
Qed.
Lemma set_put_enc v l : set_put (encV v) (encVs l) = encVs (set_insert l v).
Proof.
  unfold set_put, set_insert. unfold encV at 1. rewrite set_has_enc. destruct (set_contains l (v_str v)); [reflexivity|].
  unfold encVs. now rewrite map_app.
Qed.

(** * Maps *)
Section Maps.
Context {T : Type} (g : T -> val).
Definition encM (m : list (view * T)) : list (val * val) := map (fun e => (encV (fst e), g (snd e))) m.
Lemma map_get_enc k m : map_get (VStr k) (encM m) = option_map g (map_find m k).
Proof.
  unfold map_get, map_find, encM. induction m as [|[k' a] m IH]; [reflexivity|]. cbn [map find fst snd]. unfold encV at 1. cbn [key_eqb].
  change (str_eqb (v_str k') k) with (same_key k k'). destruct (same_key k k'); [reflexivity|exact IH].
Qed.
Lemma map_assign_enc (k : view) w p m a : g a = w -> map_put (encV k) w (map_touch (encV k) p (encM m)) = encM (map_assign m k a).
Proof.
  intros Hg. unfold map_touch. unfold encV at 2. rewrite map_get_enc. unfold map_find. subst w.
  induction m as [|[k' b] m IH].
  - cbn [find option_map encM map app map_put map_assign fst snd]. unfold encV at 1 2. cbn [key_eqb].
    assert (str_eqb (v_str k) (v_str k) = true) by apply Lemmas.str_eqb_refl. rewrite H. reflexivity.
  - cbn [find fst]. cbn [map_assign]. destruct (same_key (v_str k) k') eqn:E.
    + cbn [option_map encM map map_put fst snd]. unfold encV at 1 2. cbn [key_eqb]. change (str_eqb (v_str k') (v_str k)) with (same_key (v_str k) k'). rewrite E. reflexivity.
    + destruct (find (fun e => same_key (v_str k) (fst e)) m) eqn:F; cbn [option_map] in IH |- *;
        cbn [encM map app map_put fst snd]; unfold encV at 1 2; cbn [key_eqb]; change (str_eqb (v_str k') (v_str k)) with (same_key (v_str k) k'); rewrite E; cbn [encM map fst snd]; f_equal; exact IH.
Qed.
End Maps.
Lemma map_get_touch k p m : key_eqb k k = true -> map_get k (map_touch k p m) = Some (match map_get k m with Some v => v | None => p end).
Proof.
  intros R. unfold map_touch. destruct (map_get k m) eqn:E; [exact E|]. unfold map_get in *.
  induction m as [|[k' w] m IH]; cbn [app find fst] in *.
  - rewrite R. reflexivity.
  - destruct (key_eqb k k'); [discriminate|]. now apply IH.
Qed.
Lemma map_touch_touch k p q m : key_eqb k k = true -> map_touch k q (map_touch k p m) = map_touch k p m.
Proof. intros R. unfold map_touch at 1. now rewrite map_get_touch. Qed.
Lemma key_refl v : key_eqb (encV v) (encV v) = true.
Proof. unfold encV. cbn [key_eqb]. apply Lemmas.str_eqb_refl. Qed.
Lemma key_refl_s s : key_eqb (VStr s) (VStr s) = true.
Proof. cbn [key_eqb]. apply Lemmas.str_eqb_refl. Qed.

(** m[k].insert(v) *)
Definition encT : list view -> val := fun l => VSet (encVs l).
Lemma map_set_insert_enc k v m :
  map_put (encV k) (VSet (set_put (encV v) (match map_find m (v_str k) with Some l => encVs l | None => [] end))) (map_touch (encV k) (VSet []) (encMS m)) = encMS (map_set_insert m k v).
Proof.
  change encMS with (encM encT). 
  rewrite (map_assign_enc encT k _ _ m (match map_find m (v_str k) with Some l => set_insert l v | None => [v] end)).
  2: { unfold encT. f_equal. destruct (map_find m (v_str k)); symmetry; [apply set_put_enc|reflexivity]. }
  f_equal. unfold map_find. induction m as [|[k' l] m IH]; [reflexivity|]. cbn [map_assign map_set_insert find fst].
  destruct (same_key (v_str k) k'); [reflexivity|]. f_equal. exact IH.
Qed.
(** files[i] = f, files.at(i) *)
Lemma files_get_enc i m : map_get (VInt I32 i) (encFiles m) = option_map VStr (files_at m i).
Proof.
  unfold map_get, files_at, encFiles. induction m as [|[j f] m IH]; [reflexivity|]. cbn [map find fst snd key_eqb].
  destruct (i =? j); [reflexivity|exact IH].
Qed.
Lemma files_assign_enc i f p m : map_put (VInt I32 i) (VStr f) (map_touch (VInt I32 i) p (encFiles m)) = encFiles (files_assign m i f).
Proof.
  unfold map_touch. rewrite files_get_enc. unfold files_at.
  induction m as [|[j g] m IH].
  - cbn. rewrite Z.eqb_refl. reflexivity.
  - cbn [find fst files_assign]. destruct (i =? j) eqn:E.
    + cbn [option_map encFiles map map_put fst snd key_eqb]. rewrite E. reflexivity.
    + destruct (find (fun e => i =? fst e) m) eqn:F; cbn [option_map] in IH |- *; cbn [encFiles map app map_put fst snd key_eqb]; rewrite E;
        cbn [encFiles map fst snd]; f_equal; exact IH.
Qed.

(** * Places in maps *)
Lemma getp_snoc q s : forall v, getp v (snoc q s) = match getp v q with Some w => getp1 w s | None => None end.
Proof.
  induction q as [|t q IH]; intros v; cbn [snoc getp].
  - destruct (getp1 v s); reflexivity.
  - destruct (getp1 v t); [apply IH|reflexivity].
Qed.
Lemma setp_snoc q s x : forall v, getp1 (match getp v q with Some w => w | None => VUnit end) s <> None ->
  setp v (snoc q s) x = match getp v q with Some w => match setp1 w s x with Some w' => setp v q w' | None => None end | None => None end.
Proof.
  induction q as [|t q IH]; intros v H; cbn [snoc setp getp] in *.
  - destruct (getp1 v s); [|contradiction]. destruct (setp1 v s x); reflexivity.
  - destruct (getp1 v t) as [u|]; [|reflexivity]. rewrite (IH u H). destruct (getp u q) as [w|]; [|reflexivity].
    destruct (setp1 w s x); reflexivity.
Qed.
Section Statements.
Variables (N : nat) (mb : str -> Z) (call : string -> val -> list val -> cres).
Notation exec := (exec N mb asm_tys isfn ismeth call).
Notation eval := (eval mb asm_tys isfn ismeth call).
Variables (X K V : expr) (n : string) (q : list pstep) (p : val) (E : list (val * val) -> env) (k v : val).
Hypothesis HX : forall w, eval X (E w) = Val (VMap p w) (E w).
Hypothesis HK : forall w, eval K (E w) = Val k (E w).
Hypothesis HV : forall w, eval V (E w) = Val v (E w).
Hypothesis HP : forall w, place X (E w) = Some (n, q).
Hypothesis HG : forall w, get_at (n, q) (E w) = Some (VMap p w).
Hypothesis HS : forall w w', set_at (n, q) (VMap p w') (E w) = Some (E w').
Hypothesis HR : key_eqb k k = true.
Lemma get_key w : get_at (n, snoc q (Key k)) (E w) = map_get k w.
Proof.
  specialize (HG w). unfold get_at in *. cbn [fst snd] in *. destruct (lookup n (E w)) as [u|]; [|discriminate].
  rewrite getp_snoc, HG. reflexivity.
Qed.
Lemma set_key w x : map_get k w <> None -> set_at (n, snoc q (Key k)) x (E w) = Some (E (map_put k x w)).
Proof.
  intros Hk. pose proof (HG w) as G. pose proof (HS w (map_put k x w)) as G2. unfold get_at, set_at in *. cbn [fst snd] in *.
  destruct (lookup n (E w)) as [u|]; [|discriminate].
  rewrite setp_snoc.
  - rewrite G. cbn [setp1]. exact G2.
  - rewrite G. cbn [getp1]. exact Hk.
Qed.
Lemma touch_key w : touch (Some (n, q)) k (E w) = Val (Some (n, snoc q (Key k))) (E (map_touch k p w)).
Proof. unfold touch. rewrite HG. unfold store. rewrite HS. reflexivity. Qed.
Lemma exec_put w x : conv (match map_get k w with Some o => o | None => p end) v = Some x ->
  exec (SExpr (EAsg "=" (EIdx X K) V)) (E w) = Val Next (E (map_put k x (map_touch k p w))).
Proof.
  intros HC. cbn [CppSem.exec CppSem.eval]. rewrite HV. cbn [rbind]. rewrite HK. cbn [rbind]. rewrite HP, touch_key. cbn [rbind].
  unfold assign. rewrite get_key, map_get_touch by exact HR. cbn [String.eqb Ascii.eqb Bool.eqb rbind]. rewrite HC.
  unfold store. rewrite set_key; [reflexivity|]. rewrite map_get_touch by exact HR. discriminate.
Qed.
Lemma exec_insert w l : match map_get k w with Some o => o | None => p end = VSet l ->
  exec (SExpr (ECall (EMem (EIdx X K) "insert") [V])) (E w) = Val Next (E (map_put k (VSet (set_put v l)) (map_touch k p w))).
Proof.
  intros HL. cbn [CppSem.exec CppSem.eval]. cbn [String.eqb Ascii.eqb Bool.eqb]. cbn iota.
  rewrite HX. cbn [rbind]. rewrite HK. cbn [rbind]. rewrite HP, touch_key. cbn [rbind].
  unfold value_at. rewrite get_key, map_get_touch by exact HR. rewrite HL. cbn [rbind].
  rewrite HV. cbn [rbind]. rewrite HK. cbn [rbind]. rewrite HP, touch_key. cbn [rbind].
  cbn [call_method method String.eqb Ascii.eqb Bool.eqb]. unfold store.
  rewrite map_touch_touch by exact HR. rewrite set_key by (rewrite map_get_touch by exact HR; discriminate). reflexivity.
Qed.
End Statements.
(** m[k].insert(v) for views *)
Lemma exec_insert_enc N mb call X K V n q (E : list (val * val) -> env) (k v : view) M :
  (forall w, eval mb asm_tys isfn ismeth call X (E w) = Val (VMap (VSet []) w) (E w)) ->
  (forall w, eval mb asm_tys isfn ismeth call K (E w) = Val (encV k) (E w)) ->
  (forall w, eval mb asm_tys isfn ismeth call V (E w) = Val (encV v) (E w)) ->
  (forall w, place X (E w) = Some (n, q)) -> (forall w, get_at (n, q) (E w) = Some (VMap (VSet []) w)) ->
  (forall w w', set_at (n, q) (VMap (VSet []) w') (E w) = Some (E w')) ->
  exec N mb asm_tys isfn ismeth call (SExpr (ECall (EMem (EIdx X K) "insert") [V])) (E (encMS M)) = Val Next (E (encMS (map_set_insert M k v))).
Proof.
  intros HX HK HV HP HG HS.
  rewrite (exec_insert N mb call X K V n q (VSet []) E (encV k) (encV v) HX HK HV HP HG HS (key_refl k) (encMS M)
    (match map_find M (v_str k) with Some l => encVs l | None => [] end)).
  - rewrite map_set_insert_enc. reflexivity.
  - unfold encV. change (encMS M) with (encM encT M). rewrite map_get_enc. destruct (map_find M (v_str k)); reflexivity.
Qed.
(** m[k] = v for views, and for other values *)
Lemma exec_put_enc {T} (g : T -> val) p N mb call X K V n q (E : list (val * val) -> env) (k : view) v a M :
  (forall b, conv (g b) v = Some (g a)) -> conv p v = Some (g a) ->
  (forall w, eval mb asm_tys isfn ismeth call K (E w) = Val (encV k) (E w)) ->
  (forall w, eval mb asm_tys isfn ismeth call V (E w) = Val v (E w)) ->
  (forall w, place X (E w) = Some (n, q)) -> (forall w, get_at (n, q) (E w) = Some (VMap p w)) ->
  (forall w w', set_at (n, q) (VMap p w') (E w) = Some (E w')) ->
  exec N mb asm_tys isfn ismeth call (SExpr (EAsg "=" (EIdx X K) V)) (E (encM g M)) = Val Next (E (encM g (map_assign M k a))).
Proof.
  intros C1 C2 HK HV HP HG HS.
  rewrite (exec_put N mb call X K V n q p E (encV k) v HK HV HP HG HS (key_refl k) (encM g M) (g a)).
  - now rewrite (map_assign_enc g k _ p M a).
  - unfold encV. rewrite map_get_enc. destruct (map_find M (v_str k)); [apply C1|exact C2].
Qed.
Lemma exec_files_enc N mb call X K V n q (E : list (val * val) -> env) i f M :
  (forall w, eval mb asm_tys isfn ismeth call K (E w) = Val (VInt I32 i) (E w)) ->
  (forall w, eval mb asm_tys isfn ismeth call V (E w) = Val (VStr f) (E w)) ->
  (forall w, place X (E w) = Some (n, q)) -> (forall w, get_at (n, q) (E w) = Some (VMap (VStr []) w)) ->
  (forall w w', set_at (n, q) (VMap (VStr []) w') (E w) = Some (E w')) ->
  exec N mb asm_tys isfn ismeth call (SExpr (EAsg "=" (EIdx X K) V)) (E (encFiles M)) = Val Next (E (encFiles (files_assign M i f))).
Proof.
  intros HK HV HP HG HS.
  rewrite (exec_put N mb call X K V n q (VStr []) E (VInt I32 i) (VStr f) HK HV HP HG HS (Z.eqb_refl i) (encFiles M) (VStr f)).
  - now rewrite (files_assign_enc i f _ M).
  - rewrite files_get_enc. destruct (files_at M i); reflexivity.
Qed.
