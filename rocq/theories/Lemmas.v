(** Basic facts about the shared definitions. *)
From Verif Require Export Bytes.
From Coq Require Export ZifyBool ZifyNat ZifyN.

Lemma ceq_true a b : ceq a b = true <-> a = b.
Proof. apply Ascii.eqb_eq. Qed.
Lemma ceq_false a b : ceq a b = false <-> a <> b.
Proof. apply Ascii.eqb_neq. Qed.
Lemma ceq_refl a : ceq a a = true.
Proof. now apply ceq_true. Qed.
Lemma ceq_sym a b : ceq a b = ceq b a.
Proof. destruct (ceq b a) eqn:E; [apply ceq_true in E; subst; apply ceq_refl|].
  apply ceq_false in E. apply ceq_false. congruence. Qed.

Lemma str_eqb_eq a b : str_eqb a b = true <-> a = b.
Proof.
  revert b; induction a as [|x a IH]; intros [|y b]; cbn; try (split; [discriminate|congruence]); try tauto.
  rewrite andb_true_iff, ceq_true, IH. split; [intros [-> ->]; reflexivity | intros E; injection E; auto].
Qed.
Lemma str_eqb_refl a : str_eqb a a = true.
Proof. now apply str_eqb_eq. Qed.
Lemma str_eqb_neq a b : str_eqb a b = false <-> a <> b.
Proof. rewrite <- (str_eqb_eq a b). destruct (str_eqb a b); split; intros; congruence. Qed.
Lemma str_eqb_sym a b : str_eqb a b = str_eqb b a.
Proof. destruct (str_eqb b a) eqn:E; [apply str_eqb_eq in E; subst; apply str_eqb_refl|].
  apply str_eqb_neq in E. apply str_eqb_neq. congruence. Qed.
Definition str_dec (a b : str) : {a = b} + {a <> b}.
Proof. destruct (str_eqb a b) eqn:E; [left; now apply str_eqb_eq|right; now apply str_eqb_neq]. Defined.

Lemma is_nil_true {A} (l : list A) : is_nil l = true <-> l = [].
Proof. destruct l; cbn; split; congruence. Qed.
Lemma is_nil_false {A} (l : list A) : is_nil l = false <-> l <> [].
Proof. destruct l; cbn; split; congruence. Qed.
Lemma is_nil_app {A} (a b : list A) : is_nil (a ++ b) = is_nil a && is_nil b.
Proof. destruct a; reflexivity. Qed.

Lemma starts_with_spec p s : starts_with p s = true <-> exists t, s = p ++ t.
Proof.
  revert s; induction p as [|a p IH]; intros s; cbn.
  - split; [intros _; now exists s | auto].
  - destruct s as [|b s]; [split; [discriminate | intros [t E]; discriminate]|].
    rewrite andb_true_iff, ceq_true, IH. split.
    + intros [-> [t ->]]. now exists t.
    + intros [t E]. injection E as -> ->. split; [reflexivity | now exists t].
Qed.
Lemma ends_with_spec p s : ends_with p s = true <-> exists t, s = t ++ p.
Proof.
  unfold ends_with. rewrite starts_with_spec. split; intros [t E].
  - exists (rev t). rewrite <- (rev_involutive s), E, rev_app_distr, rev_involutive. reflexivity.
  - exists (rev t). subst. apply rev_app_distr.
Qed.

Lemma has_char_In c s : has_char c s = true <-> In c s.
Proof.
  unfold has_char. rewrite existsb_exists. split.
  - intros (x & Hx & E). apply ceq_true in E. congruence.
  - intros H. exists c. split; [exact H | apply ceq_refl].
Qed.

Lemma last_is_spec c s : last_is c s = true <-> exists t, s = t ++ [c].
Proof.
  unfold last_is. destruct (rev s) as [|x t] eqn:E.
  - split; [discriminate|]. intros [t ->]. rewrite rev_app_distr in E. discriminate.
  - apply (f_equal (@rev _)) in E. rewrite rev_involutive in E. cbn in E. subst. rewrite ceq_true. split.
    + intros ->. now exists (rev t).
    + intros [u H]. apply app_inj_tail in H. tauto.
Qed.
Lemma last_is_app c s x : last_is c (s ++ [x]) = ceq x c.
Proof. unfold last_is. rewrite rev_app_distr. reflexivity. Qed.

Lemma code_range c : 0 <= code c < 256.
Proof. unfold code. pose proof (N_ascii_bounded c). lia. Qed.
Lemma code_inj a b : code a = code b -> a = b.
Proof.
  unfold code. intros H. apply N2Z.inj in H.
  rewrite <- (ascii_N_embedding a), <- (ascii_N_embedding b). now f_equal.
Qed.
Lemma ascii_code n : 0 <= n < 256 -> code (ascii_of_N (Z.to_N n)) = n.
Proof. intros H. unfold code. rewrite N_ascii_embedding; lia. Qed.

(** Case analysis on every if / match at the head of a hypothesis. *)
Ltac case_hyp H :=
  match type of H with
  | context [match ?b with _ => _ end] => let E := fresh "E" in destruct b eqn:E
  end.

Lemma u16_small z : 0 <= z < 65536 -> u16 z = z.
Proof. intros H. unfold u16, wrap_u. change (2 ^ 16) with 65536. now apply Z.mod_small. Qed.
Lemma u16_range z : 0 <= u16 z < 65536.
Proof. unfold u16, wrap_u. change (2 ^ 16) with 65536. apply Z.mod_pos_bound. lia. Qed.
Lemma i32_small z : - 2147483648 <= z < 2147483648 -> i32 z = z.
Proof.
  intros H. unfold i32, wrap_s. change (2 ^ 32) with 4294967296. change (2 ^ (32 - 1)) with 2147483648.
  destruct (z mod 4294967296 <? 2147483648) eqn:E; Z.div_mod_to_equations; lia.
Qed.
Lemma i32_high z : 2147483648 <= z < 4294967296 -> i32 z = z - 4294967296.
Proof.
  intros H. unfold i32, wrap_s. change (2 ^ 32) with 4294967296. change (2 ^ (32 - 1)) with 2147483648.
  destruct (z mod 4294967296 <? 2147483648) eqn:E; Z.div_mod_to_equations; lia.
Qed.

Lemma firstn_skipn_slice {A} (n k : nat) (l : list A) : firstn k (skipn n l) = skipn n (firstn (n + k) l).
Proof. revert l; induction n as [|n IH]; intros [|a l]; cbn; auto; try now rewrite firstn_nil. Qed.
Lemma skipn_app_le {A} n (a b : list A) : (n <= length a)%nat -> skipn n (a ++ b) = skipn n a ++ b.
Proof. intros H. rewrite skipn_app. replace (n - length a)%nat with O by lia. reflexivity. Qed.
Lemma firstn_app_le {A} n (a b : list A) : (n <= length a)%nat -> firstn n (a ++ b) = firstn n a.
Proof. intros H. rewrite firstn_app. replace (n - length a)%nat with O by lia. now rewrite firstn_O, app_nil_r. Qed.
Lemma firstn_len_app {A} (a b : list A) : firstn (length a) (a ++ b) = a.
Proof. rewrite firstn_app_le by lia. apply firstn_all. Qed.
Lemma skipn_len_app {A} (a b : list A) : skipn (length a) (a ++ b) = b.
Proof. rewrite skipn_app_le by lia. now rewrite skipn_all. Qed.

Lemma obind_Ok {A B} (o : outcome A) (f : A -> outcome B) b :
  obind o f = Ok b -> exists a, o = Ok a /\ f a = Ok b.
Proof. destruct o; cbn; intros H; try discriminate. eauto. Qed.
