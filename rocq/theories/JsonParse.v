(** A reader for the grammar of JsonSpec.v.  It serves to show that a text has at
    most one meaning. *)
From Verif Require Export JsonSpec Lemmas.

Definition push {A B} (a : A) (o : option (list A * B)) : option (list A * B) :=
  match o with Some (l, r) => Some (a :: l, r) | None => None end.
Fixpoint assoc (c : char) (l : list (char * char)) : option char :=
  match l with [] => None | (a, b) :: t => if ceq a c then Some b else assoc c t end.
Fixpoint pchars (s : str) : option (list item * str) :=
  match s with
  | [] => None
  | c :: t =>
      if ceq c JQ then Some ([], t)
      else if ceq c JB then
        match t with
        | [] => None
        | e :: t1 =>
            if ceq e "u" then
              match t1 with
              | a :: b :: c :: d :: t2 =>
                  match hex_digit a, hex_digit b, hex_digit c, hex_digit d with
                  | Some x, Some y, Some z, Some w => push (Unit (x * 4096 + y * 256 + z * 16 + w)) (pchars t2)
                  | _, _, _, _ => None
                  end
              | _ => None
              end
            else match assoc e escapes with Some c => push (Raw c) (pchars t1) | None => None end
        end
      else if code c <? 32 then None else push (Raw c) (pchars t)
  end.

Lemma pchars_complete s l : jchars s l -> forall rest, pchars (s ++ JQ :: rest) = Some (l, rest).
Proof.
  induction 1 as [|c s l H1 H2 H3 H IH|e c s l He H IH|a b c d x y z w s l Ha Hb Hc Hd H IH]; intros rest.
  - reflexivity.
  - cbn [app pchars]. apply ceq_false in H2. apply ceq_false in H3. rewrite H2, H3.
    replace (code c <? 32) with false by lia. now rewrite IH.
  - cbn [app pchars]. change (ceq JB JQ) with false. rewrite ceq_refl.
    repeat (destruct He as [He|He]; [injection He as <- <-; cbn [ceq]; cbn; now rewrite IH|]). destruct He.
  - cbn [app pchars]. change (ceq JB JQ) with false. rewrite !ceq_refl. rewrite Ha, Hb, Hc, Hd, IH. reflexivity.
Qed.

Definition pstring (s : str) : option (str * str) :=
  match s with
  | c :: t => if ceq c JQ then match pchars t with Some (l, r) => Some (bytes_of l, r) | None => None end else None
  | [] => None
  end.
Lemma pstring_complete s t rest : jstring s t -> pstring (s ++ rest) = Some (t, rest).
Proof.
  destruct 1 as [s l H]. rewrite <- !app_assoc. cbn [app pstring]. rewrite ceq_refl. now rewrite (pchars_complete s l H).
Qed.

Fixpoint take_digits (s : str) : str * str :=
  match s with
  | [] => ([], [])
  | c :: t => if is_digit c then let '(d, r) := take_digits t in (c :: d, r) else ([], s)
  end.
Definition nondigit (s : str) : Prop := match s with [] => True | c :: _ => is_digit c = false end.
Lemma take_digits_app d r : digits d -> nondigit r -> take_digits (d ++ r) = (d, r).
Proof.
  intros H Hr. induction H as [|c d Hc Hd IH]; cbn [app].
  - destruct r as [|c r]; [reflexivity|]. cbn in *. now rewrite Hr.
  - cbn [take_digits]. now rewrite Hc, IH.
Qed.

Definition pint (s : str) : option (str * str) :=
  match s with
  | [] => None
  | c :: t => if ceq c "0" then Some ([c], t) else if is_digit c then Some (take_digits s) else None
  end.
Definition pfrac (s : str) : option (str * str) :=
  match s with
  | c :: t => if ceq c "." then let '(d, r) := take_digits t in if is_nil d then None else Some (d, r) else Some ([], s)
  | [] => Some ([], s)
  end.
Definition pexp (s : str) : option (Z * str) :=
  match s with
  | c :: t =>
      if ceq c "e" || ceq c "E" then
        let '(neg, t1) := match t with
                          | g :: t1 => if ceq g "-" then (true, t1) else if ceq g "+" then (false, t1) else (false, t)
                          | [] => (false, t)
                          end in
        let '(d, r) := take_digits t1 in
        if is_nil d then None else Some (if neg : bool then - value d else value d, r)
      else Some (0, s)
  | [] => Some (0, s)
  end.
Definition psign (s : str) : bool * str :=
  match s with c :: t => if ceq c "-" then (true, t) else (false, s) | [] => (false, s) end.
Definition pnum (s : str) : option (Z * Z * str) :=
  let '(neg, s1) := psign s in
  match pint s1 with
  | None => None
  | Some (i, s2) =>
      match pfrac s2 with
      | None => None
      | Some (fs, s3) =>
          match pexp s3 with
          | None => None
          | Some (e, s4) =>
              let m := value (i ++ fs) in
              Some ((if neg : bool then - m else m), e - Z.of_nat (length fs), s4)
          end
      end
  end.

(** What may follow a value. *)
Definition follow (s : str) : Prop :=
  match s with [] => True | c :: _ => is_ws c || ceq c "," || ceq c "]" || ceq c "}" = true end.
Definition no_exp (s : str) : Prop := match s with [] => True | c :: _ => ceq c "e" || ceq c "E" = false end.
Definition no_dot (s : str) : Prop := match s with [] => True | c :: _ => ceq c "." = false end.
Lemma follow_heads s : follow s -> nondigit s /\ no_exp s /\ no_dot s.
Proof.
  destruct s as [|c s]; cbn; [auto|]. unfold is_ws. rewrite !orb_true_iff.
  intros H. repeat (destruct H as [H|H]); apply ceq_true in H; subst; cbn; auto.
Qed.

Lemma pexp_complete x e rest : jexp x e -> follow rest ->
  pexp (x ++ rest) = Some (e, rest) /\ nondigit (x ++ rest) /\ no_dot (x ++ rest).
Proof.
  intros H Hr. destruct (follow_heads rest Hr) as (H1 & H2 & H3). destruct H as [|c sg s Hc Hne Hs Hsg].
  - cbn [app]. repeat split; auto. unfold pexp. destruct rest as [|c r]; [reflexivity|]. cbn in H2. now rewrite H2.
  - assert (Hc' : ceq c "e" || ceq c "E" = true) by (destruct Hc as [->| ->]; reflexivity).
    cbn [app pexp]. rewrite Hc'. split; [|destruct Hc as [->| ->]; cbn; auto].
    rewrite <- app_assoc. destruct s as [|d s]; [congruence|]. inversion Hs as [|? ? Hd Hs']; subst.
    assert (E : (match sg ++ (d :: s) ++ rest with
                 | g :: t1 => if ceq g "-" then (true, t1) else if ceq g "+" then (false, t1) else (false, sg ++ (d :: s) ++ rest)
                 | [] => (false, sg ++ (d :: s) ++ rest) end) = (str_eqb sg ["-"%char], (d :: s) ++ rest)).
    { destruct Hsg as [->|[->| ->]]; cbn [app]; [|reflexivity|reflexivity].
      destruct (ceq d "-") eqn:E1; [apply ceq_true in E1; subst; discriminate|].
      destruct (ceq d "+") eqn:E2; [apply ceq_true in E2; subst; discriminate|]. reflexivity. }
    rewrite E. rewrite take_digits_app by assumption. cbn [is_nil]. reflexivity.
Qed.
Lemma pfrac_complete f fs r : jfrac f fs -> nondigit r -> no_dot r ->
  pfrac (f ++ r) = Some (fs, r) /\ nondigit (f ++ r).
Proof.
  intros H Hr Hd. destruct H as [|s Hne Hs].
  - cbn [app]. split; [|assumption]. unfold pfrac. destruct r as [|c r]; [reflexivity|]. cbn in Hd. now rewrite Hd.
  - cbn [app pfrac]. rewrite ceq_refl. rewrite take_digits_app by assumption. destruct s; [congruence|]. now cbn.
Qed.
Lemma pint_complete i r : jint i -> nondigit r -> pint (i ++ r) = Some (i, r).
Proof.
  intros H Hr. destruct H as [|c s Hc Hz Hs]; [reflexivity|]. cbn [app pint].
  apply ceq_false in Hz. rewrite Hz, Hc. f_equal. apply (take_digits_app (c :: s)); [now constructor|assumption].
Qed.
Lemma pnum_complete s m e rest : jnum s m e -> follow rest -> pnum (s ++ rest) = Some (m, e, rest).
Proof.
  intros H Hr. destruct H as [sg i f fs x e Hsg Hi Hf Hx].
  destruct (pexp_complete x e rest Hx Hr) as (Ex & Nx & Dx).
  destruct (pfrac_complete f fs (x ++ rest) Hf Nx Dx) as (Ef & Nf).
  pose proof (pint_complete i _ Hi Nf) as Ei.
  rewrite <- !app_assoc. unfold pnum.
  assert (E : psign (sg ++ i ++ f ++ x ++ rest) = (negb (is_nil sg), i ++ f ++ x ++ rest)).
  { destruct Hsg as [->| ->]; [|reflexivity]. cbn [app].
    destruct Hi as [|c s Hc Hz Hs]; [reflexivity|]. cbn [app psign].
    destruct (ceq c "-") eqn:E1; [apply ceq_true in E1; subst; discriminate|]. reflexivity. }
  rewrite E, Ei, Ef, Ex. destruct (is_nil sg); reflexivity.
Qed.

Fixpoint skip_ws (s : str) : str := match s with c :: t => if is_ws c then skip_ws t else s | [] => [] end.
Definition solid (s : str) : Prop := match s with [] => True | c :: _ => is_ws c = false end.
Lemma skip_ws_app w s : ws w -> solid s -> skip_ws (w ++ s) = s.
Proof.
  intros H Hs. induction H as [|c w Hc Hw IH]; cbn [app].
  - destruct s as [|c s]; [reflexivity|]. cbn in *. now rewrite Hs.
  - cbn. now rewrite Hc.
Qed.

Fixpoint pvalue (fuel : nat) (s : str) : option (json * str) :=
  match fuel with
  | O => None
  | S k =>
      match s with
      | [] => None
      | c :: t =>
          if ceq c JQ then match pstring s with Some (v, r) => Some (JStr v, r) | None => None end
          else if ceq c "[" then
            match skip_ws t with
            | d :: r => if ceq d "]" then Some (JArr [], r)
                        else match pelements k (skip_ws t) with Some (l, r) => Some (JArr l, r) | None => None end
            | [] => None
            end
          else if ceq c "{" then
            match skip_ws t with
            | d :: r => if ceq d "}" then Some (JObj [], r)
                        else match pmembers k (skip_ws t) with Some (l, r) => Some (JObj l, r) | None => None end
            | [] => None
            end
          else if starts_with (lit "null") s then Some (JNull, skipn 4 s)
          else if starts_with (lit "true") s then Some (JTrue, skipn 4 s)
          else if starts_with (lit "false") s then Some (JFalse, skipn 5 s)
          else match pnum s with Some (m, e, r) => Some (JNum m e, r) | None => None end
      end
  end
with pelements (fuel : nat) (s : str) : option (list json * str) :=
  match fuel with
  | O => None
  | S k =>
      match pvalue k s with
      | None => None
      | Some (v, r) =>
          match skip_ws r with
          | d :: r => if ceq d "]" then Some ([v], r) else if ceq d "," then push v (pelements k (skip_ws r)) else None
          | [] => None
          end
      end
  end
with pmembers (fuel : nat) (s : str) : option (list (str * json) * str) :=
  match fuel with
  | O => None
  | S k =>
      match pstring s with
      | None => None
      | Some (n, r) =>
          match skip_ws r with
          | d :: r =>
              if ceq d ":" then
                match pvalue k (skip_ws r) with
                | None => None
                | Some (v, r) =>
                    match skip_ws r with
                    | d :: r => if ceq d "}" then Some ([(n, v)], r) else if ceq d "," then push (n, v) (pmembers k (skip_ws r)) else None
                    | [] => None
                    end
                end
              else None
          | [] => None
          end
      end
  end.

Definition parse_json (s : str) : option json :=
  match pvalue (2 * length s + 2) (skip_ws s) with
  | Some (v, r) => if is_nil (skip_ws r) then Some v else None
  | None => None
  end.

(** First characters. *)
Lemma jstring_head s t : jstring s t -> exists r, s = JQ :: r.
Proof. destruct 1. cbn. eauto. Qed.
Lemma jnum_head s m e : jnum s m e -> exists c r, s = c :: r /\ (is_digit c = true \/ c = "-"%char).
Proof.
  destruct 1 as [sg i f fs x e Hsg Hi Hf Hx]. destruct Hsg as [->| ->]; [|cbn; eauto].
  destruct Hi as [|c s Hc Hz Hs]; cbn; eauto 6.
Qed.
Lemma jvalue_head s v : jvalue s v -> exists c r, s = c :: r /\ is_ws c = false /\ ceq c "]" = false /\ ceq c "}" = false.
Proof.
  destruct 1 as [| | |s m e H|s t H|w H|s l H|w H|s l H]; try (cbn; do 2 eexists; split; [reflexivity|auto]; fail).
  - apply jnum_head in H as (c & r & -> & Hc). exists c, r. split; [reflexivity|].
    unfold is_ws. destruct Hc as [Hc|Hc]; [|subst; auto].
    repeat split; [rewrite !orb_false_iff; repeat split| |]; apply ceq_false; intros ->; discriminate.
  - apply jstring_head in H as (r & ->). exists JQ, r. auto.
Qed.
Lemma ws_follow w s : ws w -> follow s -> follow (w ++ s).
Proof. intros [|c w' Hc Hw] Hs; [exact Hs|]. cbn. now rewrite Hc. Qed.

Lemma parser_complete :
  (forall s v, jvalue s v -> forall rest fuel, follow rest -> (2 * length s + 1 <= fuel)%nat -> pvalue fuel (s ++ rest) = Some (v, rest)) /\
  (forall s l, jelements s l -> forall rest fuel, (2 * length s + 2 <= fuel)%nat ->
     exists c r, skip_ws (s ++ "]"%char :: rest) = c :: r /\ ceq c "]" = false /\ pelements fuel (c :: r) = Some (l, rest)) /\
  (forall s l, jmembers s l -> forall rest fuel, (2 * length s + 2 <= fuel)%nat ->
     exists c r, skip_ws (s ++ "}"%char :: rest) = c :: r /\ ceq c "}" = false /\ pmembers fuel (c :: r) = Some (l, rest)).
Proof.
  apply json_mut.
  - intros rest [|k] Hr Hf; [lia|]. reflexivity.
  - intros rest [|k] Hr Hf; [lia|]. reflexivity.
  - intros rest [|k] Hr Hf; [lia|]. reflexivity.
  - intros s m e H rest [|k] Hr Hf; [lia|]. destruct (jnum_head s m e H) as (c & r & E & Hc).
    pose proof (pnum_complete s m e rest H Hr) as En. rewrite E in En |- *. cbn [app] in En |- *. cbn [pvalue].
    assert (Hne : forall d, ceq d "-" = false -> is_digit d = false -> ceq c d = false).
    { intros d H1 H2. apply ceq_false. intros ->. destruct Hc as [Hc|Hc]; [congruence|]. subst. discriminate. }
    rewrite !Hne by reflexivity.
    assert (Hs : forall d p, ceq d "-" = false -> is_digit d = false -> starts_with (d :: p) (c :: r ++ rest) = false).
    { intros d p H1 H2. cbn [starts_with]. now rewrite ceq_sym, Hne by assumption. }
    change (lit "null") with ("n"%char :: lit "ull"). change (lit "true") with ("t"%char :: lit "rue").
    change (lit "false") with ("f"%char :: lit "alse"). rewrite !Hs by reflexivity.
    now rewrite En.
  - intros s t H rest [|k] Hr Hf; [lia|]. destruct (jstring_head s t H) as (r & E).
    pose proof (pstring_complete s t rest H) as Es. rewrite E in Es |- *. cbn [app] in Es |- *. cbn [pvalue].
    rewrite ceq_refl. now rewrite Es.
  - intros w Hw rest [|k] Hr Hf; [lia|]. rewrite <- !app_assoc. cbn [app pvalue].
    change (ceq "[" JQ) with false. rewrite ceq_refl. rewrite skip_ws_app by (assumption || reflexivity). reflexivity.
  - intros s l H IH rest [|k] Hr Hf; [lia|]. rewrite <- !app_assoc. cbn [app pvalue].
    change (ceq "[" JQ) with false. rewrite ceq_refl.
    destruct (IH rest k) as (c & r & E & Ec & Ep); [rewrite !app_length in Hf; cbn [length] in Hf; lia|].
    rewrite E, Ec, Ep. reflexivity.
  - intros w Hw rest [|k] Hr Hf; [lia|]. rewrite <- !app_assoc. cbn [app pvalue].
    change (ceq "{" JQ) with false. change (ceq "{" "[") with false. rewrite ceq_refl.
    rewrite skip_ws_app by (assumption || reflexivity). reflexivity.
  - intros s l H IH rest [|k] Hr Hf; [lia|]. rewrite <- !app_assoc. cbn [app pvalue].
    change (ceq "{" JQ) with false. change (ceq "{" "[") with false. rewrite ceq_refl.
    destruct (IH rest k) as (c & r & E & Ec & Ep); [rewrite !app_length in Hf; cbn [length] in Hf; lia|].
    rewrite E, Ec, Ep. reflexivity.
  - intros w1 s v w2 Hw1 Hs IH Hw2 rest [|k] Hf; [lia|].
    destruct (jvalue_head s v Hs) as (c & r & E & H1 & H2 & _). rewrite !app_length in Hf.
    exists c, (r ++ w2 ++ "]"%char :: rest). split; [|split; [exact H2|]].
    + rewrite <- !app_assoc. rewrite E. cbn [app]. now apply skip_ws_app.
    + cbn [pelements]. change (c :: r ++ w2 ++ "]"%char :: rest) with ((c :: r) ++ w2 ++ "]"%char :: rest). rewrite <- E.
      rewrite IH; [|apply ws_follow; [assumption|reflexivity]|lia].
      rewrite skip_ws_app by (assumption || reflexivity). reflexivity.
  - intros w1 s v w2 t l Hw1 Hs IH Hw2 Ht IHt rest [|k] Hf; [lia|].
    destruct (jvalue_head s v Hs) as (c & r & E & H1 & H2 & _). rewrite !app_length in Hf. cbn [length] in Hf.
    exists c, (r ++ w2 ++ [","%char] ++ t ++ "]"%char :: rest). split; [|split; [exact H2|]].
    + rewrite <- !app_assoc. rewrite E. cbn [app]. now apply skip_ws_app.
    + cbn [pelements].
      change (c :: r ++ w2 ++ [","%char] ++ t ++ "]"%char :: rest) with ((c :: r) ++ w2 ++ [","%char] ++ t ++ "]"%char :: rest). rewrite <- E.
      rewrite IH; [|apply ws_follow; [assumption|reflexivity]|lia].
      rewrite skip_ws_app by (assumption || reflexivity). cbn [app].
      change (ceq "," "]") with false. rewrite ceq_refl.
      destruct (IHt rest k) as (c' & r' & E' & _ & Ep); [lia|]. rewrite E', Ep. reflexivity.
  - intros w1 n k0 w2 w3 s v w4 Hw1 Hn Hw2 Hw3 Hs IH Hw4 rest [|k] Hf; [lia|].
    destruct (jstring_head n k0 Hn) as (r & E). rewrite !app_length in Hf. cbn [length] in Hf.
    exists JQ, (r ++ w2 ++ [":"%char] ++ w3 ++ s ++ w4 ++ "}"%char :: rest). split; [|split; [reflexivity|]].
    + rewrite <- !app_assoc. rewrite E. cbn [app]. now apply skip_ws_app.
    + cbn [pmembers].
      change (JQ :: r ++ w2 ++ [":"%char] ++ w3 ++ s ++ w4 ++ "}"%char :: rest)
        with ((JQ :: r) ++ w2 ++ [":"%char] ++ w3 ++ s ++ w4 ++ "}"%char :: rest). rewrite <- E.
      rewrite (pstring_complete n k0) by assumption.
      rewrite skip_ws_app by (assumption || reflexivity). cbn [app]. rewrite ceq_refl.
      destruct (jvalue_head s v Hs) as (c & r2 & E2 & H1 & _).
      rewrite skip_ws_app; [|assumption|rewrite E2; exact H1].
      rewrite IH; [|apply ws_follow; [assumption|reflexivity]|lia].
      rewrite skip_ws_app by (assumption || reflexivity). reflexivity.
  - intros w1 n k0 w2 w3 s v w4 t l Hw1 Hn Hw2 Hw3 Hs IH Hw4 Ht IHt rest [|k] Hf; [lia|].
    destruct (jstring_head n k0 Hn) as (r & E). rewrite !app_length in Hf. cbn [length] in Hf.
    exists JQ, (r ++ w2 ++ [":"%char] ++ w3 ++ s ++ w4 ++ [","%char] ++ t ++ "}"%char :: rest). split; [|split; [reflexivity|]].
    + rewrite <- !app_assoc. rewrite E. cbn [app]. now apply skip_ws_app.
    + cbn [pmembers].
      change (JQ :: r ++ w2 ++ [":"%char] ++ w3 ++ s ++ w4 ++ [","%char] ++ t ++ "}"%char :: rest)
        with ((JQ :: r) ++ w2 ++ [":"%char] ++ w3 ++ s ++ w4 ++ [","%char] ++ t ++ "}"%char :: rest). rewrite <- E.
      rewrite (pstring_complete n k0) by assumption.
      rewrite skip_ws_app by (assumption || reflexivity). cbn [app]. rewrite ceq_refl.
      destruct (jvalue_head s v Hs) as (c & r2 & E2 & H1 & _).
      rewrite skip_ws_app; [|assumption|rewrite E2; exact H1].
      rewrite IH; [|apply ws_follow; [assumption|reflexivity]|lia].
      rewrite skip_ws_app by (assumption || reflexivity). cbn [app].
      change (ceq "," "}") with false. rewrite ceq_refl.
      destruct (IHt rest k) as (c' & r' & E' & _ & Ep); [lia|]. rewrite E', Ep. reflexivity.
Qed.

Lemma skip_ws_all w : ws w -> skip_ws w = [].
Proof. intros H. rewrite <- (app_nil_r w). now apply skip_ws_app. Qed.

Lemma parse_complete s v : json_text s v -> parse_json s = Some v.
Proof.
  intros (w1 & t & w2 & -> & H1 & H2 & Hv). unfold parse_json.
  destruct (jvalue_head t v Hv) as (c & r & E & Hc & _).
  rewrite skip_ws_app; [|assumption|rewrite E; exact Hc].
  rewrite (proj1 parser_complete t v Hv); [|rewrite <- (app_nil_r w2); now apply ws_follow|rewrite !app_length; lia].
  now rewrite skip_ws_all.
Qed.
Lemma json_unique s v v' : json_text s v -> json_text s v' -> v = v'.
Proof. intros H H'. apply parse_complete in H, H'. congruence. Qed.
