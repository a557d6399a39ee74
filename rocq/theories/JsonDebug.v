(** The debug dump; which documents are not JSON. *)
From Verif Require Export JsonWrite.

Ltac key := apply key_printable; reflexivity.

Definition debug_line_value (flt : Filter) (l : asm_line_v) : json :=
  JObj [(J "text", JStr (lv_text l));
        (J "address", match lv_address l with Some a => JInt a | None => JNull end);
        (J "is_data", JBoolStr (lv_is_data l));
        (J "is_used", JBoolStr (lv_is_used l));
        (J "is_label", JBoolStr (lv_is_label l));
        (J "is_internal_label", JBoolStr (lv_is_internal_label l));
        (J "is_inline_asm", JBoolStr (lv_is_inline_asm l));
        (J "closest_parent_label", JStr (lv_closest_parent_label l));
        (J "section", JStr (v_str (lv_section l)));
        (J "has_opcode", JBoolStr (lv_has_opcode l));
        (J "is_directive", JBoolStr (lv_is_directive l));
        (J "is_assignment", JBoolStr (lv_is_assignment l));
        (J "source", source_value flt l);
        (J "labels", JArr (map ref_value (lv_labels l)))].
Definition refs_value (e : str * list str) : str * json := (fst e, JArr (map JStr (snd e))).
Definition debug_value (flt : Filter) (lines : list asm_line_v) (labels : list (str * Z))
    (used weak data : list (str * list str)) (aliased : list (str * str)) : json :=
  JObj [(J "asm", JArr (map (debug_line_value flt) lines));
        (J "labelDefinitions", labels_value labels);
        (J "used_labels", JArr (map (fun e => JObj [refs_value e]) used));
        (J "used_weak_labels", JObj (map refs_value weak));
        (J "used_data_labels", JObj (map refs_value data));
        (J "aliased_labels", JObj (map (fun p => (fst p, JStr (snd p))) aliased))].

Definition debug_line_printable (flt : Filter) (l : asm_line_v) : Prop :=
  Forall (fun r => printable (v_str (lbv_name r))) (lv_labels l) /\ source_printable flt l /\
  printable (v_str (lv_section l)) /\ printable (lv_closest_parent_label l) /\ printable (lv_text l).
Definition refs_printable (e : str * list str) : Prop := printable (fst e) /\ Forall printable (snd e).

Section Debug.
Variables (fmt : Z -> str) (flt : Filter).
Hypothesis Hfmt : forall z, jvalue (fmt z) (JInt z).

Lemma debug_line_jvalue l : debug_line_printable flt l -> jvalue (writeDebugLine fmt flt l) (debug_line_value flt l).
Proof.
  intros (H1 & H2 & H3 & H4 & H5). unfold writeDebugLine, debug_line_value.
  assert (Ht : jtail (SEP ++ (match lv_address l with Some a => writeKvInt fmt (lit "address") a | None => writeKvNull (lit "address") end)
    ++ SEP ++ writeKvStr (lit "is_data") (bool_str (lv_is_data l))
    ++ SEP ++ writeKvStr (lit "is_used") (bool_str (lv_is_used l))
    ++ SEP ++ writeKvStr (lit "is_label") (bool_str (lv_is_label l))
    ++ SEP ++ writeKvStr (lit "is_internal_label") (bool_str (lv_is_internal_label l))
    ++ SEP ++ writeKvStr (lit "is_inline_asm") (bool_str (lv_is_inline_asm l))
    ++ SEP ++ writeKvStr (lit "closest_parent_label") (lv_closest_parent_label l)
    ++ SEP ++ writeKvStr (lit "section") (v_str (lv_section l))
    ++ SEP ++ writeKvStr (lit "has_opcode") (bool_str (lv_has_opcode l))
    ++ SEP ++ writeKvStr (lit "is_directive") (bool_str (lv_is_directive l))
    ++ SEP ++ writeKvStr (lit "is_assignment") (bool_str (lv_is_assignment l))
    ++ SEP ++ (writeKeyName (lit "source") ++ writeSource fmt flt l)
    ++ NL ++ (writeKeyName (lit "labels") ++ writeLabelArray fmt l))
    (match debug_line_value flt l with JObj (_ :: t) => t | _ => [] end)).
  { cbn [debug_line_value].
    apply tail_SEP_cons. { destruct (lv_address l); [apply int_member; [exact Hfmt|key]|apply null_member; key]. }
    do 5 (apply tail_SEP_cons; [apply bool_member; key|]).
    apply tail_SEP_cons; [apply str_member; [key|assumption]|].
    apply tail_SEP_cons; [apply str_member; [key|assumption]|].
    do 3 (apply tail_SEP_cons; [apply bool_member; key|]).
    apply tail_SEP_cons; [apply kv_member; [key|now apply source_jvalue]|].
    apply tail_NL. apply kv_member; [key|]. now apply refs_jvalue. }
  pose proof (jobject _ _ _ _ (str_member (lit "text") _ ltac:(key) H5) Ht) as E.
  rewrite <- !app_assoc in E. rewrite <- ?app_assoc. exact E.
Qed.
Lemma refs_member e : refs_printable e -> jmember (writeRefs e) (refs_value e).
Proof.
  intros [H1 H2]. apply kv_member; [exact H1|]. apply (sep_list_array [SP]); [apply ws_SP|].
  eapply Forall_impl; [|exact H2]. intros s Hs. apply jv_str. now apply quoted_jstring.
Qed.

Lemma debug_jvalue lines labels used weak data aliased :
  Forall (debug_line_printable flt) lines -> Forall (fun p => printable (fst p)) labels ->
  Forall refs_printable used -> Forall refs_printable weak -> Forall refs_printable data ->
  Forall (fun p => printable (fst p) /\ printable (snd p)) aliased ->
  jvalue (writeDebug fmt flt lines labels used weak data aliased) (debug_value flt lines labels used weak data aliased).
Proof.
  intros H1 H2 H3 H4 H5 H6. unfold writeDebug, debug_value.
  assert (Ha : jvalue (lit "[" ++ sep_list (lit ",") (writeDebugLine fmt flt) lines ++ lit "]") (JArr (map (debug_line_value flt) lines))).
  { apply (sep_list_array []); [constructor|]. eapply Forall_impl; [|exact H1]. apply debug_line_jvalue. }
  assert (Hu : jvalue (lit "[" ++ sep_list (lit ",") (fun e => lit "{" ++ writeRefs e ++ lit "}") used ++ lit "]")
                      (JArr (map (fun e => JObj [refs_value e]) used))).
  { apply (sep_list_array []); [constructor|]. eapply Forall_impl; [|exact H3]. intros e He.
    pose proof (jobject _ _ _ _ (refs_member e He) jt_nil) as E. rewrite app_nil_r in E. exact E. }
  assert (Hw : jvalue (lit "{" ++ sep_list (lit ",") writeRefs weak ++ lit "}") (JObj (map refs_value weak))).
  { apply (sep_list_object []); [constructor|]. eapply Forall_impl; [|exact H4]. apply refs_member. }
  assert (Hd : jvalue (lit "{" ++ sep_list (lit ",") writeRefs data ++ lit "}") (JObj (map refs_value data))).
  { apply (sep_list_object []); [constructor|]. eapply Forall_impl; [|exact H5]. apply refs_member. }
  assert (Hal : jvalue (lit "{" ++ sep_list SEP (fun kv => writeKvStr (fst kv) (snd kv)) aliased ++ lit "}")
                       (JObj (map (fun p => (fst p, JStr (snd p))) aliased))).
  { apply (sep_list_object [SP]); [apply ws_SP|]. eapply Forall_impl; [|exact H6]. intros p [Hp1 Hp2]. now apply str_member. }
  assert (Ht : jtail (lit "," ++ [] ++ writeLabelDefs fmt labels
      ++ NL ++ (writeKeyName (lit "used_labels") ++ lit "[" ++ sep_list (lit ",") (fun e => lit "{" ++ writeRefs e ++ lit "}") used ++ lit "]")
      ++ NL ++ (writeKeyName (lit "used_weak_labels") ++ lit "{" ++ sep_list (lit ",") writeRefs weak ++ lit "}")
      ++ NL ++ (writeKeyName (lit "used_data_labels") ++ lit "{" ++ sep_list (lit ",") writeRefs data ++ lit "}")
      ++ NL ++ (writeKeyName (lit "aliased_labels") ++ lit "{" ++ sep_list SEP (fun kv => writeKvStr (fst kv) (snd kv)) aliased ++ lit "}"))
      (match debug_value flt lines labels used weak data aliased with JObj (_ :: t) => t | _ => [] end)).
  { cbn [debug_value]. apply jt_cons; [constructor|now apply labels_member|].
    do 3 (apply tail_NL_cons; [apply kv_member; [key|assumption]|]).
    apply tail_NL. apply kv_member; [key|assumption]. }
  pose proof (jobject _ _ _ _ (kv_member (lit "asm") _ _ ltac:(key) Ha) Ht) as E.
  cbn [debug_value app] in E. rewrite <- ?app_assoc in E. rewrite <- ?app_assoc. exact E.
Qed.
End Debug.

(** *** Control characters *)
(** Reading a text character by character: outside strings, inside, after a backslash. *)
Inductive smode := SOut | SIn | SEsc.
Definition sstep (m : smode) (c : char) : option smode :=
  match m with
  | SOut => Some (if ceq c JQ then SIn else SOut)
  | SIn => if ceq c JQ then Some SOut else if ceq c JB then Some SEsc else if code c <? 32 then None else Some SIn
  | SEsc => if code c <? 32 then None else Some SIn
  end.
Fixpoint scan (m : smode) (s : str) : option smode :=
  match s with [] => Some m | c :: t => match sstep m c with Some m' => scan m' t | None => None end end.
Lemma scan_app a : forall m b, scan m (a ++ b) = match scan m a with Some m' => scan m' b | None => None end.
Proof. induction a as [|c a IH]; intros m b; [reflexivity|]. cbn. destruct (sstep m c); [apply IH|reflexivity]. Qed.

Lemma scan_then m m' a b : scan m a = Some m' -> scan m (a ++ b) = scan m' b.
Proof. intros H. now rewrite scan_app, H. Qed.

Lemma hex_scan c x : hex_digit c = Some x -> sstep SIn c = Some SIn.
Proof.
  intros H. assert (Hc : 48 <= code c /\ code c <> 92).
  { unfold hex_digit, in_range in H. change (code "0") with 48 in H. change (code "9") with 57 in H.
    change (code "a") with 97 in H. change (code "f") with 102 in H. change (code "A") with 65 in H. change (code "F") with 70 in H.
    destruct (_ && _) eqn:E1 in H; [lia|]. destruct (_ && _) eqn:E2 in H; [lia|]. destruct (_ && _) eqn:E3 in H; [lia|discriminate]. }
  cbn. destruct (ceq c JQ) eqn:E1; [apply ceq_true in E1; subst; change (code JQ) with 34 in Hc; lia|].
  destruct (ceq c JB) eqn:E2; [apply ceq_true in E2; subst; change (code JB) with 92 in Hc; lia|].
  destruct (code c <? 32) eqn:E3; [lia|reflexivity].
Qed.
Lemma jchars_scan s l : jchars s l -> scan SIn s = Some SIn.
Proof.
  induction 1 as [|c s l H1 H2 H3 H IH|e c s l He H IH|a b c d x y z w s l Ha Hb Hc Hd H IH]; [reflexivity| | |].
  - cbn [scan sstep]. apply ceq_false in H2, H3. rewrite H2, H3. replace (code c <? 32) with false by lia. exact IH.
  - cbn [scan]. change (sstep SIn JB) with (Some SEsc). cbn [sstep].
    replace (code e <? 32) with false; [exact IH|].
    repeat (destruct He as [He|He]; [injection He as <- <-; reflexivity|]). destruct He.
  - change (scan SIn (JB :: "u"%char :: a :: b :: c :: d :: s)) with (scan SIn (a :: b :: c :: d :: s)). cbn [scan].
    rewrite (hex_scan _ _ Ha), (hex_scan _ _ Hb), (hex_scan _ _ Hc), (hex_scan _ _ Hd). exact IH.
Qed.
Lemma jstring_scan s t : jstring s t -> scan SOut s = Some SOut.
Proof.
  destruct 1 as [s l H]. rewrite (scan_then SOut SIn) by reflexivity. rewrite (scan_then SIn SIn) by (eapply jchars_scan; exact H).
  reflexivity.
Qed.
Lemma plain_scan s : Forall (fun c => ceq c JQ = false) s -> scan SOut s = Some SOut.
Proof. induction 1 as [|c s Hc Hs IH]; [reflexivity|]. cbn. now rewrite Hc. Qed.
Lemma ws_scan w : ws w -> scan SOut w = Some SOut.
Proof.
  intros H. apply plain_scan. eapply Forall_impl; [|exact H]. intros c. unfold is_ws. rewrite !orb_true_iff.
  intros Hc. repeat destruct Hc as [Hc|Hc]; apply ceq_true in Hc; subst; reflexivity.
Qed.
Lemma digits_plain s : digits s -> Forall (fun c => ceq c JQ = false) s.
Proof. intros H. eapply Forall_impl; [|exact H]. intros c Hc. apply ceq_false. intros ->. discriminate. Qed.
Lemma jnum_scan s m e : jnum s m e -> scan SOut s = Some SOut.
Proof.
  destruct 1 as [sg i f fs x e Hsg Hi Hf Hx]. apply plain_scan. rewrite !Forall_app. repeat split.
  - destruct Hsg as [->| ->]; repeat constructor.
  - destruct Hi as [|c s Hc Hz Hs]; [repeat constructor|]. apply digits_plain. now constructor.
  - destruct Hf as [|s Hne Hs]; [constructor|]. constructor; [reflexivity|now apply digits_plain].
  - destruct Hx as [|c sg' s Hc Hne Hs Hsg']; [constructor|].
    constructor; [destruct Hc as [->| ->]; reflexivity|]. apply Forall_app. split; [|now apply digits_plain].
    destruct Hsg' as [->|[->| ->]]; repeat constructor.
Qed.
Lemma json_scan :
  (forall s v, jvalue s v -> scan SOut s = Some SOut) /\
  (forall s l, jelements s l -> scan SOut s = Some SOut) /\
  (forall s l, jmembers s l -> scan SOut s = Some SOut).
Proof.
  assert (Hw : forall w b, ws w -> scan SOut (w ++ b) = scan SOut b) by (intros; apply scan_then; now apply ws_scan).
  assert (Hc : forall c b, ceq c JQ = false -> scan SOut ([c] ++ b) = scan SOut b)
    by (intros c b H; apply scan_then; cbn; now rewrite H).
  apply json_mut; intros; try reflexivity.
  - eapply jnum_scan; eassumption.
  - eapply jstring_scan; eassumption.
  - rewrite Hc, Hw by (assumption || reflexivity). reflexivity.
  - rewrite Hc by reflexivity. erewrite scan_then by eassumption. reflexivity.
  - rewrite Hc, Hw by (assumption || reflexivity). reflexivity.
  - rewrite Hc by reflexivity. erewrite scan_then by eassumption. reflexivity.
  - rewrite Hw by assumption. erewrite scan_then by eassumption. now apply ws_scan.
  - rewrite Hw by assumption. erewrite scan_then by eassumption. now rewrite Hw, Hc by (assumption || reflexivity).
  - rewrite Hw by assumption. erewrite scan_then by (eapply jstring_scan; eassumption).
    rewrite Hw, Hc, Hw by (assumption || reflexivity). erewrite scan_then by eassumption. now apply ws_scan.
  - rewrite Hw by assumption. erewrite scan_then by (eapply jstring_scan; eassumption).
    rewrite Hw, Hc, Hw by (assumption || reflexivity). erewrite scan_then by eassumption.
    now rewrite Hw, Hc by (assumption || reflexivity).
Qed.
Lemma json_text_scan s v : json_text s v -> scan SOut s = Some SOut.
Proof.
  intros (w1 & t & w2 & -> & H1 & H2 & H). rewrite (scan_then SOut SOut) by (now apply ws_scan).
  rewrite (scan_then SOut SOut) by (exact (proj1 json_scan t v H)). now apply ws_scan.
Qed.

(** A piece of the document is read from outside a string to outside a string
    exactly if [P] holds, and otherwise not at all. *)
Definition piece (s : str) (P : Prop) : Prop := (P -> scan SOut s = Some SOut) /\ (scan SOut s <> None -> P).
Lemma piece_app a b P Q : piece a P -> piece b Q -> piece (a ++ b) (P /\ Q).
Proof.
  intros [Ha1 Ha2] [Hb1 Hb2]. split.
  - intros [HP HQ]. rewrite scan_app, (Ha1 HP). auto.
  - rewrite scan_app. destruct (scan SOut a) eqn:E; [|congruence]. assert (HP : P) by (apply Ha2; congruence).
    specialize (Ha1 HP). injection Ha1 as ->. auto.
Qed.
Lemma piece_plain s : scan SOut s = Some SOut -> piece s True.
Proof. intros H. split; auto. Qed.
Lemma piece_iff s P Q : piece s P -> (P <-> Q) -> piece s Q.
Proof. intros [H1 H2] H. split; [rewrite <- H; auto|rewrite <- H; auto]. Qed.

Lemma scan_escape s : (printable s -> scan SIn (escape s) = Some SIn) /\ (scan SIn (escape s) <> None -> printable s).
Proof.
  induction s as [|c s [IH1 IH2]]; [split; [reflexivity|constructor]|].
  assert (E : scan SIn (escape (c :: s)) = if (32 <=? code c) || ceq c TAB then scan SIn (escape s) else None).
  { cbn [escape flat_map]. fold (escape s). unfold escape_char.
    destruct (ceq c TAB) eqn:E1; [apply ceq_true in E1; subst; reflexivity|].
    destruct (ceq c BSL) eqn:E2; [apply ceq_true in E2; subst; reflexivity|].
    destruct (ceq c DQ) eqn:E3; [apply ceq_true in E3; subst; reflexivity|].
    cbn [app scan sstep]. change JQ with DQ. change JB with BSL. rewrite E2, E3. rewrite orb_false_r.
    destruct (code c <? 32) eqn:E4; destruct (32 <=? code c) eqn:E5; try lia; reflexivity. }
  rewrite E. split.
  - intros H. inversion H as [|? ? Hc Hs]; subst. replace ((32 <=? code c) || ceq c TAB) with true; [auto|].
    symmetry. apply orb_true_iff. rewrite ceq_true. destruct Hc; [left; lia|now right].
  - destruct ((32 <=? code c) || ceq c TAB) eqn:E1; [|congruence]. intros H. constructor; [|exact (IH2 H)].
    apply orb_true_iff in E1 as [E1|E1]; [left; lia|right; now apply ceq_true].
Qed.
Lemma piece_value s : piece (quoted (escape s)) (printable s).
Proof.
  unfold quoted. destruct (scan_escape s) as [H1 H2]. split.
  - intros H. rewrite (scan_then SOut SIn) by reflexivity. rewrite (scan_then SIn SIn) by auto. reflexivity.
  - rewrite (scan_then SOut SIn) by reflexivity. rewrite scan_app. destruct (scan SIn (escape s)) eqn:E; [|congruence].
    intros _. apply H2. congruence.
Qed.
Lemma piece_raw s : unquoted s -> piece (quoted s) (visible s).
Proof.
  intros Hu. assert (Hs : scan SIn s = Some SIn /\ visible s \/ scan SIn s = None /\ ~ visible s).
  { induction Hu as [|c s [H1 H2] Hs IH]; [left; split; [reflexivity|constructor]|].
    cbn [scan sstep]. apply ceq_false in H1, H2. rewrite H1, H2. destruct (code c <? 32) eqn:E.
    - right. split; [reflexivity|]. intros H. inversion H; lia.
    - destruct IH as [[IH1 IH2]|[IH1 IH2]]; rewrite IH1; [left|right]; (split; [reflexivity|]).
      + constructor; [lia|exact IH2].
      + intros H. inversion H; contradiction. }
  unfold quoted, piece. rewrite (scan_then SOut SIn) by reflexivity. rewrite scan_app.
  destruct Hs as [[-> Hv]|[-> Hv]]; split; auto; try (intros; contradiction); try reflexivity; try congruence.
Qed.
Lemma piece_sep {A} sep (f : A -> str) (P : A -> Prop) l : scan SOut sep = Some SOut -> (forall a, In a l -> piece (f a) (P a)) ->
  piece (sep_list sep f l) (Forall P l).
Proof.
  intros Hsep H.
  assert (Ht : forall l, (forall a, In a l -> piece (f a) (P a)) -> piece (sep_tail sep f l) (Forall P l)).
  { clear l H. induction l as [|a l IH]; intros H.
    - eapply piece_iff; [apply piece_plain; reflexivity|]. split; auto.
    - cbn [sep_tail]. eapply piece_iff; [apply piece_app; [apply piece_plain, Hsep|apply piece_app; [apply H; now left|apply IH; intros; apply H; now right]]|].
      rewrite Forall_cons_iff. tauto. }
  destruct l as [|a l].
  - eapply piece_iff; [apply piece_plain; reflexivity|]. split; auto.
  - cbn [sep_list]. eapply piece_iff; [apply piece_app; [apply H; now left|apply Ht; intros; apply H; now right]|].
    now rewrite Forall_cons_iff.
Qed.

Section Control.
Variables (fmt : Z -> str) (flt : Filter).
Hypothesis Hfmt : forall z, jvalue (fmt z) (JInt z).

Ltac pl := apply piece_plain; reflexivity.
Lemma piece_key k : scan SOut (writeKeyName (lit k)) = Some SOut -> piece (writeKeyName (lit k)) True.
Proof. apply piece_plain. Qed.
Lemma piece_str k s : scan SOut (writeKeyName (lit k)) = Some SOut -> piece (writeKvStr (lit k) s) (printable s).
Proof. intros H. eapply piece_iff; [apply piece_app; [apply piece_plain, H|apply piece_value]|tauto]. Qed.
Lemma piece_fmt z : piece (fmt z) True.
Proof. apply piece_plain. eapply (proj1 json_scan). apply Hfmt. Qed.
Lemma piece_int k z : scan SOut (writeKeyName (lit k)) = Some SOut -> piece (writeKvInt fmt (lit k) z) True.
Proof. intros H. eapply piece_iff; [apply piece_app; [apply piece_plain, H|apply piece_fmt]|tauto]. Qed.
Lemma piece_int_key k z : piece (writeKvInt fmt k z) (printable k).
Proof.
  eapply piece_iff; [apply piece_app; [apply piece_app; [apply piece_value|pl]|apply piece_fmt]|tauto].
Qed.

Lemma piece_ref r : piece (writeLabelRef fmt r) (printable (v_str (lbv_name r))).
Proof.
  unfold writeLabelRef. eapply piece_iff;
  [repeat (first [apply piece_str; reflexivity|apply piece_int; reflexivity|apply piece_key; reflexivity|pl|apply piece_app])|tauto].
Qed.
Lemma piece_refs l : piece (writeLabelArray fmt l) (Forall (fun r => printable (v_str (lbv_name r))) (lv_labels l)).
Proof.
  unfold writeLabelArray. eapply piece_iff; [apply piece_app; [pl|apply piece_app; [|pl]]|].
  - apply piece_sep; [reflexivity|intros r _; apply piece_ref].
  - tauto.
Qed.
Lemma piece_opcodes l : Forall unquoted (lv_opcodes l) -> piece (writeOpcodesArray l) (Forall visible (lv_opcodes l)).
Proof.
  intros H. unfold writeOpcodesArray. eapply piece_iff; [apply piece_app; [pl|apply piece_app; [|pl]]|].
  - apply piece_sep with (P := visible); [reflexivity|]. intros o Ho. rewrite Forall_forall in H. apply piece_raw. auto.
  - tauto.
Qed.
Lemma piece_source l : piece (writeSource fmt flt l) (source_printable flt l).
Proof.
  unfold writeSource. cbv zeta. fold (has_source l). destruct (has_source l) eqn:E.
  - eapply piece_iff.
    + apply piece_app; [pl|]. apply piece_app; [|apply piece_app; [|apply piece_app; [pl|apply piece_app; [|apply piece_app; [pl|apply piece_app; [apply piece_int; reflexivity|pl]]]]]].
      * instantiate (1 := True). destruct (negb _); [|pl].
        eapply piece_iff; [apply piece_app; [apply piece_int; reflexivity|pl]|tauto].
      * instantiate (1 := source_printable flt l). unfold source_printable, shown_file, file_value, isMainSource, main_file, J.
        set (f := v_str (sv_file (lv_source l))). destruct (is_nil f); [pl|]. rewrite andb_comm. destruct (_ && _); [pl|].
        destruct (starts_with (lit "/app/") f); (eapply piece_iff; [apply piece_str; reflexivity|]); rewrite E; tauto.
      * instantiate (1 := True). destruct (isMainSource _); pl.
    + tauto.
  - eapply piece_iff; [pl|]. unfold source_printable. destruct (file_value _ _); try tauto. rewrite E. split; [discriminate|auto].
Qed.
Lemma piece_line l : Forall unquoted (lv_opcodes l) -> piece (writeLine fmt flt l) (line_printable flt l).
Proof.
  intros Hu. unfold writeLine. eapply piece_iff.
  - apply piece_app; [pl|]. apply piece_app; [apply piece_key; reflexivity|]. apply piece_app; [apply piece_refs|].
    apply piece_app. { instantiate (1 := Forall visible (lv_opcodes l)). destruct (is_nil (lv_opcodes l)) eqn:E; cbn [negb].
      - apply is_nil_true in E. rewrite E. eapply piece_iff; [pl|]. split; auto.
      - eapply piece_iff; [apply piece_app; [pl|apply piece_app; [apply piece_key; reflexivity|apply piece_opcodes, Hu]]|tauto]. }
    apply piece_app. { instantiate (1 := True). destruct (lv_address l); [|pl]. destruct (negb _); [|pl].
      eapply piece_iff; [apply piece_app; [pl|apply piece_int; reflexivity]|tauto]. }
    apply piece_app; [pl|]. apply piece_app; [apply piece_key; reflexivity|]. apply piece_app; [apply piece_source|].
    apply piece_app. { instantiate (1 := f_compatmode flt = false -> printable (v_str (lv_section l))).
      destruct (f_compatmode flt); [rewrite andb_false_r; eapply piece_iff; [pl|split; [discriminate|auto]]|]. rewrite andb_true_r.
      destruct (is_nil _) eqn:E; cbn [negb].
      - apply is_nil_true in E. rewrite E. eapply piece_iff; [pl|]. split; [intros _ _; constructor|auto].
      - eapply piece_iff; [apply piece_app; [pl|apply piece_str; reflexivity]|tauto]. }
    apply piece_app; [pl|]. apply piece_app; [apply piece_str; reflexivity|pl].
  - unfold line_printable. tauto.
Qed.
Lemma piece_doc lines labels count reproducible clock : Forall (fun l => Forall unquoted (lv_opcodes l)) lines ->
  piece (write fmt flt lines labels count reproducible clock)
        (Forall (line_printable flt) lines /\ Forall (fun p => printable (fst p)) labels).
Proof.
  intros Hu. unfold write. eapply piece_iff.
  - apply piece_app; [pl|]. apply piece_app; [apply piece_key; reflexivity|]. apply piece_app; [pl|].
    apply piece_app; [apply piece_sep with (P := line_printable flt); [reflexivity|]|].
    { intros l Hl. rewrite Forall_forall in Hu. apply piece_line. auto. }
    apply piece_app; [pl|]. apply piece_app.
    { unfold writeLabelDefs. apply piece_app; [apply piece_key; reflexivity|]. apply piece_app; [pl|].
      apply piece_app; [apply piece_sep with (P := fun p => printable (fst p)); [reflexivity|]|pl]. intros p _. apply piece_int_key. }
    apply piece_app. { instantiate (1 := True). destruct (negb _); [|pl]. eapply piece_iff; [apply piece_app; [pl|apply piece_int; reflexivity]|tauto]. }
    apply piece_app; [pl|]. apply piece_app; [apply piece_int; reflexivity|pl].
  - tauto.
Qed.

(** Valid exactly if no string shown holds a control character other than tab, and no opcode a control character. *)
Lemma doc_valid_iff lines labels count reproducible clock : Forall (fun l => Forall unquoted (lv_opcodes l)) lines ->
  (exists v, json_text (write fmt flt lines labels count reproducible clock) v) <->
  Forall (line_printable flt) lines /\ Forall (fun p => printable (fst p)) labels.
Proof.
  intros Hu. split.
  - intros (v & Hv). apply json_text_scan in Hv. apply (piece_doc lines labels count reproducible clock Hu). congruence.
  - intros [H1 H2]. eexists. exists [], (write fmt flt lines labels count reproducible clock), [].
    rewrite app_nil_r. split; [reflexivity|]. split; [constructor|]. split; [constructor|]. now apply doc_jvalue.
Qed.
End Control.
