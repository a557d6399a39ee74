(** C60: character counting.  C62: CUDA labels.  C64: command line options. *)
From Verif Require Export RegexCaps UtilIgnore ObjRefs Cli Utf8.

(** *** C60 *)
(** What the C library promises in a UTF-8 locale for well-formed text. *)
Definition utf8_locale (mb : str -> Z) : Prop :=
  forall cp t, scalar cp -> mb (utf8 cp ++ t) = Z.of_nat (length (utf8 cp)).

Lemma code_byte z : 0 <= z < 256 -> code (byte z) = z.
Proof. apply ascii_code. Qed.

Lemma utf8_nonempty cp : exists c t, utf8 cp = c :: t.
Proof. unfold utf8. repeat destruct (_ <? _); eauto. Qed.

Ltac dm := Z.div_mod_to_equations; lia.

Lemma mblen_utf8_ok : utf8_locale mblen_utf8.
Proof.
  intros cp t H. unfold utf8, scalar in *.
  assert (Ht : forall b, (b = true -> False) -> b = false) by (intros []; intuition).
  destruct (cp <? 128) eqn:E1; [|destruct (cp <? 2048) eqn:E2; [|destruct (cp <? 65536) eqn:E3]];
    cbn [app length mblen_utf8]; unfold cont; rewrite !code_byte by (clear Ht; dm).
  - replace (cp =? 0) with false by lia. rewrite E1. reflexivity.
  - replace (192 + cp / 64 =? 0) with false by dm. replace (192 + cp / 64 <? 128) with false by dm.
    replace ((194 <=? 192 + cp / 64) && (192 + cp / 64 <=? 223)) with true by dm.
    replace ((128 <=? 128 + cp mod 64) && (128 + cp mod 64 <=? 191)) with true by dm. reflexivity.
  - replace (224 + cp / 4096 =? 0) with false by dm. replace (224 + cp / 4096 <? 128) with false by dm.
    replace ((194 <=? 224 + cp / 4096) && (224 + cp / 4096 <=? 223)) with false by dm.
    replace ((224 <=? 224 + cp / 4096) && (224 + cp / 4096 <=? 239)) with true by dm.
    replace ((128 <=? 128 + cp / 64 mod 64) && (128 + cp / 64 mod 64 <=? 191)) with true by dm.
    replace ((128 <=? 128 + cp mod 64) && (128 + cp mod 64 <=? 191)) with true by dm.
    replace ((224 + cp / 4096 =? 224) && (128 + cp / 64 mod 64 <? 160)) with false by dm.
    replace ((224 + cp / 4096 =? 237) && (159 <? 128 + cp / 64 mod 64)) with false by dm.
    reflexivity.
  - replace (240 + cp / 262144 =? 0) with false by dm. replace (240 + cp / 262144 <? 128) with false by dm.
    replace ((194 <=? 240 + cp / 262144) && (240 + cp / 262144 <=? 223)) with false by dm.
    replace ((224 <=? 240 + cp / 262144) && (240 + cp / 262144 <=? 239)) with false by dm.
    replace ((240 <=? 240 + cp / 262144) && (240 + cp / 262144 <=? 244)) with true by dm.
    replace ((128 <=? 128 + cp / 4096 mod 64) && (128 + cp / 4096 mod 64 <=? 191)) with true by dm.
    replace ((128 <=? 128 + cp / 64 mod 64) && (128 + cp / 64 mod 64 <=? 191)) with true by dm.
    replace ((128 <=? 128 + cp mod 64) && (128 + cp mod 64 <=? 191)) with true by dm.
    replace ((240 + cp / 262144 =? 240) && (128 + cp / 4096 mod 64 <? 144)) with false by dm.
    replace ((240 + cp / 262144 =? 244) && (143 <? 128 + cp / 4096 mod 64)) with false by dm.
    reflexivity.
Qed.

Lemma ustrlen_loop_le mb fuel : forall s, 0 <= ustrlen_loop mb fuel s <= Z.of_nat (length s).
Proof.
  induction fuel as [|k IH]; intros s; cbn [ustrlen_loop]; [lia|].
  destruct s as [|c s]; [cbn; lia|]. destruct (mb (c :: s) <? 1) eqn:E1; [cbn [length]; lia|].
  destruct (mb (c :: s) <? Z.of_nat (length (c :: s))) eqn:E2; [|cbn [length]; lia].
  specialize (IH (skipn (Z.to_nat (mb (c :: s))) (c :: s))). rewrite skipn_length in IH.
  cbn [length] in *. lia.
Qed.
Lemma C60_le mb s : 0 <= ustrlen mb s <= Z.of_nat (length s).
Proof. apply ustrlen_loop_le. Qed.

Lemma ustrlen_loop_utf8 mb cps : utf8_locale mb -> Forall scalar cps -> forall fuel,
  (length (flat_map utf8 cps) <= fuel)%nat -> ustrlen_loop mb fuel (flat_map utf8 cps) = Z.of_nat (length cps).
Proof.
  intros Hmb. induction 1 as [|cp cps Hcp Hcps IH]; intros fuel Hf.
  - destruct fuel; reflexivity.
  - cbn [flat_map] in *. destruct (utf8_nonempty cp) as (c & t & E).
    assert (Hl : length (utf8 cp) = S (length t)) by (rewrite E; reflexivity).
    rewrite app_length in Hf. destruct fuel as [|k]; [lia|].
    cbn [ustrlen_loop]. pose proof (Hmb cp (flat_map utf8 cps) Hcp) as Hm.
    destruct (utf8 cp ++ flat_map utf8 cps) as [|x l] eqn:E2; [rewrite E in E2; discriminate|].
    rewrite Hm. rewrite <- E2. rewrite app_length, Nat2Z.id, skipn_len_app.
    replace (Z.of_nat (length (utf8 cp)) <? 1) with false by lia.
    destruct (Z.of_nat (length (utf8 cp)) <? Z.of_nat (length (utf8 cp) + length (flat_map utf8 cps))) eqn:E3.
    + rewrite IH by lia. cbn [length]. lia.
    + assert (Hn : flat_map utf8 cps = []) by (destruct (flat_map utf8 cps); [reflexivity|cbn in E3; lia]).
      destruct cps as [|cp2 cps]; [reflexivity|]. exfalso. cbn in Hn. destruct (utf8_nonempty cp2) as (c2 & t2 & E4).
      rewrite E4 in Hn. discriminate.
Qed.
Lemma C60_utf8 mb cps : utf8_locale mb -> Forall scalar cps -> ustrlen mb (flat_map utf8 cps) = Z.of_nat (length cps).
Proof. intros. now apply ustrlen_loop_utf8. Qed.

(** *** C62 *)
(** .entry or .func, blanks, perhaps a parenthesised part, a name, and an open
    parenthesis at the end of the line. *)
Definition cuda_line (line kw name : str) : Prop :=
  exists a sp par, line = a ++ lit "." ++ kw ++ sp ++ par ++ name ++ lit "(" /\
    (kw = lit "entry" \/ kw = lit "func") /\ sp <> [] /\ Forall (fun c => is_hspace c = true) sp /\
    (par = [] \/ exists inside sp2, par = lit "(" ++ inside ++ lit ")" ++ sp2 /\ ~ In ")"%char inside /\
                                    Forall (fun c => is_hspace c = true) sp2) /\
    exists c t, name = c :: t /\ idstartD c = true /\ Forall (fun c => idchar c = true) t.

Lemma cuda_den a u : den cudaBeginDef a u [] -> exists kw name, cuda_line (a ++ u) kw name.
Proof.
  unfold cudaBeginDef. cbn [Seqs]. intros H.
  apply den_seq_iff in H as (x1 & y1 & -> & H1 & H). apply den_chr_iff in H1.
  apply den_seq_iff in H as (kw & y2 & -> & H2 & H). rewrite den_grp_iff, den_alt_iff, !den_L_iff in H2.
  apply den_seq_iff in H as (sp & y3 & -> & H3 & H). apply den_hp_iff in H3 as [H3 H3'].
  apply den_seq_iff in H as (par & y4 & -> & H4 & H).
  apply den_seq_iff in H as (name & y5 & -> & H5 & H). rewrite den_grp_iff in H5.
  apply den_seq_eol in H as [_ H]. apply den_chr_iff in H.
  exists kw, name, a, sp, par. subst. repeat split; auto.
  - rewrite den_opt_iff in H4. destruct H4 as [H4|H4]; [now left|right].
    apply den_seq_iff in H4 as (p1 & p2 & -> & Hp1 & H4). apply den_chr_iff in Hp1. subst.
    apply den_seq_iff in H4 as (inside & p4 & -> & Hp3 & H4). apply den_star_cls_iff in Hp3.
    apply den_seq_iff in H4 as (p5 & sp2 & -> & Hp5 & H4). apply den_chr_iff in Hp5. subst.
    apply den_hs_iff in H4. exists inside, sp2. repeat split; auto.
    intros Hin. rewrite Forall_forall in Hp3. specialize (Hp3 _ Hin). cbn in Hp3. discriminate.
  - apply den_seq_iff in H5 as (p1 & t & -> & Hp1 & H5). apply den_cls_iff in Hp1 as (c & -> & Hc).
    apply den_star_cls_iff in H5. exists c, t. auto.
Qed.

Lemma cuda_den_back a sp par kw name :
  (kw = lit "entry" \/ kw = lit "func") -> sp <> [] -> Forall (fun c => is_hspace c = true) sp ->
  (par = [] \/ exists inside sp2, par = lit "(" ++ inside ++ lit ")" ++ sp2 /\ ~ In ")"%char inside /\
                                    Forall (fun c => is_hspace c = true) sp2) ->
  (exists c t, name = c :: t /\ idstartD c = true /\ Forall (fun c => idchar c = true) t) ->
  den cudaBeginDef a (lit "." ++ kw ++ sp ++ par ++ name ++ lit "(") [].
Proof.
  intros H1 H2 H3 H4 (c & t & -> & Hc & Ht). unfold cudaBeginDef. cbn [Seqs].
  apply den_seq; [now apply den_chr_iff|].
  apply den_seq; [apply den_grp, den_alt_iff; rewrite !den_L_iff; exact H1|].
  apply den_seq; [now apply den_hp_iff|].
  apply den_seq.
  - apply den_opt_iff. destruct H4 as [->|(inside & sp2 & -> & Hi & Hs)]; [now left|right].
    apply den_seq; [now apply den_chr_iff|]. apply den_seq.
    + apply den_star_cls_iff. apply Forall_forall. intros d Hd. apply negb_true_iff, ceq_false. intros ->. contradiction.
    + apply den_seq; [now apply den_chr_iff|now apply den_hs_iff].
  - apply den_seq.
    + apply den_grp. change (c :: t) with ([c] ++ t). apply den_seq; [now constructor|now apply den_star_cls_iff].
    + apply den_seq_eol. split; [reflexivity|now apply den_chr_iff].
Qed.

Lemma C62_lemma line :
  (forall x, getCudaLabel line = Some x -> x = lit "entry" \/ x = lit "func") /\
  (getCudaLabel line <> None <-> exists kw name, cuda_line line kw name).
Proof.
  unfold getCudaLabel. split.
  - intros x H. destruct (re_search cudaBeginDef line) as [st|] eqn:E; [|discriminate]. cbn in H. injection H as <-.
    destruct (caps_of_cap cudaBeginDef line st 1 (search_caps _ _ _ E) eq_refl) as (a & pre & post & Hin & _ & Hd).
    cbn in Hin. destruct Hin as [Hin|[Hin|[]]]; [|discriminate]. injection Hin as <-.
    change (den (Alt (L "entry") (L "func")) pre (cap 1 st) post) in Hd.
    apply den_alt_iff in Hd as [Hd|Hd]; apply den_L_iff in Hd; auto.
  - split.
    + intros H. destruct (re_search cudaBeginDef line) as [st|] eqn:E; [|cbn in H; congruence].
      destruct (re_search_some _ _ _ E) as (a & u & Hs & _ & Hd & _).
      assert (Hnil : m_rest st = []).
      { unfold cudaBeginDef in Hd. cbn [Seqs] in Hd. repeat (apply den_seq_iff in Hd as (? & ? & -> & _ & Hd)).
        now apply den_eol_iff in Hd as [Hd _]. }
      rewrite Hnil in *. rewrite app_nil_r in Hs. rewrite Hs. now apply cuda_den.
    + intros (kw & name & a & sp & par & -> & H1 & H2 & H3 & H4 & H5) E.
      assert (Hs : is_some (re_search cudaBeginDef (a ++ lit "." ++ kw ++ sp ++ par ++ name ++ lit "(")) = true).
      { apply re_search_den. exists a, (lit "." ++ kw ++ sp ++ par ++ name ++ lit "("), [].
        rewrite app_nil_r. split; [reflexivity|]. now apply cuda_den_back. }
      destruct (re_search cudaBeginDef _); discriminate.
Qed.

(** *** C64 *)
Definition has_arg (s : string) (args : list str) : bool := existsb (fun a => str_eqb a (lit s)) args.
Definition options : list string :=
  ["-binary"; "-unused_labels"; "-directives"; "-comment_only"; "-whitespace"; "-plt"; "-nocompat";
   "-library_functions"; "-dont_mask_filenames"; "-debugdump"; "-outputtext"; "-stdin"]%string.
Definition is_option (a : str) : bool := existsb (fun o => str_eqb a (lit o)) options.
Definition last_name (args : list str) : str := last (filter (fun a => negb (is_option a)) args) [].

Lemma has_arg_snoc s args a : has_arg s (args ++ [a]) = has_arg s args || str_eqb a (lit s).
Proof. unfold has_arg. rewrite existsb_app. cbn. now rewrite orb_false_r. Qed.
Lemma last_name_snoc args a : last_name (args ++ [a]) = if is_option a then last_name args else a.
Proof.
  unfold last_name. rewrite filter_app. cbn [filter]. destruct (is_option a); cbn [negb]; [now rewrite app_nil_r|]. apply last_last.
Qed.

(** At most one of the tests of an else-if chain succeeds. *)
Fixpoint exclusive (l : list bool) : Prop := match l with [] => True | b :: t => (b = true -> Forall (eq false) t) /\ exclusive t end.
Lemma exclusive_tests (a : str) l : NoDup l -> exclusive (map (str_eqb a) l).
Proof.
  induction 1 as [|x l Hx Hl IH]; cbn; [exact I|]. split; [|exact IH].
  intros E. apply str_eqb_eq in E. subst. apply Forall_forall. intros b Hb. apply in_map_iff in Hb as (y & <- & Hy).
  symmetry. apply not_true_iff_false. intros E. apply str_eqb_eq in E. subst. contradiction.
Qed.
Lemma options_nodup : NoDup (map lit options).
Proof.
  assert (E : nodup (list_eq_dec ascii_dec) (map lit options) = map lit options) by (vm_compute; reflexivity).
  rewrite <- E. apply NoDup_nodup.
Qed.

Lemma option_step_fields b ul lf di co ws pl dm cm cd fn us ic dd ot a :
  option_step (mkConfig (mkFilter b ul lf di co ws pl dm cm cd) fn us ic dd ot) a =
  let t (s : string) := str_eqb a (lit s) in
  mkConfig (mkFilter (b || t "-binary"%string) (ul || t "-unused_labels"%string) (lf || t "-library_functions"%string) (di || t "-directives"%string)
                     (co || t "-comment_only"%string) (ws || t "-whitespace"%string) (pl || t "-plt"%string) (dm || t "-dont_mask_filenames"%string)
                     (cm && negb (t "-nocompat"%string)) cd)
           (if is_option a then fn else a) (us || t "-stdin"%string) (ic || t "-stdin"%string || negb (is_option a))
           (dd || t "-debugdump"%string) (ot || t "-outputtext"%string).
Proof.
  pose proof (exclusive_tests a _ options_nodup) as X. cbn [map options] in X.
  unfold is_option, options, option_step, arg_is. cbn [existsb]. cbv zeta.
  repeat match goal with |- context [str_eqb a (lit ?s)] => generalize dependent (str_eqb a (lit s)); intros ? X end.
  cbn [exclusive] in X. unfold with_filter.
  cbn [c_filter c_filename c_useStdin c_isConfigured c_doDebugDump c_outputText f_binary f_unused_labels f_library_functions
       f_directives f_comment_only f_whitespace f_plt f_dont_mask_filenames f_compatmode f_code_only].
  repeat match type of X with
  | (?b = true -> _) /\ _ => destruct X as [X1 X]; destruct b;
      [specialize (X1 eq_refl);
       repeat match type of X1 with Forall _ (_ :: _) => apply Forall_cons_iff in X1 as [<- X1] end;
       clear; cbn [orb negb]; rewrite ?orb_false_r, ?orb_true_r, ?andb_true_r, ?andb_false_r; reflexivity|clear X1]
  end.
  clear. cbn [orb negb]. rewrite ?orb_false_r, ?orb_true_r, ?andb_true_r. reflexivity.
Qed.

Lemma C64_lemma args :
  let c := getConfigurationFromCommandline args in
  c_filter c = mkFilter (has_arg "-binary" args) (has_arg "-unused_labels" args) (has_arg "-library_functions" args)
                        (has_arg "-directives" args) (has_arg "-comment_only" args) (has_arg "-whitespace" args)
                        (has_arg "-plt" args) (has_arg "-dont_mask_filenames" args) (negb (has_arg "-nocompat" args)) false /\
  c_useStdin c = has_arg "-stdin" args /\ c_doDebugDump c = has_arg "-debugdump" args /\
  c_outputText c = has_arg "-outputtext" args /\ c_filename c = last_name args /\
  c_isConfigured c = has_arg "-stdin" args || existsb (fun a => negb (is_option a)) args.
Proof.
  unfold getConfigurationFromCommandline. induction args as [|a args IH] using rev_ind; [now cbn|].
  rewrite fold_left_app. cbn [fold_left]. cbv zeta in IH. set (c := fold_left option_step args config0) in *.
  clearbody c. destruct c as [f fn us ic dd ot].
  cbn [c_filter c_filename c_useStdin c_isConfigured c_doDebugDump c_outputText] in IH. destruct IH as (-> & -> & -> & -> & -> & ->).
  rewrite option_step_fields. cbv zeta. cbn [c_filter c_filename c_useStdin c_isConfigured c_doDebugDump c_outputText].
  rewrite !has_arg_snoc, last_name_snoc, existsb_app. cbn [existsb]. rewrite negb_orb, orb_false_r.
  repeat split. destruct (has_arg "-stdin" args), (existsb (fun a => negb (is_option a)) args), (str_eqb a (lit "-stdin")); reflexivity.
Qed.
