(** The line recognisers of the text parser in terms of plain text (C65-C71). *)
From Verif Require Export RegexHead AsmLoc.

Lemma search_start r s : is_some (re_search (Seq Bol (Seq HS r)) s) = true <->
  exists u t v, s = u ++ t ++ v /\ blanks u /\ den r u t v.
Proof.
  rewrite re_search_den. split.
  - intros (a & x & b & -> & H). rewrite den_bol_seq in H. destruct H as [-> H]. rewrite den_seq_iff in H.
    destruct H as (u & t & -> & Hu & H). rewrite den_hs_iff in Hu. exists u, t, b. cbn [app]. rewrite <- app_assoc.
    split; [reflexivity|]. split; [now apply blanks_iff|exact H].
  - intros (u & t & v & -> & Hu & H). exists [], (u ++ t), v. cbn [app]. rewrite <- app_assoc. split; [reflexivity|].
    rewrite den_bol_seq. split; [reflexivity|]. apply den_seq; [apply den_hs_iff; now apply blanks_iff|exact H].
Qed.
Lemma match_start r s : is_some (re_match (Seq Bol (Seq HS r)) s) = true <->
  exists u t, s = u ++ t /\ blanks u /\ den r u t [].
Proof.
  rewrite re_match_den, den_bol_seq, den_seq_iff. split.
  - intros (_ & u & t & -> & Hu & H). rewrite den_hs_iff in Hu. exists u, t. split; [reflexivity|]. split; [now apply blanks_iff|exact H].
  - intros (u & t & -> & Hu & H). split; [reflexivity|]. exists u, t. split; [reflexivity|].
    split; [apply den_hs_iff; now apply blanks_iff|exact H].
Qed.

(** *** C65 *)
Lemma directive_iff l : isDirective l = true <-> begins "." l.
Proof.
  unfold isDirective, directive. cbn [Seqs]. rewrite match_start. split.
  - intros (u & t & -> & Hu & H). rewrite den_seq_iff in H. destruct H as (x & y & -> & Hx & _). rewrite den_chr_iff in Hx. subst x.
    exists u, y. split; [reflexivity|exact Hu].
  - intros (u & r & -> & Hu). exists u, (lit "." ++ r). split; [reflexivity|]. split; [exact Hu|].
    apply den_seq; [now apply den_chr_iff|]. apply den_seq_eol. split; [reflexivity|now apply den_anystar_iff].
Qed.
Lemma start_comment_iff l : startCommentBlock l = true <-> begins "/*" l.
Proof.
  unfold startCommentBlock, blockCommentStart. cbn [Seqs]. rewrite search_start. split.
  - intros (u & t & v & -> & Hu & H). rewrite den_L_iff in H. subst t. exists u, v. split; [reflexivity|exact Hu].
  - intros (u & r & -> & Hu). exists u, (lit "/*"), r. split; [reflexivity|]. split; [exact Hu|now apply den_L_iff].
Qed.
Lemma search_lit w t : is_some (re_search (L w) t) = true <-> occurs w t.
Proof.
  rewrite re_search_den. split.
  - intros (a & u & b & -> & H). apply den_L_iff in H. subst u. now exists a, b.
  - intros (a & b & ->). exists a, (lit w), b. split; [reflexivity|now apply den_L_iff].
Qed.
Lemma end_comment_iff l : endCommentBlock l = true <-> occurs "*/" l.
Proof. apply search_lit. Qed.
Lemma end_proc_iff l : endProcBlock l = true <-> occurs ".cfi_endproc" l.
Proof. apply search_lit. Qed.
Lemma hs_word_iff w l : is_some (re_match (Seqs [HS; L w; AnyStar]) l) = true <-> begins w l.
Proof.
  rewrite re_match_den. cbn [Seqs]. rewrite den_seq_iff. split.
  - intros (u & t & -> & Hu & H). rewrite den_seq_iff in H. destruct H as (x & y & -> & Hx & _). rewrite den_L_iff in Hx. subst x.
    rewrite den_hs_iff in Hu. exists u, y. split; [reflexivity|now apply blanks_iff].
  - intros (u & r & -> & Hu). exists u, (lit w ++ r). split; [reflexivity|].
    split; [apply den_hs_iff; now apply blanks_iff|]. apply den_seq; [now apply den_L_iff|now apply den_anystar_iff].
Qed.
Lemma cuda_end_iff l : isCudaEndDef l = true <-> exists u v, l = u ++ lit ")" ++ v /\ blanks u /\ blanks v.
Proof.
  unfold isCudaEndDef, cudaEndDef. cbn [Seqs]. rewrite match_start. split.
  - intros (u & t & -> & Hu & H). rewrite den_seq_iff in H. destruct H as (x & y & -> & Hx & H). rewrite den_chr_iff in Hx. subst x.
    rewrite den_seq_eol in H. destruct H as [_ H]. rewrite den_hs_iff in H. exists u, y.
    split; [reflexivity|]. split; [exact Hu|now apply blanks_iff].
  - intros (u & v & -> & Hu & Hv). exists u, (lit ")" ++ v). split; [reflexivity|]. split; [exact Hu|].
    apply den_seq; [now apply den_chr_iff|]. apply den_seq_eol. split; [reflexivity|]. apply den_hs_iff. now apply blanks_iff.
Qed.

Definition data_words : list string := ["string"; "asciz"; "ascii"; "base64"; "byte"; "1byte"; "2byte"; "4byte"; "8byte"; "short"; "half";
  "word"; "dword"; "hword"; "xword"; "long"; "quad"; "octa"; "value"; "zero"]%string.
Lemma opt_cls_iff s a pre u post : den (Opt (Cls (one_of s))) pre u post /\ a = u <-> (u = [] \/ exists c, u = [c] /\ In c (lit s)) /\ a = u.
Proof.
  rewrite den_opt_iff, den_cls_iff. split; intros [H ->]; (split; [|reflexivity]); destruct H as [->|(c & -> & H)]; auto;
    right; exists c; (split; [reflexivity|]).
  - unfold one_of in H. apply existsb_exists in H as (d & Hd & E). apply ceq_true in E. now subst.
  - unfold one_of. apply existsb_exists. exists c. split; [exact H|now apply ceq_true].
Qed.
Lemma data_iff l : isDataDefn l = true <-> exists w, In w data_words /\ begins (String "." w) l.
Proof.
  unfold isDataDefn, dataDefn. cbn [Seqs]. rewrite search_start. split.
  - intros (u & t & v & -> & Hu & H). rewrite den_seq_iff in H. destruct H as (x & y & -> & Hx & H). rewrite den_chr_iff in Hx. subst x.
    rewrite den_grp_iff in H. cbn [Alts] in H. rewrite !den_alt_iff, !den_L_iff, !den_seq_iff in H.
    assert (G : exists w, In w data_words /\ y = lit w).
    { repeat match goal with H : _ \/ _ |- _ => destruct H as [H|H] end;
        try (subst y; eexists; split; [|reflexivity]; cbn; tauto).
      - destruct H as (x & z & -> & Hx & Hz). apply den_L_iff in Hz. subst z.
        destruct (proj1 (opt_cls_iff _ x _ _ _) (conj Hx eq_refl)) as [[->|(c & -> & Hc)] _].
        + exists "byte"%string. split; [cbn; tauto|reflexivity].
        + cbn in Hc. destruct Hc as [<-|[<-|[<-|[<-|[]]]]]; eexists (String _ "byte"); (split; [|reflexivity]); cbn; tauto.
      - destruct H as (x & z & -> & Hx & Hz). apply den_L_iff in Hz. subst z.
        destruct (proj1 (opt_cls_iff _ x _ _ _) (conj Hx eq_refl)) as [[->|(c & -> & Hc)] _].
        + exists "word"%string. split; [cbn; tauto|reflexivity].
        + cbn in Hc. destruct Hc as [<-|[<-|[<-|[]]]]; eexists (String _ "word"); (split; [|reflexivity]); cbn; tauto. }
    destruct G as (w & Hw & ->). exists w. split; [exact Hw|]. exists u, v. split; [|exact Hu]. reflexivity.
  - intros (w & Hw & u & r & -> & Hu). exists u, (lit (String "." w)), r. split; [reflexivity|]. split; [exact Hu|].
    change (lit (String "." w)) with ([("."%char)] ++ lit w). apply den_seq; [now apply den_chr_iff|]. apply den_grp.
    cbn [Alts]. rewrite !den_alt_iff, !den_L_iff, !den_seq_iff.
    cbn [In data_words] in Hw.
    repeat match goal with H : _ \/ _ |- _ => destruct H as [H|H] end; try contradiction; subst w; try tauto.
    all: match goal with |- context [den (L ?k)] => idtac end.
    all: first [ do 4 right; left; first [exists [], (lit "byte"); split; [reflexivity|]; split; [apply den_opt_iff; now left|now apply den_L_iff]
                                         | eexists [_], (lit "byte"); split; [reflexivity|]; split; [apply den_opt_iff; right; apply den_cls_iff; eexists; split; reflexivity|now apply den_L_iff]]
               | do 7 right; left; first [exists [], (lit "word"); split; [reflexivity|]; split; [apply den_opt_iff; now left|now apply den_L_iff]
                                         | eexists [_], (lit "word"); split; [reflexivity|]; split; [apply den_opt_iff; right; apply den_cls_iff; eexists; split; reflexivity|now apply den_L_iff]] ].
Qed.
Lemma inst_iff l : isInstOpcode l = true <-> occurs ".inst" l.
Proof.
  unfold isInstOpcode, instOpcodeRe. rewrite re_search_den. cbn [Seqs]. split.
  - intros (a & u & b & -> & H). rewrite den_seq_iff in H. destruct H as (x & y & -> & Hx & _). rewrite den_grp_iff, den_seq_iff in Hx.
    destruct Hx as (p & q & -> & Hp & _). rewrite den_L_iff in Hp. subst p. exists a, (q ++ y ++ b). now rewrite <- !app_assoc.
  - intros (a & b & ->). exists a, (lit ".inst"), b. split; [reflexivity|].
    rewrite <- (app_nil_r (lit ".inst")). apply den_seq.
    + apply den_grp. rewrite <- (app_nil_r (lit ".inst")). apply den_seq; [now apply den_L_iff|].
      change (@nil ascii) with (@nil ascii ++ []). apply den_seq; apply den_opt_iff; now left.
    + change (@nil ascii) with (@nil ascii ++ []). apply den_seq; [apply den_hs_iff; constructor|]. apply den_grp. now apply den_anystar_iff.
Qed.
Lemma example_iff f : isExampleOrStdin f = true <->
  occurs "<stdin>" f \/ f = lit "-" \/ (exists a b, f = a ++ lit "example." ++ b /\ b <> [] /\ ~ In "/"%char b) \/ occurs "<source>" f.
Proof.
  unfold isExampleOrStdin, stdInLooking. rewrite re_search_den. cbn [Alts Seqs]. split.
  - intros (a & u & b & -> & H). rewrite !den_alt_iff, !den_L_iff in H. destruct H as [->|[H|[H| ->]]].
    + left. now exists a, b.
    + right. left. rewrite den_bol_seq in H. destruct H as [-> H]. rewrite den_seq_eol in H. destruct H as [-> H].
      rewrite den_chr_iff in H. subst u. reflexivity.
    + right. right. left. rewrite den_seq_iff in H. destruct H as (x & y & -> & Hx & H). rewrite den_L_iff in Hx. subst x.
      rewrite den_seq_eol in H. destruct H as [-> H]. rewrite den_plus_iff in H. destruct H as [H0 H]. exists a, y.
      rewrite app_nil_r. split; [reflexivity|]. split; [exact H0|]. intros Hi. rewrite Forall_forall in H. specialize (H _ Hi). cbn in H. discriminate H.
    + right. right. right. now exists a, b.
  - intros [(a & b & ->)|[->|[(a & b & -> & Hb & Hi)|(a & b & ->)]]].
    + exists a, (lit "<stdin>"), b. split; [reflexivity|]. rewrite !den_alt_iff, !den_L_iff. now left.
    + exists [], (lit "-"), []. split; [reflexivity|]. rewrite !den_alt_iff. right. left. rewrite den_bol_seq, den_seq_eol, den_chr_iff. auto.
    + exists a, (lit "example." ++ b), []. rewrite app_nil_r. split; [reflexivity|]. rewrite !den_alt_iff. right. right. left.
      apply den_seq; [now apply den_L_iff|]. apply den_seq_eol. split; [reflexivity|]. apply den_plus_iff. split; [exact Hb|].
      apply Forall_forall. intros c Hc. apply negb_true_iff, ceq_false. intros ->. contradiction.
    + exists a, (lit "<source>"), b. split; [reflexivity|]. rewrite !den_alt_iff, !den_L_iff. tauto.
Qed.

(** *** C66 *)
Definition starts (w : string) (t : str) : Prop := exists r, t = lit w ++ r.
Definition space (c : char) : Prop := c = SP \/ 9 <= code c <= 13.
Definition spaces (u : str) : Prop := Forall space u.
Lemma space_iff c : is_space c = true <-> space c.
Proof.
  unfold is_space, in_range, space. rewrite orb_true_iff, ceq_true, andb_true_iff, !Z.leb_le.
  change (code TAB) with 9. change (code CR) with 13. tauto.
Qed.
Lemma spaces_iff u : Forall (fun c => is_space c = true) u <-> spaces u.
Proof. unfold spaces. split; apply Forall_impl; intros c; apply space_iff. Qed.
Definition enclosed (t : str) : Prop := exists m, t = lit "/*" ++ m ++ lit "*/".
Lemma enclosed_iff pre t post : den (Seqs [L "/*"; AnyStar; L "*/"]) pre t post <-> enclosed t.
Proof.
  cbn [Seqs]. rewrite den_seq_iff. split.
  - intros (x & y & -> & Hx & H). rewrite den_L_iff in Hx. subst x. rewrite den_seq_iff in H. destruct H as (x & z & -> & _ & H).
    rewrite den_L_iff in H. subst z. now exists x.
  - intros (y & ->). exists (lit "/*"), (y ++ lit "*/"). split; [reflexivity|]. split; [now apply den_L_iff|].
    apply den_seq; [now apply den_anystar_iff|now apply den_L_iff].
Qed.
Lemma all_spaces_or u : Forall (fun c => is_space c = true) u \/ exists a c b, u = a ++ c :: b /\ is_space c = false.
Proof.
  induction u as [|d u [IH|(a & c & b & -> & H)]].
  - left. constructor.
  - destruct (is_space d) eqn:E; [left; now constructor|]. right. now exists [], d, u.
  - right. now exists (d :: a), c, b.
Qed.
Lemma comments_iff l : isJustComments l = true <-> exists u t, l = u ++ t /\ blanks u /\
  (starts "#" t \/ starts "@" t \/ starts "//" t \/ enclosed t \/
   exists r, t = ";"%char :: r /\ ~ exists q, r = ";"%char :: q /\ spaces q).
Proof.
  unfold isJustComments, commentOnly. cbn [Seqs]. rewrite match_start.
  split; intros (u & t & -> & Hu & H); exists u, t; (split; [reflexivity|split; [exact Hu|]]); clear Hu.
  - rewrite den_seq_eol in H. destruct H as [_ H]. rewrite den_grp_iff in H. cbn [Alts] in H. rewrite !den_alt_iff, !den_grp_iff in H.
    destruct H as [H|[H|[H|[H|H]]]].
    + rewrite den_seq_iff in H. destruct H as (x & y & -> & H & _). rewrite den_grp_iff, !den_alt_iff, !den_chr_iff, den_L_iff in H.
      destruct H as [-> |[-> | ->]]; [left|right; left|right; right; left]; now exists y.
    + right. right. right. left. now apply enclosed_iff in H.
    + rewrite den_seq_iff in H. destruct H as (x & y & -> & Hx & H). rewrite den_chr_iff in Hx. subst x. rewrite den_star_cls_iff in H.
      right. right. right. right. exists y. split; [reflexivity|]. intros (q & -> & _). inversion H; subst. discriminate H2.
    + rewrite den_seq_iff in H. destruct H as (x & y & -> & Hx & H). rewrite den_chr_iff in Hx. subst x.
      rewrite den_seq_iff in H. destruct H as (x & z & -> & Hx & _). rewrite den_cls_iff in Hx. destruct Hx as (c & -> & Hc).
      right. right. right. right. exists ([c] ++ z). split; [reflexivity|]. intros (q & E & _). injection E as -> _. discriminate Hc.
    + rewrite den_seq_iff in H. destruct H as (x & y & -> & Hx & H). rewrite den_L_iff in Hx. subst x.
      rewrite den_seq_iff in H. destruct H as (x & z & -> & _ & H). rewrite den_seq_iff in H. destruct H as (w & v & -> & Hw & _).
      rewrite den_cls_iff in Hw. destruct Hw as (c & -> & Hc).
      right. right. right. right. eexists. split; [reflexivity|]. intros (q & E & Hq). injection E as <-.
      apply Forall_app in Hq as [_ Hq]. inversion Hq; subst. apply space_iff in H1. now rewrite H1 in Hc.
  - apply den_seq_eol. split; [reflexivity|]. apply den_grp. cbn [Alts]. rewrite !den_alt_iff, !den_grp_iff.
    assert (A : forall x r, (x = lit "#" \/ x = lit "@" \/ x = lit "//") ->
       den (Seq (Grp 3 (Alt (Chr "#") (Alt (Chr "@") (L "//")))) AnyStar) u (x ++ r) []).
    { intros x r Hx. apply den_seq; [|now apply den_anystar_iff]. apply den_grp. rewrite !den_alt_iff, !den_chr_iff, den_L_iff. exact Hx. }
    destruct H as [(r & ->)|[(r & ->)|[(r & ->)|[H|(r & -> & H)]]]].
    + left. apply A. tauto.
    + left. apply A. tauto.
    + left. apply A. tauto.
    + right. left. now apply enclosed_iff.
    + right. right. change (";"%char :: r) with ([";"%char] ++ r). destruct r as [|c r].
      { left. apply den_seq; [now apply den_chr_iff|]. apply den_star_cls_iff. constructor. }
      destruct (ceq c ";") eqn:E.
      * apply ceq_true in E. subst c. right. right. destruct (all_spaces_or r) as [Hs|(a & c & b & -> & Hc)].
        { exfalso. apply H. exists r. split; [reflexivity|now apply spaces_iff]. }
        change ([";"%char] ++ ";"%char :: a ++ c :: b) with (lit ";;" ++ a ++ [c] ++ b).
        apply den_seq; [now apply den_L_iff|]. apply den_seq; [now apply den_anystar_iff|].
        apply den_seq; [apply den_cls_iff; exists c; split; [reflexivity|now rewrite Hc]|now apply den_anystar_iff].
      * right. left. apply den_seq; [now apply den_chr_iff|]. change (c :: r) with ([c] ++ r).
        apply den_seq; [apply den_cls_iff; exists c; split; [reflexivity|now rewrite E]|now apply den_anystar_iff].
Qed.
Lemma nvcc_comments_iff l : isJustNvccComments l = true <-> exists u t, l = u ++ t /\ blanks u /\
  (starts "#" t \/ starts ";" t \/ starts "//" t \/ enclosed t).
Proof.
  unfold isJustNvccComments, commentOnlyNvcc. cbn [Seqs]. rewrite match_start.
  split; intros (u & t & -> & Hu & H); exists u, t; (split; [reflexivity|split; [exact Hu|]]); clear Hu.
  - rewrite den_seq_eol in H. destruct H as [_ H]. rewrite den_grp_iff, den_alt_iff, !den_grp_iff in H. destruct H as [H|H].
    + rewrite den_seq_iff in H. destruct H as (x & y & -> & H & _). cbn [Alts] in H. rewrite den_grp_iff, !den_alt_iff, !den_chr_iff, den_L_iff in H.
      destruct H as [-> |[-> | ->]]; [left|right; left|right; right; left]; now exists y.
    + right. right. right. now apply enclosed_iff in H.
  - apply den_seq_eol. split; [reflexivity|]. apply den_grp. rewrite den_alt_iff, !den_grp_iff.
    destruct H as [(r & ->)|[(r & ->)|[(r & ->)|H]]]; [left|left|left|right; now apply enclosed_iff].
    all: apply den_seq; [|now apply den_anystar_iff]; apply den_grp; cbn [Alts]; rewrite !den_alt_iff, !den_chr_iff, den_L_iff; tauto.
Qed.
