(** The whole text parser (src/assembly/parser.cpp:807-842). *)
From Coq Require Import String List ZArith Ascii Bool Lia.
From Verif Require Lemmas.
From Verif Require Import Bytes Types Utils AsmText AsmLemmas AsmRead AsmTrace CppSyntax SourceText SourceAst CppSem AStep AUtil AMap AObj AEol1 AEol AMark1 AMark2 AMark3 AMark4 AMark5.
Import ListNotations.
Local Open Scope string_scope.
Local Open Scope Z_scope.

(** What [n] characters can have done to a fresh parser. *)
Record lean (flt : Filter) (n : nat) (s : tstate) : Prop := {
  le_good : good flt s;
  le_stop : t_stopParsing s = false;
  le_text : (length (t_text s) <= n)%nat;
  le_lines : (length (t_lines s) <= n)%nat;
  le_total : 0 <= t_total_lines s <= Z.of_nat n;
  le_nest : - Z.of_nat n <= t_inCustomAssembly s <= Z.of_nat n }.
Lemma lean_eol mb flt n s : lean flt n s -> lean flt (S n) (eol mb flt s).
Proof.
  intros [Hg Hs Ht Hl Htot Hn]. destruct (eol_lines mb flt s Hg) as (Et & L & HL & Hst). pose proof (same_lines_length _ _ HL) as El.
  pose proof (ls_scan _ _ _ _ (eol_step mb flt s Hg)) as Hsc. unfold scan_of, scan_line in Hsc. cbn [sc_pend sc_block sc_nest] in Hsc. rewrite app_nil_r in Hsc.
  constructor.
  - now apply eol_good.
  - now rewrite eol_stop.
  - revert Hsc. destruct (f_comment_only flt && _); [|destruct (all_blank _)]; cbn [snd]; intros [= -> _ _]; cbn [length]; lia.
  - destruct Hst as [E1 E2|i E1 E2|l E1 E3 E2|l E1 E3 E2]; rewrite E1, ?app_length; cbn [length]; lia.
  - lia.
  - revert Hsc. destruct (f_comment_only flt && _); [|destruct (all_blank _)]; cbn [snd]; intros [= _ _ ->]; try lia. repeat match goal with |- context [if ?b then _ else _] => destruct b end; lia.
Qed.
Lemma lean_char flt n s c : lean flt n s -> lean flt (S n) (set_t_text (t_text s ++ [c])%list s).
Proof.
  intros [Hg Hs Ht Hl Htot Hn]. constructor; tsimp; try assumption; try lia; [now apply good_set_text|]. rewrite app_length. cbn [length]. lia.
Qed.
Lemma lean_step mb flt n s c : lean flt n s -> lean flt (S n) (step mb flt s c).
Proof. intros H. unfold step. rewrite (le_stop _ _ _ H). destruct (ceq c LF); [now apply lean_eol|now apply lean_char]. Qed.

Lemma cr_signed c : (chr_int c =? 13) = ceq c CR. Proof. destruct c as [[] [] [] [] [] [] [] []]; reflexivity. Qed.
Lemma lf_signed c : (chr_int c =? 10) = ceq c LF. Proof. destruct c as [[] [] [] [] [] [] [] []]; reflexivity. Qed.
(** the object, as far as reading looks at it *)
Ltac coarse s :=
  unfold AStep.enc, encS; tsimp_goal;
  generalize (encOL (t_currentLine s)) (VVec VNone (encLs (t_filteredlines s))) (VMap (VStr []) (encFiles (t_files s))) (VVec VNone (encLs (t_lines s)))
    (VMap (VInt I32 0) (encMI (t_labels_defined s))) (VSet (encVs (t_usercode_labels s))) (VMap (VSet []) (encMS (t_used_labels s)))
    (VMap (VSet []) (encMS (t_data_used_labels s))) (VMap (VSet []) (encMS (t_weakly_used_labels s))) (VMap (VStr []) (encMV (t_aliased_labels s)))
    (encSrc (t_lastOwnSource s)) (encSrc (t_currentSourceRef s)); intros.

Section Functions.
Variables (N : nat) (mb : str -> Z) (order : val -> list val) (flt : Filter) (rep : bool) (d : nat).
Hypothesis mb_le : forall s, mb s <= Z.of_nat (length s).
Notation A := (A N mb order).
Notation D := (S (S (S (S (S d))))).
Notation enc s v := (enc flt rep s v).
Notation exec b e := (CppSem.exec N mb asm_tys isfn ismeth (A D) b e).
Notation eval x e := (CppSem.eval mb asm_tys isfn ismeth (A D) x e).
Definition read_cond : expr := ltac:(let x := eval cbv delta [assembly_parser_fromStream] in assembly_parser_fromStream in
  match x with SSeq _ (SSeq _ (SSeq _ (SSeq (SWhile ?c _) _))) => exact c end).
Definition read_body : stmt := ltac:(let x := eval cbv delta [assembly_parser_fromStream] in assembly_parser_fromStream in
  match x with SSeq _ (SSeq _ (SSeq _ (SSeq (SWhile _ ?b) _))) => exact b end).
Definition E (c : ascii) (rest : str) (s : tstate) (v : list str) : env := [("c", VChr c); ("in", VStream rest); ("this", enc s v)].

Lemma eol_here n s v : lean flt n s -> (8 * n < N)%nat -> (8 * n <= S d)%nat -> 8 * Z.of_nat n < 2 ^ 30 ->
  A D "eol" (enc s v) [] = CVal VUnit (enc (eol mb flt s) v).
Proof. intros [Hg Hs Ht Hl Htot Hn] H1 H2 H3. apply src_eol; try assumption; lia. Qed.
Lemma cond_end c s v : t_stopParsing s = false -> eval read_cond (E c [] s v) = Val (VBool false) (E c [] s v).
Proof. intros H. unfold read_cond, E. unfold AStep.enc, encS. rewrite H. coarse s. gor. reflexivity. Qed.
Lemma cond_next c x rest s v : t_stopParsing s = false -> eval read_cond (E c (x :: rest) s v) = Val (VBool true) (E x rest s v).
Proof. intros H. unfold read_cond, E. unfold AStep.enc, encS. rewrite H. coarse s. gor. reflexivity. Qed.
Lemma body_step n x rest s v : lean flt n s -> (8 * n < N)%nat -> (8 * n <= S d)%nat -> 8 * Z.of_nat n < 2 ^ 30 ->
  exists ct, exec read_body (E x rest s v) = Val ct (E x rest (step mb flt s x) v) /\ (ct = Next \/ ct = Continued).
Proof.
  intros H H1 H2 H3. unfold step. rewrite (le_stop _ _ _ H). pose proof (eol_here n s v H H1 H2 H3) as HE. unfold read_body, E.
  destruct (ceq x LF) eqn:K.
  - apply Ascii.eqb_eq in K. subst x. exists Continued. split; [|now right]. clear H. revert HE. generalize (eol mb flt s). intros s1.
    unfold AStep.enc. generalize (encF flt). intros. 
    match type of HE with AStep.A _ _ _ _ _ (VRec ?f) _ = CVal _ (VRec ?g) => revert HE; generalize f g end. intros f g HE.
    gor. change (chr_int LF =? 13) with false. gor. change (chr_int LF =? 10) with true. gor. rewrite HE. gor. reflexivity.
  - exists Next. split; [|now left]. clear H HE. unfold E. coarse s. gor. rewrite cr_signed. destruct (ceq x CR); gor; [reflexivity|]. rewrite lf_signed, K. gor. reflexivity.
Qed.

Notation loop k e := (while_loop k (CppSem.eval mb asm_tys isfn ismeth (A D) read_cond) (CppSem.exec N mb asm_tys isfn ismeth (A D) read_body) (fun e9 : env => Val VUnit e9) e).
Lemma read_all input : forall n c s v k, lean flt n s -> (8 * (n + length input) < N)%nat -> (8 * (n + length input) <= S d)%nat -> 8 * Z.of_nat (n + length input) < 2 ^ 30 ->
  (length input < k)%nat ->
  exists c', loop k (E c input s v) = Val Next (E c' [] (fold_left (step mb flt) input s) v) /\ lean flt (n + length input) (fold_left (step mb flt) input s).
Proof.
  induction input as [|x t IH]; intros n c s v k H H1 H2 H3 Hk; (destruct k as [|k]; [cbn [length] in Hk; lia|]); cbn [length fold_left] in *.
  - exists c. rewrite Nat.add_0_r. split; [|assumption]. apply (while_end _ _ _ _ _ _ _ (cond_end c s v (le_stop _ _ _ H)) eq_refl).
  - destruct (body_step n x t s v H) as (ct & HB & Hct); try lia.
    destruct (IH (S n) x (step mb flt s x) v k) as (c' & HI & HL); try lia; [now apply lean_step|].
    exists c'. split; [|replace (n + S (length t))%nat with (S n + length t)%nat by lia; exact HL].
    rewrite (while_next _ _ (fun e9 : env => @Val val VUnit e9) _ _ _ _ _ _ _ _ (cond_next c x t s v (le_stop _ _ _ H)) eq_refl HB Hct eq_refl). exact HI.
Qed.
Definition read_tail : stmt := ltac:(let x := eval cbv delta [assembly_parser_fromStream] in assembly_parser_fromStream in
  match x with SSeq _ (SSeq _ (SSeq _ (SSeq _ ?t))) => exact t end).
Definition tail_test : expr := ltac:(let x := eval cbv delta [read_tail] in read_tail in match x with SSeq (SIf ?t _ _) _ => exact t end).
Lemma test_text c s v : eval tail_test (E c [] s v) = Val (VBool (negb (is_nil (t_text s)))) (E c [] s v).
Proof. unfold tail_test, E. coarse s. generalize (t_text s). intros. gor. reflexivity. Qed.
Lemma call_void f c s v s' v' b : A D f (enc s v) [] = CVal VUnit (enc s' v') -> In f ["eol"; "filterNonLabels"; "markLabelUsage"; "removeUnused"] ->
  exec (SSeq (SExpr (ECall (EMem (EId "this") f) [])) b) (E c [] s v) = exec b (E c [] s' v').
Proof.
  unfold E. assert (F : forall s0 v0, exists f, enc s0 v0 = VRec f) by (intros; eexists; reflexivity).
  destruct (F s v) as [g ->], (F s' v') as [g' ->]. intros H Hf.
  assert (X : exec (SExpr (ECall (EMem (EId "this") f) [])) [("c", VChr c); ("in", VStream []); ("this", VRec g)] = Val Next [("c", VChr c); ("in", VStream []); ("this", VRec g')]).
  { repeat (destruct Hf as [<-|Hf]; [gor; rewrite H; gor; reflexivity|]). destruct Hf. }
  rewrite exec_seq, X. reflexivity.
Qed.
Lemma tail_end c s v s1 s2 v2 s3 :
  (t_text s <> [] -> A D "eol" (enc s v) [] = CVal VUnit (enc (eol mb flt s) v)) -> s1 = (if negb (is_nil (t_text s)) then eol mb flt s else s) ->
  A D "filterNonLabels" (enc s1 v) [] = CVal VUnit (enc (filterNonLabels s1) v) ->
  A D "markLabelUsage" (enc (filterNonLabels s1) v) [] = CVal VUnit (enc s2 v2) ->
  A D "removeUnused" (enc s2 v2) [] = CVal VUnit (enc s3 v2) ->
  exec read_tail (E c [] s v) = Val Next (E c [] s3 v2).
Proof.
  intros H1 H2 H3 H4 H5. unfold read_tail. rewrite exec_seq, exec_if. pose proof (test_text c s v) as HT. unfold tail_test in HT. rewrite HT. clear HT.
  match goal with |- seqk _ _ _ ?x _ = _ => assert (H0 : x = Val Next (E c [] s1 v)) end.
  { subst s1. destruct (t_text s) as [|a t]; cbn [is_nil negb].
    - reflexivity.
    - cbn [ifk rbind truthy]. unfold ifk, rbind, truthy. rewrite exec_block. rewrite (call_void _ _ _ _ _ _ _ (H1 ltac:(discriminate))) by (cbn; auto). reflexivity. }
  rewrite H0, seqk_next. clear H0.
  rewrite (call_void _ _ _ _ _ _ _ H3) by (cbn; auto). rewrite (call_void _ _ _ _ _ _ _ H4) by (cbn; auto). rewrite (call_void _ _ _ _ _ _ _ H5) by (cbn; auto).
  reflexivity.
Qed.
(** parser.cpp:807-842, the reading part given *)
Lemma src_fromStream input v s2 v2 s3 :
  let s1 := read_lines mb flt tstate0 input in
  (8 * length input < N)%nat -> (8 * length input <= S d)%nat -> 8 * Z.of_nat (length input) < 2 ^ 30 ->
  A D "filterNonLabels" (enc s1 v) [] = CVal VUnit (enc (filterNonLabels s1) v) ->
  A D "markLabelUsage" (enc (filterNonLabels s1) v) [] = CVal VUnit (enc s2 v2) ->
  A D "removeUnused" (enc s2 v2) [] = CVal VUnit (enc s3 v2) ->
  A (S D) "fromStream" (enc tstate0 v) [VStream input] = CVal VUnit (enc s3 v2).
Proof.
  intros s1 HN Hd HZ H3 H4 H5.
  assert (L0 : lean flt 0 (set_t_total_lines 0 tstate0)) by (constructor; cbn; try lia; auto using good0; intros _; now constructor).
  destruct (read_all input 0 Ascii.zero _ v N L0) as (c' & HL & L1); try (cbn [Nat.add]; lia). cbn [Nat.add] in *.
  pose proof (tail_end c' (fold_left (step mb flt) input (set_t_total_lines 0 tstate0)) v s1 s2 v2 s3 (fun _ => eol_here _ _ v L1 HN Hd HZ) eq_refl H3 H4 H5) as HT.
  clear H3 H4 H5 L0 L1. revert HL HT. generalize (fold_left (step mb flt) input (set_t_total_lines 0 tstate0)). intros s0 HL HT.
  assert (K : exec assembly_parser_fromStream [("in", VStream input); ("this", enc tstate0 v)] = Val Next (E c' [] s3 v2)).
  { transitivity (exec (SSeq (SWhile read_cond read_body) read_tail) (E Ascii.zero input (set_t_total_lines 0 tstate0) v)).
    - reflexivity.
    - rewrite exec_seq. change (exec (SWhile read_cond read_body) ?e) with (loop N e). rewrite HL, seqk_next. exact HT. }
  rewrite A_S by reflexivity.
  match goal with |- context [find_fn asm_fns ?f] => let r := ev (find_fn asm_fns f) in change (find_fn asm_fns f) with r end.
  cbv beta iota delta [fn_body fn_ret fn_params fn_dflt]. rewrite run_fn_fin.
  change (bind_params _ _ _ _) with (Val tt [("in", VStream input); ("this", enc tstate0 v)]). cbv beta iota.
  rewrite K. reflexivity.
Qed.
End Functions.

Lemma labels_bound (L : list asm_line_v) : exists n, Forall (fun l => (length (lv_labels l) < n)%nat) L.
Proof.
  induction L as [|l L [n IH]]; [exists 0%nat; constructor|]. exists (Nat.max (S (length (lv_labels l))) n). constructor; [lia|].
  eapply Forall_impl; [|exact IH]. cbv beta. lia.
Qed.

(** parser.cpp:807-842 *)
Lemma src_fromStream_all mb order flt rep ord_refs ord_labels :
  (forall s, mb s <= Z.of_nat (length s)) ->
  (forall l, order (VSet (encVs l)) = encVs (ord_refs l)) ->
  (forall m, order (VMap (VInt I32 0) (encMI m)) = map pair_of (encMI (ord_labels m))) ->
  forall fuel input v s' v' d, (fuel <= d)%nat -> (8 * length input <= d)%nat -> Z.of_nat d < 2 ^ 30 ->
  fromStream mb flt ord_refs ord_labels fuel tstate0 input v = Ok (s', v') ->
  exists n0, forall N, (n0 <= N)%nat ->
  A N mb order (S (S (S (S (S (S d)))))) "fromStream" (enc flt rep tstate0 v) [VStream input] = CVal VUnit (enc flt rep s' v').
Proof.
  intros mb_le HR HL fuel input v s' v' d Hf Hd Hz H. unfold fromStream in H.
  destruct (markLabelUsage _ _ _ _ _) as [[s2 v2]|u| |] eqn:M; cbn [obind fst snd] in H; try discriminate. injection H as <- <-.
  destruct (labels_bound (t_lines s2)) as [n HB]. exists (n + length (t_lines s2) + 8 * length input + 1)%nat. intros N HN.
  pose proof (ci_count _ (count_read mb flt input)) as C1. pose proof (read_total mb flt input) as C2.
  apply (src_fromStream N mb order flt rep d mb_le input v s2 v2); try lia.
  - apply src_filterNonLabels.
  - apply (src_markLabelUsage N mb order flt rep ord_refs ord_labels HR HL (S (S d)) fuel); try lia; [|exact M].
    change (t_lines (filterNonLabels ?s)) with (t_lines s). lia.
  - apply src_removeUnused; [lia|]. eapply Forall_impl; [|exact HB]. cbv beta. intros; lia.
Qed.
