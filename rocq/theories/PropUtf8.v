(** Properties C107, C108: UTF-8 in, UTF-8 out.  [utf8_text] (Utf8Keep.v): the text
    is the concatenation of the UTF-8 forms (RFC 3629) of Unicode scalar values. *)
From Verif Require Import CliThm.
From Verif Require Import UtilMisc Recog5 Utf8Keep AsmUtf8 ObjUtf8 UtilLabels ObjRefs Tests ObjDump AsmText PropAsm1.
Arguments T _%string_scope.
Arguments ln _%string_scope.
Local Open Scope Z_scope.

Lemma dec_ascii fuel : forall n acc, Forall ascii_char acc -> Forall ascii_char (dec_digits fuel n acc).
Proof.
  induction fuel as [|k IH]; intros n acc H; cbn [dec_digits]; [exact H|]. cbv zeta.
  assert (A : Forall ascii_char (digit_char (n mod 10) :: acc)).
  { constructor; [|exact H]. pose proof (Z.mod_pos_bound n 10 ltac:(lia)). change (digit_char (n mod 10)) with (byte (48 + n mod 10)).
    unfold ascii_char. rewrite code_byte by lia. lia. }
  destruct (_ =? _); [exact A|now apply IH].
Qed.
Lemma dec_utf8 z : utf8_text (dec_Z z).
Proof. unfold dec_Z, dec_nat. destruct (_ <? _); [apply Wcons; [asc|]|]; apply Wascii, dec_ascii; constructor. Qed.

(** C107 *)
Theorem asm_utf8 : forall mb flt flt' ord_refs ord_labels fuel input vis s vis' fmt reproducible clock,
  utf8_text input -> AsmText.run mb flt ord_refs ord_labels fuel input vis = Ok (s, vis') ->
  utf8_text (AsmText.outputText s) /\
  ((forall z, utf8_text (fmt z)) -> utf8_text (AsmText.outputJson flt' fmt reproducible clock s)) /\
  Forall (fun l => utf8_text (lv_text l) /\ utf8_text (v_str (lv_label l)) /\ utf8_text (v_str (lv_section l)) /\
    utf8_text (v_str (sv_file (lv_source l))) /\ Forall (fun r => utf8_text (v_str (lbv_name r))) (lv_labels l)) (t_lines s).
Proof.
  intros mb flt flt' oref olab fuel input vis s vis' fmt rep clock Hi H. split; [eapply text_utf8; eassumption|].
  split; [intros Hf; eapply json_utf8; eassumption|]. eapply Forall_impl; [|eapply run_utf8; eassumption].
  intros l Hl. apply shown_texts in Hl as [[] Hl]. auto.
Qed.
(** The program in text mode: what it prints is well-formed if what it reads is. *)
Theorem cli_utf8 : forall mb file stdin clock oref olab om oa fuel args r,
  ~ In (lit "-binary") args ->
  (In (lit "-stdin") args -> utf8_text stdin) -> (~ In (lit "-stdin") args -> forall n, named args n -> utf8_text (file n)) ->
  main true mb file stdin clock oref olab om oa fuel args = Ok r -> utf8_text (res_stdout r).
Proof.
  intros mb file stdin clock oref olab om oa fuel args r Hb H1 H2 H. rewrite <- has_arg_no in Hb, H2. rewrite <- has_arg_iff in H1.
  rewrite main_eq in H. cbn [negb] in H.
  destruct (has_arg "-stdin" args || existsb _ args) eqn:E; cbn [negb] in H.
  2:{ injection H as <-. cbn [res_stdout]. apply Wascii. repeat (constructor; [asc|]). constructor. }
  cbv zeta in H. rewrite Hb in H.
  assert (Hi : utf8_text (if has_arg "-stdin" args then stdin else file (last_name args))).
  { destruct (has_arg "-stdin" args); [auto|]. cbn [orb] in E. apply name_dec, some_named in E as (n & Hn). rewrite (named_last _ _ Hn). auto. }
  destruct (AsmText.run _ _ _ _ _ _) as [[s v]| | |] eqn:ER; try discriminate H. cbn [obind] in H. injection H as <-. cbn [res_stdout].
  destruct (has_arg "-outputtext" args); [eapply text_utf8; eassumption|eapply json_utf8; try eassumption; exact dec_utf8].
Qed.
Definition unicode : str := flat_map utf8 [102; 58; 10; 9; 46; 102; 105; 108; 101; 32; 49; 32; 34; 233; 8364; 128512; 34; 10;
  9; 46; 108; 111; 99; 32; 49; 32; 55; 10; 9; 109; 111; 118; 9; 233; 44; 32; 8364; 10].
Definition euro : str := map byte [195; 169; 226; 130; 172; 240; 159; 152; 128].
Example asm_utf8_case : utf8_text unicode /\
  match AsmText.run mblen_utf8 only_directives (fun x => x) (fun x => x) 50 unicode [] with
  | Ok (s, _) => map (fun l => (lv_text l, v_str (sv_file (lv_source l)))) (t_lines s) =
      [(T "f:", euro); (T "        mov     " ++ map byte [195; 169] ++ T ", " ++ map byte [226; 130; 172], euro)]
  | _ => False
  end.
Proof.
  split; [|now vm_compute]. eexists. split; [|reflexivity]. repeat (constructor; [right; unfold scalar; lia|]). constructor.
Qed.
(** All lines that define a file number. *)
Theorem asm_file_exactly : forall l x, getFileDef l = Some x <->
  exists u v a w f r, l = u ++ lit ".file" ++ v ++ a ++ w ++ AsmLoc.quoted f ++ r /\
    AsmLoc.blanks u /\ AsmLoc.gap v /\ AsmLoc.numeral a /\ AsmLoc.gap w /\ AsmLoc.file_name f /\
    ((exists g y q, r = y ++ AsmLoc.quoted g ++ q /\ AsmLoc.gap y /\ AsmLoc.file_name g /\ x = (AsmLoc.number a, f ++ lit "/" ++ g)) \/
     (forall g y q, r = y ++ AsmLoc.quoted g ++ q -> AsmLoc.gap y -> ~ AsmLoc.file_name g) /\ x = (AsmLoc.number a, f)).
Proof.
  intros l x. rewrite file_iff. split.
  - intros (a & f & r & (u & v & w & -> & Hu & Hv & Ha & Hw & Hf) & H). exists u, v, a, w, f, r. repeat (split; [first [reflexivity|assumption]|]).
    destruct H as [(g & (y & q & -> & Hy & Hg) & ->)|[Hn ->]]; [left; exists g, y, q; auto|right]. split; [|reflexivity].
    intros g y q -> Hy Hg. apply (Hn g). exists y, q. auto.
  - intros (u & v & a & w & f & r & -> & Hu & Hv & Ha & Hw & Hf & H). exists a, f, r. split; [exists u, v, w; auto 10|].
    destruct H as [(g & y & q & -> & Hy & Hg & ->)|[Hn ->]]; [left; exists g; split; [exists y, q; auto|reflexivity]|right].
    split; [|reflexivity]. intros g (y & q & -> & Hy & Hg). exact (Hn g y q eq_refl Hy Hg).
Qed.
Example asm_file_exactly_case : map getFileDef [T "~.file 1 `a.c` md5 0x12"; T "~.file 0 `/d` `a.c` md5 0x12"; T ".file `a.c`"; T ".file 1 `` `a`"]%string =
  [Some (1, T "a.c"); Some (0, T "/d/a.c"); None; None].
Proof. now vm_compute. Qed.

(** C108 *)
Theorem objdump_utf8 : forall mb flt input s fmt reproducible clock,
  utf8_text input -> ObjDump.run mb flt input = Ok s ->
  utf8_text (ObjDump.outputText s) /\
  Forall (fun l => utf8_text (l_text l) /\ utf8_text (l_section l) /\ utf8_text (l_label l) /\ utf8_text (s_file (l_source l)) /\
    Forall utf8_text (l_opcodes l)) (o_lines s) /\
  Forall (fun p => utf8_text (fst p)) (o_labels s) /\
  ((forall z, utf8_text (fmt z)) ->
   (utf8_text (ObjDump.outputJson flt fmt reproducible clock s) <-> forall l r, In l (o_lines s) -> In r (l_labels l) -> utf8_text (lb_name r))).
Proof.
  intros mb flt input s fmt rep clock Hi H. split; [eapply obj_text_utf8; eassumption|]. pose proof (run_texts _ _ _ _ Hi H) as X.
  split; [|split; [exact (tx_labels _ X)|]].
  - eapply Forall_impl; [|exact (tx_lines _ X)]. intros l []. auto 10.
  - intros Hf. eapply obj_json_iff; eassumption.
Qed.
(** The names of references need not be: in a UTF-8 locale the start of a name is
    counted in characters and used as a number of bytes. *)
Definition odd_ref : str := ln "0000000000001139 <m>:" ++ T "    1139:~e8 ff  ~" ++ flat_map utf8 [233; 8364] ++ ln "<f>".
Theorem objdump_utf8_refuted : exists input s,
  utf8_text input /\ ObjDump.run mblen_utf8 no_filter input = Ok s /\
  utf8_text (ObjDump.outputText s) /\ ~ utf8_text (ObjDump.outputJson no_filter dec_Z false 0 s).
Proof.
  assert (Hi : utf8_text odd_ref).
  { unfold odd_ref. apply Wapp; [apply Wascii; repeat (constructor; [asc|]); constructor|].
    apply Wapp; [apply Wascii; repeat (constructor; [asc|]); constructor|].
    apply Wapp; [|apply Wascii; repeat (constructor; [asc|]); constructor].
    exists [233; 8364]. split; [|reflexivity]. repeat (constructor; [right; unfold scalar; lia|]). constructor. }
  destruct (ObjDump.run mblen_utf8 no_filter odd_ref) as [s| | |] eqn:E; [|exfalso; vm_compute in E; discriminate E..].
  exists odd_ref, s. split; [exact Hi|]. split; [exact E|]. destruct (objdump_utf8 _ _ _ _ dec_Z false 0 Hi E) as (H1 & _ & _ & H2).
  split; [exact H1|]. rewrite (H2 dec_utf8). intros H3.
  assert (X : exists l r, In l (o_lines s) /\ In r (l_labels l) /\ lb_name r = map byte [130; 172; 60; 102]).
  { vm_compute in E. injection E as <-. do 2 eexists. split; [right; left; reflexivity|]. split; [left; reflexivity|]. reflexivity. }
  destruct X as (l & r & Hl & Hr & Hn). specialize (H3 l r Hl Hr). rewrite Hn in H3. clear - H3.
  destruct H3 as (cps & Hc & E). destruct Hc as [|cp cps Hcp _]; [discriminate E|]. cbn [flat_map map app] in E.
  unfold utf8 in E. unfold scalar in Hcp. destruct (cp <? 128) eqn:E1; [|destruct (cp <? 2048) eqn:E2; [|destruct (cp <? 65536) eqn:E3]];
    cbn [app] in E; apply (f_equal (fun l => code (hd SP l))) in E; cbn [hd] in E; change (code (byte 130)) with 130 in E; rewrite code_byte in E by dm; dm.
Qed.
Example objdump_utf8_case : exists s, ObjDump.run mblen_utf8 no_filter odd_ref = Ok s /\
  ObjDump.outputText s = ln "m:" ++ T " " ++ flat_map utf8 [233; 8364] ++ ln "<f>".
Proof. eexists. split; [vm_compute; reflexivity|now vm_compute]. Qed.

Print Assumptions asm_utf8.
Print Assumptions cli_utf8.
Print Assumptions asm_file_exactly.
Print Assumptions objdump_utf8.
Print Assumptions objdump_utf8_refuted.
