(** JSON documents (C25-C31). *)
From Verif Require Import Tests PropObj1 PropUtils JsonMore.
Arguments T _%string_scope.
Arguments ln _%string_scope.
Arguments J _%string_scope.

(** C25 *)
Theorem json_escape_lossless : forall s t : str,
  unescape (escape s) = s /\ (escape s = escape t -> s = t) /\
  (Forall (fun c => 32 <= code c \/ c = TAB) s -> jstring (quoted (escape s)) s).
Proof. intros s t. split; [apply unescape_escape|]. split; [apply escape_injective|apply quoted_jstring]. Qed.
Example json_escape_case : escape (T "a~""\b") = lit "a\t\""\\b" /\ unescape (lit "a\t\""\\b") = T "a~""\b".
Proof. vm_compute. auto. Qed.

(** C26 *)
Theorem json_document_says : forall flt lines labels count reproducible clock,
  Forall (line_printable flt) lines -> Forall (fun l => Forall unquoted (lv_opcodes l)) lines ->
  Forall (fun e => printable (fst e)) labels ->
  forall v, json_text (write dec_Z flt lines labels count reproducible clock) v <->
    v = doc_value flt lines labels (if reproducible then None else Some clock) (filteredCount count (Z.of_nat (length lines))).
Proof.
  intros flt lines labels count reproducible clock H1 H2 H3 v.
  pose proof (jvalue_text _ _ (doc_jvalue dec_Z flt dec_Z_value lines labels count reproducible clock H1 H2 H3)) as H.
  split; [intros Hv; exact (json_unique _ _ _ Hv H)|now intros ->].
Qed.
Example json_document_case :
  match sample_result with
  | Ok s => parse_json (ObjDump.outputJson no_filter dec_Z true 7 s) =
      Some (doc_value no_filter (map line_v_of_line (o_lines s)) (o_labels s) None (filteredCount 9 5)) /\
      o_total_lines s = 9 /\ length (o_lines s) = 5%nat /\
      nth_error (map (line_value no_filter) (map line_v_of_line (o_lines s))) 1 =
        Some (JObj [(J "labels", JArr []); (J "opcodes", JArr [JStr (J "55")]); (J "address", JInt 4198400);
                    (J "source", JObj [(J "file", JNull); (J "mainsource", JStr (J "true")); (J "line", JInt 3)]);
                    (J "section", JStr (J ".text")); (J "text", JStr (J " push   rbp"))])
  | _ => False
  end.
Proof. vm_compute. auto. Qed.

(** C27 *)
Theorem json_valid_iff : forall flt lines labels count reproducible clock,
  Forall (fun l => Forall unquoted (lv_opcodes l)) lines ->
  (exists v, json_text (write dec_Z flt lines labels count reproducible clock) v) <->
  Forall (line_printable flt) lines /\ Forall (fun e => printable (fst e)) labels.
Proof. intros flt lines labels count reproducible clock. apply doc_valid_iff. exact dec_Z_value. Qed.
Theorem json_objdump_valid_iff : forall mb flt flt' input s reproducible clock,
  Forall (fun c => 32 <= code c \/ c = TAB \/ c = LF \/ c = CR) input -> ObjDump.run mb flt input = Ok s ->
  (exists v, json_text (ObjDump.outputJson flt' dec_Z reproducible clock s) v) <->
  (forall l g, In l (o_lines s) -> In g (l_opcodes l) -> ~ In TAB g).
Proof.
  intros mb flt flt' input s r c H. apply objdump_json_iff. eapply Forall_impl; [|exact H]. intros a. unfold text_char. tauto.
Qed.
Theorem json_control_characters_refuted :
  (exists input s, ObjDump.run mblen_ascii no_filter input = Ok s /\
     forall v, ~ json_text (ObjDump.outputJson no_filter dec_Z true 0 s) v) /\
  (exists input s vis, AsmText.run mblen_ascii no_filter id id 10 input [] = Ok (s, vis) /\
     forall v, ~ json_text (AsmText.outputJson no_filter dec_Z true 0 s) v).
Proof.
  split.
  - exists (T "  401000:~c3 ~ret " ++ ["012"%char; LF]). eexists. split; [vm_compute; reflexivity|].
    intros v H. apply parse_complete in H. vm_compute in H. discriminate.
  - exists (T " ret " ++ ["012"%char; LF]). do 2 eexists. split; [vm_compute; reflexivity|].
    intros v H. apply parse_complete in H. vm_compute in H. discriminate.
Qed.
(** Plain input, a tab among the bytes: not JSON. *)
Example json_objdump_case :
  let r i := match ObjDump.run mblen_ascii no_filter i with Ok s => parse_json (ObjDump.outputJson no_filter dec_Z true 0 s) | _ => None end in
  r (ln "0:~48~89 ~nop") = None /\ r (ln "0:~48 89 ~nop~eax") <> None.
Proof. vm_compute. split; [reflexivity|discriminate]. Qed.

(** C28 *)
Theorem json_objdump_reproducible : forall flt fmt s c1 c2,
  ObjDump.outputJson flt fmt true c1 s = ObjDump.outputJson flt fmt true c2 s.
Proof. intros. unfold ObjDump.outputJson. apply write_reproducible. Qed.
Theorem json_text_never_reproducible : forall flt r1 r2 s c1 c2, c1 <> c2 ->
  AsmText.outputJson flt dec_Z r1 c1 s <> AsmText.outputJson flt dec_Z r2 c2 s.
Proof. intros flt r1 r2 s c1 c2 Hc H. apply Hc. unfold AsmText.outputJson in H. now apply write_clock in H. Qed.
Example json_reproducible_case :
  match sample_result with
  | Ok s => ObjDump.outputJson no_filter dec_Z true 1 s <> ObjDump.outputJson no_filter dec_Z false 1 s
  | _ => False end.
Proof. vm_compute. discriminate. Qed.

(** C29 *)
Definition masked_name (f : str) : Prop := (exists t, f = J "/app/example." ++ t) \/ exists t, f = J "example." ++ t.
Lemma main_file_spec f : main_file f = true <-> masked_name f.
Proof. unfold main_file, masked_name. now rewrite orb_true_iff, !starts_with_spec. Qed.
Theorem json_file_shown : forall flt l, source_printable flt l ->
  let f := v_str (sv_file (lv_source l)) in
  if (negb (lv_is_label l) || lv_has_opcode l) && (0 <? sv_line (lv_source l)) then
    exists col file main,
      jvalue (writeSource dec_Z flt l)
        (JObj (col ++ [(J "file", file); (J "mainsource", JStr main); (J "line", JInt (sv_line (lv_source l)))])) /\
      (col = if sv_column (lv_source l) =? 0 then [] else [(J "column", JInt (sv_column (lv_source l)))]) /\
      (file = JNull <-> f = [] \/ masked_name f /\ f_dont_mask_filenames flt = false) /\
      (file <> JNull -> (exists g, f = J "/app/" ++ g /\ file = JStr g) \/ (~ (exists g, f = J "/app/" ++ g)) /\ file = JStr f) /\
      (main = J "true" <-> f = [] \/ masked_name f) /\ (main <> J "true" -> main = J "false")
  else jvalue (writeSource dec_Z flt l) JNull.
Proof.
  intros flt l Hp f. pose proof (source_jvalue dec_Z flt dec_Z_value l Hp) as H. unfold source_value in H. fold f in H.
  change ((negb (lv_is_label l) || lv_has_opcode l) && (0 <? sv_line (lv_source l))) with (has_source l).
  destruct (has_source l); [|exact H]. cbv zeta in H. do 3 eexists. split; [exact H|]. split; [reflexivity|].
  unfold file_value. pose proof (main_file_spec f) as Hm. assert (Hn : is_nil f = true <-> f = []) by (destruct f; cbn; split; congruence).
  split; [|split].
  - rewrite <- Hm, <- Hn. destruct (is_nil f), (main_file f), (f_dont_mask_filenames flt); cbn; intuition congruence.
  - destruct (is_nil f); [congruence|]. destruct (_ && _); [congruence|]. intros _.
    destruct (starts_with (J "/app/") f) eqn:E; [left|right].
    + apply starts_with_spec in E as [g ->]. exists g. split; [reflexivity|]. reflexivity.
    + split; [|reflexivity]. rewrite <- starts_with_spec. congruence.
  - rewrite <- Hm, <- Hn. destruct (is_nil f), (main_file f); cbn; intuition congruence.
Qed.
Example json_file_case :
  map (file_value no_filter) [J ""; J "/app/example.cpp"; J "example.c"; J "/app/a.h"; J "/usr/include/x.h"] =
    [JNull; JNull; JNull; JStr (J "a.h"); JStr (J "/usr/include/x.h")].
Proof. vm_compute. reflexivity. Qed.

(** C30 *)
Definition hidden_key (k : str) : bool := str_eqb k (J "section") || str_eqb k (J "address").
Theorem json_compat_mode : forall flt flt' l,
  line_printable flt l -> line_printable flt' l -> Forall unquoted (lv_opcodes l) ->
  f_dont_mask_filenames flt = f_dont_mask_filenames flt' ->
  exists m m', jvalue (writeLine dec_Z flt l) (JObj m) /\ jvalue (writeLine dec_Z flt' l) (JObj m') /\
    filter (fun e => negb (hidden_key (fst e))) m = filter (fun e => negb (hidden_key (fst e))) m' /\
    (f_compatmode flt = true -> ~ In (J "section") (map fst m) /\ (lv_is_label l = true -> ~ In (J "address") (map fst m))) /\
    (f_compatmode flt = false -> (v_str (lv_section l) <> [] -> In (J "section", JStr (v_str (lv_section l))) m)) /\
    (forall a, f_compatmode flt = false \/ lv_is_label l = false -> lv_address l = Some a -> In (J "address", JInt a) m).
Proof.
  intros flt flt' l H1 H2 H3 Hm.
  pose proof (line_jvalue dec_Z flt dec_Z_value l H1 H3) as V1. pose proof (line_jvalue dec_Z flt' dec_Z_value l H2 H3) as V2.
  unfold line_value in V1, V2. do 2 eexists. split; [exact V1|]. split; [exact V2|].
  assert (Hs : source_value flt l = source_value flt' l) by (unfold source_value, file_value; now rewrite Hm).
  split; [|split; [|split]].
  - rewrite !filter_app, Hs.
    destruct (is_nil (lv_opcodes l)), (lv_address l) as [a|], (lv_is_label l), (f_compatmode flt), (f_compatmode flt'),
      (is_nil (v_str (lv_section l))); reflexivity.
  - intros ->. split; [|intros ->]; destruct (is_nil (lv_opcodes l)), (lv_address l) as [a|], (lv_is_label l), (is_nil (v_str (lv_section l)));
      cbn; intros H; repeat destruct H as [H|H]; try discriminate; exact H.
  - intros -> Hn. rewrite !in_app_iff. do 4 right. left. destruct (v_str (lv_section l)); [congruence|]. left. reflexivity.
  - intros a Hc ->. rewrite !in_app_iff. do 2 right. left. destruct Hc as [-> | ->]; [rewrite andb_false_r|]; now left.
Qed.
Example json_compat_case :
  let l := line_v_of_line (mkLine (J "f:") (J ".text") [] [] [] true false (J "f") source0 (Some 16) false false false false false false false false) in
  let compat := mkFilter false false false false false false false false true false in
  line_value compat l = JObj [(J "labels", JArr []); (J "source", JNull); (J "text", JStr (J "f:"))] /\
  line_value no_filter l = JObj [(J "labels", JArr []); (J "address", JInt 16); (J "source", JNull); (J "section", JStr (J ".text")); (J "text", JStr (J "f:"))].
Proof. vm_compute. auto. Qed.

(** C31 *)
Theorem json_debug_says : forall flt lines labels used weak data aliased,
  Forall (debug_line_printable flt) lines -> Forall (fun p => printable (fst p)) labels ->
  Forall refs_printable used -> Forall refs_printable weak -> Forall refs_printable data ->
  Forall (fun p => printable (fst p) /\ printable (snd p)) aliased ->
  (forall v, json_text (writeDebug dec_Z flt lines labels used weak data aliased) v <->
     v = debug_value flt lines labels used weak data aliased) /\
  ((exists v, json_text (writeDebug grp_Z flt lines labels used weak data aliased) v) <->
     Forall (fun l => Forall (fun z => -1000 < z < 1000) (line_numbers l)) lines /\ Forall (fun e => -1000 < snd e < 1000) labels).
Proof.
  intros flt lines labels used weak data aliased H1 H2 H3 H4 H5 H6.
  pose proof (jvalue_text _ _ (debug_jvalue dec_Z flt dec_Z_value lines labels used weak data aliased H1 H2 H3 H4 H5 H6)) as H.
  split; [intros v; split; [intros Hv; exact (json_unique _ _ _ Hv H)|now intros ->]|]. split.
  - intros [v Hv]. apply json_text_gscan in Hv. now apply debug_scan in Hv.
  - intros [Ha Hb]. eexists. rewrite debug_small by assumption. exact H.
Qed.
Theorem json_debug_grouping_refuted : exists input s vis,
  AsmText.run mblen_ascii no_filter id id 10 input [] = Ok (s, vis) /\
  forall v, ~ json_text (AsmText.outputDebugJson no_filter grp_Z id id s) v.
Proof.
  exists (lns ["~.file 1 ""a.c"""; "f:"; "~.loc 1 1000 3"; "~ret"]%string). do 2 eexists. split; [vm_compute; reflexivity|].
  intros v H. apply parse_complete in H. vm_compute in H. discriminate.
Qed.
Example json_debug_case :
  match AsmText.run mblen_ascii no_filter id id 10 (lns ["~.file 1 ""a.c"""; "f:"; "~.loc 1 1000 3"; "~ret"]%string) [] with
  | Ok (s, _) => parse_json (AsmText.outputDebugJson no_filter dec_Z id id s) <> None
                 /\ flat_map line_numbers (t_lines s) = [3; 1000; 3; 1000; 3; 1000]
  | _ => False end.
Proof. vm_compute. split; [discriminate|reflexivity]. Qed.

Print Assumptions json_escape_lossless.
Print Assumptions json_document_says.
Print Assumptions json_valid_iff.
Print Assumptions json_objdump_valid_iff.
Print Assumptions json_control_characters_refuted.
Print Assumptions json_objdump_reproducible.
Print Assumptions json_text_never_reproducible.
Print Assumptions json_file_shown.
Print Assumptions json_compat_mode.
Print Assumptions json_debug_says.
Print Assumptions json_debug_grouping_refuted.
