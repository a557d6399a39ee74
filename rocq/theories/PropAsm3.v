(** Text parser: lifetime of views (C46, C47) and source locations (C50). *)
From Coq Require Import Sorted.
From Verif Require Import AsmLemmas AsmRead AsmMark AsmTrace AsmThms AsmViews AsmPlace AsmLoc Tests PropAsm1.
Arguments T _%string_scope.
Arguments ln _%string_scope.

(** C46: at every point of the reading, and after the whole parse. *)
Theorem asm_views_alive_reading : forall mb flt, f_comment_only flt = false -> f_library_functions flt = false ->
  forall input, Forall (alive (fold_left (step mb flt) input tstate0)) (views_of (fold_left (step mb flt) input tstate0)).
Proof. exact C46_reading. Qed.
Theorem asm_views_alive : forall mb flt oref olab, f_comment_only flt = false -> f_library_functions flt = false ->
  forall fuel input vis s vis', AsmText.run mb flt oref olab fuel input vis = Ok (s, vis') -> Forall (alive s) (views_of s).
Proof. exact C46_done. Qed.
(** Views into a shown line, a filtered line and the file table. *)
Example asm_views_alive_case : exists s vis', go only_directives
    (lns ["~.file~1 `a.c`"; "~.section~foo"; "main:"; "~.loc~1 2 3"; "~jmp~main"]%string) = Ok (s, vis') /\
  map (fun v => (v_own v, v_str v)) (flat_map views_of_line (t_lines s)) =
    [(OLine 1, T "foo"); (OLine 2, T "main"); (OFile 1, T "a.c"); (OLine 1, T "foo"); (ONull, []); (OFile 1, T "a.c"); (OLine 4, T "main")] /\
  map (fun l => (lv_id l, lv_text l)) (t_lines s) = [(2%N, T "main:"); (4%N, T "        jmp     main")] /\
  map (fun l => (lv_id l, lv_text l)) (t_filteredlines s) = [(0%N, T "        .file   1 `a.c`"); (1%N, T "        .section        foo"); (3%N, T "        .loc    1 2 3")].
Proof. eexists. eexists. split; [vm_compute; reflexivity|]. now vm_compute. Qed.

(** C47: the section of a shown line can lie in a destroyed comment line. *)
Theorem asm_views_comment_filter_refuted : exists flt input s vis' l,
  f_comment_only flt = true /\ f_library_functions flt = false /\
  AsmText.run mblen_ascii flt id id 50 input [] = Ok (s, vis') /\
  In l (t_lines s) /\ v_str (lv_section l) = T "foo" /\ ~ alive s (lv_section l).
Proof.
  exists only_comments, (lns ["# see .section foo"; "main:"; "~ret"]%string).
  eexists. eexists. eexists. split; [reflexivity|]. split; [reflexivity|]. split; [vm_compute; reflexivity|].
  split; [left; reflexivity|]. split; [vm_compute; reflexivity|].
  unfold alive. cbn [v_own lv_section]. intros (l & H & E & _). cbn in H. destruct H as [<-|[<-|[]]]; discriminate E.
Qed.

(** C50: every shown line comes from a line of the input, in order, and has the
    location in force at that line (labels take the one that follows). *)
Theorem asm_locations : forall mb flt oref olab fuel input vis s vis',
  AsmText.run mb flt oref olab fuel input vis = Ok (s, vis') ->
  exists ks, StronglySorted lt ks /\ Forall2 (comes_from flt (t_files s) (scan_input flt input)) ks (t_lines s).
Proof. exact C50_run. Qed.
(** A .loc line is in force until the next location or end of block ... *)
Theorem asm_loc_in_force : forall flt files cs k l pre raw nest mid post a b c,
  comes_from flt files cs k l -> cs = pre ++ CText raw nest :: mid ++ post -> k = (length pre + length mid)%nat ->
  is_loc (clean flt nest raw) a b c -> Forall (quiet_cand flt) mid -> lv_is_label l = false -> lv_text l <> [] ->
  match files_at files (dec_value a) with
  | Some f => shown_at l f (number b) (match c with Some c => number c | None => 0 end)
  | None => no_location l
  end.
Proof. exact C50_loc. Qed.
(** ... lines that end a block leave none, and file 0 is not taken as a location. *)
Theorem asm_loc_ended : forall flt w raw t,
  (forall x, In x end_words -> occurs x t -> ~ occurs ".cfi_startproc" t -> pl_spot (place_text flt w raw t) = spot0) /\
  (forall a b c, loc_text t a b c -> dec_value a = 0 -> (forall x, In x end_words -> ~ occurs x t) ->
     pl_cuda w = false \/ ~ In "}"%char t -> pl_spot (place_text flt w raw t) = pl_spot w).
Proof. intros flt w raw t. split; [intros x; apply end_forgets|intros a b c; apply loc_zero]. Qed.
(** Names in the file table. *)
Theorem asm_file_lines : forall u v a w f r, blanks u -> gap v -> numeral a -> gap w -> file_name f ->
  (match r with c :: _ => ~ blank c | [] => True end ->
     getFileDef (u ++ lit ".file" ++ v ++ a ++ w ++ quoted f ++ r) = Some (number a, f)) /\
  (forall x g q, gap x -> file_name g -> r = x ++ quoted g ++ q ->
     getFileDef (u ++ lit ".file" ++ v ++ a ++ w ++ quoted f ++ r) = Some (number a, f ++ lit "/" ++ g)).
Proof.
  intros u v a w f r Hu Hv Ha Hw Hf. split; [now apply file_one|]. intros x g q Hx Hg ->. now apply file_two.
Qed.
Definition locs : str := lns ["~.file~1 `a.c`"; "~.loc~1 10 3 is_stmt 0"; "~mov~eax, 1"; "~nop"; "~.cfi_endproc"; "~ret"; "~.loc~2 5 0"; "~ret"; "f:"; "~.loc~1 12"; "~ret"]%string.
Definition places_of (o : outcome (tstate * list str)) :=
  match o with Ok (s, _) => Some (map (fun l => (lv_text l, (v_str (sv_file (lv_source l)), sv_line (lv_source l), sv_column (lv_source l)))) (t_lines s)) | _ => None end.
Example asm_locations_case :
  places_of (go only_directives locs) = Some
    [(T "        mov     eax, 1", (T "a.c", 10, 3)); (T "        nop", (T "a.c", 10, 3)); (T "        ret", ([], 0, 0));
     (T "        ret", ([], 0, 0)); (T "f:", (T "a.c", 12, 0)); (T "        ret", (T "a.c", 12, 0))]
  /\ is_loc (T "        .loc    1 10 3 is_stmt 0") (T "1") (T "10") (Some (T "3")).
Proof.
  split; [now vm_compute|].
  assert (S8 : blanks (T "        ")) by (repeat (constructor; [now left|]); constructor).
  assert (S1 : gap (T " ")) by (split; [discriminate|repeat (constructor; [now left|]); constructor]).
  assert (S4 : gap (T "    ")) by (split; [discriminate|repeat (constructor; [now left|]); constructor]).
  assert (D : forall n, n <> [] -> forallb (fun c => (48 <=? code c) && (code c <=? 57)) n = true -> numeral n).
  { intros n Hn H. split; [assumption|]. rewrite forallb_forall in H. apply Forall_forall. intros c Hc. specialize (H c Hc).
    apply andb_true_iff in H as [A B]. apply Z.leb_le in A, B. now split. }
  constructor.
  - exists (T "        "), (T "    "), (T " "), (T " 3 is_stmt 0"). split; [reflexivity|]. split; [assumption|]. split; [assumption|]. split; [assumption|].
    split; [apply D; [discriminate|reflexivity]|]. split; [apply D; [discriminate|reflexivity]|].
    exists (T " "), (T " is_stmt 0"). split; [reflexivity|]. split; [assumption|]. split; [apply D; [discriminate|reflexivity]|].
    cbn. unfold digit. vm_compute. intros [H _]. now apply H.
  - vm_compute. split; [reflexivity|discriminate].
  - assert (E : endBlock (T "        .loc    1 10 3 is_stmt 0") = false) by (vm_compute; reflexivity).
    intros x Hx Ho. rewrite (proj2 (end_block_iff _)) in E; [discriminate E|eauto].
  - assert (E : startProcBlock (T "        .loc    1 10 3 is_stmt 0") = false) by (vm_compute; reflexivity).
    intros Ho. apply start_proc_iff in Ho. rewrite Ho in E. discriminate E.
  - rewrite <- has_char_In. vm_compute. discriminate.
Qed.

Print Assumptions asm_views_alive_reading.
Print Assumptions asm_views_alive.
Print Assumptions asm_views_comment_filter_refuted.
Print Assumptions asm_locations.
Print Assumptions asm_loc_in_force.
Print Assumptions asm_loc_ended.
Print Assumptions asm_file_lines.
