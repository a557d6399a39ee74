(** Objdump parser: the library filter (C18-C20). *)
From Verif Require Import ObjThm1 ObjLib Tests PropObj1.
Arguments T _%string_scope.
Arguments ln _%string_scope.

(** A function of the output is a label line with the lines up to the next
    label line ([functions] splits the output so); it has user code when some
    line of it has a location in a user file. *)

(** C18 *)
Theorem objdump_library_functions_touch_user : forall mb flt input s, f_library_functions flt = true -> run mb flt input = Ok s ->
  forall before g after, snd (functions (o_lines s)) = before ++ g :: after -> after <> [] ->
  exists l, In l g /\ s_is_usercode (l_source l) = true.
Proof. exact C18_lemma. Qed.

Definition only_lib : Filter := mkFilter false false true false false false false false false false.
Definition shown (o : outcome ostate) : option (list (str * bool)) :=
  match o with Ok s => Some (map (fun l => (l_text l, s_is_usercode (l_source l))) (o_lines s)) | _ => None end.

(** lib1 (library code only, nothing before it), main (user), lib2 (library
    code only, but its label line still has main's location), lib3 (library
    only, last). *)
Definition four : str :=
  ln "0 <lib1>:" ++ ln "/usr/include/a.h:3" ++ ln " 0:~90  ~nop1"
  ++ ln "1 <main>:" ++ ln "/tmp/m.cpp:4" ++ ln " 1:~90  ~nop2"
  ++ ln "2 <lib2>:" ++ ln "/usr/include/b.h:5" ++ ln " 2:~90  ~nop3"
  ++ ln "3 <lib3>:" ++ ln "/usr/include/c.h:6" ++ ln " 3:~90  ~nop4".
Example objdump_library_case :
  shown (run mblen_ascii only_lib four) =
    Some [(T "main:", false); (T " nop2", true); (T "lib2:", true); (T " nop3", false); (T "lib3:", false); (T " nop4", false)]
  /\ shown (run mblen_ascii no_filter four) =
    Some [(T "lib1:", false); (T " nop1", false);
          (T "main:", false); (T " nop2", true); (T "lib2:", true); (T " nop3", false); (T "lib3:", false); (T " nop4", false)].
Proof. vm_compute. split; reflexivity. Qed.

(** C19, first reason: a function all of whose own lines are library code is
    kept, although it is not the last one. *)
Theorem objdump_library_function_kept_refuted :
  exists input s pre before l body after, run mblen_ascii only_lib input = Ok s
    /\ functions (o_lines s) = (pre, before ++ (l :: body) :: after) /\ after <> [] /\ body <> []
    /\ (forall b, In b body -> file_in_library (s_file (l_source b)) = true)
    /\ input = four /\ l_text l = T "lib2:" /\ s_file (l_source l) = T "/tmp/m.cpp".
Proof.
  destruct (run mblen_ascii only_lib four) as [s| | |] eqn:E; try (vm_compute in E; discriminate).
  vm_compute in E. injection E as <-. exists four. eexists. exists []. eexists [_], _, _, _.
  split; [vm_compute; reflexivity|]. split; [vm_compute; reflexivity|]. split; [discriminate|]. split; [discriminate|].
  split; [|repeat split; vm_compute; reflexivity].
  intros b [<-|[]]. vm_compute. reflexivity.
Qed.

(** C19, second reason: the last function is kept whatever it holds, for every
    input (unless it is followed by a function that is itself hidden). *)
Theorem objdump_library_last_function_kept : forall mb flt flt' input s pre gs g,
  f_plt flt' = f_plt flt -> f_library_functions flt = false -> f_library_functions flt' = true ->
  run mb flt input = Ok s -> o_stopParsing s = false -> o_ignoreUntilNextLabel s = false ->
  functions (o_lines s) = (pre, gs ++ [g]) ->
  exists s' a, run mb flt' input = Ok s' /\ functions (o_lines s') = (pre, a ++ [g]).
Proof. exact C20_last. Qed.
Theorem objdump_library_last_function_refuted :
  exists input s pre before g, run mblen_ascii only_lib input = Ok s
    /\ functions (o_lines s) = (pre, before ++ [g]) /\ g <> []
    /\ (forall b, In b g -> file_in_library (s_file (l_source b)) = true) /\ input = four.
Proof.
  destruct (run mblen_ascii only_lib four) as [s| | |] eqn:E; try (vm_compute in E; discriminate).
  vm_compute in E. injection E as <-. exists four. eexists. exists []. eexists [_; _], _.
  split; [vm_compute; reflexivity|]. split; [vm_compute; reflexivity|]. split; [discriminate|].
  split; [|reflexivity].
  intros b [<-|[<-|[]]]; vm_compute; reflexivity.
Qed.

(** C20: below the line cap, the output with the filter is the output without
    it minus whole functions.  [keep] drops every function without user code,
    sparing the last one unless a hidden function was met after it; the lines
    before the first function and the line count stay. *)
Theorem objdump_library_filter_removes : forall mb flt flt',
  f_plt flt' = f_plt flt -> f_library_functions flt = false -> f_library_functions flt' = true ->
  forall input s, run mb flt input = Ok s -> o_stopParsing s = false ->
  exists s', run mb flt' input = Ok s'
  /\ (let (pre, gs) := functions (o_lines s) in o_lines s' = pre ++ List.concat (keep (o_ignoreUntilNextLabel s) gs))
  /\ o_labels s' = label_table 1 (o_lines s') /\ o_stopParsing s' = false /\ o_total_lines s' = o_total_lines s.
Proof. exact C20_lemma. Qed.
(** What [functions] and [keep] are. *)
Theorem objdump_functions_split : forall lines, let (pre, gs) := functions lines in
  lines = pre ++ List.concat gs /\ (forall l, In l pre -> l_is_label l = false)
  /\ (forall g, In g gs -> exists l b, g = l :: b /\ l_is_label l = true /\ forall x, In x b -> l_is_label x = false).
Proof.
  intros lines. pose proof (shape_functions lines) as H. destruct (functions lines) as [pre gs]. destruct H as [[H1 H2] H3].
  split; [exact H3|]. rewrite Forall_forall in H1, H2. split; [exact H1|].
  intros g Hg. destruct (H2 g Hg) as (l & b & -> & Hl & Hb). exists l, b. rewrite Forall_forall in Hb. auto.
Qed.
Theorem objdump_library_keep : forall gs g,
  keep true gs = filter user gs /\ keep false (gs ++ [g]) = filter user gs ++ [g]
  /\ (user g = true <-> exists l, In l g /\ s_is_usercode (l_source l) = true).
Proof.
  intros gs g. split; [apply keep_ended|]. split; [apply keep_snoc|]. apply existsb_exists.
Qed.
(** The last function is dropped when a hidden function follows. *)
Example objdump_library_ended_case :
  shown (run mblen_ascii only_lib (four ++ ln "4 <_init>:" ++ ln " 4:~90  ~nop5")) =
    Some [(T "main:", false); (T " nop2", true); (T "lib2:", true); (T " nop3", false)].
Proof. vm_compute. reflexivity. Qed.

Print Assumptions objdump_library_functions_touch_user.
Print Assumptions objdump_library_function_kept_refuted.
Print Assumptions objdump_library_last_function_kept.
Print Assumptions objdump_library_last_function_refuted.
Print Assumptions objdump_library_filter_removes.
Print Assumptions objdump_functions_split.
Print Assumptions objdump_library_keep.
