(** Property C100: with which references the search for used labels ends. *)
From Coq Require Import Permutation.
From Verif Require Import AsmLemmas AsmRead AsmMark AsmTrace AsmThms AsmUse AsmSearch AsmComplete AsmDet AsmWorld AsmCarry AsmBalance Tests PropAsm1.
Arguments T _%string_scope.
Arguments ln _%string_scope.

(** C100.  isUsed (parser.cpp:599-657) empties its set of visited names at depth
    0.  A use by code goes one deeper, a use by data one back.  The search ends
    whenever no chain of references with as many uses by code as by data leads
    from a name back to itself.  This includes every input without data that
    names a label (C43). *)
Theorem asm_ends_unless_balanced : forall mb flt oref olab, shuffles oref -> (forall m, Permutation (olab m) m) -> forall input,
  Z.of_nat (length input) < two31 ->
  (forall k, ~ hops (used_by (lines_read mb flt input) (lines_aside mb flt input)) (data_by (lines_read mb flt input)) k 0 k) ->
  forall vis, exists r n, forall fuel, (n <= fuel)%nat -> AsmText.run mb flt oref olab fuel input vis = Ok r.
Proof. exact read_ends. Qed.
(** The same by the references the source lines make (C83). *)
Theorem asm_lines_unless_balanced : forall mb flt oref olab, shuffles oref -> (forall m, Permutation (olab m) m) -> forall input,
  Z.of_nat (length input) < two31 -> f_library_functions flt = false ->
  let cs := scan_input flt input in
  (forall k, ~ hops (fun a b => made flt (used_at mb flt) cs (a, b) /\ b <> []) (fun a b => made flt (data_at mb flt) cs (a, b)) k 0 k) ->
  forall vis, exists r n, forall fuel, (n <= fuel)%nat -> AsmText.run mb flt oref olab fuel input vis = Ok r.
Proof. intros mb flt oref olab Ho Hl input Hlen Hf cs. exact (made_ends mb flt oref olab Ho Hl input Hlen Hf). Qed.
(** ... and with a ring of different labels of that kind, none of which leads to
    a label declared global nor to code outside every function, the recursion has
    no end for any order of the hash tables. *)
Theorem asm_endless_balanced : forall mb flt oref olab, shuffles oref -> (forall m, Permutation (olab m) m) -> forall input,
  Z.of_nat (length input) < two31 -> f_library_functions flt = false ->
  let cs := scan_input flt input in
  forall l, ring (fun a b => made flt (used_at mb flt) cs (a, b) /\ b <> []) (fun a b => made flt (data_at mb flt) cs (a, b)) l ->
  (forall x, In x l -> is_label_name mb flt input (fst x) /\
     ~ chain (fun a b => made flt (used_at mb flt) cs (a, b)) (fun a b => made flt (data_at mb flt) cs (a, b)) (made flt (global_at flt) cs) (fst x)) ->
  forall fuel vis, (forall x, In x l -> ~ In (fst x) vis) -> AsmText.run mb flt oref olab fuel input vis = Diverges.
Proof. intros mb flt oref olab Ho Hl input Hlen Hf cs. exact (made_endless mb flt oref olab Ho Hl input Hlen Hf). Qed.

(** All entries of a list of source lines, for the cases below. *)
Fixpoint entries {A} (flt : Filter) (f : world -> cand -> list A) (w : world) (cs : list cand) : list A :=
  match cs with [] => [] | c :: t => f w c ++ entries flt f (world_cand flt w c) t end.
Lemma entries_made {A} flt (f : world -> cand -> list A) cs e : made flt f cs e <-> In e (entries flt f world0 cs).
Proof.
  unfold made, worlds. generalize world0 as w. induction cs as [|c t IH]; intros w; cbn [entries].
  - split; [intros (pre & ? & ? & E & _); destruct pre; discriminate|intros []].
  - rewrite in_app_iff, <- IH. split.
    + intros ([|x pre] & c' & post & E & H); injection E as -> E; [now left|right]. exists pre, c', post. auto.
    + intros [H|(pre & c' & post & -> & H)]; [exists [], c, t; auto|exists (c :: pre), c', post; auto].
Qed.

(** Two functions that call one another and a table of one of them: chains in a
    ring, but no data in it. *)
Definition mutual : str := lns ["f:"; "~call~g"; "g:"; "~call~f"; "tbl:"; "~.quad~f"]%string.
Example asm_lines_unless_balanced_case : let cs := scan_input no_filter mutual in
  entries no_filter (used_at mblen_ascii no_filter) world0 cs = [(T "g", T "f"); (T "f", T "g")] /\
  entries no_filter (data_at mblen_ascii no_filter) world0 cs = [(T "f", T "tbl")] /\
  (forall k, ~ hops (fun a b => made no_filter (used_at mblen_ascii no_filter) cs (a, b) /\ b <> []) (fun a b => made no_filter (data_at mblen_ascii no_filter) cs (a, b)) k 0 k).
Proof.
  cbv zeta. assert (E1 : entries no_filter (used_at mblen_ascii no_filter) world0 (scan_input no_filter mutual) = [(T "g", T "f"); (T "f", T "g")]) by now vm_compute.
  assert (E2 : entries no_filter (data_at mblen_ascii no_filter) world0 (scan_input no_filter mutual) = [(T "f", T "tbl")]) by now vm_compute.
  split; [exact E1|]. split; [exact E2|].
  assert (G : forall a n b, hops (fun a b => made no_filter (used_at mblen_ascii no_filter) (scan_input no_filter mutual) (a, b) /\ b <> [])
    (fun a b => made no_filter (data_at mblen_ascii no_filter) (scan_input no_filter mutual) (a, b)) a n b ->
    a <> T "tbl" /\ (b = T "tbl" \/ (b <> T "tbl" /\ 1 <= n))).
  { intros a n b H. induction H as [a b [H _]|a b H|a n b m c _ [IH1 IH2] _ [IH3 IH4]].
    - apply entries_made in H. rewrite E1 in H. destruct H as [[= <- <-]|[[= <- <-]|[]]]; (split; [vm_compute; discriminate|right; split; [vm_compute; discriminate|lia]]).
    - apply entries_made in H. rewrite E2 in H. destruct H as [[= <- <-]|[]]. split; [vm_compute; discriminate|now left].
    - split; [exact IH1|]. destruct IH2 as [->|[N1 N2]]; [now destruct IH3|]. destruct IH4 as [->|[N3 N4]]; [now left|right; split; [exact N3|lia]]. }
  intros k H. apply G in H as [A [B|[_ B]]]; [contradiction|lia].
Qed.
Example asm_ends_unless_balanced_case : texts (go only_unused mutual) = Some (Ts []).
Proof. now vm_compute. Qed.
(** A table that nobody needs, and a function in it that nobody calls: the
    exported function does not help. *)
Definition dead_tab : str := lns ["~.globl~main"; "main:"; "~call~h"; "h:"; "~ret"; "tbl:"; "~.quad~fn"; "fn:"; "~mov~rax, tbl"; "~call~h"]%string.
Example asm_endless_balanced_case : let cs := scan_input no_filter dead_tab in
  ring (fun a b => made no_filter (used_at mblen_ascii no_filter) cs (a, b) /\ b <> []) (fun a b => made no_filter (data_at mblen_ascii no_filter) cs (a, b)) [(T "fn", false); (T "tbl", true)] /\
  (forall x, In x [(T "fn", false); (T "tbl", true)] -> is_label_name mblen_ascii no_filter dead_tab (fst x) /\
     ~ chain (fun a b => made no_filter (used_at mblen_ascii no_filter) cs (a, b)) (fun a b => made no_filter (data_at mblen_ascii no_filter) cs (a, b)) (made no_filter (global_at no_filter) cs) (fst x)).
Proof.
  cbv zeta. assert (E1 : entries no_filter (used_at mblen_ascii no_filter) world0 (scan_input no_filter dead_tab) = [(T "main", []); (T "h", T "main"); (T "ret", T "h"); (T "rax", T "fn"); (T "tbl", T "fn"); (T "h", T "fn")]) by now vm_compute.
  assert (E2 : entries no_filter (data_at mblen_ascii no_filter) world0 (scan_input no_filter dead_tab) = [(T "fn", T "tbl")]) by now vm_compute.
  assert (E3 : entries no_filter (global_at no_filter) world0 (scan_input no_filter dead_tab) = [T "main"]) by now vm_compute.
  split.
  - split; [discriminate|]. split; [vm_compute; repeat constructor; cbn; intuition discriminate|]. split; [reflexivity|].
    cbn [links first_of fst snd]. split; [apply entries_made; rewrite E2; now left|]. split; [|exact I]. split; [apply entries_made; rewrite E1; do 4 right; now left|discriminate].
  - assert (G : forall k, chain (fun a b => made no_filter (used_at mblen_ascii no_filter) (scan_input no_filter dead_tab) (a, b)) (fun a b => made no_filter (data_at mblen_ascii no_filter) (scan_input no_filter dead_tab) (a, b))
      (made no_filter (global_at no_filter) (scan_input no_filter dead_tab)) k -> k <> T "fn" /\ k <> T "tbl").
    { intros k H. induction H as [k H|k H|k r H _ [IH1 IH2]|k r H _ [IH1 IH2]]; apply entries_made in H.
      - rewrite E3 in H. destruct H as [<-|[]]. split; vm_compute; discriminate.
      - rewrite E1 in H. cbn [In] in H. destruct H as [[= <-]|[H|[H|[H|[H|[H|[]]]]]]]; [split; vm_compute; discriminate|discriminate H..].
      - rewrite E1 in H. cbn [In] in H. assert (K : forall a b, (a, b) = (k, r) -> a <> T "fn" /\ a <> T "tbl" -> k <> T "fn" /\ k <> T "tbl") by (intros a b X Y; injection X as <- <-; exact Y).
        destruct H as [H|[H|[H|[H|[H|[H|[]]]]]]]. 5: (injection H as _ H; destruct (IH1 (eq_sym H))).
        all: apply K in H; [exact H|split; vm_compute; discriminate].
      - rewrite E2 in H. destruct H as [[= <- <-]|[]]. destruct (IH2 eq_refl). }
    assert (E : lines_read mblen_ascii no_filter dead_tab = ltac:(let x := eval vm_compute in (lines_read mblen_ascii no_filter dead_tab) in exact x)) by now vm_compute.
    intros x [<-|[<-|[]]]; (split; [unfold is_label_name; rewrite E|intros H; apply G in H as [A B]; (destruct (A eq_refl) || destruct (B eq_refl))]).
    + eexists. split; [do 7 right; left; reflexivity|]. split; now vm_compute.
    + eexists. split; [do 5 right; left; reflexivity|]. split; now vm_compute.
Qed.

Print Assumptions asm_ends_unless_balanced.
Print Assumptions asm_lines_unless_balanced.
Print Assumptions asm_endless_balanced.
