(** Properties C112, C113: the JSON writers statement by statement, and pretty
    printing.  [out_write] and [out_write_debug] (JsonSteps.v) follow the code with
    its flags and comma options; [strip] takes the line feeds out of a text. *)
From Verif Require Import JsonMore JsonSpaced Tests PropAsm1 PropObj1.
From Verif Require Import AsmText.
Arguments T _%string_scope.
Arguments ln _%string_scope.

(** C112.  With prettyPrint off, as every constructor sets it, the code appends to
    its stream exactly the documents of C25-C31. *)
Theorem json_writer_steps : forall fmt flt lines labels count reproducible clock out,
  out_write false fmt flt lines labels count reproducible clock out = out ++ write fmt flt lines labels count reproducible clock.
Proof. intros. now rewrite w_write, write_plain. Qed.
Theorem json_debug_writer_steps : forall fmt flt lines labels used weak data aliased out,
  out_write_debug false fmt flt lines labels used weak data aliased out = out ++ writeDebug fmt flt lines labels used weak data aliased.
Proof. intros. now rewrite w_write_debug, write_debug_plain. Qed.

(** C113.  Pretty printing adds line feeds and nothing else, ... *)
Theorem json_pretty_line_feeds : forall fmt flt lines labels count reproducible clock,
  strip (out_write true fmt flt lines labels count reproducible clock []) = strip (write fmt flt lines labels count reproducible clock).
Proof. intros. rewrite w_write. apply strip_write. Qed.
Theorem json_pretty_debug_line_feeds : forall fmt flt lines labels used weak data aliased,
  strip (out_write_debug true fmt flt lines labels used weak data aliased []) = strip (writeDebug fmt flt lines labels used weak data aliased).
Proof. intros. rewrite w_write_debug. apply strip_write_debug. Qed.
(** ... and says the same: both texts have the same JSON value. *)
Theorem json_pretty_says : forall flt lines labels count reproducible clock,
  Forall (line_printable flt) lines -> Forall (fun l => Forall unquoted (lv_opcodes l)) lines -> Forall (fun p => printable (fst p)) labels ->
  (exists v, json_text (write dec_Z flt lines labels count reproducible clock) v) /\
  forall v, json_text (out_write true dec_Z flt lines labels count reproducible clock []) v <-> json_text (write dec_Z flt lines labels count reproducible clock) v.
Proof.
  intros flt lines labels count reproducible clock H1 H2 H3.
  pose proof (jvalue_text _ _ (doc_jvalue dec_Z flt dec_Z_value lines labels count reproducible clock H1 H2 H3)) as Hp.
  pose proof (p_doc_jvalue true dec_Z flt dec_Z_value lines labels count reproducible clock H1 H2 H3) as Hq.
  split; [eexists; exact Hp|]. intros v. rewrite w_write. cbn [app]. split; intros Hv.
  - rewrite (json_unique _ _ _ Hv Hq). exact Hp.
  - rewrite (json_unique _ _ _ Hv Hp). exact Hq.
Qed.
Theorem json_pretty_debug_says : forall flt lines labels used weak data aliased,
  Forall (debug_line_printable flt) lines -> Forall (fun p => printable (fst p)) labels ->
  Forall refs_printable used -> Forall refs_printable weak -> Forall refs_printable data ->
  Forall (fun p => printable (fst p) /\ printable (snd p)) aliased ->
  (exists v, json_text (writeDebug dec_Z flt lines labels used weak data aliased) v) /\
  forall v, json_text (out_write_debug true dec_Z flt lines labels used weak data aliased []) v <->
            json_text (writeDebug dec_Z flt lines labels used weak data aliased) v.
Proof.
  intros flt lines labels used weak data aliased H1 H2 H3 H4 H5 H6.
  pose proof (jvalue_text _ _ (debug_jvalue dec_Z flt dec_Z_value lines labels used weak data aliased H1 H2 H3 H4 H5 H6)) as Hp.
  pose proof (p_debug_jvalue true dec_Z flt dec_Z_value lines labels used weak data aliased H1 H2 H3 H4 H5 H6) as Hq.
  split; [eexists; exact Hp|]. intros v. rewrite w_write_debug. cbn [app]. split; intros Hv.
  - rewrite (json_unique _ _ _ Hv Hq). exact Hp.
  - rewrite (json_unique _ _ _ Hv Hp). exact Hq.
Qed.

(** One line with a reference, and a label table: the line feeds in their places. *)
Definition one_line : asm_line_v :=
  set_lv_labels [mkLabelV (mkView ONull (lit "f")) (mkRange 7 8)] (set_lv_text (lit " call f") (line_v0 0)).
Example json_pretty_case :
  let plain := write dec_Z no_filter [one_line] [(lit "f", 1)] 3 true 0 in
  let pretty := out_write true dec_Z no_filter [one_line] [(lit "f", 1)] 3 true 0 [] in
  plain = T "{`asm`: [{`labels`: [{`name`: `f`, `range`: {`startCol`: 7, `endCol`: 8}}], `source`: null, `text`: ` call f`}],`labelDefinitions`: {`f`: 1}, `filteredCount`: 2}" /\
  pretty = T "{`asm`: [{" ++ [LF] ++ T "`labels`: [{`name`: `f`, " ++ [LF] ++ T "`range`: {`startCol`: 7" ++ [LF] ++ T ", `endCol`: 8" ++ [LF] ++
    T "}}], `source`: null, `text`: ` call f`" ++ [LF; LF] ++ T "}],`labelDefinitions`: {" ++ [LF] ++ T "`f`: 1" ++ [LF] ++ T "}, `filteredCount`: 2" ++ [LF] ++ T "}" ++ [LF] /\
  parse_json pretty = parse_json plain /\ parse_json plain <> None.
Proof. vm_compute. repeat split. discriminate. Qed.
Example json_pretty_debug_case :
  let used := [(lit "f", [lit "g"; lit "h"])] in
  let plain := writeDebug dec_Z no_filter [one_line; one_line] [(lit "f", 1); (lit "g", 2)] used used [] [(lit "a", lit "b")] in
  let pretty := out_write_debug true dec_Z no_filter [one_line; one_line] [(lit "f", 1); (lit "g", 2)] used used [] [(lit "a", lit "b")] [] in
  parse_json pretty = parse_json plain /\ parse_json plain <> None /\ length pretty = (length plain + 42)%nat /\
  out_write_debug false dec_Z no_filter [one_line; one_line] [(lit "f", 1); (lit "g", 2)] used used [] [(lit "a", lit "b")] (lit "x") = lit "x" ++ plain.
Proof. vm_compute. repeat split. discriminate. Qed.

Print Assumptions json_writer_steps.
Print Assumptions json_debug_writer_steps.
Print Assumptions json_pretty_line_feeds.
Print Assumptions json_pretty_debug_line_feeds.
Print Assumptions json_pretty_says.
Print Assumptions json_pretty_debug_says.
