(** src/utils/jsonwriter.cpp once more, statement by statement: every method takes
    the stream as it is and gives back the stream after the call, with the flags
    (firstLine, firstLabel, firstref, wroteSomethingInRoot), the comma options and
    the prettyPrint member of the C++ code.  Json.v is the shorter form used
    elsewhere; JsonPretty.v proves that the two agree.

    Overload resolution is done here by hand: literal keys go to the `const char *`
    overloads except with a string_view value. *)
From Verif Require Export Json.

(** jsonwriter.hpp:15-20 *)
Inductive jsonopt := o_none | o_trailingcomma | o_prefixwithcomma.
Definition is_prefix (o : jsonopt) : bool := match o with o_prefixwithcomma => true | _ => false end.
Definition is_trailing (o : jsonopt) : bool := match o with o_trailingcomma => true | _ => false end.

(** A statement: from the characters written so far to those written after it. *)
Definition act := str -> str.
Definition put (s : str) : act := fun out => out ++ s.
Definition skip : act := fun out => out.
Definition andthen (a b : act) : act := fun out => b (a out).
Definition when (b : bool) (a : act) : act := if b then a else skip.
Definition cond (b : bool) (a a' : act) : act := if b then a else a'.
Declare Scope act_scope.
Delimit Scope act_scope with act.
Notation "a ;; b" := (andthen a b) (at level 60, right associativity) : act_scope.
(** for (auto &x : l) with a flag that says whether this is the first round *)
Definition loop {A} (first : bool) (body : bool -> A -> act) (l : list A) : act :=
  fun out => fst (fold_left (fun st x => (body (snd st) x (fst st), false)) l (out, first)).

(** jsonwriter.cpp:22-46 *)
Definition escape_steps (s : str) : str :=
  fold_left (fun out c =>
    if ceq c TAB then out ++ [BSL; "t"%char]
    else if ceq c BSL then out ++ [BSL; BSL]
    else if ceq c DQ then out ++ [BSL; DQ]
    else out ++ [c]) s [].

Section Steps.
(** [prettyPrint] and [fmt]: the member and how the stream prints integers. *)
Variables (prettyPrint : bool) (fmt : Z -> str) (flt : Filter).
Local Open Scope act_scope.
Definition newline : act := when prettyPrint (put [LF]).

(** jsonwriter.cpp:48-51, :53-56 *)
Definition out_key_lit (key : string) : act := put [DQ] ;; put (lit key) ;; put (lit """: ").
Definition out_key (key : str) : act := put [DQ] ;; put (escape_steps key) ;; put (lit """: ").
(** jsonwriter.cpp:58-72 *)
Definition out_null (key : string) (opts : jsonopt) : act :=
  when (is_prefix opts) (put (lit ", ")) ;; out_key_lit key ;; put (lit "null") ;;
  when (is_trailing opts) (put (lit ", ")) ;; newline.
(** jsonwriter.cpp:74-86, :88-100 *)
Definition out_value (v : str) (opts : jsonopt) : act :=
  when (is_prefix opts) (put (lit ", ")) ;; (put [DQ] ;; put (escape_steps v) ;; put [DQ]) ;;
  when (is_trailing opts) (put (lit ", ")) ;; newline.
(** jsonwriter.cpp:102-118: std::string value, literal key *)
Definition out_kv_str (key : string) (v : str) (opts : jsonopt) : act :=
  cond (is_prefix opts) (put (lit ", ") ;; out_key_lit key ;; out_value v o_none) (out_key_lit key ;; out_value v opts).
(** jsonwriter.cpp:120-134 (long) and :136-139 (int) *)
Definition out_kv_long (key : string) (v : Z) (opts : jsonopt) : act :=
  when (is_prefix opts) (put (lit ", ")) ;; out_key_lit key ;; put (fmt v) ;;
  when (is_trailing opts) (put (lit ", ")) ;; newline.
Definition out_kv_int (key : string) (v : Z) (opts : jsonopt) : act := out_kv_long key v opts.
(** jsonwriter.cpp:141-155: int value, key of the table *)
Definition out_kv_num (key : str) (v : Z) (opts : jsonopt) : act :=
  when (is_prefix opts) (put (lit ", ")) ;; out_key key ;; put (fmt v) ;;
  when (is_trailing opts) (put (lit ", ")) ;; newline.
(** jsonwriter.cpp:157-173: string_view key and value *)
Definition out_kv_view (key v : str) (opts : jsonopt) : act :=
  cond (is_prefix opts) (put (lit ", ") ;; out_key key ;; out_value v o_none) (out_key key ;; out_value v opts).

(** jsonwriter.cpp:175-221 *)
Definition out_source (l : asm_line_v) : act :=
  let src := lv_source l in
  let file := v_str (sv_file src) in
  cond ((negb (lv_is_label l) || lv_has_opcode l) && (0 <? sv_line src))
    (put (lit "{") ;;
     when (negb (sv_column src =? 0)) (out_kv_int "column" (sv_column src) o_trailingcomma) ;;
     (let main := starts_with (lit "/app/example.") file || starts_with (lit "example.") file in
      let r := if negb (is_nil file) then
          (main,
           if negb (f_dont_mask_filenames flt) && main then out_null "file" o_trailingcomma
           else if starts_with (lit "/app/") file then out_kv_view (lit "file") (skipn 5 file) o_trailingcomma
           else out_kv_view (lit "file") file o_trailingcomma)
        else (true, out_null "file" o_trailingcomma) in
      snd r ;; out_kv_str "mainsource" (if fst r then lit "true" else lit "false") o_trailingcomma) ;;
     out_kv_int "line" (sv_line src) o_none ;;
     put (lit "}"))
    (put (lit "null")).

(** jsonwriter.cpp:306-324 *)
Definition out_opcodes (l : asm_line_v) : act :=
  put (lit "[") ;;
  loop true (fun first o => cond (negb first) (put (lit ", ")) skip ;; (put [DQ] ;; put o ;; put [DQ])) (lv_opcodes l) ;;
  put (lit "]").
(** jsonwriter.cpp:326-354, and :454-479 once more *)
Definition out_label_array (l : asm_line_v) : act :=
  put (lit "[") ;;
  loop true (fun first r =>
    cond (negb first) (put (lit ",") ;; newline) skip ;;
    put (lit "{") ;; out_kv_view (lit "name") (v_str (lbv_name r)) o_trailingcomma ;; out_key_lit "range" ;; put (lit "{") ;;
    out_kv_int "startCol" (r_start (lbv_range r)) o_none ;; out_kv_int "endCol" (r_end (lbv_range r)) o_prefixwithcomma ;;
    put (lit "}") ;; put (lit "}")) (lv_labels l) ;;
  put (lit "]").

(** jsonwriter.cpp:223-304; a part of the root object: the flag before, what is
    written, the flag after *)
Definition part (b : bool) (a : act) (st : act * bool) : act * bool :=
  if b then ((fst st ;; (when (snd st) (put (lit ", ")) ;; a))%act, true) else st.
Definition out_line (l : asm_line_v) : act :=
  let st := ((put (lit "{") ;; newline ;; out_key_lit "labels" ;; out_label_array l)%act, true) in
  let st := part (0 <? Z.of_nat (length (lv_opcodes l))) (out_key_lit "opcodes" ;; out_opcodes l) st in
  let st := match lv_address l with
            | Some a => part (negb (lv_is_label l && f_compatmode flt)) (out_kv_long "address" a o_none) st
            | None => st
            end in
  let st := part true (out_key_lit "source" ;; out_source l) st in
  let st := part (negb (is_nil (v_str (lv_section l))) && negb (f_compatmode flt)) (out_kv_view (lit "section") (v_str (lv_section l)) o_none) st in
  let st := part true (out_kv_str "text" (lv_text l) o_none) st in
  fst st ;; newline ;; put (lit "}").

(** jsonwriter.cpp:360-377 and :491-508 *)
Definition out_lines (f : asm_line_v -> act) (lines : list asm_line_v) : act :=
  loop true (fun first l => when (negb first) (put (lit ",") ;; newline) ;; f l) lines ;; put (lit "],").
(** jsonwriter.cpp:379-397 and :510-528 *)
Definition out_label_defs (labels : list (str * Z)) : act :=
  out_key_lit "labelDefinitions" ;; put (lit "{") ;; newline ;;
  loop true (fun first e => cond first (out_kv_num (fst e) (snd e) o_none) (out_kv_num (fst e) (snd e) o_prefixwithcomma)) labels ;;
  put (lit "}").
(** jsonwriter.cpp:356-407 *)
Definition out_write (lines : list asm_line_v) (labels : list (str * Z)) (original_line_count : Z) (reproducible : bool) (clock : Z) : act :=
  put (lit "{") ;; out_key_lit "asm" ;; put (lit "[") ;; out_lines out_line lines ;;
  out_label_defs labels ;;
  when (negb reproducible) (out_kv_long "parsingTime" clock o_prefixwithcomma) ;;
  out_kv_long "filteredCount" (filteredCount original_line_count (Z.of_nat (length lines))) o_prefixwithcomma ;;
  put (lit "}") ;; newline.

(** jsonwriter.cpp:424-485 *)
Definition truth (b : bool) : str := if b then lit "true" else lit "false".
Definition out_debug_line (l : asm_line_v) : act :=
  put (lit "{") ;;
  out_kv_str "text" (lv_text l) o_trailingcomma ;;
  match lv_address l with Some a => out_kv_long "address" a o_trailingcomma | None => out_null "address" o_trailingcomma end ;;
  out_kv_str "is_data" (truth (lv_is_data l)) o_trailingcomma ;;
  out_kv_str "is_used" (truth (lv_is_used l)) o_trailingcomma ;;
  out_kv_str "is_label" (truth (lv_is_label l)) o_trailingcomma ;;
  out_kv_str "is_internal_label" (truth (lv_is_internal_label l)) o_trailingcomma ;;
  out_kv_str "is_inline_asm" (truth (lv_is_inline_asm l)) o_trailingcomma ;;
  out_kv_str "closest_parent_label" (lv_closest_parent_label l) o_trailingcomma ;;
  out_kv_view (lit "section") (v_str (lv_section l)) o_trailingcomma ;;
  out_kv_str "has_opcode" (truth (lv_has_opcode l)) o_trailingcomma ;;
  out_kv_str "is_directive" (truth (lv_is_directive l)) o_trailingcomma ;;
  out_kv_str "is_assignment" (truth (lv_is_assignment l)) o_trailingcomma ;;
  out_key_lit "source" ;; out_source l ;; put (lit "," ++ [LF]) ;;
  out_key_lit "labels" ;; out_label_array l ;; newline ;; put (lit "}").

(** jsonwriter.cpp:546-561, :581-596, :615-630 *)
Definition out_refs (e : str * list str) : act :=
  out_key (fst e) ;; put (lit "[") ;;
  loop true (fun first r => cond first (out_value r o_none) (out_value r o_prefixwithcomma)) (snd e) ;; put (lit "]").
(** jsonwriter.cpp:487-655 *)
Definition out_write_debug (lines : list asm_line_v) (labels : list (str * Z))
           (used weak data : list (str * list str)) (aliased : list (str * str)) : act :=
  put (lit "{") ;; out_key_lit "asm" ;; put (lit "[") ;; out_lines out_debug_line lines ;;
  out_label_defs labels ;;
  put (lit "," ++ [LF]) ;; out_key_lit "used_labels" ;; put (lit "[") ;;
  loop true (fun first e => cond first skip (put (lit ",")) ;; put (lit "{") ;; out_refs e ;; put (lit "}")) used ;; put (lit "]") ;;
  put (lit "," ++ [LF]) ;; out_key_lit "used_weak_labels" ;; put (lit "{") ;;
  loop true (fun first e => cond first skip (put (lit ",")) ;; out_refs e) weak ;; put (lit "}") ;;
  put (lit "," ++ [LF]) ;; out_key_lit "used_data_labels" ;; put (lit "{") ;;
  loop true (fun first e => cond first skip (put (lit ",")) ;; out_refs e) data ;; put (lit "}") ;;
  put (lit "," ++ [LF]) ;; out_key_lit "aliased_labels" ;; put (lit "{") ;;
  loop true (fun first e => cond first (out_kv_view (fst e) (snd e) o_none) (out_kv_view (fst e) (snd e) o_prefixwithcomma)) aliased ;;
  put (lit "}") ;; put (lit "}") ;; newline.
End Steps.
