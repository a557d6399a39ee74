(** src/utils/jsonwriter.cpp: JsonWriter and DebugJsonWriter.  Each writer method
    becomes a function from its arguments to the characters it appends to the
    stream.  [prettyPrint] is false in every constructor (jsonwriter.cpp:12) and
    nothing sets it, so the branches it guards are left out here; JsonSteps.v has
    them, and the flags and comma options, statement by statement. *)
From Verif Require Export Utils.

(** jsonwriter.cpp:22-46 *)
Definition escape_char (c : char) : str :=
  if ceq c TAB then [BSL; "t"%char]
  else if ceq c BSL then [BSL; BSL]
  else if ceq c DQ then [BSL; DQ]
  else [c].
Definition escape (s : str) : str := flat_map escape_char s.

(** Decimal digits of a natural number (operator<< for integers, classic locale). *)
Definition digit_char (d : Z) : char := ascii_of_N (Z.to_N (48 + d)).
Fixpoint dec_digits (fuel : nat) (n : Z) (acc : str) : str :=
  match fuel with
  | O => acc
  | S k => let acc := digit_char (n mod 10) :: acc in if n / 10 =? 0 then acc else dec_digits k (n / 10) acc
  end.
(** Enough fuel for any value: one step per binary digit. *)
Definition dec_nat (n : Z) : str := dec_digits (S (Z.to_nat (Z.log2 n))) n [].
Definition dec_Z (z : Z) : str := if z <? 0 then "-"%char :: dec_nat (- z) else dec_nat z.

(** operator<< under a locale whose numpunct groups by three with a comma, as
    en_US.UTF-8 does: the digits, a comma before every group of three. *)
Fixpoint group3 (rdigits : str) (k : nat) : str :=
  match rdigits with
  | [] => []
  | d :: t => match k with
              | O => ","%char :: d :: group3 t 2
              | S k' => d :: group3 t k'
              end
  end.
Definition grp_nat (n : Z) : str := rev (group3 (rev (dec_nat n)) 3).
Definition grp_Z (z : Z) : str := if z <? 0 then "-"%char :: grp_nat (- z) else grp_nat z.

Section Writer.
(** [fmt]: how the stream's locale prints an integer; [flt]: the filter. *)
Variables (fmt : Z -> str) (flt : Filter).

Definition quoted (s : str) : str := [DQ] ++ s ++ [DQ].
(** The separator written by the trailingcomma / prefixwithcomma options. *)
Definition SEP : str := lit ", ".

(** jsonwriter.cpp:48-56.  Literal keys contain nothing to escape, so the two
    overloads agree on them. *)
Definition writeKeyName (k : str) : str := quoted (escape k) ++ lit ": ".
(** jsonwriter.cpp:58-72, :74-100, :102-118 and :157-173, :120-155; the separators
    are written by the caller below. *)
Definition writeKvNull (k : str) : str := writeKeyName k ++ lit "null".
Definition writeValue (v : str) : str := quoted (escape v).
Definition writeKvStr (k v : str) : str := writeKeyName k ++ writeValue v.
Definition writeKvInt (k : str) (v : Z) : str := writeKeyName k ++ fmt v.
Definition bool_str (b : bool) : str := if b then lit "true" else lit "false".

(** jsonwriter.cpp:186-209: the masked file name (None: null) and isMainSource *)
Definition isMainSource (file : str) : bool :=
  if is_nil file then true
  else starts_with (lit "/app/example.") file || starts_with (lit "example.") file.
Definition shown_file (file : str) : option str :=
  if is_nil file then None
  else if negb (f_dont_mask_filenames flt) && isMainSource file then None
  else if starts_with (lit "/app/") file then Some (skipn 5 file)
  else Some file.

(** jsonwriter.cpp:175-221 *)
Definition writeSource (l : asm_line_v) : str :=
  let src := lv_source l in
  if (negb (lv_is_label l) || lv_has_opcode l) && (0 <? sv_line src) then
    lit "{"
    ++ (if negb (sv_column src =? 0) then writeKvInt (lit "column") (sv_column src) ++ SEP else [])
    ++ (match shown_file (v_str (sv_file src)) with
        | None => writeKvNull (lit "file")
        | Some f => writeKvStr (lit "file") f
        end) ++ SEP
    ++ writeKvStr (lit "mainsource") (bool_str (isMainSource (v_str (sv_file src)))) ++ SEP
    ++ writeKvInt (lit "line") (sv_line src)
    ++ lit "}"
  else lit "null".

(** The separator-between-elements loops: nothing before the first element. *)
Fixpoint sep_tail {A} (sep : str) (f : A -> str) (l : list A) : str :=
  match l with [] => [] | a :: t => sep ++ f a ++ sep_tail sep f t end.
Definition sep_list {A} (sep : str) (f : A -> str) (l : list A) : str :=
  match l with [] => [] | a :: t => f a ++ sep_tail sep f t end.

(** jsonwriter.cpp:306-324: the opcode text is written without escaping. *)
Definition writeOpcodesArray (l : asm_line_v) : str := lit "[" ++ sep_list SEP quoted (lv_opcodes l) ++ lit "]".

(** jsonwriter.cpp:344-351 *)
Definition writeLabelRef (r : asm_label_v) : str :=
  lit "{" ++ writeKvStr (lit "name") (v_str (lbv_name r)) ++ SEP
  ++ writeKeyName (lit "range") ++ lit "{"
  ++ writeKvInt (lit "startCol") (r_start (lbv_range r)) ++ SEP
  ++ writeKvInt (lit "endCol") (r_end (lbv_range r)) ++ lit "}" ++ lit "}".
(** jsonwriter.cpp:326-354 *)
Definition writeLabelArray (l : asm_line_v) : str := lit "[" ++ sep_list (lit ",") writeLabelRef (lv_labels l) ++ lit "]".

(** jsonwriter.cpp:223-304.  wroteSomethingInRoot is true from line 234 on. *)
Definition writeLine (l : asm_line_v) : str :=
  lit "{"
  ++ writeKeyName (lit "labels") ++ writeLabelArray l
  ++ (if negb (is_nil (lv_opcodes l)) then SEP ++ writeKeyName (lit "opcodes") ++ writeOpcodesArray l else [])
  ++ (match lv_address l with
      | Some a => if negb (lv_is_label l && f_compatmode flt) then SEP ++ writeKvInt (lit "address") a else []
      | None => []
      end)
  ++ SEP ++ writeKeyName (lit "source") ++ writeSource l
  ++ (if negb (is_nil (v_str (lv_section l))) && negb (f_compatmode flt)
      then SEP ++ writeKvStr (lit "section") (v_str (lv_section l)) else [])
  ++ SEP ++ writeKvStr (lit "text") (lv_text l)
  ++ lit "}".

(** jsonwriter.cpp:379-397 and :510-528 *)
Definition writeLabelDefs (labels : list (str * Z)) : str :=
  writeKeyName (lit "labelDefinitions") ++ lit "{"
  ++ sep_list SEP (fun kv => writeKvInt (fst kv) (snd kv)) labels ++ lit "}".

(** static_cast<long>(original_line_count - lines.size()), both size_t. *)
Definition filteredCount (original_line_count : Z) (nlines : Z) : Z := wrap_s 64 (original_line_count - nlines).

(** jsonwriter.cpp:356-407.  [clock] is the value of global_current_running_time. *)
Definition write (lines : list asm_line_v) (labels : list (str * Z)) (original_line_count : Z)
           (reproducible : bool) (clock : Z) : str :=
  lit "{" ++ writeKeyName (lit "asm") ++ lit "[" ++ sep_list (lit ",") writeLine lines ++ lit "],"
  ++ writeLabelDefs labels
  ++ (if negb reproducible then SEP ++ writeKvInt (lit "parsingTime") clock else [])
  ++ SEP ++ writeKvInt (lit "filteredCount") (filteredCount original_line_count (Z.of_nat (length lines)))
  ++ lit "}".

Definition NL : str := lit "," ++ [LF].
(** jsonwriter.cpp:424-485 *)
Definition writeDebugLine (l : asm_line_v) : str :=
  lit "{" ++ writeKvStr (lit "text") (lv_text l) ++ SEP
  ++ (match lv_address l with Some a => writeKvInt (lit "address") a | None => writeKvNull (lit "address") end) ++ SEP
  ++ writeKvStr (lit "is_data") (bool_str (lv_is_data l)) ++ SEP
  ++ writeKvStr (lit "is_used") (bool_str (lv_is_used l)) ++ SEP
  ++ writeKvStr (lit "is_label") (bool_str (lv_is_label l)) ++ SEP
  ++ writeKvStr (lit "is_internal_label") (bool_str (lv_is_internal_label l)) ++ SEP
  ++ writeKvStr (lit "is_inline_asm") (bool_str (lv_is_inline_asm l)) ++ SEP
  ++ writeKvStr (lit "closest_parent_label") (lv_closest_parent_label l) ++ SEP
  ++ writeKvStr (lit "section") (v_str (lv_section l)) ++ SEP
  ++ writeKvStr (lit "has_opcode") (bool_str (lv_has_opcode l)) ++ SEP
  ++ writeKvStr (lit "is_directive") (bool_str (lv_is_directive l)) ++ SEP
  ++ writeKvStr (lit "is_assignment") (bool_str (lv_is_assignment l)) ++ SEP
  ++ writeKeyName (lit "source") ++ writeSource l ++ NL
  ++ writeKeyName (lit "labels") ++ writeLabelArray l
  ++ lit "}".

Definition writeRefs (e : str * list str) : str :=
  writeKeyName (fst e) ++ lit "[" ++ sep_list SEP writeValue (snd e) ++ lit "]".

(** jsonwriter.cpp:487-655.  The maps are given in iteration order. *)
Definition writeDebug (lines : list asm_line_v) (labels : list (str * Z))
           (used weak data : list (str * list str)) (aliased : list (str * str)) : str :=
  lit "{" ++ writeKeyName (lit "asm") ++ lit "[" ++ sep_list (lit ",") writeDebugLine lines ++ lit "],"
  ++ writeLabelDefs labels ++ NL
  ++ writeKeyName (lit "used_labels") ++ lit "["
  ++ sep_list (lit ",") (fun e => lit "{" ++ writeRefs e ++ lit "}") used ++ lit "]" ++ NL
  ++ writeKeyName (lit "used_weak_labels") ++ lit "{" ++ sep_list (lit ",") writeRefs weak ++ lit "}" ++ NL
  ++ writeKeyName (lit "used_data_labels") ++ lit "{" ++ sep_list (lit ",") writeRefs data ++ lit "}" ++ NL
  ++ writeKeyName (lit "aliased_labels") ++ lit "{"
  ++ sep_list SEP (fun kv => writeKvStr (fst kv) (snd kv)) aliased ++ lit "}"
  ++ lit "}".

End Writer.
