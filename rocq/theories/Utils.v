(** src/utils/utils.cpp, src/utils/regexwrappers.cpp and
    src/utils/library_detection.cpp. *)
From Verif Require Export Types Regexes.

(** src/utils/utils.hpp:9-12 *)
Definition is_whitespace (c : char) : bool := ceq c SP || ceq c TAB.

(** src/utils/utils.cpp:4-7: lower case only. *)
Definition is_hex (c : char) : bool := in_range "a" "f" c || in_range "0" "9" c.

(** src/utils/utils.cpp:9-19.  Returned as int8_t; for the hex digits it is
    called on, no conversion changes the value. *)
Definition hex2int (c : char) : Z :=
  if in_range "0" "9" c then code c - code "0" else i8 (10 + (code c - code "a")).

(** src/utils/utils.cpp:21-50.  [mblen] is the C library function in the current
    locale, applied to the unread bytes (and their number).  The loop is run
    with the byte length as fuel; each iteration drops at least one byte. *)
Fixpoint ustrlen_loop (mblen : str -> Z) (fuel : nat) (s : str) : Z :=
  match fuel with
  | O => 0
  | S k =>
      match s with
      | [] => 0
      | _ =>
          let n := mblen s in
          if n <? 1 then 0
          else 1 + (if n <? Z.of_nat (length s) then ustrlen_loop mblen k (skipn (Z.to_nat n) s) else 0)
      end
  end.
Definition ustrlen (mblen : str -> Z) (s : str) : Z := ustrlen_loop mblen (length s) s.

(** Two instances of [mblen]: a single-byte (ASCII) locale, and UTF-8 per
    RFC 3629.  They are used in examples; the theorems take any [mblen]. *)
Definition mblen_ascii (s : str) : Z :=
  match s with
  | [] => 0
  | c :: _ => if code c =? 0 then 0 else if code c <? 128 then 1 else -1
  end.
Definition cont (c : char) : bool := (128 <=? code c) && (code c <=? 191).
Definition mblen_utf8 (s : str) : Z :=
  match s with
  | [] => 0
  | a :: t =>
      let x := code a in
      if x =? 0 then 0
      else if x <? 128 then 1
      else if (194 <=? x) && (x <=? 223) then
        match t with b :: _ => if cont b then 2 else -1 | [] => -1 end
      else if (224 <=? x) && (x <=? 239) then
        match t with
        | b :: c :: _ =>
            if cont b && cont c && negb ((x =? 224) && (code b <? 160)) && negb ((x =? 237) && (159 <? code b))
            then 3 else -1
        | _ => -1
        end
      else if (240 <=? x) && (x <=? 244) then
        match t with
        | b :: c :: d :: _ =>
            if cont b && cont c && cont d && negb ((x =? 240) && (code b <? 144)) && negb ((x =? 244) && (143 <? code b))
            then 4 else -1
        | _ => -1
        end
      else -1
  end.

(** src/utils/library_detection.cpp:7-11 *)
Definition file_in_library (f : str) : bool :=
  starts_with (lit "/opt/compiler-explorer/") f || starts_with (lit "/usr/include") f
  || starts_with (lit "/usr/local/include") f.

(** Decimal value of a run of digits. *)
Definition dec_step (acc : Z) (c : char) : Z := acc * 10 + (code c - code "0").
Definition dec_value (s : str) : Z := fold_left dec_step s 0.

Fixpoint take_while {A} (p : A -> bool) (s : list A) : list A :=
  match s with c :: t => if p c then c :: take_while p t else [] | [] => [] end.
Fixpoint drop_while {A} (p : A -> bool) (s : list A) : list A :=
  match s with c :: t => if p c then drop_while p t else s | [] => [] end.

(** C library atoi: white space, optional sign, digits; a value outside int is
    undefined behaviour (None). *)
Definition atoi (s : str) : option Z :=
  let s1 := drop_while is_space s in
  let '(neg, s2) := match s1 with
                    | c :: t => if ceq c "-" then (true, t) else if ceq c "+" then (false, t) else (false, s1)
                    | [] => (false, [])
                    end in
  let v := dec_value (take_while is_digit s2) in
  let v := if neg : bool then - v else v in
  if (INT_MIN <=? v) && (v <=? INT_MAX) then Some v else None.

(** ctre capture .to_number(): std::from_chars into an int that was 0; on
    overflow the int keeps 0.  Only applied to captures of \d+ . *)
Definition to_number (s : str) : Z := let v := dec_value s in if v <=? INT_MAX then v else 0.

(** regexwrappers.cpp:8-27 *)
Definition getSourceRef (line : str) : Z * Z * Z :=
  match re_match sourceTag line with
  | Some mt =>
      let column := match re_match sourceTagWithColumn line with
                    | Some mc => to_number (cap 3 mc)
                    | None => 0
                    end in
      (to_number (cap 1 mt), to_number (cap 2 mt), column)
  | None => (0, 0, 0)
  end.

(** regexwrappers.cpp:29-45 *)
Definition getFileDef (line : str) : option (Z * str) :=
  match re_match fileFind line with
  | Some mt =>
      let rest := cap 4 mt in
      if negb (is_nil rest) then Some (to_number (cap 1 mt), cap 2 mt ++ lit "/" ++ rest)
      else Some (to_number (cap 1 mt), cap 2 mt)
  | None => None
  end.

(** regexwrappers.cpp:47-71.  [spacesNeeded] is the source's name for the number
    of the eight spaces that are skipped; [extraChars] is kept as it is. *)
Fixpoint expandTabs_loop (s : str) (out : str) (extraChars : Z) : str :=
  match s with
  | [] => out
  | c :: t =>
      if ceq c TAB then
        let total := Z.of_nat (length out) + extraChars in
        let spacesNeeded := Z.land (total + 8) 7 in
        expandTabs_loop t (out ++ skipn (Z.to_nat spacesNeeded) (lit "        ")) (extraChars + spacesNeeded)
      else expandTabs_loop t (out ++ [c]) extraChars
  end.
Definition expandTabs (line : str) : str := expandTabs_loop line [] 0.

(** regexwrappers.cpp:84-91 (std::isspace on unsigned char) *)
Definition ltrim (s : str) : str := drop_while is_space s.

(** regexwrappers.cpp:93-130: computes [lastit] as an offset. *)
Fixpoint glwc_loop (s : str) (i : nat) (spacing stillStarting : bool) (lastit : nat) : nat :=
  match s with
  | [] => lastit
  | c :: t =>
      if ceq c ";" || ceq c "#" then (if negb spacing then i else lastit)
      else if spacing then
        (if negb (is_whitespace c) then glwc_loop t (S i) false stillStarting lastit
         else glwc_loop t (S i) true stillStarting lastit)
      else if is_whitespace c then
        (if negb stillStarting then glwc_loop t (S i) true stillStarting i
         else glwc_loop t (S i) spacing stillStarting lastit)
      else glwc_loop t (S i) spacing false lastit
  end.
Definition getLineWithoutComment (line : str) : str :=
  firstn (glwc_loop line 0 false true (length line)) line.

(** regexwrappers.cpp:132-191: computes (afterfirstword, lastit) as offsets.
    [n] is the length of the whole line (line.end()). *)
Fixpoint strip_loop (n : nat) (s : str) (i : nat) (wordstarted wordended spacing : bool) (afterfirst lastit : nat)
  : nat * nat :=
  match s with
  | [] => (afterfirst, lastit)
  | c :: t =>
      if ceq c ";" || ceq c "#" then
        let next_is_comment := match t with
                               | [] => true
                               | d :: _ => ceq d SP || ceq d TAB
                               end in
        if next_is_comment then (afterfirst, if negb spacing then i else lastit)
        else strip_loop n t (S i) wordstarted wordended spacing afterfirst lastit
      else if negb wordstarted && (in_range "a" "z" c || in_range "A" "Z" c) then
        strip_loop n t (S i) true wordended spacing afterfirst lastit
      else if wordstarted && negb wordended && is_whitespace c then
        strip_loop n t (S i) wordstarted true spacing i lastit
      else if wordended then
        (if spacing then
           (if negb (is_whitespace c) then strip_loop n t (S i) wordstarted wordended false afterfirst n
            else strip_loop n t (S i) wordstarted wordended spacing afterfirst lastit)
         else if is_whitespace c then strip_loop n t (S i) wordstarted wordended true afterfirst i
         else strip_loop n t (S i) wordstarted wordended spacing afterfirst lastit)
      else strip_loop n t (S i) wordstarted wordended spacing afterfirst lastit
  end.
Definition strip_offsets (line : str) : nat * nat :=
  strip_loop (length line) line 0 false false false 0 (length line).
(** The view [afterfirstword, lastit); Utils_thm proves afterfirstword <= lastit. *)
Definition getLineWithoutCommentAndStripFirstWord (line : str) : str :=
  let '(a, b) := strip_offsets line in firstn (b - a) (skipn a line).

(** regexwrappers.cpp:193-207 *)
Definition is_probably_label (line : str) : bool := ends_with (lit ":") (getLineWithoutComment line).
Definition fixLabelIndentation (line : str) : str := if is_probably_label line then ltrim line else line.

(** std::string_view::find(needle, start): first offset >= start, or None (npos). *)
Fixpoint find_sub_from (needle hay : str) (i : nat) : option nat :=
  if starts_with needle hay then Some i
  else match hay with [] => None | _ :: t => find_sub_from needle t (S i) end.
Definition find_sub (needle hay : str) (start : Z) : option nat :=
  if Z.of_nat (length hay) <? start then None
  else find_sub_from needle (skipn (Z.to_nat start) hay) (Z.to_nat start).

(** regexwrappers.cpp:220-249, the loop over ctre::range.  [fuel] bounds the
    number of matches: each consumes at least one byte.  [loc] of a failed find
    is npos = 2^64-1.  The prefixed name is the view from the prefix's begin to
    the label's end. *)
Definition npos : Z := 2 ^ 64 - 1.
Fixpoint used_labels_loop (mblen : str -> Z) (filtered : str) (diffLen : Z) (fuel pos : nat) (rest : str) (startidx : Z)
  : list asm_label :=
  match fuel with
  | O => []
  | S k =>
      match search_from usedLabelRe pos rest with
      | None => []
      | Some (_, st) =>
          let name := cap 2 st in
          let prefix := cap 1 st in
          let loc := match find_sub name filtered startidx with Some i => Z.of_nat i | None => npos end in
          let startidx' := wrap_u 64 (startidx + (loc - startidx) + Z.of_nat (length name)) in
          let lbl := mkLabel name (mkRange (u16 (loc + diffLen)) (u16 (loc + diffLen + ustrlen mblen name))) in
          let here :=
            if negb (is_nil prefix) then
              [lbl; mkLabel (prefix ++ name) (mkRange (u16 (r_start (lb_range lbl) - 1)) (r_end (lb_range lbl)))]
            else [lbl] in
          here ++ used_labels_loop mblen filtered diffLen k (m_pos st) (m_rest st) startidx'
      end
  end.
(** regexwrappers.cpp:209-249 *)
Definition getUsedLabelsInLine (mblen : str -> Z) (line : str) : list asm_label :=
  let filtered := getLineWithoutCommentAndStripFirstWord line in
  if has_char DQ filtered then []
  else
    let diffLen := Z.of_nat (length line) - Z.of_nat (length filtered) + 1 in
    used_labels_loop mblen filtered diffLen (length filtered) 0 filtered 0.

(** regexwrappers.cpp:547-553 *)
Definition isInstOpcode (line : str) : bool := is_some (re_search instOpcodeRe line).

(** regexwrappers.cpp:251-275 (the labelDef match at 254-258 has no effect) *)
Definition hasOpcode (line : str) (inNvccCode : bool) : bool :=
  let l := getLineWithoutComment line in
  if is_some (re_search instOpcodeRe l) then true
  else if is_some (re_match assignmentDef l) then false
  else if inNvccCode then is_some (re_match hasNvccOpcodeRe l)
  else is_some (re_search hasOpcodeRe l).

(** regexwrappers.cpp:277-283 *)
Definition isExampleOrStdin (f : str) : bool := is_some (re_search stdInLooking f).

(** regexwrappers.cpp:285-302 *)
Definition getSourceInfoFromStabs (line : str) : option asm_stabn :=
  match re_search sourceStab line with
  | None => None
  | Some mt =>
      let type := to_number (cap 1 mt) in
      if type =? 68 then Some (mkStabn type (to_number (cap 2 mt))) else Some (mkStabn type 0)
  end.

(** regexwrappers.cpp:304-323: Some (file, line, is_end) *)
Definition get6502DbgInfo (line : str) : option (str * Z * bool) :=
  match re_match source6502Dbg line with
  | Some mt => Some (cap 1 mt, to_number (cap 2 mt), false)
  | None => if is_some (re_search source6502DbgEnd line) then Some ([], 0, true) else None
  end.

(** regexwrappers.cpp:325-347 *)
Definition getD2LineInfo (line : str) : option Z :=
  option_map (fun mt => to_number (cap 1 mt)) (re_match sourceD2Tag line).
Definition getD2FileInfo (line : str) : option str := option_map (cap 1) (re_match sourceD2File line).

(** regexwrappers.cpp:350-420 *)
Definition startCommentBlock (l : str) : bool := is_some (re_search blockCommentStart l).
Definition endCommentBlock (l : str) : bool := is_some (re_search blockCommentStop l).
Definition startAppBlock (l : str) : bool := is_some (re_match startAppBlockRe l).
Definition endAppBlock (l : str) : bool := is_some (re_match endAppBlockRe l).
Definition startAsmNesting (l : str) : bool := is_some (re_match startAsmNestingRe l).
Definition endAsmNesting (l : str) : bool := is_some (re_match endAsmNestingRe l).
Definition startProcBlock (l : str) : bool := is_some (re_search startProcBlockRe l).
Definition endBlock (l : str) : bool := is_some (re_search endBlockRe l).
Definition endProcBlock (l : str) : bool := is_some (re_search endProcBlockRe l).

(** regexwrappers.cpp:422-430 *)
Definition getLabel (l : str) : option str := option_map (cap 1) (re_search labelDef l).

(** regexwrappers.cpp:432-440 *)
Definition getLabelFromObjdumpLabel (l : str) : option str :=
  if starts_with (lit "<") l && ends_with (lit ">:") l then Some (firstn (length l - 3) (skipn 1 l)) else None.

(** regexwrappers.cpp:442-466 *)
Definition getLabelAssignment (l : str) : option str := option_map (cap 1) (re_search labelAssignmentDef l).
Definition getAssignmentDef (l : str) : option str := option_map (cap 1) (re_match assignmentDef l).
Definition getCudaLabel (l : str) : option str := option_map (cap 1) (re_search cudaBeginDef l).

(** regexwrappers.cpp:468-490 *)
Definition getFunctionTypeDefinedLabel (l : str) : option str := option_map (cap 1) (re_search definesFunctionOrObject l).
Definition getWeakDefinedLabel (l : str) : option str := option_map (cap 1) (re_search definesWeak l).
Definition getGlobalDefinedLabel (l : str) : option str := option_map (cap 1) (re_search definesGlobal l).

(** regexwrappers.cpp:492-504 *)
Definition getSectionNameDef (l : str) : option str :=
  option_map (fun mt => if str_eqb (cap 1 mt) (lit "section") then cap 2 mt else cap 1 mt) (re_search sectionDef l).

(** regexwrappers.cpp:506-545 *)
Definition isJustComments (l : str) : bool := is_some (re_match commentOnly l).
Definition isJustNvccComments (l : str) : bool := is_some (re_match commentOnlyNvcc l).
Definition isCudaEndDef (l : str) : bool := is_some (re_match cudaEndDef l).
Definition isDataDefn (l : str) : bool := is_some (re_search dataDefn l).
Definition isDirective (l : str) : bool := is_some (re_match directive l).

(** regexwrappers.cpp:555-642 *)
Inductive hs_state := HStart | HSecond | HStop | HJustOne.
Fixpoint squash_loop (s : str) (st : hs_state) (justspaces : bool) (out : str) : str * bool :=
  match s with
  | [] => (out, justspaces)
  | c :: t =>
      match st with
      | HStop =>
          if is_whitespace c then squash_loop t HStop justspaces out
          else squash_loop t HJustOne false (out ++ [c])
      | HJustOne =>
          if is_whitespace c then squash_loop t HStop justspaces (out ++ [SP])
          else squash_loop t HJustOne false (out ++ [c])
      | HStart =>
          if is_whitespace c then squash_loop t HSecond justspaces (out ++ [SP])
          else squash_loop t HStop false (out ++ [c])
      | HSecond =>
          if is_whitespace c then squash_loop t HStop justspaces (out ++ [SP])
          else squash_loop t HStop false (out ++ [c])
      end
  end.
Definition squashHorizontalWhitespace (line : str) (atStart : bool) : str :=
  let '(out, justspaces) := squash_loop line (if atStart then HStart else HJustOne) true [] in
  if atStart && justspaces then [] else out.

(** regexwrappers.cpp:644-653.  Note that line 652 calls the plain squasher with
    its default argument atStart = true.  Fuel bounds the recursion depth: both
    recursive arguments are shorter. *)
Fixpoint squash_quotes (fuel : nat) (line : str) (atStart : bool) : str :=
  match fuel with
  | O => squashHorizontalWhitespace line true
  | S k =>
      match re_search findQuotes line with
      | Some mt => squash_quotes k (cap 1 mt) atStart ++ cap 2 mt ++ squash_quotes k (cap 3 mt) false
      | None => squashHorizontalWhitespace line true
      end
  end.
Definition squashHorizontalWhitespaceWithQuotes (line : str) (atStart : bool) : str :=
  squash_quotes (length line) line atStart.

(** regexwrappers.cpp:655-669 *)
Definition shouldIgnoreFunction (name : str) (f : Filter) : bool :=
  if is_some (re_search binaryIgnoreFunction name) then true
  else if f_plt f then
    (ends_with (lit "@plt") name || ends_with (lit "@plt>") name) || is_some (re_search pltFunction name)
  else false.
