(** What any line means to the objdump parser, well formed or not: a reading of
    the line as a whole (first word, rest), without the parser's character
    machine. *)
From Verif Require Export ObjListing.

(** Beside what listings need, two things are carried from line to line: whether
    a "<" is still waiting for its end, and the column it left. *)
Record pstate := mkP { p_l : lstate; p_open : bool; p_col : Z }.
Definition pstate0 : pstate := mkP lstate0 false 0.

(** A finished line is shown unless it is empty or a hidden function is being read. *)
Definition show (a : lstate) (addr : option Z) (groups : list str) (refs : list asm_label) (text : str) : lstate :=
  if a_ignoring a || is_nil text then a
  else emit (set_l_text (SP :: text) (set_l_address addr (set_l_opcodes groups (set_l_labels refs
          (set_l_source (a_source a) (set_l_section (a_section a) line0)))))) a.

(** References of the text [rest] that follows [pre]: from the character after
    the last "<" to the next ">" or "+".  The columns are kept in 16 bits. *)
Fixpoint scan (mb : str -> Z) (flt : Filter) (open : bool) (col : Z) (pre rest : str) : list asm_label * (bool * Z) :=
  match rest with
  | [] => ([], (open, col))
  | c :: r =>
      if Ascii.eqb c "<" then scan mb flt true (u16 (ustrlen mb pre + 1)) (pre ++ [c]) r
      else if open && (Ascii.eqb c ">" || Ascii.eqb c "+") then
        let next := scan mb flt false 0 (pre ++ [c]) r in
        (match substr_from pre col with
         | Some name => if shouldIgnoreFunction name flt then [] else [mkLabel name (mkRange col (u16 (ustrlen mb pre)))]
         | None => []
         end ++ fst next, snd next)
      else scan mb flt open col (pre ++ [c]) r
  end.
(** In the line shown the text has moved right by one, and columns start at 1. *)
Definition moved (r : asm_label) : asm_label :=
  mkLabel (lb_name r) (mkRange (u16 (r_start (lb_range r) + 2)) (u16 (r_end (lb_range r) + 2))).

(** Text after [pre]; references are looked for up to the first "#". *)
Definition text_part (mb : str -> Z) (flt : Filter) (p : pstate) (addr : option Z) (groups : list str) (pre r : str) : pstate :=
  let body := if is_nil pre then drop_while is_whitespace r else r in
  let found := scan mb flt (p_open p) (p_col p) pre (take_while (fun c => negb (Ascii.eqb c "#")) body) in
  mkP (show (p_l p) addr groups (map moved (fst found)) (pre ++ body)) (fst (snd found)) (snd (snd found)).

(** Maximal runs of characters other than blanks (tabs count as characters). *)
Fixpoint split_on (sep : char) (t : str) : list str :=
  match t with
  | [] => [[]]
  | c :: t' => if Ascii.eqb c sep then [] :: split_on sep t'
               else match split_on sep t' with g :: gs => (c :: g) :: gs | [] => [[c]] end
  end.
Definition words (t : str) : list str := filter (fun g => negb (is_nil g)) (split_on SP t).

(** After ADDR: the bytes collected so far are [t].  A blank or tab after a blank
    ends them; R starts a relocation; any other character that is no
    hexadecimal digit makes everything so far the beginning of the text. *)
Fixpoint bytes_part (mb : str -> Z) (flt : Filter) (p : pstate) (addr : option Z) (t r : str) : pstate :=
  match r with
  | [] => mkP (show (p_l p) addr [] [] t) (p_open p) (p_col p)
  | c :: r' =>
      if is_whitespace c then
        if is_nil t then bytes_part mb flt p addr t r'
        else if last_is SP t then text_part mb flt p addr (words t) [] r'
        else bytes_part mb flt p addr (t ++ [c]) r'
      else if Ascii.eqb c "R" then
        mkP (show (p_l p) addr [] [] (t ++ lit "   R" ++ map (fun x => if Ascii.eqb x TAB then SP else x) r')) (p_open p) (p_col p)
      else match hex_digit c with
           | Some _ => bytes_part mb flt p addr (t ++ [c]) r'
           | None => text_part mb flt p addr [] (t ++ [c]) r'
           end
  end.

(** The first word as an address: None when it is none (C10 and C11 say when it
    is read correctly).  Not looked at while a hidden function is being read. *)
Definition address_word (a : lstate) (w : str) : outcome (option (option Z)) :=
  if a_ignoring a then Ok (Some None)
  else omap (fun x => if snd x : bool then None else Some (Some (fst x))) (addr_loop (rev w) 0 0).

(** NAME, or what stands between < and >: *)
Definition name_of_label (t : str) : str :=
  match getLabelFromObjdumpLabel t with Some n => n | None => t end.
Definition new_label (flt : Filter) (a : lstate) (addr : option Z) (name : str) : lstate :=
  let d := if f_library_functions flt then drop_library_function a else a in
  if shouldIgnoreFunction name flt
  then mkL (a_section a) (a_source a) true (a_stopped a) (a_lines d) (a_labels d)
  else emit (set_l_text (name ++ [":"%char]) (set_l_is_label true (set_l_label name (set_l_address addr
               (set_l_source (a_source a) (set_l_section (a_section a) line0))))))
         (mkL (a_section a) (a_source a) false (a_stopped a) (a_lines d)
              (a_labels d ++ [(name, Z.of_nat (length (a_lines d)) + 1)])).

(** A line with a slash in its first word: [f] is the text up to the first colon,
    [q] what follows it.  The number ends at a blank; of several colons before
    it the last counts, and the piece before that one is the file. *)
Definition source_part (a : lstate) (f q : str) : outcome lstate :=
  let pieces := split_on ":" (f ++ ":"%char :: take_while (fun c => negb (is_whitespace c)) q) in
  let file := last (removelast pieces) [] in
  let with_line n := mkL (a_section a) (mkSource file 0 n 0 (negb (file_in_library file)) false)
                         (a_ignoring a) (a_stopped a) (a_lines a) (a_labels a) in
  if a_ignoring a && forallb (fun c => negb (is_whitespace c)) q then Ok (with_line 0)
  else match atoi (last pieces []) with
       | None => UB AtoiRange
       | Some n => Ok (with_line (if 0 <? n then n else 0))
       end.

Definition set_section (name : str) (a : lstate) : lstate :=
  mkL name (a_source a) (a_ignoring a) (a_stopped a) (a_lines a) (a_labels a).
Definition on_list (f : lstate -> lstate) (p : pstate) : pstate := mkP (f (p_l p)) (p_open p) (p_col p).

Definition word_end (c : char) : bool := Ascii.eqb c "/" || Ascii.eqb c ":" || is_whitespace c.

(** One line without its line end and without carriage returns. *)
Definition read_line (mb : str -> Z) (flt : Filter) (p : pstate) (line : str) : outcome pstate :=
  let a := p_l p in
  if a_stopped a then Ok p
  else
    let body := drop_while (fun c => is_whitespace c || Ascii.eqb c ";") line in
    let w := filter (fun c => negb (Ascii.eqb c ";")) (take_while (fun c => negb (word_end c)) body) in
    match drop_while (fun c => negb (word_end c)) body with
    | [] => Ok (on_list (fun a => show a None [] [] w) p)
    | c :: r =>
        if Ascii.eqb c "/" then
          let f := w ++ "/"%char :: take_while (fun x => negb (Ascii.eqb x ":")) r in
          match drop_while (fun x => negb (Ascii.eqb x ":")) r with
          | [] => Ok (on_list (fun a => show a None [] [] f) p)
          | _ :: q => omap (fun a => mkP a (p_open p) (p_col p)) (source_part a f q)
          end
        else if Ascii.eqb c ":" then
          if is_nil w then Ok (text_part mb flt p None [] [] r)
          else o <- address_word a w ;;
               Ok (match o with Some addr => bytes_part mb flt p addr [] r | None => p end)
        else if str_eqb w (lit "Disassembly") then
          let a' := set_section [] a in
          let t := w ++ c :: r in
          let h := lit "Disassembly of section " in
          if starts_with h t then
            match skipn (length h) t with
            | [] => Ok (on_list (fun _ => show a' None [] [] t) p)
            | x :: u => Ok (on_list (fun _ => set_section (x :: take_while (fun y => negb (Ascii.eqb y ":")) u) a) p)
            end
          else Ok (on_list (fun _ => show a' None [] [] t) p)
        else
          o <- address_word a w ;;
          Ok (match o with
              | Some addr =>
                  match drop_while is_whitespace r with
                  | [] => p
                  | t => on_list (fun a => new_label flt a addr (name_of_label t)) p
                  end
              | None => p
              end)
    end.

Fixpoint read_lines (mb : str -> Z) (flt : Filter) (p : pstate) (ls : list str) : outcome pstate :=
  match ls with
  | [] => Ok p
  | l :: t => p' <- read_line mb flt p l ;; read_lines mb flt p' t
  end.
Definition unlines (ls : list str) : str := flat_map (fun l => l ++ [LF]) ls.
