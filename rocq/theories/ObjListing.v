(** Abstract objdump listings: what they look like (render) and what the parser
    should make of them (denote).  Nothing here uses the parser's state machine. *)
From Verif Require Export ObjSpec.

(** Instruction text: plain text, or a reference <name> / <name+offset>. *)
Inductive seg :=
| Txt (t : str)
| Ref (name rest : str).

Inductive item :=
| ISection (name : str)                        (* Disassembly of section NAME: *)
| ILabel (addr name : str)                     (* ADDR <NAME>: *)
| ISource (file num tail : str)                (* /FILE:NUM TAIL *)
| IInstr (blanks addr : str) (groups : list str) (pad : str) (segs : list seg) (comment : str)
| IBytes (blanks addr : str) (groups : list str)   (* continuation: bytes only *)
| IReloc (blanks addr rest : str)              (* ADDR: R... *)
| IOther (name rest : str)                     (* a.out: file format ..., main(): *)
| IBlank (blanks : str).

Definition render_seg (x : seg) : str :=
  match x with Txt t => t | Ref name rest => "<"%char :: name ++ rest ++ [">"%char] end.
Definition render_segs (l : list seg) : str := List.concat (map render_seg l).
Definition render_groups (gs : list str) : str := List.concat (map (fun g => g ++ [SP]) gs).
Definition render_item (i : item) : str :=
  match i with
  | ISection name => lit "Disassembly of section " ++ name ++ [":"%char]
  | ILabel addr name => addr ++ lit " <" ++ name ++ lit ">:"
  | ISource file num tail => "/"%char :: file ++ ":"%char :: num ++ tail
  | IInstr b addr gs pad segs comment => b ++ addr ++ [":"%char] ++ TAB :: render_groups gs ++ pad ++ render_segs segs ++ comment
  | IBytes b addr gs => b ++ addr ++ [":"%char] ++ TAB :: render_groups gs
  | IReloc b addr rest => b ++ addr ++ [":"%char] ++ SP :: "R"%char :: rest
  | IOther name rest => name ++ [":"%char] ++ rest
  | IBlank b => b
  end.
Definition render (l : list item) : str := List.concat (map (fun i => render_item i ++ [LF]) l).

(** ** Well-formed items *)
Definition blank (c : char) : Prop := c = SP \/ c = TAB.
Definition same_line (t : str) : Prop := Forall (fun c => c <> LF /\ c <> CR) t.
Definition hex_string (t : str) : Prop := t <> [] /\ Forall (fun c => hex_digit c <> None) t.
(** An address the parser reads correctly. *)
Definition good_addr (h : str) : Prop :=
  exists v, hex_value h = Some v /\ v < 2147483648 /\ Z.of_nat (length h) <= 64.
Definition decimal (c : char) : Prop := 48 <= code c <= 57.
Definition wf_seg (x : seg) : Prop :=
  match x with
  | Txt t => Forall (fun c => c <> "<"%char /\ c <> "#"%char /\ c <> LF /\ c <> CR) t
  | Ref name rest =>
      Forall (fun c => c <> "<"%char /\ c <> ">"%char /\ c <> "+"%char /\ c <> "#"%char /\ c <> LF /\ c <> CR) name
      /\ (rest = [] \/ exists r, rest = "+"%char :: r /\
            Forall (fun c => c <> "<"%char /\ c <> "#"%char /\ c <> LF /\ c <> CR) r)
  end.
Definition starts_nonblank (t : str) : Prop := exists c u, t = c :: u /\ ~ blank c.
(** Characters of a first field that is neither an address nor a path. *)
Definition field_char (c : char) : Prop :=
  c <> "/"%char /\ c <> ";"%char /\ c <> ":"%char /\ ~ blank c /\ c <> LF /\ c <> CR.
Definition wf_item (i : item) : Prop :=
  match i with
  | ISection name => name <> [] /\ ~ In ":"%char name /\ same_line name
  | ILabel addr name => good_addr addr /\ same_line name
  | ISource file num tail =>
      ~ In ":"%char file /\ same_line file /\ num <> [] /\ Forall decimal num /\ 0 < dec_value num <= 2147483647
      /\ same_line tail /\ (tail = [] \/ exists c t, tail = c :: t /\ blank c)
  | IInstr b addr gs pad segs comment =>
      Forall blank b /\ good_addr addr /\ gs <> [] /\ Forall hex_string gs /\ pad <> [] /\ Forall blank pad
      /\ Forall wf_seg segs /\ starts_nonblank (render_segs segs) /\ ascii_text (render_segs segs)
      /\ Z.of_nat (length (render_segs segs)) < 65533
      /\ (comment = [] \/ exists t, comment = "#"%char :: t /\ same_line t)
  | IBytes b addr gs => Forall blank b /\ good_addr addr /\ gs <> [] /\ Forall hex_string gs
  | IReloc b addr rest => Forall blank b /\ good_addr addr /\ same_line rest
  | IOther name rest =>
      (exists n c, name = n ++ [c] /\ hex_digit c = None) /\ Forall field_char name /\ same_line rest /\ ~ In "<"%char rest
  | IBlank b => Forall blank b
  end.

(** ** Meaning *)
Record lstate := mkL {
  a_section : str;
  a_source : asm_source;
  a_ignoring : bool;
  a_stopped : bool;
  a_lines : list asm_line;
  a_labels : list (str * Z) }.
Definition lstate0 : lstate := mkL [] source0 false false [] [].

Definition marker : asm_line := set_l_text (lit "[truncated; too many lines]") line0.
Definition emit (l : asm_line) (a : lstate) : lstate :=
  if Z.of_nat (length (a_lines a)) <? 5000
  then mkL (a_section a) (a_source a) (a_ignoring a) (a_stopped a) (a_lines a ++ [l]) (a_labels a)
  else mkL (a_section a) (a_source a) (a_ignoring a) true (a_lines a ++ [marker]) (a_labels a).

Definition addr_value (h : str) : Z := match hex_value h with Some v => v | None => 0 end.

(** References of an instruction text; [pos] is the number of characters before. *)
Fixpoint seg_refs (flt : Filter) (pos : Z) (l : list seg) : list asm_label :=
  match l with
  | [] => []
  | Txt t :: l' => seg_refs flt (pos + Z.of_nat (length t)) l'
  | Ref name rest :: l' =>
      let next := seg_refs flt (pos + Z.of_nat (length name) + Z.of_nat (length rest) + 2) l' in
      if shouldIgnoreFunction name flt then next
      else mkLabel name (mkRange (pos + 3) (pos + 3 + Z.of_nat (length name))) :: next
  end.

(** With the library filter, the function before a label goes if none of its
    lines has user code. *)
Definition user_line (l : asm_line) : bool := s_is_usercode (l_source l).
Definition drop_library_function (a : lstate) : lstate :=
  match rev (a_labels a) with
  | [] => a
  | (_, n) :: before =>
      if existsb user_line (skipn (Z.to_nat (n - 1)) (a_lines a)) then a
      else mkL (a_section a) (a_source a) (a_ignoring a) (a_stopped a)
               (firstn (Z.to_nat (n - 1)) (a_lines a)) (rev before)
  end.

Definition instr_line (a : lstate) (addr text : str) (gs : list str) (refs : list asm_label) : asm_line :=
  set_l_text (SP :: text) (set_l_address (Some (addr_value addr)) (set_l_opcodes gs (set_l_labels refs
    (set_l_source (a_source a) (set_l_section (a_section a) line0))))).
Definition label_line (a : lstate) (addr name : str) : asm_line :=
  set_l_text (name ++ [":"%char]) (set_l_is_label true (set_l_label name
    (set_l_address (if a_ignoring a then None else Some (addr_value addr))
    (set_l_source (a_source a) (set_l_section (a_section a) line0))))).

Definition denote_item (flt : Filter) (a : lstate) (i : item) : lstate :=
  if a_stopped a then a
  else
    match i with
    | ISection name => mkL name (a_source a) (a_ignoring a) (a_stopped a) (a_lines a) (a_labels a)
    | ISource file num tail =>
        let f := "/"%char :: file in
        let line := if a_ignoring a && is_nil tail then 0 else dec_value num in
        mkL (a_section a) (mkSource f 0 line 0 (negb (file_in_library f)) false) (a_ignoring a) (a_stopped a) (a_lines a) (a_labels a)
    | ILabel addr name =>
        let d := if f_library_functions flt then drop_library_function a else a in
        if shouldIgnoreFunction name flt
        then mkL (a_section a) (a_source a) true (a_stopped a) (a_lines d) (a_labels d)
        else emit (label_line a addr name)
               (mkL (a_section a) (a_source a) false (a_stopped a) (a_lines d)
                    (a_labels d ++ [(name, Z.of_nat (length (a_lines d)) + 1)]))
    | IInstr _ addr gs _ segs comment =>
        if a_ignoring a then a
        else emit (instr_line a addr (render_segs segs ++ comment) gs (seg_refs flt 0 segs)) a
    | IBytes _ addr gs => if a_ignoring a then a else emit (instr_line a addr (render_groups gs) [] []) a
    | IReloc _ addr rest =>
        if a_ignoring a then a
        else emit (instr_line a addr (lit "   R" ++ map (fun c => if Ascii.eqb c TAB then SP else c) rest) [] []) a
    | IOther _ _ | IBlank _ => a
    end.
Definition denote (flt : Filter) (l : list item) : lstate := fold_left (denote_item flt) l lstate0.
