(** Vocabulary for the objdump properties, independent of the parser's code. *)
From Verif Require Export ObjDump.

(** Parser objects that some sequence of fromStream calls can produce. *)
Inductive reachable (mb : str -> Z) (flt : Filter) : ostate -> Prop :=
| R_fresh : reachable mb flt ostate0
| R_call s input s' : reachable mb flt s -> fromStream mb flt s input = Ok s' -> reachable mb flt s'.

Definition drop_cr (s : str) : str := filter (fun c => negb (Ascii.eqb c CR)) s.

Fixpoint count_lf (s : str) : Z :=
  match s with [] => 0 | c :: t => (if Ascii.eqb c LF then 1 else 0) + count_lf t end.

(** The n-th line (from 1) is a label line called [name]. *)
Definition label_line_at (lines : list asm_line) (name : str) (n : Z) : Prop :=
  1 <= n /\ exists l, nth_error lines (Z.to_nat (n - 1)) = Some l /\ l_is_label l = true
            /\ l_label l = name /\ l_text l = name ++ [":"%char].

(** Names and 1-based numbers of the label lines, in order. *)
Fixpoint label_table (n : Z) (lines : list asm_line) : list (str * Z) :=
  match lines with
  | [] => []
  | l :: t => if l_is_label l then (l_label l, n) :: label_table (n + 1) t else label_table (n + 1) t
  end.

(** Text strictly between column [a] (1-based, inclusive) and column [b] (exclusive). *)
Definition columns (a b : Z) (t : str) : str := firstn (Z.to_nat (b - a)) (skipn (Z.to_nat (a - 1)) t).

Definition ascii_text (t : str) : Prop := Forall (fun c => 0 < code c < 128) t.
(** A locale in which the non-NUL ASCII bytes are single characters. *)
Definition ascii_compatible (mb : str -> Z) : Prop := forall c t, 0 < code c < 128 -> mb (c :: t) = 1.

(** Hexadecimal numerals. *)
Definition hex_digit (c : char) : option Z :=
  match c with
  | "0" => Some 0 | "1" => Some 1 | "2" => Some 2 | "3" => Some 3 | "4" => Some 4 | "5" => Some 5
  | "6" => Some 6 | "7" => Some 7 | "8" => Some 8 | "9" => Some 9 | "a" => Some 10 | "b" => Some 11
  | "c" => Some 12 | "d" => Some 13 | "e" => Some 14 | "f" => Some 15 | _ => None
  end%char.
Fixpoint hex_value_from (acc : Z) (s : str) : option Z :=
  match s with
  | [] => Some acc
  | c :: t => match hex_digit c with Some d => hex_value_from (acc * 16 + d) t | None => None end
  end.
(** The value of a non-empty hexadecimal numeral, most significant digit first. *)
Definition hex_value (s : str) : option Z := match s with [] => None | _ => hex_value_from 0 s end.

(** The lines of a text in which every line ends with LF. *)
Fixpoint text_lines_from (cur : str) (s : str) : list str :=
  match s with
  | [] => []
  | c :: t => if Ascii.eqb c LF then cur :: text_lines_from [] t else text_lines_from (cur ++ [c]) t
  end.
Definition text_lines : str -> list str := text_lines_from [].

(** What a user of the parser object can see (apart from the time stamp and the line count). *)
Definition same_output (s s' : ostate) : Prop := o_lines s = o_lines s' /\ o_labels s = o_labels s'.
