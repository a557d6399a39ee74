(** Bytes, strings, machine integers and outcomes shared by the whole model.
    A C++ [char] is an [ascii] (8 bits); [std::string] and the contents of a
    [std::string_view] are lists of them. *)
From Coq Require Export List Ascii String ZArith NArith Bool Lia.
Export ListNotations.
Global Open Scope list_scope.
Global Open Scope Z_scope.
Global Open Scope bool_scope.
Notation length := List.length.

Definition char := ascii.
Bind Scope char_scope with char.
Definition str := list ascii.

(** A string literal of the C++ source. *)
Definition lit (s : string) : str := list_ascii_of_string s.

Definition TAB : char := "009"%char.
Definition LF : char := "010"%char.
Definition CR : char := "013"%char.
Definition SP : char := " "%char.

(** Unsigned value of a byte (0..255). *)
Definition code (c : char) : Z := Z.of_N (N_of_ascii c).

(** [c >= lo && c <= hi] for ASCII bounds.  [char] is signed on the target, so a
    byte above 127 is negative there and above 127 here: outside every ASCII
    range both ways. *)
Definition in_range (lo hi c : char) : bool := (code lo <=? code c) && (code c <=? code hi).

Definition ceq (a b : char) : bool := Ascii.eqb a b.

Fixpoint str_eqb (a b : str) : bool :=
  match a, b with
  | [], [] => true
  | x :: a', y :: b' => ceq x y && str_eqb a' b'
  | _, _ => false
  end.

(** [s.empty()] *)
Definition is_nil {A} (l : list A) : bool := match l with [] => true | _ => false end.

(** [s.starts_with(p)] *)
Fixpoint starts_with (p s : str) : bool :=
  match p, s with
  | [], _ => true
  | a :: p', b :: s' => ceq a b && starts_with p' s'
  | _ :: _, [] => false
  end.

(** [s.ends_with(p)] *)
Definition ends_with (p s : str) : bool := starts_with (rev p) (rev s).

(** [s[s.length()-1] == c], for a non-empty [s]. *)
Definition last_is (c : char) (s : str) : bool :=
  match rev s with x :: _ => ceq x c | [] => false end.

(** [std::string::substr(pos)]: throws [out_of_range] (None) when [pos > size]. *)
Definition substr_from (s : str) (pos : Z) : option str :=
  if (Z.of_nat (length s) <? pos) then None else Some (skipn (Z.to_nat pos) s).

(** Membership of a byte in a string ([find(c) != npos]). *)
Definition has_char (c : char) (s : str) : bool := existsb (ceq c) s.

(** Fixed-width integers (C++20: two's complement, conversions are modular). *)
Definition wrap_u (bits : Z) (z : Z) : Z := z mod 2 ^ bits.
Definition wrap_s (bits : Z) (z : Z) : Z :=
  let r := z mod 2 ^ bits in if r <? 2 ^ (bits - 1) then r else r - 2 ^ bits.
Definition u16 := wrap_u 16.
Definition i8 := wrap_s 8.
Definition i32 := wrap_s 32.
Definition INT_MAX : Z := 2147483647.
Definition INT_MIN : Z := -2147483648.
Definition LONG_MAX : Z := 9223372036854775807.

(** Kinds of undefined behaviour the code can reach. *)
Inductive ub :=
| ShiftRange      (* shift count outside the operand's width *)
| AtoiRange       (* atoi on a value outside int *)
| IndexRange      (* vector index, or erase range, outside the vector *)
| DanglingRead    (* characters read through a view of a destroyed object *).

(** Result of running a piece of the program. [Throws] is an exception that
    leaves the API call; [Diverges] is non-termination, seen as exhausted fuel. *)
Inductive outcome (A : Type) :=
| Ok (a : A)
| UB (k : ub)
| Throws
| Diverges.
Arguments Ok {A} a.
Arguments UB {A} k.
Arguments Throws {A}.
Arguments Diverges {A}.

Definition obind {A B} (o : outcome A) (f : A -> outcome B) : outcome B :=
  match o with
  | Ok a => f a
  | UB k => UB k
  | Throws => Throws
  | Diverges => Diverges
  end.
Notation "x <- o ;; k" := (obind o (fun x => k)) (at level 61, o at next level, right associativity).

Definition omap {A B} (f : A -> B) (o : outcome A) : outcome B := a <- o ;; Ok (f a).
