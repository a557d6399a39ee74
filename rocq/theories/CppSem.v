(** Meaning of the syntax trees of CppSyntax.v: an interpreter for the part of C++
    the repository is written in.

    Simplifications.  Values are copied, not shared: a string_view is its
    characters, [for (auto &x : v)] copies each element in and out, a unique_ptr is
    the object it owns, a function with a reference parameter copies the value back
    at its end.  [auto &x = *it] and [auto &x = v[i]] are references to a place.
    Iterators are positions.  A static local variable is a hidden member of the
    object.  Unordered containers are lists in insertion order; the order of a loop
    over one is given from outside.  What std::move was applied to is null.  Arithmetic follows the types: narrow operands are promoted to int,
    signed overflow is a fault, unsigned values wrap, stores convert.  Loops
    written with [for (;;)] and [while] run at most [N] times; [Fuel] is the result
    if that is not enough. *)
From Coq Require Import String.
From Verif Require Import Bytes Types Regex RegexSyntax Utils CppSyntax PropPatterns.
Local Open Scope string_scope.
Local Open Scope Z_scope.
Import ListNotations.

Inductive ity := I8 | U16 | I32 | I64 | U64.
Inductive val :=
| VUnit
| VBool (b : bool)
| VInt (t : ity) (z : Z)
| VChr (c : ascii)
| VStr (s : str)
| VVec (proto : val) (l : list val)         (* [proto]: a value of the element type *)
| VRec (fs : list (string * val))
| VOpt (proto : val) (o : option val)
| VNone                                     (* std::nullopt, a null unique_ptr *)
| VSit (s : str) (pos : Z)                  (* iterator into a string *)
| VVit (x : string) (q : list pstep) (len pos : Z)   (* iterator into the vector at a place *)
| VRit (x : string) (q : list pstep) (len pos : Z)   (* reverse iterator *)
| VPtr (s : str)                            (* const char *: what is left of the string *)
| VMatch (m : option mstate)                (* result of a regular expression *)
| VStream (s : str)                         (* unread bytes of an istream *)
| VEnum (x : string)
| VBrace (l : list val)                     (* { ... } without a type *)
| VSet (l : list val)
| VMap (proto : val) (l : list (val * val)) (* [proto]: a value of the mapped type *)
| VRef (x : string) (q : list pstep)         (* reference to a place *)
with pstep := Fld (f : string) | At (i : Z) | Key (k : val).

(** Faults: undefined behaviour. *)
Inductive fault := Known (u : ub) | Overflow.

Definition env := list (string * val).
Inductive res (A : Type) := Val (a : A) (e : env) | Thrown (e : env) | Undef (f : fault) | Stuck | Fuel.
Arguments Val {A} a e. Arguments Thrown {A} e. Arguments Undef {A} f. Arguments Stuck {A}. Arguments Fuel {A}.
Definition rbind {A B} (r : res A) (k : A -> env -> res B) : res B :=
  match r with Val a e => k a e | Thrown e => Thrown e | Undef f => Undef f | Stuck => Stuck | Fuel => Fuel end.
(** what a call gives: value and the object it was called on *)
Inductive cres := CVal (v this : val) | CThrown (this : val) | CUndef (f : fault) | CStuck | CFuel.

(** * Environments and fields *)
Fixpoint lookup (x : string) (e : env) : option val :=
  match e with (y, v) :: r => if String.eqb x y then Some v else lookup x r | [] => None end.
Fixpoint update (x : string) (v : val) (e : env) : option env :=
  match e with
  | (y, w) :: r => if String.eqb x y then Some ((y, v) :: r) else match update x v r with Some r' => Some ((y, w) :: r') | None => None end
  | [] => None
  end.
Fixpoint elen (e : env) : nat := match e with _ :: r => S (elen r) | [] => O end.
Fixpoint edrop (n : nat) (e : env) : env := match n, e with S k, _ :: r => edrop k r | _, _ => e end.
Fixpoint nsub (a b : nat) : nat := match a, b with S x, S y => nsub x y | _, _ => a end.
(** [e'] without the names declared since [e] *)
Definition leave (e e' : env) : env := edrop (nsub (elen e') (elen e)) e'.
Definition scope {A} (e : env) (r : res A) : res A :=
  match r with Val a e' => Val a (leave e e') | Thrown e' => Thrown (leave e e') | Undef f => Undef f | Stuck => Stuck | Fuel => Fuel end.

(** ** Unordered containers *)
Definition key_eqb (k k' : val) : bool :=
  match k, k' with VStr a, VStr b => str_eqb b a | VInt _ a, VInt _ b => a =? b | _, _ => false end.
Definition set_has (k : val) (l : list val) : bool := existsb (key_eqb k) l.
Definition set_put (k : val) (l : list val) : list val := if set_has k l then l else (l ++ [k])%list.
Definition set_del (k : val) (l : list val) : list val := filter (fun x => negb (key_eqb k x)) l.
Definition map_get (k : val) (l : list (val * val)) : option val := option_map snd (find (fun p => key_eqb k (fst p)) l).
Fixpoint map_put (k v : val) (l : list (val * val)) : list (val * val) :=
  match l with
  | [] => [(k, v)]
  | (k', w) :: t => if key_eqb k k' then (k', v) :: t else (k', w) :: map_put k v t
  end.
(** m[k] for a key that is not there inserts it *)
Definition map_touch (k p : val) (l : list (val * val)) : list (val * val) :=
  match map_get k l with Some _ => l | None => (l ++ [(k, p)])%list end.
Definition map_del (k : val) (l : list (val * val)) : list (val * val) := filter (fun p => negb (key_eqb k (fst p))) l.
Definition pair_of (p : val * val) : val := VRec [("first", fst p); ("second", snd p)].
Fixpoint set_nth {A} (n : nat) (v : A) (l : list A) : list A :=
  match l, n with a :: r, O => v :: r | a :: r, S k => a :: set_nth k v r | [], _ => [] end.

(** ** Places *)
Definition field (f : string) (v : val) : option val :=
  match v with VRec fs => lookup f fs | VOpt _ (Some (VRec fs)) => lookup f fs | _ => None end.
Definition getp1 (v : val) (s : pstep) : option val :=
  match s with
  | Fld f => field f v
  | At i => match v with VVec _ l => nth_error l (Z.to_nat i) | _ => None end
  | Key k => match v with VMap _ l => map_get k l | _ => None end
  end.
Fixpoint getp (v : val) (q : list pstep) : option val :=
  match q with [] => Some v | s :: r => match getp1 v s with Some w => getp w r | None => None end end.
Definition setp1 (v : val) (s : pstep) (w : val) : option val :=
  match s, v with
  | Fld f, VRec gs => match update f w gs with Some gs' => Some (VRec gs') | None => None end
  | At i, VVec p l => Some (VVec p (set_nth (Z.to_nat i) w l))
  | Key k, VMap p l => Some (VMap p (map_put k w l))
  | _, _ => None
  end.
Fixpoint setp (v : val) (q : list pstep) (w : val) : option val :=
  match q with
  | [] => Some w
  | s :: r => match getp1 v s with Some u => match setp u r w with Some u' => setp1 v s u' | None => None end | None => None end
  end.
Definition get_at (p : string * list pstep) (e : env) : option val :=
  match lookup (fst p) e with Some v => getp v (snd p) | None => None end.
Definition set_at (p : string * list pstep) (w : val) (e : env) : option env :=
  match lookup (fst p) e with
  | Some v => match setp v (snd p) w with Some v' => update (fst p) v' e | None => None end
  | None => None
  end.
Fixpoint snoc {A} (l : list A) (a : A) : list A := match l with b :: r => b :: snoc r a | [] => [a] end.
(** the place an expression names: a variable, a member of the object, what a
    unique_ptr points to *)
Fixpoint place (x : expr) (e : env) : option (string * list pstep) :=
  match x with
  | EId n =>
      match lookup n e with
      | Some (VRef y q) => Some (y, q)
      | Some _ => Some (n, [])
      | None => match lookup "this" e with Some v => match field n v with Some _ => Some ("this", [Fld n]) | None => None end | None => None end
      end
  | EMem a f => match place a e with Some (n, q) => Some (n, snoc q (Fld f)) | None => None end
  | ECall (EMem a f) [] => if String.eqb f "get" then place a e else None
  | _ => None
  end.

(** * Types *)
Definition norm (t : ity) (z : Z) : Z :=
  match t with I8 => i8 z | U16 => u16 z | I32 => i32 z | I64 => wrap_s 64 z | U64 => wrap_u 64 z end.
Definition ity_eqb (a b : ity) : bool :=
  match a, b with I8, I8 | U16, U16 | I32, I32 | I64, I64 | U64, U64 => true | _, _ => false end.
Definition fits (t : ity) (z : Z) : bool :=
  match t with
  | I8 => (-128 <=? z) && (z <=? 127)
  | U16 => (0 <=? z) && (z <=? 65535)
  | I32 => (INT_MIN <=? z) && (z <=? INT_MAX)
  | I64 => (- LONG_MAX - 1 <=? z) && (z <=? LONG_MAX)
  | U64 => (0 <=? z) && (z <=? 2 * LONG_MAX + 1)
  end.
Definition to_type (t u : ity) (z : Z) : Z := if ity_eqb t u then z else norm u z.
(** char is signed *)
Definition chr_int (c : ascii) : Z := i8 (code c).
(** integral promotion *)
Definition promote (v : val) : option (ity * Z) :=
  match v with
  | VInt I8 z => Some (I32, i8 z)
  | VInt U16 z => Some (I32, u16 z)
  | VInt t z => Some (t, z)
  | VChr c => Some (I32, chr_int c)
  | VBool b => Some (I32, if b then 1 else 0)
  | _ => None
  end.
Definition join (a b : ity) : ity :=
  match a, b with U64, _ | _, U64 => U64 | I64, _ | _, I64 => I64 | _, _ => I32 end.
Definition truthy (v : val) : option bool :=
  match v with
  | VBool b => Some b
  | VInt _ z => Some (negb (z =? 0))
  | VOpt _ o => Some (match o with Some _ => true | None => false end)
  | VMatch m => Some (is_some m)
  | _ => None
  end.

(** value-initialised value of the type of a value *)
Fixpoint zero (v : val) : val :=
  match v with
  | VBool _ => VBool false
  | VInt t _ => VInt t 0
  | VChr _ => VChr Ascii.zero
  | VStr _ => VStr []
  | VVec p _ => VVec p []
  | VRec fs => VRec ((fix go (l : list (string * val)) := match l with (f, w) :: r => (f, zero w) :: go r | [] => [] end) fs)
  | VOpt p _ => VOpt p None
  | VSet _ => VSet []
  | VMap p _ => VMap p []
  | w => w
  end.
(** conversion of [v] to the type of [p] *)
Fixpoint conv (p v : val) {struct p} : option val :=
  match p with
  | VBool _ => match truthy v with Some b => Some (VBool b) | None => None end
  | VInt t _ =>
      match v with
      | VInt u z => Some (VInt t (to_type u t z))
      | VChr c => Some (VInt t (norm t (chr_int c)))
      | VBrace [] => Some (VInt t 0)
      | _ => None
      end
  | VChr _ => match v with VChr c => Some (VChr c) | _ => None end
  | VStr _ => match v with VStr s => Some (VStr s) | VBrace [] => Some (VStr []) | VBrace [VStr s] => Some (VStr s) | _ => None end
  | VVec q _ => match v with VVec _ l => Some (VVec q l) | VBrace [] => Some (VVec q []) | _ => None end
  | VRec fs =>
      match v with
      | VRec gs => Some (VRec gs)
      | VBrace [] => Some (zero p)
      | VBrace l =>
          match (fix go (fs : list (string * val)) (l : list val) : option (list (string * val)) :=
             match fs, l with
             | (f, q) :: r, w :: l' =>
                 match conv q w with
                 | Some w' => match go r l' with Some r' => Some ((f, w') :: r') | None => None end
                 | None => None
                 end
             | (f, q) :: r, [] => match go r [] with Some r' => Some ((f, zero q) :: r') | None => None end
             | [], [] => Some []
             | [], _ => None
             end) fs l with
          | Some fs' => Some (VRec fs')
          | None => None
          end
      | _ => None
      end
  | VOpt q _ =>
      match v with
      | VNone => Some (VOpt q None)
      | VOpt _ o => Some (VOpt q o)
      | VBrace [] => Some (VOpt q None)
      | _ => match conv q v with Some w => Some (VOpt q (Some w)) | None => None end
      end
  | _ => Some v
  end.

(** * Operators *)
Definition arith (op : string) (t : ity) (a b : Z) (e : env) : res val :=
  let z := if String.eqb op "+" then a + b else if String.eqb op "-" then a - b else a * b in
  match t with
  | U64 => Val (VInt U64 (wrap_u 64 z)) e
  | _ => if fits t z then Val (VInt t z) e else Undef Overflow
  end.
Definition compare (op : string) (a b : Z) : option bool :=
  if String.eqb op "<" then Some (a <? b) else if String.eqb op "<=" then Some (a <=? b)
  else if String.eqb op ">" then Some (b <? a) else if String.eqb op ">=" then Some (b <=? a)
  else if String.eqb op "==" then Some (a =? b) else if String.eqb op "!=" then Some (negb (a =? b)) else None.
Definition int_op (op : string) (t : ity) (a : Z) (u : ity) (b : Z) (e : env) : res val :=
  let j := join t u in
  match compare op (to_type t j a) (to_type u j b) with
  | Some r => Val (VBool r) e
  | None =>
      if String.eqb op "<<" then
        if (b <? 0) || ((match t with I32 => 32 | _ => 64 end) <=? b) then Undef (Known ShiftRange)
        else Val (VInt t (norm t (Z.shiftl a b))) e
      else if String.eqb op "&" then Val (VInt j (Z.land (to_type t j a) (to_type u j b))) e
      else if String.eqb op "+" || String.eqb op "-" || String.eqb op "*" then arith op j (to_type t j a) (to_type u j b) e
      else Stuck
  end.
Definition equality (op : string) (b : bool) (e : env) : res val :=
  if String.eqb op "==" then Val (VBool b) e else if String.eqb op "!=" then Val (VBool (negb b)) e else Stuck.
(** an iterator stays between the begin and the end *)
Definition in_bounds (len pos : Z) : bool := (0 <=? pos) && (pos <=? len).
Definition binop (op : string) (a b : val) (e : env) : res val :=
  match a, b with
  | VStr s, VStr t => if String.eqb op "+" then Val (VStr (s ++ t)%list) e else equality op (str_eqb s t) e
  | VStr s, VChr c => if String.eqb op "+" then Val (VStr (s ++ [c])%list) e else Stuck
  | VChr c, VStr s => if String.eqb op "+" then Val (VStr (c :: s)) e else Stuck
  | VChr c, VChr d =>
      if String.eqb op "==" || String.eqb op "!=" then equality op (ceq c d) e
      else int_op op I32 (chr_int c) I32 (chr_int d) e
  | VEnum x, VEnum y => equality op (String.eqb x y) e
  | VSit s i, VSit _ j => equality op (i =? j) e
  | VSit s i, VInt t z =>
      let j := if String.eqb op "+" then i + z else i - z in
      if String.eqb op "+" || String.eqb op "-" then
        if in_bounds (Z.of_nat (length s)) j then Val (VSit s j) e else Undef (Known IndexRange)
      else Stuck
  | VVit x q n i, VInt t z =>
      let j := if String.eqb op "+" then i + z else i - z in
      if String.eqb op "+" || String.eqb op "-" then
        if in_bounds n j then Val (VVit x q n j) e else Undef (Known IndexRange)
      else Stuck
  | VRit x q n i, VInt t z =>
      let j := if String.eqb op "+" then i + z else i - z in
      if String.eqb op "+" || String.eqb op "-" then
        if in_bounds n j then Val (VRit x q n j) e else Undef (Known IndexRange)
      else Stuck
  | VVit _ _ _ i, VVit _ _ _ j => equality op (i =? j) e
  | VRit _ _ _ i, VRit _ _ _ j => equality op (i =? j) e
  | VOpt _ o, VOpt _ None => equality op (negb (is_some o)) e
  | VPtr s, VInt t z =>
      if String.eqb op "+" then
        if in_bounds (Z.of_nat (length s)) z then Val (VPtr (skipn (Z.to_nat z) s)) e else Undef (Known IndexRange)
      else Stuck
  | _, _ =>
      match promote a, promote b with
      | Some (t, x), Some (u, y) => int_op op t x u y e
      | _, _ => Stuck
      end
  end.

Definition last_of (l : list val) : option val := match rev l with v :: _ => Some v | [] => None end.
Definition without_last {A} (l : list A) : list A := rev (tl (rev l)).
(** Methods of library classes: value and object afterwards. *)
Inductive mres := MVal (v o : val) | MThrow | MUndef (f : fault) | MStuck.
Definition method (m : string) (at_ : option (string * list pstep)) (o : val) (args : list val) : mres :=
  match o with
  | VStr s =>
      match args with
      | [] =>
          if String.eqb m "clear" then MVal VUnit (VStr [])
          else if String.eqb m "empty" then MVal (VBool (is_nil s)) o
          else if String.eqb m "length" || String.eqb m "size" then MVal (VInt U64 (Z.of_nat (length s))) o
          else if String.eqb m "c_str" || String.eqb m "to_view" then MVal (VStr s) o
          else if String.eqb m "data" then MVal (VPtr s) o
          else if String.eqb m "to_number" then MVal (VInt I32 (to_number s)) o
          else if String.eqb m "begin" then MVal (VSit s 0) o
          else if String.eqb m "end" then MVal (VSit s (Z.of_nat (length s))) o
          else if String.eqb m "rbegin" then MVal (VSit (rev s) 0) o
          else if String.eqb m "rend" then MVal (VSit (rev s) (Z.of_nat (length s))) o
          else MStuck
      | [VInt _ z] =>
          if String.eqb m "substr" then match substr_from s z with Some t => MVal (VStr t) o | None => MThrow end
          else if String.eqb m "reserve" then MVal VUnit o
          else MStuck
      | [VStr p] =>
          if String.eqb m "starts_with" then MVal (VBool (starts_with p s)) o
          else if String.eqb m "ends_with" then MVal (VBool (ends_with p s)) o
          else MStuck
      | [VChr c] => if String.eqb m "find" then MVal (VInt U64 (match find_sub [c] s 0 with Some i => Z.of_nat i | None => npos end)) o else MStuck
      | [VStr p; VInt _ z] => if String.eqb m "find" then MVal (VInt U64 (match find_sub p s z with Some i => Z.of_nat i | None => npos end)) o else MStuck
      | [VSit _ i; VSit _ j] =>
          if String.eqb m "erase" then
            if (0 <=? i) && (i <=? j) && (j <=? Z.of_nat (length s))
            then MVal VUnit (VStr (firstn (Z.to_nat i) s ++ skipn (Z.to_nat j) s)%list) else MUndef (Known IndexRange)
          else MStuck
      | _ => MStuck
      end
  | VVec p l =>
      match args with
      | [] =>
          if String.eqb m "empty" then MVal (VBool (is_nil l)) o
          else if String.eqb m "size" then MVal (VInt U64 (Z.of_nat (length l))) o
          else if String.eqb m "clear" then MVal VUnit (VVec p [])
          else if String.eqb m "back" then match last_of l with Some v => MVal v o | None => MUndef (Known IndexRange) end
          else if String.eqb m "pop_back" then
            match last_of l with Some _ => MVal VUnit (VVec p (without_last l)) | None => MUndef (Known IndexRange) end
          else
            match at_ with
            | Some (x, q) =>
                if String.eqb m "begin" then MVal (VVit x q (Z.of_nat (length l)) 0) o
                else if String.eqb m "end" then MVal (VVit x q (Z.of_nat (length l)) (Z.of_nat (length l))) o
                else if String.eqb m "rbegin" then MVal (VRit x q (Z.of_nat (length l)) 0) o
                else if String.eqb m "rend" then MVal (VRit x q (Z.of_nat (length l)) (Z.of_nat (length l))) o
                else MStuck
            | None => MStuck
            end
      | [VVit x q n i] =>
          if String.eqb m "erase" then
            if (0 <=? i) && (i <? Z.of_nat (length l))
            then MVal (VVit x q (Z.of_nat (length l) - 1) i) (VVec p (firstn (Z.to_nat i) l ++ skipn (S (Z.to_nat i)) l)%list) else MUndef (Known IndexRange)
          else MStuck
      | [v] =>
          if String.eqb m "push_back" || String.eqb m "emplace_back" then match conv p v with Some w => MVal VUnit (VVec p (l ++ [w])%list) | None => MStuck end
          else if String.eqb m "reserve" then MVal VUnit o
          else MStuck
      | [VVit x q _ i; VVit _ _ _ j] =>
          if String.eqb m "erase" then
            if (0 <=? i) && (i <=? j) && (j <=? Z.of_nat (length l))
            then MVal (VVit x q 0 i) (VVec p (firstn (Z.to_nat i) l ++ skipn (Z.to_nat j) l)%list) else MUndef (Known IndexRange)
          else MStuck
      | _ => MStuck
      end
  | VOpt _ v => if String.eqb m "value" then match v with Some w => MVal w o | None => MThrow end else MStuck
  | VMatch (Some mt) =>
      if String.eqb m "get<1>" then MVal (VStr (cap 1 mt)) o else if String.eqb m "get<2>" then MVal (VStr (cap 2 mt)) o
      else if String.eqb m "get<3>" then MVal (VStr (cap 3 mt)) o else if String.eqb m "get<4>" then MVal (VStr (cap 4 mt)) o
      else MStuck
  | VSet l =>
      match args with
      | [] => if String.eqb m "clear" then MVal VUnit (VSet []) else if String.eqb m "empty" then MVal (VBool (is_nil l)) o else MStuck
      | [k] =>
          if String.eqb m "contains" then MVal (VBool (set_has k l)) o
          else if String.eqb m "count" then MVal (VInt U64 (if set_has k l then 1 else 0)) o
          else if String.eqb m "insert" then MVal VUnit (VSet (set_put k l))
          else if String.eqb m "erase" then MVal VUnit (VSet (set_del k l))
          else MStuck
      | _ => MStuck
      end
  | VMap p l =>
      match args with
      | [] =>
          if String.eqb m "clear" then MVal VUnit (VMap p []) else if String.eqb m "empty" then MVal (VBool (is_nil l)) o
          else if String.eqb m "end" then MVal (VOpt VUnit None) o
          else MStuck
      | [k] =>
          if String.eqb m "contains" then MVal (VBool (is_some (map_get k l))) o
          else if String.eqb m "find" then
            MVal (match map_get k l with Some v => VOpt VUnit (Some (pair_of (k, v))) | None => VOpt VUnit None end) o
          else if String.eqb m "at" then match map_get k l with Some v => MVal v o | None => MThrow end
          else if String.eqb m "erase" then MVal VUnit (VMap p (map_del k l))
          else MStuck
      | _ => MStuck
      end
  | _ => MStuck
  end.
(** the character an iterator is at, the element at an index *)
Definition at_pos (s : str) (i : Z) (e : env) : res val :=
  match nth_error s (Z.to_nat i) with Some c => Val (VChr c) e | None => Undef (Known IndexRange) end.
Definition vec_at (l : list val) (i : Z) (e : env) : res val :=
  if i <? 0 then Undef (Known IndexRange)
  else match nth_error l (Z.to_nat i) with Some v => Val v e | None => Undef (Known IndexRange) end.
Definition index (v i : val) (e : env) : res val :=
  match v, i with
  | VStr s, VInt _ z => at_pos s z e
  | VVec _ l, VInt _ z => vec_at l z e
  | _, _ => Stuck
  end.
(** the place an iterator into a vector is at *)
Definition iter_place (v : val) : option (string * list pstep) :=
  match v with
  | VVit x q n i => Some (x, snoc q (At i))
  | VRit x q n i => Some (x, snoc q (At (n - 1 - i)))
  | _ => None
  end.
Definition deref (v : val) (e : env) : res val :=
  match v with
  | VSit s i => at_pos s i e
  | VVit x q n i => match get_at (x, q) e with Some (VVec _ l) => vec_at l i e | _ => Stuck end
  | VRit x q n i => match get_at (x, q) e with Some (VVec _ l) => vec_at l (n - 1 - i) e | _ => Stuck end
  | _ => Stuck
  end.
Definition slice (s : str) (i j : Z) : option str := if i <=? j then Some (firstn (Z.to_nat (j - i)) (skipn (Z.to_nat i) s)) else None.

Definition constant (x : string) : option val :=
  if String.eqb x "true" then Some (VBool true) else if String.eqb x "false" then Some (VBool false)
  else if String.eqb x "std::nullopt" then Some VNone else if String.eqb x "nullptr" then Some (VPtr [])
  else if String.eqb x "std::string::npos" || String.eqb x "std::string_view::npos" then Some (VInt U64 npos)
  else None.
(** names after "Regexes::" *)
Definition regex_name (f : string) : option string :=
  if String.prefix "Regexes::" f then Some (substring 9 (String.length f - 9) f) else None.

Inductive ctl := Next | Broken | Continued | Returned (v : val).

(** Loops, given the meaning of their parts. *)
Fixpoint while_loop (n : nat) (cond : env -> res val) (body : env -> res ctl) (step : env -> res val) (e : env) : res ctl :=
  match n with
  | O => Fuel
  | S k =>
      rbind (cond e) (fun v e =>
        match truthy v with
        | Some b =>
            if b then
              rbind (body e) (fun c e =>
                match c with
                | Next | Continued => rbind (step e) (fun _ e => while_loop k cond body step e)
                | Broken => Val Next e
                | Returned v => Val (Returned v) e
                end)
            else Val Next e
        | None => Stuck
        end)
  end.
Fixpoint for_in (x : string) (body : env -> res ctl) (l : list val) (e : env) : res ctl :=
  match l with
  | [] => Val Next e
  | v :: r =>
      rbind (scope e (body ((x, v) :: e))) (fun c e =>
        match c with
        | Next | Continued => for_in x body r e
        | Broken => Val Next e
        | Returned v => Val (Returned v) e
        end)
  end.
(** The elements afterwards are returned through [acc]. *)
Fixpoint for_ref (x : string) (body : env -> res ctl) (l acc : list val) (e : env) : res (ctl * list val) :=
  match l with
  | [] => Val (Next, acc) e
  | v :: r =>
      rbind (body ((x, v) :: e)) (fun c e' =>
        match lookup x (edrop (nsub (elen e') (S (elen e))) e') with
        | Some v' =>
            match c with
            | Next | Continued => for_ref x body r (acc ++ [v'])%list (leave e e')
            | Broken => Val (Next, acc ++ v' :: r)%list (leave e e')
            | Returned w => Val (Returned w, acc ++ v' :: r)%list (leave e e')
            end
        | None => Stuck
        end)
  end.
(** std::find_if and std::erase_if, given the meaning of the test *)
Fixpoint find_loop (f : val -> env -> res bool) (l : list val) (i : Z) (e : env) : res Z :=
  match l with
  | [] => Val i e
  | v :: r => rbind (f v e) (fun b e => if b then Val i e else find_loop f r (i + 1) e)
  end.
Fixpoint erase_loop {A} (f : A -> env -> res bool) (l : list A) (e : env) : res (list A) :=
  match l with
  | [] => Val [] e
  | v :: r => rbind (f v e) (fun b e => rbind (erase_loop f r e) (fun r' e => Val (if b then r' else v :: r') e))
  end.
(** the matches of ctre::range, one after the other *)
Fixpoint matches_from (r : re) (fuel pos : nat) (rest : str) : list mstate :=
  match fuel with
  | O => []
  | S k => match search_from r pos rest with Some (_, st) => st :: matches_from r k (m_pos st) (m_rest st) | None => [] end
  end.
(** fmt::format with arguments that are strings *)
Fixpoint format (s : str) (vs : list val) : str :=
  match s with
  | [] => []
  | c :: t =>
      match t with
      | d :: t' =>
          if Ascii.eqb c "{" && Ascii.eqb d "}" then match vs with VStr a :: r => (a ++ format t' r)%list | _ => format t' vs end
          else c :: format t vs
      | [] => [c]
      end
  end.
Definition elements (v : val) : option (list val) :=
  match v with VStr s => Some (map VChr s) | VVec _ l => Some l | _ => None end.

Section Interpreter.
Variables (N : nat) (mb : str -> Z).
Variable structs : list (string * list (string * ty * option expr)).
(** the functions of the program, and what calling them gives *)
Variables (is_fn is_method : string -> bool).
Variable call : string -> val -> list val -> cres.

Fixpoint find_struct (x : string) (l : list (string * list (string * ty * option expr))) : option (list (string * ty * option expr)) :=
  match l with (y, fs) :: r => if String.eqb x y then Some fs else find_struct x r | [] => None end.
(** value-initialised value of a type; [None] for auto and types used without conversion *)
Fixpoint zero_of (fuel : nat) (t : ty) : option val :=
  match fuel with
  | O => None
  | S k =>
      let '(Ty x args) := t in
      if String.eqb x "bool" then Some (VBool false)
      else if String.eqb x "char" then Some (VChr Ascii.zero)
      else if String.eqb x "int8_t" then Some (VInt I8 0)
      else if String.eqb x "uint16_t" then Some (VInt U16 0)
      else if String.eqb x "int32_t" || String.eqb x "int" then Some (VInt I32 0)
      else if String.eqb x "int64_t" then Some (VInt I64 0)
      else if String.eqb x "size_t" || String.eqb x "long unsigned int" then Some (VInt U64 0)
      else if String.eqb x "std::string" || String.eqb x "std::string_view" then Some (VStr [])
      else if String.eqb x "std::vector" then
        match args with [a] => match zero_of k a with Some p => Some (VVec p []) | None => None end | _ => None end
      else if String.eqb x "std::unique_ptr" then Some VNone
      else if String.eqb x "std::unordered_set" then Some (VSet [])
      else if String.eqb x "std::unordered_map" then
        match args with [_; a] => match zero_of k a with Some p => Some (VMap p []) | None => None end | _ => None end
      else if String.eqb x "&" then match args with [a] => zero_of k a | _ => None end
      else if String.eqb x "std::optional" then
        match args with [a] => match zero_of k a with Some p => Some (VOpt p None) | None => None end | _ => None end
      else
        match find_struct x structs with
        | Some fs =>
            match (fix go (l : list (string * ty * option expr)) : option (list (string * val)) :=
               match l with
               | [] => Some []
               | (f, t, i) :: r =>
                   match zero_of k t, go r with
                   | Some v, Some r' =>
                       Some ((f, match i with Some (EId b) => VBool (String.eqb b "true") | _ => v end) :: r')
                   | _, _ => None
                   end
               end) fs with
            | Some fs => Some (VRec fs)
            | None => None
            end
        | None => None
        end
  end.
Definition depth : nat := 10.
(** conversion to a declared type *)
Definition to_ty (t : ty) (v : val) (e : env) : res val :=
  match zero_of depth t with
  | Some p => match conv p v with Some w => Val w e | None => Stuck end
  | None => Val v e
  end.

Definition builtin (f : string) (args : list val) (e : env) : res val :=
  match regex_name f with
  | Some r => match args with [VStr s] => Val (VMatch (ctre r s)) e | _ => Stuck end
  | None =>
      match args with
      | [VStr s] =>
          if String.eqb f "atoi" then match atoi s with Some z => Val (VInt I32 z) e | None => Undef (Known AtoiRange) end
          else if String.eqb f "std::string" then Val (VStr s) e
          else Stuck
      | [VChr c] => if String.eqb f "std::isspace" then Val (VBool (is_space c)) e else Stuck
      | VStr s :: vs => if String.eqb f "fmt::format" then Val (VStr (format s vs)) e else Stuck
      | [VSit s i; VSit t j] =>                (* used only where the second string follows the first *)
          if String.eqb f "std::string_view" then Val (VStr (skipn (Z.to_nat i) s ++ firstn (Z.to_nat j) t)%list) e else Stuck
      | [VPtr s; VInt _ n] =>
          if String.eqb f "mblen" then Val (VInt I32 (mb (firstn (Z.to_nat n) s))) e else Stuck
      | _ => Stuck
      end
  end.
Definition make (t : ty) (vs : list val) (e : env) : res val :=
  let '(Ty x _) := t in
  match vs with
  | [VSit s i; VSit _ j] =>
      if String.eqb x "std::string_view" then match slice s i j with Some u => Val (VStr u) e | None => Undef (Known IndexRange) end
      else Stuck
  | _ => to_ty t (VBrace vs) e
  end.

Definition store (p : option (string * list pstep)) (v : val) (e : env) : res val :=
  match p with
  | Some p => match set_at p v e with Some e' => Val v e' | None => Stuck end
  | None => Stuck
  end.
(** x = v and x += v at a place *)
Definition assign (op : string) (p : option (string * list pstep)) (w : val) (e : env) : res val :=
  match p with
  | None => Stuck
  | Some q =>
      match get_at q e with
      | None => Stuck
      | Some old =>
          rbind (if String.eqb op "=" then Val w e else binop (if String.eqb op "+=" then "+" else "-") old w e)
            (fun v e => match conv old v with Some v' => store p v' e | None => Stuck end)
      end
  end.
(** values of reference parameters back to the places of the arguments *)
Fixpoint store_all (ps : list (option (string * list pstep))) (ws : list val) (e : env) : res unit :=
  match ps, ws with
  | _ :: ps, VUnit :: ws => store_all ps ws e
  | p :: ps, w :: ws => rbind (store p w e) (fun _ e => store_all ps ws e)
  | _, _ => Val tt e
  end.
Definition invoke (f : string) (p : option (string * list pstep)) (this : val) (args : list val) (aps : list (option (string * list pstep))) (e : env) : res val :=
  match call f this args with
  | CVal v (VBrace (t :: ws)) =>
      rbind (match p with Some q => store p t e | None => Val VUnit e end) (fun _ e => rbind (store_all aps ws e) (fun _ e => Val v e))
  | CVal v t => match p with Some q => rbind (store p t e) (fun _ e => Val v e) | None => Val v e end
  | CThrown t => match p with Some q => match set_at q t e with Some e' => Thrown e' | None => Stuck end | None => Thrown e end
  | CUndef u => Undef u
  | CStuck => Stuck
  | CFuel => Fuel
  end.
Definition call_method (m : string) (p : option (string * list pstep)) (o : val) (args : list val) (aps : list (option (string * list pstep))) (e : env) : res val :=
  match o with
  | VRec _ => if is_fn m then invoke m p o args aps e else if String.eqb m "get" then Val o e else Stuck
  | _ =>
      match method m p o args with
      | MVal v o' => match p with Some _ => rbind (store p o' e) (fun _ e => Val v e) | None => Val v e end
      | MThrow => Thrown e
      | MUndef f => Undef f
      | MStuck => Stuck
      end
  end.
Definition read_char (p : option (string * list pstep)) (s : str) (q : option (string * list pstep)) (e : env) : res val :=
  match s with
  | [] => Val (VBool false) e
  | c :: t => rbind (store p (VStream t) e) (fun _ e => rbind (store q (VChr c) e) (fun _ e => Val (VBool true) e))
  end.
(** the place of c[k], where [p] is the place of c *)
Definition touch (p : option (string * list pstep)) (k : val) (e : env) : res (option (string * list pstep)) :=
  match p with
  | None => Stuck
  | Some (x, q) =>
      match get_at (x, q) e with
      | Some (VMap d l) => rbind (store p (VMap d (map_touch k d l)) e) (fun _ e => Val (Some (x, snoc q (Key k))) e)
      | Some (VVec _ l) => match k with VInt _ z => rbind (vec_at l z e) (fun _ e => Val (Some (x, snoc q (At z))) e) | _ => Stuck end
      | _ => Stuck
      end
  end.
Definition value_at (p : option (string * list pstep)) (e : env) : res val :=
  match p with Some p => match get_at p e with Some v => Val v e | None => Stuck end | None => Stuck end.

Fixpoint eval (x : expr) (e : env) {struct x} : res val :=
  let places := fix places (l : list expr) (e : env) {struct l} : list (option (string * list pstep)) :=
    match l with [] => [] | a :: r => place a e :: places r e end in
  let evals := fix evals (l : list expr) (e : env) {struct l} : res (list val) :=
    match l with
    | [] => Val [] e
    | a :: r => rbind (eval a e) (fun v e => rbind (evals r e) (fun vs e => Val (v :: vs) e))
    end in
  match x with
  | EId n =>
      match constant n with
      | Some v => Val v e
      | None => match place x e with Some p => match get_at p e with Some v => Val v e | None => Stuck end | None => if String.prefix "HorSpaceState::" n then Val (VEnum n) e else Stuck end
      end
  | ENum z => Val (VInt I32 z) e
  | EChr c => Val (VChr c) e
  | EStr s => Val (VStr s) e
  | EMem a f => rbind (eval a e) (fun v e => match field f v with Some w => Val w e | None => Stuck end)
  | EIdx a i => rbind (eval a e) (fun v e => rbind (eval i e) (fun w e =>
      match v with VMap _ _ => rbind (touch (place a e) w e) (fun p e => value_at p e) | _ => index v w e end))
  | EUn op a =>
      if String.eqb op "!" then rbind (eval a e) (fun v e => match truthy v with Some b => Val (VBool (negb b)) e | None => Stuck end)
      else if String.eqb op "*" then rbind (eval a e) (fun v e => deref v e)
      else if String.eqb op "++" then assign "+=" (place a e) (VInt I32 1) e
      else if String.eqb op "--" then assign "-=" (place a e) (VInt I32 1) e
      else Stuck
  | EPost op a =>
      rbind (eval a e) (fun old e =>
        rbind (assign (if String.eqb op "++" then "+=" else "-=") (place a e) (VInt I32 1) e) (fun _ e => Val old e))
  | EBin op a b =>
      if String.eqb op "&&" then
        rbind (eval a e) (fun v e =>
          match truthy v with
          | Some p => if p then rbind (eval b e) (fun w e => match truthy w with Some q => Val (VBool q) e | None => Stuck end)
                      else Val (VBool false) e
          | None => Stuck
          end)
      else if String.eqb op "||" then
        rbind (eval a e) (fun v e =>
          match truthy v with
          | Some p => if p then Val (VBool true) e
                      else rbind (eval b e) (fun w e => match truthy w with Some q => Val (VBool q) e | None => Stuck end)
          | None => Stuck
          end)
      else rbind (eval a e) (fun v e => rbind (eval b e) (fun w e => binop op v w e))
  | EAsg op a b =>
      rbind (eval b e) (fun w e =>
        match a with
        | EIdx c i => rbind (eval i e) (fun k e => rbind (touch (place c e) k e) (fun p e => assign op p w e))
        | _ => assign op (place a e) w e
        end)
  | ECast t a => rbind (eval a e) (fun v e => to_ty t v e)
  | EInit t fs =>
      match zero_of depth t with
      | Some p =>
          (fix go (fs : list (string * expr)) (p : val) (e : env) {struct fs} : res val :=
             match fs with
             | [] => Val p e
             | (f, a) :: r =>
                 rbind (eval a e) (fun v e =>
                   match field f p with
                   | Some q => match conv q v with
                               | Some w => match setp p [Fld f] w with Some p' => go r p' e | None => Stuck end
                               | None => Stuck
                               end
                   | None => Stuck
                   end)
             end) fs p e
      | None => Stuck
      end
  | EMake t es => rbind (evals es e) (fun vs e => make t vs e)
  | EBrace es => rbind (evals es e) (fun vs e => Val (VBrace vs) e)
  | ECall (EMem o m) args =>
      match (if String.eqb m "get" then match place o e with Some p => get_at p e | None => None end else None), args with
      | Some (VStream s), [a] => read_char (place o e) s (place a e) e
      | _, _ =>
          rbind (eval o e) (fun v e => rbind (evals args e) (fun vs e =>
            match o with
            | EIdx c i => rbind (eval i e) (fun k e => rbind (touch (place c e) k e) (fun p e => call_method m p v vs (places args e) e))
            | _ => call_method m (place o e) v vs (places args e) e
            end))
      end
  | ECall (EId f) args =>
      if String.eqb f "std::move" then
        match args with
        | [a] => rbind (eval a e) (fun v e => match place a e with Some _ => rbind (store (place a e) VNone e) (fun _ e => Val v e) | None => Val v e end)
        | _ => Stuck
        end
      else if String.eqb f "std::find_if" then
        match args with
        | [a; b; ELam x c] =>
            rbind (eval a e) (fun v e => rbind (eval b e) (fun w e =>
              match v, w with
              | VSit s i, VSit _ j =>
                  rbind (find_loop (fun v e => rbind (scope e (eval c ((x, v) :: e))) (fun w e => match truthy w with Some b => Val b e | None => Stuck end))
                    (map VChr (firstn (Z.to_nat (j - i)) (skipn (Z.to_nat i) s))) i e) (fun k e => Val (VSit s k) e)
              | _, _ => Stuck
              end))
        | _ => Stuck
        end
      else if String.eqb f "std::erase_if" then
        match args with
        | [a; ELam x c] =>
            rbind (eval a e) (fun v e =>
              match v with
              | VMap p l =>
                  rbind (erase_loop (fun v e => rbind (scope e (eval c ((x, pair_of v) :: e))) (fun w e => match truthy w with Some b => Val b e | None => Stuck end)) l e)
                    (fun l e => rbind (store (place a e) (VMap p l) e) (fun _ e => Val VUnit e))
              | _ => Stuck
              end)
        | _ => Stuck
        end
      else
      rbind (evals args e) (fun vs e =>
        if is_method f then
          match lookup "this" e with
          | Some t => invoke f (Some ("this", [])) t vs (places args e) e
          | None => Stuck
          end
        else if is_fn f then invoke f None VUnit vs (places args e) e
        else builtin f vs e)
  | ETCall f a args =>
      if String.eqb f "std::make_unique" then match zero_of depth (Ty a []) with Some v => Val v e | None => Stuck end
      else if String.eqb f "ctre::range" then
        rbind (evals args e) (fun vs e =>
          match parse_re a, vs with
          | Some r, [VStr s] => Val (VVec VUnit (map (fun m => VMatch (Some m)) (matches_from r (length s) 0 s))) e
          | _, _ => Stuck
          end)
      else Stuck
  | _ => Stuck
  end.

(** auto &x = *it; and auto &x = c[k]; *)
Definition ref_place (i : expr) (e : env) : option (res (option (string * list pstep))) :=
  match i with
  | EUn op a => if String.eqb op "*" then Some (rbind (eval a e) (fun v e => Val (iter_place v) e)) else None
  | EIdx c k => Some (rbind (eval k e) (fun k e => touch (place c e) k e))
  | _ => None
  end.
Definition bind_ref (x : string) (p : option (string * list pstep)) (e : env) : res ctl :=
  match p with
  | Some (y, q) => match get_at (y, q) e with Some _ => Val Next ((x, VRef y q) :: e) | None => Undef (Known IndexRange) end
  | None => Stuck
  end.
(** auto [x, ...] = e; *)
Fixpoint bind_fields (xs : list string) (fs : list (string * val)) (e : env) : res ctl :=
  match xs, fs with
  | [], [] => Val Next e
  | x :: xs, (_, v) :: fs => bind_fields xs fs ((x, v) :: e)
  | _, _ => Stuck
  end.
Definition declare (t : ty) (x : string) (init : option (res val)) (e : env) : res ctl :=
  match init with
  | None => match zero_of depth t with Some v => Val Next ((x, v) :: e) | None => Stuck end
  | Some r => rbind r (fun v e => rbind (to_ty t v e) (fun w e => Val Next ((x, w) :: e)))
  end.
Fixpoint exec (s : stmt) (e : env) {struct s} : res ctl :=
  match s with
  | SSkip => Val Next e
  | SSeq a b => rbind (exec a e) (fun c e => match c with Next => exec b e | _ => Val c e end)
  | SBlock a => scope e (exec a e)
  | SExpr x => rbind (eval x e) (fun _ e => Val Next e)
  | SDecl t ref x init =>
      match (if ref then match init with Some i => ref_place i e | None => None end else None) with
      | Some r => rbind r (fun p e => bind_ref x p e)
      | None => declare t x (match init with Some i => Some (eval i e) | None => None end) e
      end
  | SStatic t x => Val Next e
  | SBind xs i => rbind (eval i e) (fun v e => match v with VRec fs => bind_fields xs fs e | _ => Stuck end)
  | SEnum t names x => Val Next ((x, VEnum "") :: e)
  | SIf c a b =>
      rbind (eval c e) (fun v e => match truthy v with Some q => if q then exec a e else exec b e | None => Stuck end)
  | SIfDecl x i a b =>
      scope e (rbind (eval i e) (fun v e =>
        match truthy v with Some q => if q then exec a ((x, v) :: e) else exec b ((x, v) :: e) | None => Stuck end))
  | SWhile c b => while_loop N (eval c) (exec b) (fun e => Val VUnit e) e
  | SFor i c st b =>
      scope e (rbind (exec i e) (fun _ e =>
        while_loop N (eval c) (exec b) (match st with Some x => eval x | None => fun e => Val VUnit e end) e))
  | SForIn ref x i b =>
      rbind (eval i e) (fun v e =>
        match elements v with
        | None =>
            match v with
            | VSet _ | VMap _ _ => match call "unordered" v [] with CVal (VVec _ l) _ => for_in x (exec b) l e | _ => Stuck end
            | _ => Stuck
            end
        | Some l =>
            if ref then
              match v with
              | VVec p _ => rbind (for_ref x (exec b) l [] e) (fun c e => rbind (store (place i e) (VVec p (snd c)) e) (fun _ e => Val (fst c) e))
              | _ => Stuck
              end
            else for_in x (exec b) l e
        end)
  | SRet None => Val (Returned VUnit) e
  | SRet (Some x) => rbind (eval x e) (fun v e => Val (Returned v) e)
  | SBreak => Val Broken e
  | SCont => Val Continued e
  | STry a b => match exec a e with Thrown e' => exec b (leave e e') | r => r end
  end.

(** Arguments are converted to the types of the parameters. *)
Fixpoint bind_params (ps : list (string * ty)) (vs : list val) (e : env) : res unit :=
  match ps, vs with
  | [], [] => Val tt e
  | (x, t) :: ps, v :: vs => rbind (to_ty t v e) (fun w e => bind_params ps vs ((x, w) :: e))
  | _, _ => Stuck
  end.
(** the object a function was called on, at its end; with the values of the
    parameters passed by reference or pointer *)
Definition object (e : env) : val := match lookup "this" e with Some v => v | None => VUnit end.
Definition by_ref (t : ty) : bool := match t with Ty x _ => String.eqb x "&" || String.eqb x "*" end.
Fixpoint refs (ps : list (string * ty)) : bool := match ps with (_, t) :: r => if by_ref t then true else refs r | [] => false end.
Fixpoint outs (ps : list (string * ty)) (e : env) : list val :=
  match ps with
  | (x, t) :: r => (if by_ref t then match lookup x e with Some v => v | None => VUnit end else VUnit) :: outs r e
  | [] => []
  end.
Definition residue (ps : list (string * ty)) (e : env) : val := if refs ps then VBrace (object e :: outs ps e) else object e.
Definition run_fn (ret : option ty) (ps : list (string * ty)) (body : stmt) (this : val) (args : list val) : cres :=
  let e := match this with VUnit => [] | _ => [("this", this)] end in
  match rbind (bind_params ps args e) (fun _ e => exec body e) with
  | Val c e =>
      match c with
      | Returned VUnit | Next => CVal VUnit (residue ps e)
      | Returned v =>
          match ret with
          | Some t => match to_ty t v e with Val w _ => CVal w (residue ps e) | _ => CStuck end
          | None => CStuck
          end
      | _ => CStuck
      end
  | Thrown e => CThrown (residue ps e)
  | Undef f => CUndef f
  | Stuck => CStuck
  | Fuel => CFuel
  end.
End Interpreter.

(** * Programs *)
Definition with_defaults (l : list item) (f : fn) : fn :=
  match find (fun i => match i with IDefault g _ _ => String.eqb g (fn_name f) | _ => false end) l with
  | Some (IDefault _ _ es) => mkFn (fn_class f) (fn_name f) (fn_ret f) (fn_params f) es (fn_body f)
  | _ => f
  end.
Definition functions (l : list item) : list fn := flat_map (fun i => match i with IFun f => [with_defaults l f] | _ => [] end) l.
Definition types (l : list item) : list (string * list (string * ty * option expr)) :=
  flat_map (fun i => match i with IStruct x fs => [(x, fs)] | _ => [] end) l.
Definition find_fn (fs : list fn) (x : string) : option fn := find (fun f => String.eqb (fn_name f) x) fs.
(** functions that are not called on an object *)
Definition free_fn (f : fn) : bool :=
  existsb (String.eqb (fn_class f)) [""; "AsmParser"; "AssemblyTextParserUtils"].
(** missing arguments: the default values of the last parameters *)
Definition literal (x : expr) : val := match x with EId c => match constant c with Some v => v | None => VUnit end | ENum z => VInt I32 z | _ => VUnit end.
Fixpoint llen {A} (l : list A) : nat := match l with _ :: r => S (llen r) | [] => O end.
Fixpoint literals (l : list expr) : list val := match l with e :: r => literal e :: literals r | [] => [] end.
Fixpoint drop {A} (n : nat) (l : list A) : list A := match n, l with S k, _ :: r => drop k r | _, _ => l end.
Fixpoint fill (n : nat) (ds : list expr) (vs : list val) : list val :=
  match n, vs with
  | S k, v :: r => v :: fill k ds r
  | S k, [] => literals (drop (nsub (llen ds) n) ds)
  | O, _ => vs
  end.
(** Calls nested at most [d] deep; [ext]: what comes from outside the program. *)
Fixpoint prog_with (ext : string -> val -> list val -> option cres) (fs : list fn) (ts : list (string * list (string * ty * option expr)))
  (N : nat) (mb : str -> Z) (d : nat) (f : string) (this : val) (args : list val) : cres :=
  match ext f this args with
  | Some r => r
  | None =>
  match d with
  | O => CFuel
  | S k =>
      match find_fn fs f with
      | Some fn =>
          match fn_body fn with
          | Some b =>
              run_fn N mb ts (fun x => is_some (find_fn fs x)) (fun x => match find_fn fs x with Some g => negb (free_fn g) | None => false end)
                (prog_with ext fs ts N mb k) (fn_ret fn) (fn_params fn) b this (fill (llen (fn_params fn)) (fn_dflt fn) args)
          | None => CStuck
          end
      | None => CStuck
      end
  end
  end.
Definition prog := prog_with (fun _ _ _ => None).
