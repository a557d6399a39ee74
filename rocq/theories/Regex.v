(** A backtracking regular expression matcher with captures: the semantics of
    the CTRE library used by src/utils/regexes.hpp.  CTRE (an external header
    library, not in the repository) explores alternatives in Perl priority
    order; here [m] lists every way to match in that order, and the search
    functions take the first.  Simplification: CTRE compiles patterns at compile
    time; here patterns are transcribed into [re] by hand (Regexes.v). *)
From Verif Require Export Bytes.

Inductive re :=
| Eps
| Cls (p : char -> bool)            (* one byte satisfying p *)
| Seq (a b : re)
| Alt (a b : re)                    (* a|b, a first *)
| Star (greedy : bool) (a : re)     (* a* or a*? *)
| Opt (a : re)                      (* a? (greedy) *)
| Grp (n : nat) (a : re)            (* capture group n *)
| Bol                               (* ^ : start of the subject *)
| Eol                               (* $ : end of the subject *).

(** Matcher state: position, unread input, captures (latest first). *)
Record mstate := mkM { m_pos : nat; m_rest : str; m_caps : list (nat * (nat * str)) }.

(** a*: iterate [f] while it makes progress.  No pattern in the repository has a
    loop body that can match the empty string. *)
Fixpoint star_iter (f : mstate -> list mstate) (greedy : bool) (fuel : nat) (st : mstate) : list mstate :=
  match fuel with
  | O => [st]
  | S k =>
      let more := flat_map (star_iter f greedy k)
                    (filter (fun st' => Nat.ltb (length (m_rest st')) (length (m_rest st))) (f st)) in
      if greedy then more ++ [st] else st :: more
  end.

Definition close_group (n : nat) (st st' : mstate) : mstate :=
  mkM (m_pos st') (m_rest st')
      ((n, (m_pos st, firstn (m_pos st' - m_pos st) (m_rest st))) :: m_caps st').

Fixpoint m (r : re) (st : mstate) : list mstate :=
  match r with
  | Eps => [st]
  | Cls p =>
      match m_rest st with
      | c :: t => if p c then [mkM (S (m_pos st)) t (m_caps st)] else []
      | [] => []
      end
  | Seq a b => flat_map (m b) (m a st)
  | Alt a b => m a st ++ m b st
  | Star g a => star_iter (m a) g (length (m_rest st)) st
  | Opt a => m a st ++ [st]
  | Grp n a => map (close_group n st) (m a st)
  | Bol => if Nat.eqb (m_pos st) 0 then [st] else []
  | Eol => if is_nil (m_rest st) then [st] else []
  end.

(** ctre::match<re>(s): the whole subject must match. *)
Definition re_match (r : re) (s : str) : option mstate :=
  find (fun st => is_nil (m_rest st)) (m r (mkM 0 s [])).

(** First match starting at or after [pos] in [rest]: (start, final state). *)
Fixpoint search_from (r : re) (pos : nat) (rest : str) : option (nat * mstate) :=
  match m r (mkM pos rest []) with
  | st :: _ => Some (pos, st)
  | [] => match rest with
          | [] => None
          | _ :: t => search_from r (S pos) t
          end
  end.

(** ctre::search<re>(s) *)
Definition re_search (r : re) (s : str) : option mstate := option_map snd (search_from r 0 s).

(** match.get<n>(): start offset and text; an unmatched group is empty. *)
Definition get_group (n : nat) (st : mstate) : option (nat * str) :=
  option_map snd (find (fun kv => Nat.eqb (fst kv) n) (m_caps st)).
Definition cap (n : nat) (st : mstate) : str :=
  match get_group n st with Some (_, s) => s | None => [] end.

Definition is_some {A} (o : option A) : bool := match o with Some _ => true | None => false end.

(** Pattern-building helpers. *)
Definition Chr (c : char) : re := Cls (ceq c).
Definition Plus (a : re) : re := Seq a (Star true a).
Fixpoint Lit (s : str) : re := match s with [] => Eps | [c] => Chr c | c :: t => Seq (Chr c) (Lit t) end.
Definition L (s : string) : re := Lit (lit s).
Definition AnyChar : re := Cls (fun _ => true).                   (* . *)
Definition is_hspace (c : char) : bool := ceq c SP || ceq c TAB.    (* \h *)
Definition is_digit (c : char) : bool := in_range "0" "9" c.        (* \d *)
Definition is_lower (c : char) : bool := in_range "a" "z" c.
Definition is_upper (c : char) : bool := in_range "A" "Z" c.
Definition is_alpha (c : char) : bool := is_lower c || is_upper c.
Definition is_word (c : char) : bool := is_alpha c || is_digit c || ceq c "_". (* \w *)
Definition is_space (c : char) : bool := in_range TAB CR c || ceq c SP.  (* \s and std::isspace *)
Definition one_of (s : string) (c : char) : bool := existsb (ceq c) (lit s).
Definition HS : re := Star true (Cls is_hspace).                  (* \h* *)
Definition HP : re := Plus (Cls is_hspace).                       (* \h+ *)
Definition AnyStar : re := Star true AnyChar.                     (* .* *)
Fixpoint Alts (l : list re) : re := match l with [] => Cls (fun _ => false) | [a] => a | a :: t => Alt a (Alts t) end.
Fixpoint Seqs (l : list re) : re := match l with [] => Eps | [a] => a | a :: t => Seq a (Seqs t) end.
