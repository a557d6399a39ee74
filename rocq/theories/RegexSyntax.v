(** From the text of a pattern to the pattern: the part of the regular expression
    syntax of CTRE (an external library) that src/utils/regexes.hpp uses.  Anything
    else - counted repetition, back references, look-around, lazy + and ?, letters
    escaped that are not classes - gives [None]. *)
From Verif Require Export Regex.

(** The class behind an escaped letter; an escaped sign stands for itself. *)
Definition escaped (c : char) : option (char -> bool) :=
  if ceq c "h" then Some is_hspace
  else if ceq c "d" then Some is_digit
  else if ceq c "w" then Some is_word
  else if ceq c "s" then Some is_space
  else if ceq c "S" then Some (fun x => negb (is_space x))
  else if is_word c then None
  else Some (ceq c).

(** The inside of [...] up to the closing bracket: literal characters, ranges a-z
    and escapes; the accumulated class and what follows the bracket. *)
Fixpoint class_items (fuel : nat) (s : str) (acc : char -> bool) : option ((char -> bool) * str) :=
  match fuel with
  | O => None
  | S k =>
      match s with
      | [] => None
      | c :: t =>
          if ceq c "]" then Some (acc, t)
          else if ceq c "\" then
            match t with
            | [] => None
            | e :: t' => match escaped e with Some p => class_items k t' (fun x => acc x || p x) | None => None end
            end
          else
            match t with
            | d :: hi :: t' =>
                if ceq d "-" && negb (ceq hi "]") then
                  if ceq hi "\" then None else class_items k t' (fun x => acc x || in_range c hi x)
                else class_items k t (fun x => acc x || ceq c x)
            | _ => class_items k t (fun x => acc x || ceq c x)
            end
      end
  end.
(** After the opening bracket; a first ^ negates. *)
Definition class (s : str) : option (re * str) :=
  match s with
  | c :: t =>
      if ceq c "^" then
        match class_items (S (length t)) t (fun _ => false) with Some (p, r) => Some (Cls (fun x => negb (p x)), r) | None => None end
      else match class_items (S (length s)) s (fun _ => false) with Some (p, r) => Some (Cls p, r) | None => None end
  | [] => None
  end.

(** A repetition mark after an atom. *)
Definition quantified (a : re) (s : str) : option (re * str) :=
  match s with
  | c :: t =>
      if ceq c "*" then
        match t with
        | d :: t' => if ceq d "?" then Some (Star false a, t') else Some (Star true a, t)
        | [] => Some (Star true a, t)
        end
      else if ceq c "+" then match t with d :: _ => if ceq d "?" then None else Some (Plus a, t) | [] => Some (Plus a, t) end
      else if ceq c "?" then match t with d :: _ => if ceq d "?" then None else Some (Opt a, t) | [] => Some (Opt a, t) end
      else if ceq c "{" then None
      else Some (a, s)
  | [] => Some (a, s)
  end.

(** An expression up to the end or an unmatched closing parenthesis; [g] is the
    number of the next capturing group, counted by opening parentheses. *)
Definition found : Type := re * str * nat.
Fixpoint alternatives (fuel : nat) (g : nat) (s : str) : option found :=
  match fuel with
  | O => None
  | S k =>
      match sequence k g s with
      | None => None
      | Some (a, t, g1) =>
          match t with
          | c :: t' =>
              if ceq c "|" then match alternatives k g1 t' with Some (b, u, g2) => Some (Alt a b, u, g2) | None => None end
              else Some (a, t, g1)
          | [] => Some (a, t, g1)
          end
      end
  end
with sequence (fuel : nat) (g : nat) (s : str) : option found :=
  match fuel with
  | O => None
  | S k =>
      match s with
      | [] => Some (Eps, s, g)
      | c :: _ =>
          if ceq c "|" || ceq c ")" then Some (Eps, s, g)
          else
            match atom k g s with
            | None => None
            | Some (a, t, g1) =>
                match quantified a t with
                | None => None
                | Some (q, u) => match sequence k g1 u with Some (b, v, g2) => Some (Seq q b, v, g2) | None => None end
                end
            end
      end
  end
with atom (fuel : nat) (g : nat) (s : str) : option found :=
  match fuel with
  | O => None
  | S k =>
      match s with
      | [] => None
      | c :: t =>
          if ceq c "^" then Some (Bol, t, g)
          else if ceq c "$" then Some (Eol, t, g)
          else if ceq c "." then Some (AnyChar, t, g)
          else if ceq c "[" then match class t with Some (a, u) => Some (a, u, g) | None => None end
          else if ceq c "\" then
            match t with
            | e :: u => match escaped e with Some p => Some (Cls p, u, g) | None => None end
            | [] => None
            end
          else if ceq c "(" then
            let group := starts_with (lit "?") t in
            if group && negb (starts_with (lit "?:") t) then None
            else
              match (if group then alternatives k g (skipn 2 t) else alternatives k (S g) t) with
              | Some (a, d :: u, g1) => if ceq d ")" then Some (if group then a else Grp g a, u, g1) else None
              | _ => None
              end
          else if one_of "*+?{|)" c then None
          else Some (Chr c, t, g)
      end
  end.

(** The whole text must be used up. *)
Definition parse_re (s : string) : option re :=
  match alternatives (S (S (4 * length (lit s)))) 1 (lit s) with Some (r, [], _) => Some r | _ => None end.
