(** A reader for the part of C++ the repository is written in: text to tokens
    to syntax trees.  It is applied to the text of the source files (SourceText.v);
    what it does not understand becomes [None]. *)
From Coq Require Import String.
From Verif Require Import Bytes Json.
Local Open Scope Z_scope.
Local Open Scope string_scope.
Import ListNotations.

(** * Tokens *)
Inductive tok := Tid (s : string) | Tnum (z : Z) | Tchr (c : ascii) | Tstr (s : str) | Tp (s : string).

Definition is_letter (c : ascii) : bool := in_range "a" "z" c || in_range "A" "Z" c || Ascii.eqb c "_".
Definition is_word (c : ascii) : bool := is_letter c || in_range "0" "9" c.
Fixpoint span (p : ascii -> bool) (s : str) : str * str :=
  match s with
  | c :: t => if p c then let '(a, b) := span p t in (c :: a, b) else ([], s)
  | [] => ([], [])
  end.
Definition text_of (s : str) : string := fold_right String EmptyString s.
Definition unescape (c : ascii) : ascii :=
  if Ascii.eqb c "n" then LF else if Ascii.eqb c "t" then TAB else if Ascii.eqb c "r" then CR
  else if Ascii.eqb c "0" then Ascii.zero else c.
(** the rest of a string literal *)
Fixpoint in_string (s : str) : option (str * str) :=
  match s with
  | [] => None
  | c :: t =>
      if Ascii.eqb c DQ then Some ([], t)
      else if Ascii.eqb c "\" then
        match t with
        | d :: t' => option_map (fun r => (unescape d :: fst r, snd r)) (in_string t')
        | [] => None
        end
      else option_map (fun r => (c :: fst r, snd r)) (in_string t)
  end.
(** the rest of a raw string literal, ended by )re and a double quote *)
Fixpoint in_raw (s : str) : option (str * str) :=
  match s with
  | [] => None
  | c :: t => if starts_with (lit ")re""") s then Some ([], skipn 4 s) else option_map (fun r => (c :: fst r, snd r)) (in_raw t)
  end.
Definition pairs_of_signs : list string :=
  ["::"; "->"; "++"; "--"; "<<"; "<="; ">="; "=="; "!="; "&&"; "||"; "+="; "-="].
Definition signs : list ascii :=
  ["{"; "}"; "("; ")"; "["; "]"; "<"; ">"; "="; "!"; "+"; "-"; "*"; "/"; "%"; "&"; "|"; "^"; "?"; ":"; ";"; ","; "."; "~"]%char.
Fixpoint lex (fuel : nat) (s : str) : option (list tok) :=
  match fuel, s with
  | _, [] => Some []
  | O, _ => None
  | S k, c :: t =>
      if is_space c then lex k t
      else if Ascii.eqb c "#" || starts_with (lit "//") s then lex k (snd (span (fun d => negb (Ascii.eqb d LF)) t))
      else if starts_with (lit "R""re(") s then
        match in_raw (skipn 5 s) with Some (a, r) => option_map (cons (Tstr a)) (lex k r) | None => None end
      else if is_letter c then let '(a, r) := span is_word s in option_map (cons (Tid (text_of a))) (lex k r)
      else if in_range "0" "9" c then
        let '(a, r) := span (in_range "0" "9") s in
        option_map (cons (Tnum (fold_left (fun n d => n * 10 + (code d - 48)) a 0))) (lex k r)
      else if Ascii.eqb c DQ then
        match in_string t with Some (a, r) => option_map (cons (Tstr a)) (lex k r) | None => None end
      else if Ascii.eqb c "'" then
        match t with
        | d :: e :: r =>
            if Ascii.eqb d "\" then
              match r with f :: r' => if Ascii.eqb f "'" then option_map (cons (Tchr (unescape e))) (lex k r') else None | [] => None end
            else if Ascii.eqb e "'" then option_map (cons (Tchr d)) (lex k r) else None
        | _ => None
        end
      else if existsb (fun p => starts_with (lit p) s) pairs_of_signs then
        match t with d :: r => option_map (cons (Tp (text_of [c; d]))) (lex k r) | [] => None end
      else if existsb (Ascii.eqb c) signs then option_map (cons (Tp (text_of [c]))) (lex k t)
      else None
  end.
Definition tokens (s : string) : option (list tok) := lex (length (lit s)) (lit s).

(** * Syntax trees *)
Inductive ty := Ty (name : string) (args : list ty).
Inductive expr :=
| EId (x : string)
| ENum (z : Z)
| EChr (c : ascii)
| EStr (s : str)
| EMem (e : expr) (f : string)                     (* e.f and e->f *)
| EIdx (e i : expr)
| ECall (f : expr) (args : list expr)
| EUn (op : string) (e : expr)
| EPost (op : string) (e : expr)
| EBin (op : string) (a b : expr)
| EAsg (op : string) (a b : expr)
| ECast (t : ty) (e : expr)                        (* static_cast<t>(e) *)
| EInit (t : ty) (fs : list (string * expr))       (* t{ .f = e, ... } *)
| EMake (t : ty) (es : list expr)                  (* t{ e, ... } *)
| EBrace (es : list expr)                          (* { e, ... } *)
| ETCall (f : string) (arg : string) (es : list expr) (* f<arg>(e, ...) *)
| ELam (x : string) (e : expr).                    (* [...](T x) { return e; } *)
Inductive stmt :=
| SSkip
| SSeq (a b : stmt)
| SBlock (s : stmt)
| SExpr (e : expr)
| SDecl (t : ty) (ref : bool) (x : string) (init : option expr)
| SStatic (t : ty) (x : string)                    (* static t x; *)
| SBind (xs : list string) (e : expr)              (* auto [x, ...] = e; *)
| SEnum (t : string) (names : list string) (x : string)
| SIf (c : expr) (a b : stmt)
| SIfDecl (x : string) (e : expr) (a b : stmt)     (* if (auto x = e) *)
| SWhile (c : expr) (b : stmt)
| SFor (init : stmt) (c : expr) (step : option expr) (b : stmt)
| SForIn (ref : bool) (x : string) (e : expr) (b : stmt)
| SRet (e : option expr)
| SBreak
| SCont
| STry (a b : stmt).

(** * Parser *)
Definition sgn (p : string) (ts : list tok) : option (list tok) :=
  match ts with Tp q :: r => if String.eqb p q then Some r else None | _ => None end.
Definition kw (w : string) (ts : list tok) : option (list tok) :=
  match ts with Tid v :: r => if String.eqb w v then Some r else None | _ => None end.
Definition bind {A B} (a : option A) (f : A -> option B) : option B := match a with Some x => f x | None => None end.
Notation "'do' p <- a ;; b" := (bind a (fun p => b)) (at level 61, p pattern, a at next level, right associativity).

(** tokens up to one of the signs *)
Fixpoint upto (ps : list string) (ts : list tok) : list tok * list tok :=
  match ts with
  | Tp p :: r => if existsb (String.eqb p) ps then ([], ts) else let '(a, b) := upto ps r in (Tp p :: a, b)
  | t :: r => let '(a, b) := upto ps r in (t :: a, b)
  | [] => ([], [])
  end.
Definition after (ts : list tok) : list tok := tl ts.

(** qualified names; the two namespaces of the repository are dropped *)
Definition dropped (x : string) : bool := String.eqb x "AsmParser" || String.eqb x "AssemblyTextParserUtils".
Fixpoint path (fuel : nat) (ts : list tok) : option (string * list tok) :=
  match fuel, ts with
  | S k, Tid x :: Tp q :: r =>
      if String.eqb q "::" then
        do (y, r') <- path k r ;; Some (if dropped x then y else x ++ "::" ++ y, r')
      else Some (x, Tp q :: r)
  | S k, Tid x :: r => Some (x, r)
  | _, _ => None
  end.
Definition number_word (x : string) : bool := existsb (String.eqb x) ["long"; "unsigned"; "int"; "short"; "char"].
Fixpoint words (ts : list tok) : string * list tok :=
  match ts with
  | Tid x :: r => if number_word x then let '(y, r') := words r in ((if String.eqb y "" then x else x ++ " " ++ y)%string, r') else ("", ts)
  | _ => ("", ts)
  end.
Fixpoint type (fuel : nat) (ts : list tok) : option (ty * list tok) :=
  match fuel with
  | O => None
  | S k =>
      match ts with
      | Tid x :: r =>
          if String.eqb x "const" || String.eqb x "static" || String.eqb x "inline" || String.eqb x "thread_local" then type k r
          else if number_word x then let '(w, r') := words ts in Some (Ty w [], r')
          else
            do (x, r) <- path k ts ;;
            match sgn "<" r with
            | Some r' =>
                (fix args (n : nat) (acc : list ty) (ts : list tok) : option (ty * list tok) :=
                   match n with
                   | O => None
                   | S n' =>
                       do (t, r) <- type k ts ;;
                       match r with
                       | Tp q :: r' =>
                           if String.eqb q "," then args n' (acc ++ [t])%list r'
                           else if String.eqb q ">" then Some (Ty x (acc ++ [t])%list, r') else None
                       | _ => None
                       end
                   end) k [] r'
            | None => Some (Ty x [], r)
            end
      | _ => None
      end
  end.
(** a type, and whether & or * follows *)
Definition type_ref (fuel : nat) (ts : list tok) : option (ty * bool * list tok) :=
  do (t, r) <- type fuel ts ;;
  match sgn "&" r with
  | Some r' => Some (t, true, r')
  | None => match sgn "*" r with Some r' => Some (Ty "*" [t], false, r') | None => Some (t, false, r) end
  end.

Definition prec (op : string) : option nat :=
  if String.eqb op "||" then Some 1%nat else if String.eqb op "&&" then Some 2%nat
  else if String.eqb op "|" then Some 3%nat else if String.eqb op "^" then Some 4%nat else if String.eqb op "&" then Some 5%nat
  else if String.eqb op "==" || String.eqb op "!=" then Some 6%nat
  else if String.eqb op "<" || String.eqb op ">" || String.eqb op "<=" || String.eqb op ">=" then Some 7%nat
  else if String.eqb op "<<" then Some 8%nat
  else if String.eqb op "+" || String.eqb op "-" then Some 9%nat
  else if String.eqb op "*" || String.eqb op "/" || String.eqb op "%" then Some 10%nat
  else None.
Definition assigns (op : string) : bool := existsb (String.eqb op) ["="; "+="; "-="].

(** f<1>( , f<std::string>( and f<regular expression>( *)
Definition template_call (ts : list tok) : option (string * list tok) :=
  match ts with
  | Tp a :: Tnum n :: Tp b :: Tp c :: r =>
      if String.eqb a "<" && String.eqb b ">" && String.eqb c "(" then Some (text_of (dec_Z n), Tp c :: r) else None
  | Tp a :: Tstr s :: Tp b :: Tp c :: r =>
      if String.eqb a "<" && String.eqb b ">" && String.eqb c "(" then Some (text_of s, Tp c :: r) else None
  | Tp a :: Tid x :: Tp b :: Tp c :: r =>
      if String.eqb a "<" && String.eqb b ">" && String.eqb c "(" then Some (x, Tp c :: r) else None
  | _ => None
  end.

Fixpoint pexpr (fuel : nat) (ts : list tok) : option (expr * list tok) :=
  match fuel with
  | O => None
  | S k =>
      do (a, r) <- pbin k 1 ts ;;
      match r with
      | Tp op :: r' => if assigns op then do (b, r'') <- pexpr k r' ;; Some (EAsg op a b, r'') else Some (a, r)
      | _ => Some (a, r)
      end
  end
(** operators of precedence at least [n], to the left *)
with pbin (fuel : nat) (n : nat) (ts : list tok) : option (expr * list tok) :=
  match fuel with
  | O => None
  | S k => do (a, r) <- punary k ts ;; pmore k n a r
  end
with pmore (fuel : nat) (n : nat) (a : expr) (ts : list tok) : option (expr * list tok) :=
  match fuel with
  | O => None
  | S k =>
      match ts with
      | Tp op :: r =>
          match prec op with
          | Some q => if (n <=? q)%nat then do (b, r') <- pbin k (S q) r ;; pmore k n (EBin op a b) r' else Some (a, ts)
          | None => Some (a, ts)
          end
      | _ => Some (a, ts)
      end
  end
with punary (fuel : nat) (ts : list tok) : option (expr * list tok) :=
  match fuel with
  | O => None
  | S k =>
      match ts with
      | Tp op :: r =>
          if existsb (String.eqb op) ["!"; "-"; "*"; "++"; "--"] then do (e, r') <- punary k r ;; Some (EUn op e, r')
          else do (e, r') <- pprimary k ts ;; ppost k e r'
      | _ => do (e, r') <- pprimary k ts ;; ppost k e r'
      end
  end
with ppost (fuel : nat) (e : expr) (ts : list tok) : option (expr * list tok) :=
  match fuel with
  | O => None
  | S k =>
      match ts with
      | Tp op :: r =>
          if String.eqb op "." || String.eqb op "->" then
            match r with
            | Tid f :: r' =>
                match template_call r' with
                | Some (x, r'') => ppost k (EMem e (f ++ "<" ++ x ++ ">")) r''
                | None => ppost k (EMem e f) r'
                end
            | _ => None
            end
          else if String.eqb op "[" then do (i, r') <- pexpr k r ;; do r'' <- sgn "]" r' ;; ppost k (EIdx e i) r''
          else if String.eqb op "(" then do (es, r') <- pargs k ")" r ;; ppost k (ECall e es) r'
          else if String.eqb op "++" || String.eqb op "--" then ppost k (EPost op e) r
          else Some (e, ts)
      | _ => Some (e, ts)
      end
  end
(** expressions separated by commas up to the closing sign *)
with pargs (fuel : nat) (close : string) (ts : list tok) : option (list expr * list tok) :=
  match fuel with
  | O => None
  | S k =>
      match sgn close ts with
      | Some r => Some ([], r)
      | None =>
          do (e, r) <- pexpr k ts ;;
          match sgn "," r with
          | Some r' => do (es, r'') <- pargs k close r' ;; Some (e :: es, r'')
          | None => do r' <- sgn close r ;; Some ([e], r')
          end
      end
  end
with pfields (fuel : nat) (ts : list tok) : option (list (string * expr) * list tok) :=
  match fuel with
  | O => None
  | S k =>
      do r <- sgn "." ts ;;
      match r with
      | Tid f :: r' =>
          do r'' <- sgn "=" r' ;;
          do (e, r3) <- pexpr k r'' ;;
          match sgn "," r3 with
          | Some r4 => do (fs, r5) <- pfields k r4 ;; Some ((f, e) :: fs, r5)
          | None => do r4 <- sgn "}" r3 ;; Some ([(f, e)], r4)
          end
      | _ => None
      end
  end
with pprimary (fuel : nat) (ts : list tok) : option (expr * list tok) :=
  match fuel with
  | O => None
  | S k =>
      match ts with
      | Tnum z :: r => Some (ENum z, r)
      | Tchr c :: r => Some (EChr c, r)
      | Tstr s :: r => Some (EStr s, r)
      | Tp p :: r =>
          if String.eqb p "(" then
            match r with
            | Tid t :: Tp q :: r' =>
                if String.eqb t "size_t" && String.eqb q ")" then do (e, r'') <- punary k r' ;; Some (ECast (Ty t []) e, r'')
                else do (e, r') <- pexpr k r ;; do r'' <- sgn ")" r' ;; Some (e, r'')
            | _ => do (e, r') <- pexpr k r ;; do r'' <- sgn ")" r' ;; Some (e, r'')
            end
          else if String.eqb p "{" then do (es, r') <- pargs k "}" r ;; Some (EBrace es, r')
          else if String.eqb p "[" then
            let '(_, r) := upto ["]"] r in
            do r <- sgn "(" (after r) ;; do (t, ref, r) <- type_ref k r ;;
            match r with
            | Tid x :: r =>
                do r <- sgn ")" r ;; do r <- sgn "{" r ;; do r <- kw "return" r ;; do (e, r) <- pexpr k r ;;
                do r <- sgn ";" r ;; do r <- sgn "}" r ;; Some (ELam x e, r)
            | _ => None
            end
          else None
      | Tid x :: r =>
          if String.eqb x "static_cast" then
            do r <- sgn "<" r ;; do (t, r) <- type k r ;; do r <- sgn ">" r ;; do r <- sgn "(" r ;;
            do (e, r) <- pexpr k r ;; do r <- sgn ")" r ;; Some (ECast t e, r)
          else
            do (x, r) <- path k ts ;;
            match template_call r with
            | Some (a, r') => do r'' <- sgn "(" r' ;; do (es, r3) <- pargs k ")" r'' ;; Some (ETCall x a es, r3)
            | None =>
                match sgn "{" r with
                | Some r' =>
                    match sgn "." r' with
                    | Some _ => do (fs, r'') <- pfields k r' ;; Some (EInit (Ty x []) fs, r'')
                    | None => do (es, r'') <- pargs k "}" r' ;; Some (EMake (Ty x []) es, r'')
                    end
                | None => Some (EId x, r)
                end
            end
      | [] => None
      end
  end.

(** a declaration without its semicolon *)
Definition pdecl (k : nat) (ts : list tok) : option (stmt * list tok) :=
  do (t, ref, r) <- type_ref k ts ;;
  match r with
  | Tid x :: Tp p :: r' =>
      if String.eqb p ";" then Some (SDecl t ref x None, Tp p :: r')
      else if String.eqb p "=" then do (e, r'') <- pexpr k r' ;; Some (SDecl t ref x (Some e), r'')
      else if String.eqb p "{" then do (es, r'') <- pargs k "}" r' ;; Some (SDecl t ref x (Some (EBrace es)), r'')
      else None
  | _ => None
  end.
Fixpoint names (fuel : nat) (close : string) (ts : list tok) : option (list string * list tok) :=
  match fuel, ts with
  | S k, Tid x :: r =>
      match sgn "," r with
      | Some r' => do (xs, r'') <- names k close r' ;; Some (x :: xs, r'')
      | None => do r' <- sgn close r ;; Some ([x], r')
      end
  | _, _ => None
  end.
(** auto x = e ) *)
Definition pifdecl (k : nat) (ts : list tok) : option (string * expr * list tok) :=
  do (t, ref, r) <- type_ref k ts ;;
  match r with
  | Tid x :: r' => do r'' <- sgn "=" r' ;; do (e, r3) <- pexpr k r'' ;; do r4 <- sgn ")" r3 ;; Some (x, e, r4)
  | _ => None
  end.
(** auto x : e ) *)
Definition pforin (k : nat) (ts : list tok) : option (bool * string * expr * list tok) :=
  do (t, ref, r) <- type_ref k ts ;;
  match r with
  | Tid x :: r' => do r'' <- sgn ":" r' ;; do (e, r3) <- pexpr k r'' ;; do r4 <- sgn ")" r3 ;; Some (ref, x, e, r4)
  | _ => None
  end.
Definition pbinding (k : nat) (ts : list tok) : option (stmt * list tok) :=
  do (t, ref, r) <- type_ref k ts ;;
  do r <- sgn "[" r ;; do (xs, r) <- names k "]" r ;; do r <- sgn "=" r ;; do (e, r) <- pexpr k r ;; do r <- sgn ";" r ;;
  Some (SBind xs e, r).

Fixpoint pstmt (fuel : nat) (ts : list tok) : option (stmt * list tok) :=
  match fuel with
  | O => None
  | S k =>
      match ts with
      | Tp p :: r =>
          if String.eqb p "{" then do (s, r') <- pstmts k r ;; Some (SBlock s, r')
          else if String.eqb p ";" then Some (SSkip, r)
          else do (e, r') <- pexpr k ts ;; do r'' <- sgn ";" r' ;; Some (SExpr e, r'')
      | Tid w :: r =>
          if String.eqb w "if" then
            do r <- sgn "(" r ;;
            match pifdecl k r with
            | Some (x, e, r) => do (a, b, r) <- pbranches k r ;; Some (SIfDecl x e a b, r)
            | None => do (c, r) <- pexpr k r ;; do r <- sgn ")" r ;; do (a, b, r) <- pbranches k r ;; Some (SIf c a b, r)
            end
          else if String.eqb w "while" then
            do r <- sgn "(" r ;; do (c, r) <- pexpr k r ;; do r <- sgn ")" r ;; do (b, r) <- pstmt k r ;; Some (SWhile c b, r)
          else if String.eqb w "for" then
            do r <- sgn "(" r ;;
            match pforin k r with
            | Some (ref, x, e, r) => do (b, r) <- pstmt k r ;; Some (SForIn ref x e b, r)
            | None =>
                do (i, r) <- pdecl k r ;; do r <- sgn ";" r ;; do (c, r) <- pexpr k r ;; do r <- sgn ";" r ;;
                match sgn ")" r with
                | Some r => do (b, r) <- pstmt k r ;; Some (SFor i c None b, r)
                | None => do (st, r) <- pexpr k r ;; do r <- sgn ")" r ;; do (b, r) <- pstmt k r ;; Some (SFor i c (Some st) b, r)
                end
            end
          else if String.eqb w "return" then
            match sgn ";" r with
            | Some r => Some (SRet None, r)
            | None => do (e, r) <- pexpr k r ;; do r <- sgn ";" r ;; Some (SRet (Some e), r)
            end
          else if String.eqb w "break" then do r <- sgn ";" r ;; Some (SBreak, r)
          else if String.eqb w "continue" then do r <- sgn ";" r ;; Some (SCont, r)
          else if String.eqb w "try" then
            do (a, r) <- pstmt k r ;; do r <- kw "catch" r ;; do r <- sgn "(" r ;; do r <- sgn "." r ;; do r <- sgn "." r ;;
            do r <- sgn "." r ;; do r <- sgn ")" r ;; do (b, r) <- pstmt k r ;; Some (STry a b, r)
          else if String.eqb w "static" then
            do (d, r) <- pdecl k ts ;; do r <- sgn ";" r ;;
            match d with SDecl t _ x None => Some (SStatic t x, r) | _ => None end
          else if String.eqb w "enum" then
            do r <- kw "class" r ;;
            match r with
            | Tid t :: r =>
                do r <- sgn "{" r ;; do (xs, r) <- names k "}" r ;;
                match r with Tid x :: r => do r <- sgn ";" r ;; Some (SEnum t xs x, r) | _ => None end
            | _ => None
            end
          else
            match (do (d, r) <- pdecl k ts ;; do r <- sgn ";" r ;; Some (d, r)) with
            | Some x => Some x
            | None =>
                match pbinding k ts with
                | Some x => Some x
                | None => do (e, r') <- pexpr k ts ;; do r'' <- sgn ";" r' ;; Some (SExpr e, r'')
                end
            end
      | _ => None
      end
  end
(** statements up to the closing brace *)
with pstmts (fuel : nat) (ts : list tok) : option (stmt * list tok) :=
  match fuel with
  | O => None
  | S k =>
      match sgn "}" ts with
      | Some r => Some (SSkip, r)
      | None => do (a, r) <- pstmt k ts ;; do (b, r) <- pstmts k r ;; Some (SSeq a b, r)
      end
  end
with pbranches (fuel : nat) (ts : list tok) : option (stmt * stmt * list tok) :=
  match fuel with
  | O => None
  | S k =>
      do (a, r) <- pstmt k ts ;;
      match kw "else" r with
      | Some r => do (b, r) <- pstmt k r ;; Some (a, b, r)
      | None => Some (a, SSkip, r)
      end
  end.

(** * Files *)
Record fn := mkFn { fn_class : string; fn_name : string; fn_ret : option ty; fn_params : list (string * ty); fn_dflt : list expr; fn_body : option stmt }.
(** [IDefault f i e]: the last parameters of [f], from number [i], have the default values [e] *)
Inductive item := IFun (f : fn) | IStruct (name : string) (fields : list (string * ty * option expr)) | IDefault (f : string) (i : nat) (e : list expr).

(** tokens up to the bracket that closes the one just opened *)
Fixpoint balanced (depth : nat) (ts : list tok) : option (list tok * list tok) :=
  match ts with
  | [] => None
  | Tp p :: r =>
      if existsb (String.eqb p) ["("; "{"; "["] then option_map (fun x => (Tp p :: fst x, snd x)) (balanced (S depth) r)
      else if existsb (String.eqb p) [")"; "}"; "]"] then
        match depth with O => Some ([], r) | S d => option_map (fun x => (Tp p :: fst x, snd x)) (balanced d r) end
      else option_map (fun x => (Tp p :: fst x, snd x)) (balanced depth r)
  | t :: r => option_map (fun x => (t :: fst x, snd x)) (balanced depth r)
  end.
(** type and name of a parameter or member; [Ty "&" [t]] for a reference through which a string is changed *)
Definition is_const (ts : list tok) : bool := match kw "const" ts with Some _ => true | None => false end.
Definition changeable (t : ty) : ty := match t with Ty x [] => if String.eqb x "std::string" then Ty "&" [t] else t | _ => t end.
Definition typed (k : nat) (ts : list tok) : option (string * ty) :=
  do (t, ref, r) <- type_ref k ts ;;
  match r with [Tid x] => Some (x, if ref && negb (is_const ts) then changeable t else t) | _ => None end.
Fixpoint params (fuel : nat) (ts : list tok) : option (list (string * ty)) :=
  match fuel, ts with
  | _, [] => Some []
  | O, _ => None
  | S k, _ =>
      let '(a, r) := upto [","] ts in
      do p <- typed k a ;; do ps <- params k (after r) ;; Some (p :: ps)
  end.
(** [public:] and the like *)
Definition access (ts : list tok) : option (list tok) :=
  match ts with Tid _ :: r => sgn ":" r | Tp _ :: _ => sgn ";" ts | _ => None end.
Fixpoint members (fuel : nat) (ts : list tok) : option (list (string * ty * option expr)) :=
  match fuel, ts with
  | _, [] => Some []
  | O, _ => None
  | S k, _ =>
      match access ts with
      | Some r => members k r
      | None =>
          let '(a, r) := upto [";"; "("; "{"; "="] ts in
          match r with
          | Tp p :: r =>
              if String.eqb p ";" then do f <- typed k a ;; do fs <- members k r ;; Some ((f, None) :: fs)
              else if String.eqb p "(" then
                do (_, r) <- balanced 0 r ;;
                let '(_, r) := upto [";"; "{"] r in
                match sgn "{" r with
                | Some r => do (_, r) <- balanced 0 r ;; members k r
                | None => members k (after r)
                end
              else if String.eqb p "{" then
                do (es, r) <- pargs k "}" r ;; do r <- sgn ";" r ;;
                do f <- typed k a ;; do fs <- members k r ;; Some ((f, match es with [e] => Some e | _ => None end) :: fs)
              else None
          | _ => None
          end
      end
  end.
(** default values of the parameters of member functions *)
Fixpoint default_args (fuel i : nat) (ts : list tok) : option (nat * list expr) :=
  match fuel, ts with
  | _, [] => Some (i, [])
  | O, _ => None
  | S k, _ =>
      let '(a, r) := upto [","] ts in
      match snd (upto ["="] a) with
      | [] => default_args k (S i) (after r)
      | _ :: d =>
          do (e, _) <- pexpr (length d + 10) d ;;
          do (_, es) <- default_args k (S i) (after r) ;; Some (i, e :: es)
      end
  end.
Fixpoint defaults (fuel : nat) (ts : list tok) : list item :=
  match fuel, ts with
  | S k, _ :: _ =>
      let '(a, r) := upto [";"; "("; "{"] ts in
      match r with
      | Tp p :: r =>
          if String.eqb p "(" then
            match balanced 0 r, rev a with
            | Some (ps, r), Tid f :: _ =>
                match default_args (S (length ps)) 0 ps with
                | Some (i, e :: es) => [IDefault f i (e :: es)]
                | _ => []
                end ++ defaults k r
            | _, _ => []
            end
          else if String.eqb p "{" then match balanced 0 r with Some (_, r) => defaults k r | None => [] end
          else defaults k r
      | _ => []
      end
  | _, _ => []
  end%list.
(** the last name of the head of a function, the class or namespace before it, and the type *)
Fixpoint strip_path (fuel : nat) (rts : list tok) : list tok :=
  match fuel, rts with
  | S k, Tp q :: Tid y :: r => if String.eqb q "::" then strip_path k r else rts
  | _, _ => rts
  end.
Definition split_head (rts : list tok) : option (string * string * list tok) :=
  match rts with
  | Tid x :: r =>
      Some (x, match r with Tp q :: Tid y :: _ => if String.eqb q "::" then y else "" | _ => "" end, strip_path (length r) r)
  | _ => None
  end.
Definition whole (k : nat) (ts : list tok) : option stmt :=
  match pstmts k (ts ++ [Tp "}"])%list with Some (s, []) => Some s | _ => None end.
Fixpoint items (fuel : nat) (ts : list tok) : option (list item) :=
  match fuel, ts with
  | _, [] => Some []
  | O, _ => None
  | S k, Tp p :: r => if String.eqb p "}" || String.eqb p ";" then items k r else None
  | S k, Tid w :: r =>
      if String.eqb w "namespace" then let '(_, r) := upto ["{"] r in items k (after r)
      else if String.eqb w "struct" || String.eqb w "class" then
        match r with
        | Tid x :: r =>
            let '(_, r) := upto ["{"; ";"] r in
            match sgn "{" r with
            | Some r => do (a, r) <- balanced 0 r ;; do fs <- members (length a + 10) a ;; do is <- items k r ;; Some (IStruct x fs :: defaults (length a) a ++ is)%list
            | None => items k r
            end
        | _ => None
        end
      else
        let '(a, r) := upto [";"; "("; "{"; "="] ts in
        match sgn "(" r with
        | Some r =>
            do (ps, r) <- balanced 0 r ;;
            let '(_, r) := upto [";"; "{"] r in
            match sgn "{" r with
            | Some r =>
                do (b, r) <- balanced 0 r ;;
                do (x, c, h) <- split_head (rev a) ;;
                do ps <- params (length ps + 10) ps ;;
                do is <- items k r ;;
                let n := (4 * length b + 20)%nat in
                Some (IFun (mkFn c x (option_map fst (type (length a + 10) (rev h))) ps [] (whole n b)) :: is)
            | None => items k r
            end
        | None => let '(_, r) := upto [";"] r in items k r
        end
  | S k, _ => None
  end.
Definition read_file (s : string) : option (list item) :=
  do ts <- tokens s ;; items (length ts) ts.
