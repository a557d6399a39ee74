(** The JSON grammar of RFC 8259, with what each text means.  Independent of the
    writer.  Strings are byte strings; bytes of 128 and above stand for
    themselves (the text is UTF-8 exactly if its strings are). *)
From Verif Require Export Utf8 Regex.

(** A number is a mantissa and a power of ten. *)
Inductive json :=
| JNull | JTrue | JFalse
| JNum (m e : Z)
| JStr (s : str)
| JArr (l : list json)
| JObj (l : list (str * json)).

(** Section 2: insignificant white space. *)
Definition is_ws (c : char) : bool := ceq c SP || ceq c TAB || ceq c LF || ceq c CR.
Definition ws (s : str) : Prop := Forall (fun c => is_ws c = true) s.

(** Section 7: strings.  A string is a sequence of raw bytes and \u code units. *)
Inductive item := Raw (c : char) | Unit (u : Z).
Definition JQ : char := """".
Definition JB : char := "\".
Definition escapes : list (char * char) :=
  [(JQ, JQ); (JB, JB); ("/", "/"); ("b", "008"); ("f", "012"); ("n", "010"); ("r", "013"); ("t", "009")]%char.
Definition hex_digit (c : char) : option Z :=
  if in_range "0" "9" c then Some (code c - 48)
  else if in_range "a" "f" c then Some (code c - 87)
  else if in_range "A" "F" c then Some (code c - 55) else None.
Inductive jchars : str -> list item -> Prop :=
| jc_nil : jchars [] []
| jc_raw : forall c s l, 32 <= code c -> c <> JQ -> c <> JB -> jchars s l -> jchars (c :: s) (Raw c :: l)
| jc_esc : forall e c s l, In (e, c) escapes -> jchars s l -> jchars (JB :: e :: s) (Raw c :: l)
| jc_unit : forall a b c d x y z w s l,
    hex_digit a = Some x -> hex_digit b = Some y -> hex_digit c = Some z -> hex_digit d = Some w -> jchars s l ->
    jchars (JB :: "u"%char :: a :: b :: c :: d :: s) (Unit (x * 4096 + y * 256 + z * 16 + w) :: l).
(** The bytes meant: a surrogate pair is one code point. *)
Fixpoint bytes_of (l : list item) : str :=
  match l with
  | [] => []
  | Raw c :: l => c :: bytes_of l
  | Unit u :: l =>
      match l with
      | Unit v :: l' =>
          if (55296 <=? u) && (u <? 56320) && (56320 <=? v) && (v <? 57344)
          then utf8 (65536 + (u - 55296) * 1024 + (v - 56320)) ++ bytes_of l'
          else utf8 u ++ bytes_of l
      | _ => utf8 u ++ bytes_of l
      end
  end.
Inductive jstring : str -> str -> Prop :=
| js : forall s l, jchars s l -> jstring ([JQ] ++ s ++ [JQ]) (bytes_of l).

(** Section 6: numbers. *)
Definition digits (s : str) : Prop := Forall (fun c => is_digit c = true) s.
Definition value (s : str) : Z := fold_left (fun a c => a * 10 + (code c - 48)) s 0.
Inductive jint : str -> Prop :=
| ji_zero : jint ["0"%char]
| ji_pos : forall c s, is_digit c = true -> c <> "0"%char -> digits s -> jint (c :: s).
Inductive jfrac : str -> str -> Prop :=
| jf_none : jfrac [] []
| jf_some : forall s, s <> [] -> digits s -> jfrac ("."%char :: s) s.
Inductive jexp : str -> Z -> Prop :=
| jx_none : jexp [] 0
| jx_some : forall e sg s, e = "e"%char \/ e = "E"%char -> s <> [] -> digits s ->
    sg = [] \/ sg = ["+"%char] \/ sg = ["-"%char] ->
    jexp (e :: sg ++ s) (if str_eqb sg ["-"%char] then - value s else value s).
Inductive jnum : str -> Z -> Z -> Prop :=
| jn : forall sg i f fs x e, sg = [] \/ sg = ["-"%char] -> jint i -> jfrac f fs -> jexp x e ->
    jnum (sg ++ i ++ f ++ x) (let m := value (i ++ fs) in if is_nil sg then m else - m) (e - Z.of_nat (length fs)).

(** Sections 3-5: values, objects, arrays. *)
Inductive jvalue : str -> json -> Prop :=
| jv_null : jvalue (lit "null") JNull
| jv_true : jvalue (lit "true") JTrue
| jv_false : jvalue (lit "false") JFalse
| jv_num : forall s m e, jnum s m e -> jvalue s (JNum m e)
| jv_str : forall s t, jstring s t -> jvalue s (JStr t)
| jv_arr0 : forall w, ws w -> jvalue (["["%char] ++ w ++ ["]"%char]) (JArr [])
| jv_arr : forall s l, jelements s l -> jvalue (["["%char] ++ s ++ ["]"%char]) (JArr l)
| jv_obj0 : forall w, ws w -> jvalue (["{"%char] ++ w ++ ["}"%char]) (JObj [])
| jv_obj : forall s l, jmembers s l -> jvalue (["{"%char] ++ s ++ ["}"%char]) (JObj l)
with jelements : str -> list json -> Prop :=
| je_one : forall w1 s v w2, ws w1 -> jvalue s v -> ws w2 -> jelements (w1 ++ s ++ w2) [v]
| je_more : forall w1 s v w2 t l, ws w1 -> jvalue s v -> ws w2 -> jelements t l ->
    jelements (w1 ++ s ++ w2 ++ [","%char] ++ t) (v :: l)
with jmembers : str -> list (str * json) -> Prop :=
| jm_one : forall w1 k n w2 w3 s v w4, ws w1 -> jstring k n -> ws w2 -> ws w3 -> jvalue s v -> ws w4 ->
    jmembers (w1 ++ k ++ w2 ++ [":"%char] ++ w3 ++ s ++ w4) [(n, v)]
| jm_more : forall w1 k n w2 w3 s v w4 t l, ws w1 -> jstring k n -> ws w2 -> ws w3 -> jvalue s v -> ws w4 ->
    jmembers t l ->
    jmembers (w1 ++ k ++ w2 ++ [":"%char] ++ w3 ++ s ++ w4 ++ [","%char] ++ t) ((n, v) :: l).

Scheme jvalue_mut := Minimality for jvalue Sort Prop
  with jelements_mut := Minimality for jelements Sort Prop
  with jmembers_mut := Minimality for jmembers Sort Prop.
Combined Scheme json_mut from jvalue_mut, jelements_mut, jmembers_mut.

(** A JSON text. *)
Definition json_text (s : str) (v : json) : Prop := exists w1 t w2, s = w1 ++ t ++ w2 /\ ws w1 /\ ws w2 /\ jvalue t v.
