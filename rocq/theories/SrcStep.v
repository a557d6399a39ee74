(** The program made of the files of the objdump parser, the values of the model as
    values of the interpreter of CppSem.v, and tactics to run the interpreter. *)
From Coq Require Import String List ZArith Ascii Bool Lia.
From Verif Require Import Bytes Types Utils ObjDump CppSyntax SourceText SourceAst CppSem.
Import ListNotations.
Local Open Scope string_scope.
Local Open Scope Z_scope.

(** * The program: the files the objdump parser is made of *)
Definition obj_items : list item :=
  (objdump_parser_items ++ objdump_parser_h_items ++ types_line_h_items ++ types_filter_h_items ++
   utils_utils_items ++ utils_utils_h_items ++ utils_library_detection_items ++ utils_library_detection_h_items ++
   utils_regexwrappers_items ++ utils_regexwrappers_h_items)%list.
Definition obj_fns : list fn := ltac:(let x := eval cbv [obj_items functions with_defaults find String.eqb Ascii.eqb Bool.eqb fn_name fn_class fn_ret fn_params fn_body flat_map app
   objdump_parser_items objdump_parser_h_items types_line_h_items types_filter_h_items
   utils_utils_items utils_utils_h_items utils_library_detection_items utils_library_detection_h_items
   utils_regexwrappers_items utils_regexwrappers_h_items] in (functions obj_items) in exact x).
Definition obj_tys : list (string * list (string * ty * option expr)) := ltac:(let x := eval cbv [obj_items types flat_map app
   objdump_parser_items objdump_parser_h_items types_line_h_items types_filter_h_items
   utils_utils_items utils_utils_h_items utils_library_detection_items utils_library_detection_h_items
   utils_regexwrappers_items utils_regexwrappers_h_items] in (types obj_items) in exact x).
Lemma obj_fns_eq : obj_fns = functions obj_items. Proof. reflexivity. Qed.
Lemma obj_tys_eq : obj_tys = types obj_items. Proof. reflexivity. Qed.
Definition isfn (x : string) : bool := is_some (find_fn obj_fns x).
Definition ismeth (x : string) : bool := match find_fn obj_fns x with Some g => negb (free_fn g) | None => false end.

(** * The values of the model as values of the interpreter *)
Definition encR (r : asm_range) : val := VRec [("start_col", VInt U16 (r_start r)); ("end_col", VInt U16 (r_end r))].
Definition encLb (l : asm_label) : val := VRec [("name", VStr (lb_name l)); ("range", encR (lb_range l))].
Definition encSrc (s : asm_source) : val :=
  VRec [("file", VStr (s_file s)); ("file_idx", VInt I32 (s_file_idx s)); ("line", VInt I32 (s_line s)); ("column", VInt I32 (s_column s));
        ("is_usercode", VBool (s_is_usercode s)); ("inside_proc", VBool (s_inside_proc s))].
(** values of the element types of vectors *)
Definition encA (o : option Z) : option val := option_map (VInt I64) o.
Definition pLabelFs : list (string * val) := match encLb label0 with VRec l => l | _ => [] end.
Definition pLabel : val := VRec pLabelFs.
Definition encLbs (l : list asm_label) : list val := map encLb l.
Definition encStrs (l : list str) : list val := map VStr l.
Definition encL (l : asm_line) : val :=
  VRec [("text", VStr (l_text l)); ("section", VStr (l_section l)); ("labels", VVec pLabel (encLbs (l_labels l)));
        ("opcodes", VVec (VStr []) (encStrs (l_opcodes l))); ("closest_parent_label", VStr (l_closest_parent_label l));
        ("is_label", VBool (l_is_label l)); ("is_internal_label", VBool (l_is_internal_label l)); ("label", VStr (l_label l));
        ("source", encSrc (l_source l)); ("address", VOpt (VInt I64 0) (encA (l_address l)));
        ("is_used", VBool (l_is_used l)); ("is_used_through_alias", VBool (l_is_used_through_alias l));
        ("is_used_data_through_alias", VBool (l_is_used_data_through_alias l)); ("is_data", VBool (l_is_data l));
        ("is_inline_asm", VBool (l_is_inline_asm l)); ("has_opcode", VBool (l_has_opcode l)); ("is_directive", VBool (l_is_directive l));
        ("is_assignment", VBool (l_is_assignment l))].
Definition encP (p : str * Z) : val := VRec [("first", VStr (fst p)); ("second", VInt I32 (snd p))].
Definition pLineFs : list (string * val) := match encL line0 with VRec l => l | _ => [] end.
Definition pLine : val := VRec pLineFs.
Definition encLs (l : list asm_line) : list val := map encL l.
Definition pPair : val := encP ([], 0).
Definition encPs (l : list (str * Z)) : list val := map encP l.
Definition encF (f : Filter) : val :=
  VRec [("binary", VBool (f_binary f)); ("unused_labels", VBool (f_unused_labels f)); ("library_functions", VBool (f_library_functions f));
        ("directives", VBool (f_directives f)); ("comment_only", VBool (f_comment_only f)); ("whitespace", VBool (f_whitespace f));
        ("plt", VBool (f_plt f)); ("dont_mask_filenames", VBool (f_dont_mask_filenames f)); ("compatmode", VBool (f_compatmode f));
        ("code_only", VBool (f_code_only f))].
Definition encS (s : ostate) : val :=
  VRec [("inComment", VBool (o_inComment s)); ("inSomethingWithALabel", VBool (o_inSomethingWithALabel s));
        ("hasPrefixingWhitespace", VBool (o_hasPrefixingWhitespace s)); ("inAddress", VBool (o_inAddress s)); ("inLabel", VBool (o_inLabel s));
        ("inOpcodes", VBool (o_inOpcodes s)); ("inSectionStart", VBool (o_inSectionStart s)); ("inSectionName", VBool (o_inSectionName s));
        ("inSourceRef", VBool (o_inSourceRef s)); ("inSourceRefLineNumber", VBool (o_inSourceRefLineNumber s));
        ("inRelocation", VBool (o_inRelocation s)); ("skipRestOfTheLine", VBool (o_skipRestOfTheLine s)); ("stopParsing", VBool (o_stopParsing s));
        ("ignoreUntilNextLabel", VBool (o_ignoreUntilNextLabel s)); ("checkNextFileForLibraryCode", VBool (o_checkNextFileForLibraryCode s));
        ("currentLabelReference", encLb (o_currentLabelReference s)); ("currentSourceRef", encSrc (o_currentSourceRef s));
        ("previousLabel", VStr (o_previousLabel s)); ("text", VStr (o_text s)); ("currentFilename", VStr (o_currentFilename s));
        ("currentSection", VStr (o_currentSection s)); ("currentLine", encL (o_currentLine s))].
Definition enc (flt : Filter) (r : bool) (s : ostate) : val :=
  VRec [("filter", encF flt); ("state", encS s); ("lib_detection", VRec []); ("lines", VVec pLine (encLs (o_lines s)));
        ("labels", VVec pPair (encPs (o_labels s))); ("reproducible", VBool r); ("total_lines", VInt U64 (o_total_lines s))].
Lemma encLs_app a b : encLs (a ++ b) = (encLs a ++ encLs b)%list. Proof. apply map_app. Qed.
Lemma encPs_app a b : encPs (a ++ b) = (encPs a ++ encPs b)%list. Proof. apply map_app. Qed.
Lemma encLbs_app a b : encLbs (a ++ b) = (encLbs a ++ encLbs b)%list. Proof. apply map_app. Qed.
Lemma encStrs_app a b : encStrs (a ++ b) = (encStrs a ++ encStrs b)%list. Proof. apply map_app. Qed.
Lemma encLs_length a : length (encLs a) = length a. Proof. apply map_length. Qed.
Lemma encPs_length a : length (encPs a) = length a. Proof. apply map_length. Qed.
(** A fresh parser object: every member value-initialised. *)
Lemma enc_fresh : zero_of obj_tys depth (Ty "ObjDumpParser" []) = Some (enc no_filter false ostate0).
Proof. vm_compute. reflexivity. Qed.

(** * Stepping through statements *)
Section Step.
Variables (N : nat) (mb : str -> Z) (call : string -> val -> list val -> cres).
Notation exec := (exec N mb obj_tys isfn ismeth call).
Notation eval := (eval mb obj_tys isfn ismeth call).
Definition seqk (r : res ctl) (b : stmt) : res ctl := rbind r (fun c e => match c with Next => exec b e | _ => Val c e end).
Definition ifk (r : res val) (a b : stmt) : res ctl :=
  rbind r (fun v e => match truthy v with Some q => if q then exec a e else exec b e | None => Stuck end).
Definition andk (r : res val) (b : expr) : res val :=
  rbind r (fun v e => match truthy v with
    | Some p => if p then rbind (eval b e) (fun w e => match truthy w with Some q => Val (VBool q) e | None => Stuck end) else Val (VBool false) e
    | None => Stuck
    end).
Definition ork (r : res val) (b : expr) : res val :=
  rbind r (fun v e => match truthy v with
    | Some p => if p then Val (VBool true) e else rbind (eval b e) (fun w e => match truthy w with Some q => Val (VBool q) e | None => Stuck end)
    | None => Stuck
    end).
Definition boolk (r : res val) : res val := rbind r (fun w e => match truthy w with Some q => Val (VBool q) e | None => Stuck end).
Definition notk (r : res val) : res val := rbind r (fun v e => match truthy v with Some b => Val (VBool (negb b)) e | None => Stuck end).
Definition refk (i : expr) (p : val) (r : res (ctl * list val)) : res ctl :=
  rbind r (fun c e => rbind (store (place i e) (VVec p (snd c)) e) (fun _ e => Val (fst c) e)).
Definition tryk (r : res ctl) (e : env) (b : stmt) : res ctl := match r with Val c e => Val c e | Thrown e' => exec b (leave e e') | Undef f => Undef f | Stuck => Stuck | Fuel => Fuel end.
Definition fork (r : res ctl) (x : expr) (z : expr) (y : stmt) : res ctl := rbind r (fun _ e => while_loop N (eval x) (exec y) (eval z) e).
Definition retk (r : res val) : res ctl := rbind r (fun v e => Val (Returned v) e).
Definition fin (ret : option ty) (r : res ctl) : cres :=
  match r with
  | Val c e =>
      match c with
      | Returned VUnit | Next => CVal VUnit (object e)
      | Returned v =>
          match ret with
          | Some t => match to_ty obj_tys t v e with Val w _ => CVal w (object e) | _ => CStuck end
          | None => CStuck
          end
      | _ => CStuck
      end
  | Thrown e => CThrown (object e)
  | Undef f => CUndef f
  | Stuck => CStuck
  | Fuel => CFuel
  end.
Lemma exec_seq a b e : exec (SSeq a b) e = seqk (exec a e) b. Proof. reflexivity. Qed.
Lemma exec_if c a b e : exec (SIf c a b) e = ifk (eval c e) a b. Proof. reflexivity. Qed.
Lemma exec_skip e : exec SSkip e = Val Next e. Proof. reflexivity. Qed.
Lemma exec_block a e : exec (SBlock a) e = scope e (exec a e). Proof. reflexivity. Qed.
Lemma seqk_next e b : seqk (Val Next e) b = exec b e. Proof. reflexivity. Qed.
Lemma seqk_ret v e b : seqk (Val (Returned v) e) b = Val (Returned v) e. Proof. reflexivity. Qed.
Lemma seqk_brk e b : seqk (Val Broken e) b = Val Broken e. Proof. reflexivity. Qed.
Lemma seqk_cont e b : seqk (Val Continued e) b = Val Continued e. Proof. reflexivity. Qed.
Lemma seqk_undef f b : seqk (Undef f) b = Undef f. Proof. reflexivity. Qed.
Lemma ifk_bool q e a b : ifk (Val (VBool q) e) a b = if q then exec a e else exec b e. Proof. reflexivity. Qed.
Lemma ifk_val v q e a b : truthy v = Some q -> ifk (Val v e) a b = if q then exec a e else exec b e.
Proof. unfold ifk, rbind. intros ->. reflexivity. Qed.
Lemma run_fn_fin ret ps body this args : refs ps = false ->
  run_fn N mb obj_tys isfn ismeth call ret ps body this args =
  match bind_params obj_tys ps args (match this with VUnit => [] | _ => [("this", this)] end) with
  | Val _ e => fin ret (exec body e) | Thrown e => CThrown (object e) | Undef f => CUndef f | Stuck => CStuck | Fuel => CFuel
  end.
Proof. intros H. unfold run_fn, fin, residue. rewrite H. destruct bind_params; reflexivity. Qed.
End Step.
Arguments seqk : simpl never. Arguments ifk : simpl never. Arguments fin : simpl never.

(** the interpreter on the program, to depth [d] *)
Definition P (N : nat) (mb : str -> Z) (d : nat) (f : string) (this : val) (args : list val) : cres := prog obj_fns obj_tys N mb d f this args.
Lemma P_S N mb d f this args : P N mb (S d) f this args =
  match find_fn obj_fns f with
  | Some g => match fn_body g with
              | Some b => run_fn N mb obj_tys isfn ismeth (P N mb d) (fn_ret g) (fn_params g) b this (fill (llen (fn_params g)) (fn_dflt g) args)
              | None => CStuck
              end
  | None => CStuck
  end.
Proof. reflexivity. Qed.

Ltac ev t :=
  eval cbv [eval exec rbind lookup update elen edrop nsub leave scope field getp1 getp setp1 setp get_at set_at snoc place touch value_at iter_place ref_place bind_ref bind_fields store_all by_ref refs outs residue
    literal llen literals drop fill fn_dflt pair_of format to_type ity_eqb promote join truthy
    conv arith compare int_op equality binop method index deref constant regex_name declare store assign invoke call_method read_char to_ty make builtin
    zero_of zero find_struct obj_tys depth isfn ismeth find_fn find obj_fns fn_name fn_class fn_body fn_ret fn_params free_fn existsb negb is_some orb
    String.eqb Ascii.eqb Bool.eqb String.prefix substring String.length Nat.sub fst snd bind_params object elements
    ascii_dec Ascii.ascii_dec bool_dec Bool.bool_dec ascii_rec ascii_rect bool_rec bool_rect sumbool_rec sumbool_rect
    enc encS encL encSrc encLb encR encF encP pLabel pLine pPair
    o_inComment o_inSomethingWithALabel o_hasPrefixingWhitespace o_inAddress o_inLabel o_inOpcodes o_inSectionStart o_inSectionName o_inSourceRef
    o_inSourceRefLineNumber o_inRelocation o_skipRestOfTheLine o_stopParsing o_ignoreUntilNextLabel o_checkNextFileForLibraryCode
    o_currentLabelReference o_currentSourceRef o_previousLabel o_text o_currentFilename o_currentSection o_currentLine o_lines o_labels o_total_lines
    l_text l_section l_labels l_opcodes l_closest_parent_label l_is_label l_is_internal_label l_label l_source l_address l_is_used
    l_is_used_through_alias l_is_used_data_through_alias l_is_data l_is_inline_asm l_has_opcode l_is_directive l_is_assignment
    s_file s_file_idx s_line s_column s_is_usercode s_inside_proc lb_name lb_range r_start r_end]
  in t.

Ltac enter :=
  rewrite P_S;
  match goal with |- context [find_fn obj_fns ?f] => let r := ev (find_fn obj_fns f) in change (find_fn obj_fns f) with r end;
  cbv beta iota delta [fn_body fn_ret fn_params fn_dflt];
  rewrite run_fn_fin by reflexivity;
  match goal with |- context [bind_params ?t ?p ?a ?e] => let r := ev (bind_params t p a e) in change (bind_params t p a e) with r; cbv beta iota end.
(** [run t]: the execution [t], as far as it goes without knowing more. *)
Ltac run t :=
  lazymatch t with
  | exec ?n ?m ?ts ?a ?b ?c ?s ?e =>
      lazymatch s with
      | SSeq ?x ?y => let r := run (exec n m ts a b c x e) in run_seq n m c r y
      | SIf ?x ?y ?z => let r := run (eval m ts a b c x e) in run_if n m c r y z
      | SBlock ?x => let r := run (exec n m ts a b c x e) in run_scope e r
      | SSkip => constr:(@Val ctl Next e)
      | SExpr _ => ev t
      | SDecl _ _ _ _ => ev t
      | SRet (Some ?x) => let r := run (eval m ts a b c x e) in run_ret r
      | SRet None => ev t
      | SBreak => ev t
      | SCont => ev t
      | SForIn ?ref ?x ?i ?y =>
          let r := run (eval m ts a b c i e) in
          lazymatch r with
          | Val ?v ?e' =>
              let l := ev (elements v) in
              lazymatch l with
              | Some ?l =>
                  lazymatch ref with
                  | false => constr:(for_in x (exec n m ts a b c y) l e')
                  | true => lazymatch v with VVec ?p _ => constr:(refk i p (for_ref x (exec n m ts a b c y) l [] e')) end
                  end
              end
          end
      | SFor ?i ?x ?z ?y =>
          lazymatch z with
          | Some ?z => let r := run (exec n m ts a b c i e) in let r' := run_for n m c r x z y in run_scope e r'
          end
      | SWhile ?x ?y => constr:(while_loop n (eval m ts a b c x) (exec n m ts a b c y) (fun e9 : env => @Val val VUnit e9) e)
      | STry ?x ?y => let r := run (exec n m ts a b c x e) in run_try n m c r e y
      | SIfDecl ?x ?i ?y ?z =>
          let r := ev (eval m ts a b c i e) in
          lazymatch r with
          | Val ?v ?e' =>
              let q := ev (truthy v) in
              lazymatch q with
              | Some ?q => run (@scope ctl e (if q then exec n m ts a b c y ((x, v) :: e') else exec n m ts a b c z ((x, v) :: e')))
              end
          end
      | ?s' => let s'' := eval cbv delta [s'] in s' in run (exec n m ts a b c s'' e)
      end
  | eval ?m ?ts ?a ?b ?c ?x ?e =>
      lazymatch x with
      | EBin "&&" ?y ?z => let r := run (eval m ts a b c y e) in run_and m c r z
      | EBin "||" ?y ?z => let r := run (eval m ts a b c y e) in run_or m c r z
      | EUn "!" ?y => let r := run (eval m ts a b c y e) in run_not r
      | _ => ev t
      end
  | andk ?m ?c ?r ?y => let r' := run r in run_and m c r' y
  | ork ?m ?c ?r ?y => let r' := run r in run_or m c r' y
  | refk ?i ?p ?r =>
      lazymatch r with
      | Val (?c, ?l) ?e => let x := eval cbv beta iota delta [refk] in t in ev x
      | _ => t
      end
  | fork ?n ?m ?c ?r ?x ?z ?y => let r' := run r in run_for n m c r' x z y
  | tryk ?n ?m ?c ?r ?e ?y => let r' := run r in run_try n m c r' e y
  | notk ?r => let r' := run r in run_not r'
  | boolk ?r => let r' := run r in run_bool r'
  | retk ?r => let r' := run r in run_ret r'
  | seqk ?n ?m ?c ?r ?y => let r' := run r in run_seq n m c r' y
  | ifk ?n ?m ?c ?r ?x ?y => let r' := run r in run_if n m c r' x y
  | scope ?e ?r => let r' := run r in run_scope e r'
  | match true with true => ?x | false => ?y end => run x
  | match false with true => ?x | false => ?y end => run y
  | match ?q with true => ?x | false => ?y end => t
  | while_loop _ _ _ _ _ => t
  | for_in _ _ _ _ => t
  | for_ref _ _ _ _ _ => t
  | Val _ _ => t
  | Undef _ => t
  | Thrown _ => t
  | _ => ev t
  end
with run_seq n m c r y :=
  lazymatch r with
  | Val Next ?e => run (exec n m obj_tys isfn ismeth c y e)
  | Val _ _ => r
  | Undef _ => r
  | Thrown _ => r
  | _ => constr:(seqk n m c r y)
  end
with run_for n m c r x z y :=
  lazymatch r with
  | Val Next ?e => constr:(while_loop n (eval m obj_tys isfn ismeth c x) (exec n m obj_tys isfn ismeth c y) (eval m obj_tys isfn ismeth c z) e)
  | _ => constr:(fork n m c r x z y)
  end
with run_try n m c r e y :=
  lazymatch r with
  | Val _ _ => r
  | Undef _ => r
  | Thrown ?e' => let e2 := ev (leave e e') in run (exec n m obj_tys isfn ismeth c y e2)
  | _ => constr:(tryk n m c r e y)
  end
with run_and m c r z :=
  lazymatch r with
  | Val (VBool true) ?e => let r' := run (eval m obj_tys isfn ismeth c z e) in run_bool r'
  | Val (VBool false) ?e => constr:(@Val val (VBool false) e)
  | _ => constr:(andk m c r z)
  end
with run_or m c r z :=
  lazymatch r with
  | Val (VBool true) ?e => constr:(@Val val (VBool true) e)
  | Val (VBool false) ?e => let r' := run (eval m obj_tys isfn ismeth c z e) in run_bool r'
  | _ => constr:(ork m c r z)
  end
with run_bool r :=
  lazymatch r with
  | Val (VBool _) _ => r
  | Val ?v ?e => let x := ev (truthy v) in lazymatch x with Some ?q => constr:(@Val val (VBool q) e) end
  | _ => constr:(boolk r)
  end
with run_not r :=
  lazymatch r with
  | Val (VBool true) ?e => constr:(@Val val (VBool false) e)
  | Val (VBool false) ?e => constr:(@Val val (VBool true) e)
  | Val (VBool ?q) ?e => constr:(@Val val (VBool (negb q)) e)
  | Val ?v ?e => let x := ev (truthy v) in lazymatch x with Some ?q => constr:(@Val val (VBool (negb q)) e) end
  | _ => constr:(notk r)
  end
with run_ret r :=
  lazymatch r with
  | Val ?v ?e => constr:(@Val ctl (Returned v) e)
  | _ => constr:(retk r)
  end
with run_if n m c r y z :=
  lazymatch r with
  | Val (VBool true) ?e => run (exec n m obj_tys isfn ismeth c y e)
  | Val (VBool false) ?e => run (exec n m obj_tys isfn ismeth c z e)
  | Val (VBool ?q) ?e => constr:(if q then exec n m obj_tys isfn ismeth c y e else exec n m obj_tys isfn ismeth c z e)
  | Val ?v ?e => let x := ev (truthy v) in lazymatch x with Some ?q => constr:(if q then exec n m obj_tys isfn ismeth c y e else exec n m obj_tys isfn ismeth c z e) end
  | _ => constr:(ifk n m c r y z)
  end
with run_scope e r :=
  lazymatch r with
  | Val _ _ => ev (@scope ctl e r)
  | Undef _ => r
  | Thrown _ => ev (@scope ctl e r)
  | _ => constr:(@scope ctl e r)
  end.
Ltac go :=
  match goal with
  | |- fin ?ret ?t = ?rhs =>
      let r := run t in
      lazymatch r with
      | Val _ _ => let x := eval cbv beta iota delta [fin] in (fin ret r) in let y := ev x in change (y = rhs)
      | Undef ?u => change (CUndef u = rhs)
      | _ => change (fin ret r = rhs)
      end
  end.
(** Splitting on the condition the execution waits for. *)
Ltac split_on p :=
  lazymatch p with
  | negb ?q => split_on q
  | (if ?q then _ else _) => split_on q
  | match ?q with Some _ => _ | None => _ end => destruct q eqn:?
  | is_some ?q => destruct q eqn:?
  | _ => destruct p eqn:?
  end.
Ltac br :=
  match goal with
  | |- context [andk _ _ (Val (VBool ?p) _) _] => split_on p
  | |- context [ork _ _ (Val (VBool ?p) _) _] => split_on p
  | |- context [if ?p then exec _ _ _ _ _ _ _ _ else _] => split_on p
  end; cbn [negb is_some].
Ltac goes := repeat (first [progress go | br; go]).
(** the same for goals about a part of an execution *)
Ltac gor := match goal with |- ?t = ?rhs => let r := run t in change (r = rhs) end.

(** * Loops *)
Section Loops.
Variables (c : env -> res val) (b : env -> res ctl) (st : env -> res val).
Lemma while_next k e v e1 ct e2 w e3 :
  c e = Val v e1 -> truthy v = Some true -> b e1 = Val ct e2 -> ct = Next \/ ct = Continued -> st e2 = Val w e3 ->
  while_loop (S k) c b st e = while_loop k c b st e3.
Proof. intros H1 H2 H3 H4 H5. cbn [while_loop]. rewrite H1. cbn [rbind]. rewrite H2, H3. cbn [rbind]. destruct H4; subst ct; now rewrite H5. Qed.
Lemma while_end k e v e1 : c e = Val v e1 -> truthy v = Some false -> while_loop (S k) c b st e = Val Next e1.
Proof. intros H1 H2. cbn [while_loop]. rewrite H1. cbn [rbind]. now rewrite H2. Qed.
Lemma while_break k e v e1 e2 :
  c e = Val v e1 -> truthy v = Some true -> b e1 = Val Broken e2 -> while_loop (S k) c b st e = Val Next e2.
Proof. intros H1 H2 H3. cbn [while_loop]. rewrite H1. cbn [rbind]. now rewrite H2, H3. Qed.
Lemma while_undef k e v e1 u :
  c e = Val v e1 -> truthy v = Some true -> b e1 = Undef u -> while_loop (S k) c b st e = Undef u.
Proof. intros H1 H2 H3. cbn [while_loop]. rewrite H1. cbn [rbind]. now rewrite H2, H3. Qed.
Lemma for_in_next x v l e ct e2 : scope e (b ((x, v) :: e)) = Val ct e2 -> ct = Next \/ ct = Continued -> for_in x b (v :: l) e = for_in x b l e2.
Proof. intros H1 H2. cbn [for_in]. rewrite H1. destruct H2; subst ct; reflexivity. Qed.
Lemma for_ref_next x v l acc e v' : b ((x, v) :: e) = Val Next ((x, v') :: e) -> for_ref x b (v :: l) acc e = for_ref x b l (acc ++ [v'])%list e.
Proof.
  intros H1. cbn [for_ref]. rewrite H1. cbn [rbind elen].
  assert (Hs : forall n, nsub n n = O) by (induction n; [reflexivity|assumption]). rewrite Hs. cbn [edrop lookup].
  rewrite String.eqb_refl. unfold leave. cbn [elen].
  assert (Hs' : forall n, nsub (S n) n = 1%nat) by (induction n; [reflexivity|assumption]). rewrite Hs'. reflexivity.
Qed.
End Loops.
Tactic Notation "gob" constr(H) := rewrite ?H; cbv beta iota delta [negb is_some]; gor.
Tactic Notation "goh" constr(H) := rewrite ?H; cbv beta iota delta [negb is_some]; go.
