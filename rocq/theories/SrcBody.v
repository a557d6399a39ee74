(** The body of the reading loop of src/objdump/parser.cpp:311-485. *)
From Coq Require Import String List ZArith Ascii Bool Lia.
From Verif Require Import Bytes Types Utils ObjDump CppSyntax SourceText SourceAst PropPatterns CppSem SrcStep SrcUtil SrcObj SrcAddr SrcScan SrcLabel SrcEol.
Import ListNotations.
Local Open Scope string_scope.
Local Open Scope Z_scope.

(** [continue] and falling off the end of the body mean the same. *)
Definition flat (r : res ctl) : res ctl :=
  match r with Val Continued e => Val Next e | Val c e => Val c e | Thrown e => Thrown e | Undef f => Undef f | Stuck => Stuck | Fuel => Fuel end.
Ltac gof :=
  match goal with |- flat ?t = ?rhs =>
    let r := run t in
    lazymatch r with
    | Val Continued ?e => change (Val Next e = rhs)
    | Val Next ?e => change (Val Next e = rhs)
    | Undef ?u => change (@Undef ctl u = rhs)
    | _ => change (flat r = rhs)
    end
  end.
Lemma at_last t : t <> [] -> Z.of_nat (length t) < 2 ^ 31 ->
  exists x, (forall e, at_pos t (wrap_u 64 (Z.of_nat (length t) - norm U64 1)) e = Val (VChr x) e) /\ (forall c, last_is c t = ceq x c).
Proof.
  intros H HL. destruct (exists_last H) as (t0 & x & ->). exists x. split.
  - intros e. change (norm U64 1) with 1. rewrite app_length in *. cbn [length] in *. rewrite wrap64 by lia.
    unfold at_pos. replace (Z.to_nat (Z.of_nat (length t0 + 1) - 1)) with (length t0 + 0)%nat by lia.
    rewrite nth_error_app2 by lia. replace (length t0 + 0 - length t0)%nat with O by lia. reflexivity.
  - intros c. unfold last_is. rewrite rev_app_distr. reflexivity.
Qed.
Lemma u16_wide z : norm U16 (wrap_u 64 (z + norm U64 1)) = u16 (z + 1).
Proof.
  change (norm U64 1) with 1. unfold norm, u16, wrap_u. rewrite <- (Znumtheory.Zmod_div_mod (2 ^ 16) (2 ^ 64)); [reflexivity|lia|lia|].
  exists (2 ^ 48). reflexivity.
Qed.
Fixpoint first_while (s : stmt) : stmt :=
  match s with SSeq a b => match first_while a with SSkip => first_while b | r => r end | SWhile c b => b | _ => SSkip end.
Definition body_stmt : stmt := first_while objdump_parser_fromStream.

Section Functions.
Variables (N : nat) (mb : str -> Z) (flt : Filter) (rep : bool).
Notation P := (P N mb).
Notation out := (out flt rep).
Hypothesis mb_le : forall s, mb s <= Z.of_nat (length s).
Hypothesis HN : 5010 < Z.of_nat N.

Definition benv (c : char) (rest : str) (s : ostate) : env := [("c", VChr c); ("in", VStream rest); ("this", enc flt rep s)].
Definition bout (c : char) (rest : str) (o : outcome ostate) : res ctl :=
  match o with Ok s => Val Next (benv c rest s) | UB u => Undef (Known u) | _ => Stuck end.

Ltac append :=
  rewrite src_is_whitespace; gof;
  match goal with
  | W : is_whitespace ?c = false |- _ => rewrite W; gof; unfold append_char; rewrite W; reflexivity
  | W : is_whitespace ?c = true |- _ => rewrite W; gof; match goal with |- context [is_nil ?t] => is_var t; destruct t end; cbn [is_nil]; gof; unfold append_char; rewrite W; reflexivity
  | |- context [is_whitespace ?c] =>
    let W := fresh in destruct (is_whitespace c) eqn:W; gof;
    [match goal with |- context [is_nil ?t] => is_var t; destruct t end; cbn [is_nil]; gof; unfold append_char; rewrite W; reflexivity | unfold append_char; rewrite W; reflexivity]
  end.
Ltac known W := match goal with |- context [is_whitespace ?c] => destruct (is_whitespace c) eqn:W end.

Lemma src_body d s c rest : Z.of_nat (length (o_text s)) < 2 ^ 31 -> Z.of_nat (length (o_text s)) < Z.of_nat N ->
  tidy s -> 0 <= o_total_lines s < 2 ^ 64 - 1 -> o_stopParsing s = false ->
  flat (exec N mb obj_tys isfn ismeth (P (S (S (S (S d))))) body_stmt (benv c rest s)) = bout c rest (step mb flt s c).
Proof.
  intros HL HLN HT HC HS.
  match goal with |- context [body_stmt] => let r := eval vm_compute in body_stmt in change body_stmt with r end.
  unfold step. rewrite HS. unfold CR, LF. revert HL HLN HT HC HS. dst s. intros HL HLN HT HC HS. change (o_text _) with text in HL, HLN.
  unfold benv. gof. br; gof; [reflexivity|]. br; gof.
  { refold. rewrite src_eol by assumption. destruct (eol _ _) as [s'|u| |]; cbn [SrcObj.out]; gof; reflexivity. }
  cbn [o_skipRestOfTheLine]. br; gof; [reflexivity|].
  cbn [o_inAddress]. br; gof.
  { unfold step_address. br; gof.
    { append. }
    br; gof; [reflexivity|]. br; gof.
    { refold. rewrite src_address by (first [exact HL | exact mb_le | cbn [o_text]; clear - HLN; lia]). destruct (address _) as [s'|u| |]; cbn [SrcObj.out]; gof; reflexivity. }
    rewrite src_is_whitespace. gof. known W; gof.
    - cbv [lit list_ascii_of_string]. cbn [o_text]. br; gof; [append|]. br; gof; [reflexivity|].
      refold. rewrite src_address by (first [exact HL | exact mb_le | cbn [o_text]; clear - HLN; lia]).
      match goal with |- context [address ?X] => destruct (address X) as [s'|u| |] end; cbn [SrcObj.out obind]; [|gof; reflexivity|reflexivity|reflexivity].
      clear. dst2 s'. gof. reflexivity.
    - append. }
  cbn [o_inLabel]. br; gof; [append|].
  cbn [o_inOpcodes]. br; gof.
  { unfold step_opcodes. cbn [o_text].
    destruct (is_whitespace c) eqn:W.
    - assert (V : ceq c " " = true \/ ceq c " " = false /\ ceq c "009" = true).
      { unfold is_whitespace, SP, TAB in W. destruct (ceq c " "), (ceq c "009"); auto; discriminate. }
      assert (A := at_last text). destruct V as [V|[V V']]; rewrite V; gof; rewrite ?V'; gof.
      all: (destruct text as [|x0 text0] eqn:ET; [cbn [is_nil]; gof; reflexivity|]; rewrite <- ET in *; replace (is_nil text) with false by (now rewrite ET); gof).
      all: (destruct A as (y & A1 & A2); [now rewrite ET | exact HL|]; rewrite A1, A2; clear A1 A2; gof).
      all: (unfold SP; br; gof; [refold; rewrite src_opcodes; cbn [SrcObj.out]; gof; reflexivity|]).
      all: rewrite src_is_whitespace; gof; rewrite W; gof; replace (is_nil text) with false by (now rewrite ET); gof;
        unfold append_char; rewrite W; cbn [o_text]; replace (is_nil text) with false by (now rewrite ET); reflexivity.
    - assert (V : ceq c " " = false /\ ceq c "009" = false).
      { unfold is_whitespace, SP, TAB in W. destruct (ceq c " "), (ceq c "009"); auto; discriminate. }
      destruct V as [V V']; rewrite V; gof; rewrite V'; gof. br; gof; [append|].
      rewrite src_is_hex. gof. br; gof; append.
    }
  cbn [o_inRelocation]. br; gof.
  { unfold step_relocation. unfold TAB. br; gof; [reflexivity|append]. }
  cbn [o_inSectionStart]. br; gof.
  { unfold step_section. cbn [o_inSectionName o_text]. br; gof.
    - br; gof; reflexivity.
    - cbv [lit list_ascii_of_string]. match goal with |- context [str_eqb text ?l] => destruct (str_eqb text l) eqn:E end; gof; [reflexivity|append]. }
  cbn [o_inSourceRef]. br; gof.
  { unfold step_sourceref. cbn [o_inSourceRefLineNumber o_text]. br; gof.
    - refold. rewrite src_do_file_check. cbn [SrcObj.out].
      match goal with |- context [enc flt rep (do_file_check ?f ?X)] => match goal with |- _ = ?rhs =>
        change rhs with (bout c rest (Ok (set_o_inSourceRefLineNumber true (set_o_inSourceRef true (do_file_check f X)))));
        generalize (do_file_check f X) end end.
      clear. intros s'. dst2 s'. gof. reflexivity.
    - br; gof; [|append]. rewrite src_is_whitespace. gof. known W; gof; [|append].
      refold. rewrite src_updateSourceRefLineNumber.
      match goal with |- context [updateSourceRefLineNumber ?X] => destruct (updateSourceRefLineNumber X) as [s'|u| |] end; cbn [SrcObj.out obind andb]; [|gof; reflexivity|reflexivity|reflexivity].
      clear. dst2 s'. gof. reflexivity. }
  cbn [o_inComment]. br; gof; [append|].
  unfold step_text. cbn [o_text o_inSomethingWithALabel o_currentLabelReference lb_name].
  br; gof; [append|]. br; gof.
  { rewrite src_ustrlen by (first [exact mb_le | clear - HL; lia | clear - HLN; lia]). gof.
    change (norm U16 0) with 0. rewrite u16_wide. append. }
  br; gof; [|append]. br; gof.
  { destruct lr_name as [|n0 lr_name]; cbn [is_nil]; gof; [|append]. refold. rewrite src_labelref by (first [exact mb_le | cbn [o_text]; clear - HL; lia | cbn [o_text]; clear - HLN; lia]). cbn [SrcObj.out].
    match goal with |- context [enc flt rep (labelref mb flt ?X)] => match goal with |- _ = ?rhs =>
      change rhs with (bout c rest (Ok (append_char c (labelref mb flt X)))); generalize (labelref mb flt X) end end.
    clear. intros s'. dst2 s'. gof. append. }
  br; gof; [|append].
  refold. rewrite src_labelref by (first [exact mb_le | cbn [o_text]; clear - HL; lia | cbn [o_text]; clear - HLN; lia]). cbn [SrcObj.out].
  match goal with |- context [enc flt rep (labelref mb flt ?X)] => match goal with |- _ = ?rhs =>
    change rhs with (bout c rest (Ok (append_char c (labelref mb flt X)))); generalize (labelref mb flt X) end end.
  clear. intros s'. dst2 s'. gof. append.
Qed.
End Functions.
