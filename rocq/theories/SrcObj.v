(** The functions of src/objdump/parser.cpp: the interpreter of CppSem.v on the syntax
    trees of their text gives what ObjDump.v says. *)
From Coq Require Import String List ZArith Ascii Bool Lia.
From Verif Require Import Bytes Types Utils ObjDump CppSyntax SourceText SourceAst PropPatterns CppSem SrcStep SrcUtil.
Import ListNotations.
Local Open Scope string_scope.
Local Open Scope Z_scope.

Ltac dst s := destruct s as [f_comment f_something f_prefix f_address f_label f_opcodes f_start f_name f_ref f_number f_reloc f_skip f_stop f_ignore f_check
  [lr_name [lr_start lr_end]] [s_file s_idx s_line s_column s_user s_proc] prev text file section
  [l_text l_section l_labels l_opcodes l_parent l_isl l_isi l_label [l_file l_idx l_line l_column l_user l_proc] l_addr l_u1 l_u2 l_u3 l_data l_inline l_op l_dir l_asg]
  lines labels total].
Ltac dst2 s := destruct s as [? ? ? ? ? ? ? ? ? ? ? ? ? ? ? [? [? ?]] [? ? ? ? ? ?] ? ? ? ?
  [? ? ? ? ? ? ? ? [? ? ? ? ? ?] ? ? ? ? ? ? ? ? ?] ? ? ?].
(** The object in a call, as the encoding of a state. *)
Ltac refold :=
  match goal with |- context [SrcStep.P _ _ _ _ (VRec ?l) _] =>
    let H := fresh in
    eassert (H : VRec l = enc _ _ (mkO _ _ _ _ _ _ _ _ _ _ _ _ _ _ _ (mkLabel _ (mkRange _ _)) (mkSource _ _ _ _ _ _) _ _ _ _
       (mkLine _ _ _ _ _ _ _ _ (mkSource _ _ _ _ _ _) _ _ _ _ _ _ _ _ _) _ _ _)) by reflexivity;
    rewrite H; clear H
  end.

Section Functions.
Variables (N : nat) (mb : str -> Z) (flt : Filter) (rep : bool).
Hypothesis mb_le : forall s, mb s <= Z.of_nat (length s).
Notation P := (P N mb).
(** the result of a call that changes the parser *)
Definition out (o : outcome ostate) : cres :=
  match o with Ok s => CVal VUnit (enc flt rep s) | UB u => CUndef (Known u) | _ => CStuck end.

(** parser.cpp:11-26 *)
Lemma src_commonReset d s : P (S d) "commonReset" (encS s) [] = CVal VUnit (encS (commonReset s)).
Proof. dst s. enter. go. reflexivity. Qed.

(** parser.cpp:33-40 *)
Lemma src_updateSourceRefLineNumber d s : P (S d) "updateSourceRefLineNumber" (enc flt rep s) [] = out (updateSourceRefLineNumber s).
Proof.
  dst s. enter. unfold updateSourceRefLineNumber. cbn [o_text]. go. destruct (atoi text); go; [|reflexivity].
  br; go; reflexivity.
Qed.

(** parser.cpp:261-264 *)
Lemma src_do_file_check d f s : P (S (S d)) "do_file_check" (enc flt rep s) [VStr f] = out (Ok (do_file_check f s)).
Proof.
  dst s. enter. go. rewrite src_file_in_library. go. reflexivity.
Qed.
(** parser.cpp:266-274 *)
Lemma src_actually_filename d s : P (S (S (S d))) "actually_filename" (enc flt rep s) [] = out (Ok (actually_filename s)).
Proof.
  dst s. enter. go. refold. rewrite src_do_file_check. cbv [out]. go. reflexivity.
Qed.

(** parser.cpp:177-201 *)
Lemma src_opcodes d s : P (S d) "opcodes" (enc flt rep s) [] = out (Ok (opcodes s)).
Proof.
  dst s. enter. go. br; go; [reflexivity|].
  match goal with |- context [for_in "c" ?b (map VChr text) [("opcode", VStr []); ("this", ?v)]] =>
    assert (Loop : forall t acc ops, exists acc', for_in "c" b (map VChr t) [("opcode", VStr acc); ("this", enc flt rep 
       (mkO f_comment f_something f_prefix f_address f_label f_opcodes f_start f_name f_ref f_number f_reloc f_skip f_stop false f_check
  (mkLabel lr_name (mkRange lr_start lr_end)) (mkSource s_file s_idx s_line s_column s_user s_proc) prev text file section
  (mkLine l_text l_section l_labels ops l_parent l_isl l_isi l_label (mkSource l_file l_idx l_line l_column l_user l_proc) l_addr l_u1 l_u2 l_u3 l_data l_inline l_op l_dir l_asg)
  lines labels total))] = Val Next [("opcode", VStr acc'); ("this", enc flt rep 
       (mkO f_comment f_something f_prefix f_address f_label f_opcodes f_start f_name f_ref f_number f_reloc f_skip f_stop false f_check
  (mkLabel lr_name (mkRange lr_start lr_end)) (mkSource s_file s_idx s_line s_column s_user s_proc) prev text file section
  (mkLine l_text l_section l_labels (ops ++ split_opcodes t acc) l_parent l_isl l_isi l_label (mkSource l_file l_idx l_line l_column l_user l_proc) l_addr l_u1 l_u2 l_u3 l_data l_inline l_op l_dir l_asg)
  lines labels total))])
  end.
  { induction t as [|c t IH]; intros acc ops.
    - exists acc. cbn [split_opcodes map for_in]. now rewrite app_nil_r.
    - cbn [map split_opcodes]. unfold SP. destruct (ceq c " ") eqn:E; cbn [negb].
      + destruct (is_nil acc) eqn:E2; cbn [negb].
        * destruct (IH [] ops) as (acc' & H). exists acc'. rewrite <- H. erewrite for_in_next; [| |now left].
          2: { gor. gob E. gob E2. reflexivity. }
          destruct acc; [reflexivity|discriminate].
        * destruct (IH [] (ops ++ [acc])%list) as (acc' & H). exists acc'. rewrite <- app_assoc in H. cbn [app] in H. rewrite <- H.
          erewrite for_in_next; [| |now left].
          2: { gor. gob E. gob E2. reflexivity. }
          unfold enc, encS, encL. cbn [o_currentLine Types.l_opcodes]. rewrite encStrs_app. reflexivity.
      + destruct (IH (acc ++ [c])%list ops) as (acc' & H). exists acc'. rewrite <- H. erewrite for_in_next; [| |now left].
          2: { gor. gob E. reflexivity. }
          reflexivity. }
  destruct (Loop text [] l_opcodes) as (acc' & H).
  match goal with |- context [for_in "c" ?b (map VChr text) ?e] => replace (for_in "c" b (map VChr text) e) with 
    (Val Next [("opcode", VStr acc'); ("this", enc flt rep 
       (mkO f_comment f_something f_prefix f_address f_label f_opcodes f_start f_name f_ref f_number f_reloc f_skip f_stop false f_check
  (mkLabel lr_name (mkRange lr_start lr_end)) (mkSource s_file s_idx s_line s_column s_user s_proc) prev text file section
  (mkLine l_text l_section l_labels (l_opcodes ++ split_opcodes text []) l_parent l_isl l_isi l_label (mkSource l_file l_idx l_line l_column l_user l_proc) l_addr l_u1 l_u2 l_u3 l_data l_inline l_op l_dir l_asg)
  lines labels total))]) by (symmetry; exact H) end.
  go. reflexivity.
Qed.
End Functions.
