(** The whole program: what it reads, writes and returns (C72-C76). *)
From Coq Require Import Permutation.
From Verif Require Export AsmRead UtilMisc ObjAddr ObjDump AsmText AsmLines.
Local Open Scope Z_scope.

(** The parsers look only at some of the options. *)
Lemma objdump_filter_fields mb a b c d e g p q r s a' b' d' e' g' q' r' s' input :
  ObjDump.run mb (mkFilter a b c d e g p q r s) input = ObjDump.run mb (mkFilter a' b' c d' e' g' p q' r' s') input.
Proof. reflexivity. Qed.
Lemma objdump_json_fields fmt a b c d e g p q r s a' b' c' d' e' g' p' s' rep clock st :
  ObjDump.outputJson (mkFilter a b c d e g p q r s) fmt rep clock st = ObjDump.outputJson (mkFilter a' b' c' d' e' g' p' q r s') fmt rep clock st.
Proof. reflexivity. Qed.
Lemma text_json_fields fmt a b c d e g p q r s a' b' c' d' e' g' p' s' rep clock st :
  AsmText.outputJson (mkFilter a b c d e g p q r s) fmt rep clock st = AsmText.outputJson (mkFilter a' b' c' d' e' g' p' q r s') fmt rep clock st.
Proof. reflexivity. Qed.
Lemma text_debug_fields fmt om oa a b c d e g p q r s a' b' c' d' e' g' p' s' st :
  AsmText.outputDebugJson (mkFilter a b c d e g p q r s) fmt om oa st = AsmText.outputDebugJson (mkFilter a' b' c' d' e' g' p' q r s') fmt om oa st.
Proof. reflexivity. Qed.

Section Text.
Variables (f f' : Filter).
Hypothesis (Hu : f_unused_labels f = f_unused_labels f') (Hl : f_library_functions f = f_library_functions f')
  (Hd : f_directives f = f_directives f') (Hc : f_comment_only f = f_comment_only f')
  (Hw : f_whitespace f = f_whitespace f') (Hm : f_compatmode f = f_compatmode f').
Variables (mb : str -> Z) (oref : list view -> list view) (olab : list (view * Z) -> list (view * Z)).
Lemma tf_block s : commentBlock f s = commentBlock f' s.
Proof. unfold commentBlock. now rewrite Hc. Qed.
Lemma tf_line s : filteredLine f s = filteredLine f' s.
Proof. unfold filteredLine. now rewrite Hw. Qed.
Lemma tf_lib s : libraryFilter f s = libraryFilter f' s.
Proof. unfold libraryFilter. now rewrite Hl. Qed.
Lemma tf_comment s : justComment f s = justComment f' s.
Proof. unfold justComment. now rewrite Hc. Qed.
Lemma tf_classify h l s : eol_classify mb f h l s = eol_classify mb f' h l s.
Proof. unfold eol_classify. now rewrite Hd. Qed.
Lemma tf_directives l s : eol_directives mb f l s = eol_directives mb f' l s.
Proof.
  unfold eol_directives. destruct (if endBlock _ || _ then _ else _) as [h s1]. rewrite tf_lib.
  destruct (libraryFilter _ _) as [d s2]. destruct d; [reflexivity|]. rewrite tf_comment. now rewrite tf_classify.
Qed.
Lemma tf_eol s : eol mb f s = eol mb f' s.
Proof.
  unfold eol. cbv zeta. destruct (new_line _) as [l s1]. rewrite tf_block. destruct (commentBlock _ _) as [r s2].
  destruct r; [reflexivity|]. rewrite tf_line, Hd, !tf_directives. reflexivity.
Qed.
Lemma tf_step s c : step mb f s c = step mb f' s c.
Proof. unfold step. now rewrite tf_eol. Qed.
Lemma tf_read s input : read_lines mb f s input = read_lines mb f' s input.
Proof.
  unfold read_lines. cbv zeta. assert (E : forall i s, fold_left (step mb f) i s = fold_left (step mb f') i s).
  { induction i as [|c i IH]; intros s0; cbn [fold_left]; [reflexivity|]. now rewrite tf_step, IH. }
  rewrite E. now rewrite tf_eol.
Qed.
Lemma tf_remove s : forall ls r, remove_loop f s r ls = remove_loop f' s r ls.
Proof.
  induction ls as [|l t IH]; intros r; cbn [remove_loop]; [reflexivity|].
  unfold remove_label, removed. rewrite Hu, Hm, Hd. destruct (if lv_is_label l then _ else _) as [o r']. now rewrite IH.
Qed.
Lemma tf_run fuel input vis : AsmText.run mb f oref olab fuel input vis = AsmText.run mb f' oref olab fuel input vis.
Proof.
  unfold AsmText.run, AsmText.fromStream. rewrite tf_read. cbv zeta. destruct (markLabelUsage _ _ _ _ _) as [r| | |]; cbn [obind]; try reflexivity.
  unfold removeUnused. now rewrite tf_remove.
Qed.
End Text.

Lemma has_arg_iff o args : has_arg o args = true <-> In (lit o) args.
Proof.
  unfold has_arg. rewrite existsb_exists. split.
  - intros (a & H & E). apply str_eqb_eq in E. now subst.
  - intros H. exists (lit o). split; [assumption|]. now apply str_eqb_eq.
Qed.
Lemma has_arg_no o args : has_arg o args = false <-> ~ In (lit o) args.
Proof. rewrite <- has_arg_iff. now destruct (has_arg o args). Qed.
Lemma has_arg_same o a b : (In (lit o) a <-> In (lit o) b) -> has_arg o a = has_arg o b.
Proof. rewrite <- !has_arg_iff. destruct (has_arg o a), (has_arg o b); intuition congruence. Qed.
Lemma is_option_iff a : is_option a = true <-> In a (map lit options).
Proof.
  unfold is_option. rewrite existsb_exists, in_map_iff. split.
  - intros (o & H & E). apply str_eqb_eq in E. now exists o.
  - intros (o & <- & H). exists o. split; [assumption|]. now apply str_eqb_eq.
Qed.

(** A name is an argument that is no option. *)
Definition a_name (a : str) : Prop := ~ In a (map lit options).
Definition some_name (args : list str) : Prop := exists a, In a args /\ a_name a.
(** The last name among the arguments. *)
Inductive named (args : list str) (n : str) : Prop :=
| named_intro : forall u v, args = u ++ n :: v -> a_name n -> (forall a, In a v -> In a (map lit options)) -> named args n.
Lemma name_dec args : existsb (fun a => negb (is_option a)) args = true <-> some_name args.
Proof.
  rewrite existsb_exists. unfold some_name, a_name. split; intros (a & H & E); exists a; split; try assumption.
  - rewrite <- is_option_iff. now destruct (is_option a).
  - rewrite <- is_option_iff in E. now destruct (is_option a).
Qed.
Lemma name_no args : existsb (fun a => negb (is_option a)) args = false <-> ~ some_name args.
Proof. rewrite <- name_dec. now destruct (existsb _ _). Qed.
Lemma named_last args n : named args n -> last_name args = n.
Proof.
  intros [u v -> Hn Hv]. unfold last_name. rewrite filter_app. cbn [filter].
  assert (E : is_option n = false) by (apply not_true_iff_false; rewrite is_option_iff; exact Hn). rewrite E. cbn [negb].
  assert (Ev : filter (fun a => negb (is_option a)) v = []).
  { clear -Hv. induction v as [|a v IH]; [reflexivity|]. cbn [filter]. rewrite (proj2 (is_option_iff a)) by (apply Hv; now left).
    cbn [negb]. apply IH. intros b Hb. apply Hv. now right. }
  rewrite Ev. apply last_last.
Qed.
Lemma named_some args n : named args n -> some_name args.
Proof. intros [u v -> H _]. exists n. split; [apply in_or_app; right; now left|assumption]. Qed.
Lemma some_named args : some_name args -> exists n, named args n.
Proof.
  induction args as [|a args IH] using rev_ind; intros (x & Hx & Hn); [contradiction|].
  destruct (is_option a) eqn:E.
  - destruct IH as (n & [u v -> H1 H2]).
    { apply in_app_iff in Hx as [Hx|[<-|[]]]; [now exists x|]. apply is_option_iff in E. contradiction. }
    exists n. exists u (v ++ [a]); [now rewrite <- app_assoc|assumption|]. intros b Hb. apply in_app_iff in Hb as [Hb|[<-|[]]]; [auto|].
    now apply is_option_iff.
  - exists a. exists args []; [reflexivity| |contradiction]. unfold a_name. rewrite <- is_option_iff. congruence.
Qed.

Section World.
Variables (mb : str -> Z) (clock : Z) (oref : list view -> list view) (olab : list (view * Z) -> list (view * Z))
          (om : list (view * list view) -> list (view * list view)) (oa : list (view * view) -> list (view * view)).

(** The whole program in terms of the arguments present. *)
Definition filter_of (args : list str) : Filter :=
  mkFilter (has_arg "-binary" args) (has_arg "-unused_labels" args) (has_arg "-library_functions" args)
           (has_arg "-directives" args) (has_arg "-comment_only" args) (has_arg "-whitespace" args)
           (has_arg "-plt" args) (has_arg "-dont_mask_filenames" args) (negb (has_arg "-nocompat" args)) false.
Lemma main_eq loc file stdin fuel args : main loc mb file stdin clock oref olab om oa fuel args =
  if negb loc then Ok (mkResult 1 [] None)
  else if negb (has_arg "-stdin" args || existsb (fun a => negb (is_option a)) args)
  then Ok (mkResult 1 (lit "Commandline arguments expected" ++ [LF]) None)
  else let input := if has_arg "-stdin" args then stdin else file (last_name args) in
    if has_arg "-binary" args then
      s <- ObjDump.run mb (filter_of args) input ;;
      Ok (mkResult 0 (if has_arg "-outputtext" args then ObjDump.outputText s
                      else ObjDump.outputJson (filter_of args) dec_Z false clock s) None)
    else
      r <- AsmText.run mb (filter_of args) oref olab fuel input [] ;;
      Ok (mkResult 0 (if has_arg "-outputtext" args then AsmText.outputText (fst r)
                      else AsmText.outputJson (filter_of args) dec_Z false clock (fst r))
            (if negb (has_arg "-stdin" args) && has_arg "-debugdump" args
             then Some (AsmText.outputDebugJson (filter_of args) grp_Z om oa (fst r)) else None)).
Proof.
  unfold main. destruct (C64_lemma args) as (E1 & E2 & E3 & E4 & E5 & E6). cbv zeta in *.
  rewrite E1, E2, E3, E4, E5, E6. reflexivity.
Qed.

Notation MAIN loc file stdin := (main loc mb file stdin clock oref olab om oa).

Lemma main_exit loc file stdin fuel args r : MAIN loc file stdin fuel args = Ok r ->
  (res_exit r = 0 \/ res_exit r = 1) /\
  (res_exit r = 0 <-> loc = true /\ (In (lit "-stdin") args \/ some_name args)) /\
  (res_exit r = 1 -> res_debugfile r = None /\
     res_stdout r = if loc then lit "Commandline arguments expected" ++ [LF] else []).
Proof.
  rewrite main_eq. destruct loc; cbn [negb].
  2:{ intros [= <-]. cbn. repeat split; auto; try discriminate. intros [? _]. discriminate. }
  destruct (has_arg "-stdin" args || existsb _ args) eqn:E; cbn [negb].
  - assert (G : forall x, res_exit x = 0 -> x = r -> (res_exit r = 0 \/ res_exit r = 1) /\
      (res_exit r = 0 <-> true = true /\ (In (lit "-stdin") args \/ some_name args)) /\
      (res_exit r = 1 -> res_debugfile r = None /\ res_stdout r = lit "Commandline arguments expected" ++ [LF])).
    { intros x Hx <-. rewrite Hx. split; [now left|]. split; [|discriminate]. split; [|reflexivity]. intros _. split; [reflexivity|].
      apply orb_true_iff in E. now rewrite has_arg_iff, name_dec in E. }
    cbv zeta. destruct (has_arg "-binary" args).
    + destruct (ObjDump.run _ _ _); try discriminate. cbn [obind]. intros [= H]. refine (G _ _ H). reflexivity.
    + destruct (AsmText.run _ _ _ _ _ _); try discriminate. cbn [obind]. intros [= H]. refine (G _ _ H). reflexivity.
  - intros [= <-]. cbn [res_exit res_debugfile res_stdout]. split; [now right|]. split; [|auto]. split; [discriminate|].
    intros [_ H]. apply orb_false_iff in E. rewrite has_arg_no, name_no in E. tauto.
Qed.
Lemma main_debug loc file stdin fuel args r : MAIN loc file stdin fuel args = Ok r ->
  ((exists d, res_debugfile r = Some d) <->
   loc = true /\ In (lit "-debugdump") args /\ ~ In (lit "-stdin") args /\ ~ In (lit "-binary") args /\ some_name args).
Proof.
  rewrite main_eq. rewrite <- !has_arg_no, <- has_arg_iff, <- name_dec. destruct loc; cbn [negb].
  2:{ intros [= <-]. cbn. split; [intros [? ?]; discriminate|intros [? _]; discriminate]. }
  destruct (has_arg "-stdin" args), (has_arg "-binary" args), (existsb _ args), (has_arg "-debugdump" args); cbn [orb negb andb]; cbv zeta;
    try (destruct (ObjDump.run _ _ _); try discriminate); try (destruct (AsmText.run _ _ _ _ _ _); try discriminate); cbn [obind]; intros [= <-]; cbn [res_debugfile];
    (split; [intros [d Hd]; try discriminate Hd|intros (A & B & C & D & F); try discriminate]); eauto 10.
Qed.

Lemma main_stdin loc file file' stdin fuel args : In (lit "-stdin") args ->
  MAIN loc file stdin fuel args = MAIN loc file' stdin fuel args.
Proof. rewrite <- has_arg_iff. intros H. now rewrite !main_eq, H. Qed.
Lemma main_file loc file file' stdin stdin' fuel args : ~ In (lit "-stdin") args -> (forall n, named args n -> file n = file' n) ->
  MAIN loc file stdin fuel args = MAIN loc file' stdin' fuel args.
Proof.
  rewrite <- has_arg_no. intros H Hf. rewrite !main_eq, H. cbn [orb]. destruct loc; [|reflexivity]. cbn [negb].
  destruct (existsb _ args) eqn:E; [|reflexivity]. apply name_dec, some_named in E as (n & Hn).
  rewrite (named_last _ _ Hn), (Hf n Hn). reflexivity.
Qed.

Definition common := ["-binary"; "-stdin"; "-outputtext"; "-library_functions"; "-dont_mask_filenames"; "-nocompat"]%string.
Definition matter (bin : bool) : list string :=
  common ++ if bin then ["-plt"]%string else ["-unused_labels"; "-directives"; "-comment_only"; "-whitespace"; "-debugdump"]%string.
Definition same_name (args args' : list str) : Prop := forall n, named args n <-> named args' n.
Lemma same_name_eq args args' : same_name args args' ->
  last_name args = last_name args' /\ existsb (fun a => negb (is_option a)) args = existsb (fun a => negb (is_option a)) args'.
Proof.
  intros H. destruct (existsb _ args) eqn:E.
  - apply name_dec, some_named in E as (n & Hn). pose proof (proj1 (H n) Hn) as Hn'.
    rewrite (named_last _ _ Hn), (named_last _ _ Hn'). split; [reflexivity|]. symmetry. apply name_dec. now apply named_some in Hn'.
  - assert (E' : existsb (fun a => negb (is_option a)) args' = false).
    { rewrite name_no in *. intros Hs. apply E. apply some_named in Hs as (n & Hn). apply H in Hn. now apply named_some in Hn. }
    split; [|now rewrite E']. unfold last_name.
    assert (X : forall a, existsb (fun a => negb (is_option a)) a = false -> filter (fun a => negb (is_option a)) a = []).
    { induction a as [|x a IH]; [reflexivity|]. cbn [existsb filter]. destruct (is_option x); cbn [negb orb]; [exact IH|discriminate]. }
    now rewrite !X.
Qed.
Lemma main_same loc file stdin fuel args args' :
  (forall bin, (bin = true <-> In (lit "-binary") args) -> forall o, In o (matter bin) -> (In (lit o) args <-> In (lit o) args')) ->
  In (lit "-stdin") args \/ same_name args args' ->
  MAIN loc file stdin fuel args = MAIN loc file stdin fuel args'.
Proof.
  intros H Hn.
  assert (H' : forall o, In o (matter (has_arg "-binary" args)) -> has_arg o args = has_arg o args').
  { intros o Ho. apply has_arg_same. apply (H (has_arg "-binary" args)); [apply has_arg_iff|assumption]. } clear H.
  assert (Hc : forall o, In o common -> has_arg o args = has_arg o args') by (intros o Ho; apply H'; apply in_or_app; now left).
  pose proof (Hc "-binary" ltac:(cbn; tauto))%string as C1. pose proof (Hc "-stdin" ltac:(cbn; tauto))%string as C2.
  pose proof (Hc "-outputtext" ltac:(cbn; tauto))%string as C3. pose proof (Hc "-library_functions" ltac:(cbn; tauto))%string as C4.
  pose proof (Hc "-dont_mask_filenames" ltac:(cbn; tauto))%string as C5. pose proof (Hc "-nocompat" ltac:(cbn; tauto))%string as C6.
  rewrite !main_eq. unfold filter_of. destruct loc; cbn [negb]; [|reflexivity].
  assert (I : has_arg "-stdin" args || existsb (fun a => negb (is_option a)) args = has_arg "-stdin" args' || existsb (fun a => negb (is_option a)) args'
     /\ (if has_arg "-stdin" args then stdin else file (last_name args)) = (if has_arg "-stdin" args' then stdin else file (last_name args'))).
  { rewrite <- C2. destruct Hn as [Hn|Hn]; [apply has_arg_iff in Hn; now rewrite Hn|]. destruct (same_name_eq _ _ Hn) as [-> ->]. now split. }
  destruct I as [-> I]. destruct (has_arg "-stdin" args' || _); cbn [negb]; [|reflexivity]. cbv zeta. rewrite I.
  rewrite <- C1, <- C3, <- C4, <- C5, <- C6, <- C2. destruct (has_arg "-binary" args).
  - pose proof (H' "-plt" ltac:(cbn; tauto))%string as C7. rewrite <- C7.
    set (F1 := mkFilter _ _ _ _ _ _ _ _ _ _). set (F2 := mkFilter _ (has_arg "-unused_labels" args') _ _ _ _ _ _ _ _).
    change (ObjDump.run mb F1) with (ObjDump.run mb F2). destruct (ObjDump.run _ _ _); cbn [obind]; reflexivity.
  - rewrite <- (H' "-unused_labels" ltac:(cbn; tauto))%string, <- (H' "-directives" ltac:(cbn; tauto))%string,
      <- (H' "-comment_only" ltac:(cbn; tauto))%string, <- (H' "-whitespace" ltac:(cbn; tauto))%string, <- (H' "-debugdump" ltac:(cbn; tauto))%string.
    set (F1 := mkFilter _ _ _ _ _ _ (has_arg "-plt" args) _ _ _). set (F2 := mkFilter _ _ _ _ _ _ (has_arg "-plt" args') _ _ _).
    rewrite (tf_run F1 F2) by reflexivity. destruct (AsmText.run _ _ _ _ _ _) as [r| | |]; cbn [obind]; reflexivity.
Qed.

Lemma main_outcome loc (file : str -> str) (stdin : str) fuel args :
  (forall m, Permutation (olab m) m) -> (forall n, Z.of_nat (length (file n)) < two31) -> Z.of_nat (length stdin) < two31 ->
  (exists r, MAIN loc file stdin fuel args = Ok r) \/
  In (lit "-binary") args /\ (MAIN loc file stdin fuel args = UB ShiftRange \/ MAIN loc file stdin fuel args = UB AtoiRange) \/
  ~ In (lit "-binary") args /\ MAIN loc file stdin fuel args = Diverges.
Proof.
  intros Hp Hf Hs. rewrite <- has_arg_iff. rewrite not_true_iff_false. rewrite main_eq. destruct loc; cbn [negb]; [|left; eauto].
  destruct (has_arg "-stdin" args || _); cbn [negb]; [|left; eauto]. cbv zeta.
  set (input := if has_arg "-stdin" args then stdin else file (last_name args)).
  assert (Hi : Z.of_nat (length input) < two31) by (unfold input; destruct (has_arg "-stdin" args); [assumption|apply Hf]). clearbody input.
  destruct (has_arg "-binary" args).
  - unfold ObjDump.run. destruct (C12_lemma mb (filter_of args) ostate0 input (R_fresh _ _)) as [[s' E]|(a & c & b & s0 & _ & _ & [(E & _)|(E & _)])].
    + rewrite E. cbn [obind]. left. eauto.
    + rewrite E. cbn [obind]. auto.
    + rewrite E. cbn [obind]. auto.
  - destruct (C45_run mb (filter_of args) oref olab fuel input [] Hp Hi) as [[r E]|E]; rewrite E; cbn [obind]; [left; eauto|auto].
Qed.

(** Nothing to read. *)
Lemma main_empty (file : str -> str) (stdin : str) fuel args : (forall m, Permutation (olab m) m) ->
  (In (lit "-stdin") args -> stdin = []) -> (~ In (lit "-stdin") args -> exists n, named args n /\ file n = []) ->
  exists d, MAIN true file stdin fuel args = Ok (mkResult 0
    (if has_arg "-outputtext" args then [] else write dec_Z (filter_of args) [] [] 0 false clock) d).
Proof.
  intros Hp H1 H2. rewrite <- has_arg_iff in H1. rewrite <- has_arg_no in H2. rewrite main_eq. cbn [negb].
  assert (E : has_arg "-stdin" args || existsb (fun a => negb (is_option a)) args = true).
  { destruct (has_arg "-stdin" args); [reflexivity|]. destruct (H2 eq_refl) as (n & Hn & _). apply name_dec, (named_some _ _ Hn). }
  rewrite E. cbn [negb]. cbv zeta.
  assert (Ei : (if has_arg "-stdin" args then stdin else file (last_name args)) = []).
  { destruct (has_arg "-stdin" args); [auto|]. destruct (H2 eq_refl) as (n & Hn & Hf). now rewrite (named_last _ _ Hn). }
  rewrite Ei. assert (Eo : olab [] = []) by (apply Permutation_nil, Permutation_sym, Hp).
  destruct (has_arg "-binary" args).
  - eexists. destruct (has_arg "-outputtext" args); reflexivity.
  - change (AsmText.run mb (filter_of args) oref olab fuel [] []) with
      (r <- mark_loop oref fuel (olab []) (filterNonLabels (read_lines mb (filter_of args) tstate0 [])) [] ;; Ok (removeUnused (filter_of args) (fst r), snd r)).
    rewrite Eo. eexists. destruct (has_arg "-outputtext" args); reflexivity.
Qed.
End World.
