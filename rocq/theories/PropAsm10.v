(** Properties C98, C99: the cost of the search for used labels. *)
From Coq Require Import Permutation.
From Verif Require Import AsmLemmas AsmRead AsmMark AsmTrace AsmThms AsmUse AsmSearch AsmComplete AsmRemove AsmRoots AsmDet AsmCost AsmLadder AsmDeep.
Definition T (s : string) : str := lit s.
Arguments T _%string_scope.

(** C98.  [runC] is [AsmText.run] with a count of the calls of isUsed
    (parser.cpp:599-657) added to it. *)
Theorem asm_calls_counted : forall mb flt oref olab fuel input vis,
  omap fst (runC mb flt oref olab fuel input vis) = AsmText.run mb flt oref olab fuel input vis.
Proof. exact run_count. Qed.
(** A name that is not reached from a root is forgotten again when its search
    ends (parser.cpp:654), so each search follows every chain of uses without
    repetition: at least as many calls as there are such chains from any label
    that avoid the names taken in the end. *)
Theorem asm_calls_follow_chains : forall mb flt oref olab, shuffles oref -> (forall m, Permutation (olab m) m) -> forall input,
  Z.of_nat (length input) < two31 ->
  (forall d k, In d (lines_read mb flt input) -> lv_is_data d = true -> mentions d k -> ~ is_label_name mb flt input k) ->
  forall fuel vis s vis' calls, runC mb flt oref olab fuel input vis = Ok (s, vis', calls) ->
  forall k, is_label_name mb flt input k ->
  forall chains, NoDup chains -> (forall p, In p chains -> walk (looked (t_used_labels s)) vis' k p) -> (length chains <= calls)%nat.
Proof.
  intros mb flt oref olab Ho Hl input Hlen Hd fuel vis s vis' calls H k Hk chains Hn Hp.
  destruct (run_walks mb flt oref olab Ho Hl input Hlen Hd fuel vis s vis' calls H) as [E W]. rewrite E in Hp. exact (W k Hk chains Hn Hp).
Qed.
(** Inputs of quadratic length on which a parse ends, but only after
    exponentially many calls, whatever the order of the hash tables. *)
Theorem asm_search_exponential : forall mb flt oref olab n, shuffles oref -> (forall m, Permutation (olab m) m) ->
  f_whitespace flt = false -> f_library_functions flt = false -> Z.of_nat (length (ladder (S n))) < two31 ->
  exists s vis' f0, forall fuel, (f0 <= fuel)%nat ->
  exists calls, (2 ^ n <= calls)%nat /\ runC mb flt oref olab fuel (ladder (S n)) [] = Ok (s, vis', calls).
Proof. intros. now apply ladder_ends. Qed.
Theorem asm_ladder_length : forall n, length (ladder n) = (6 * n * n + 96 * n + 39)%nat.
Proof. exact ladder_length. Qed.
(** So no polynomial bounds the number of calls: 70 kB may take 2^99 of them. *)
Example asm_ladder_case : ladder 1 = join_lines (map T [".globl m";
    "m:"; " call ax"; " call bx"; " call cx"; "ax:"; " call axx"; " call bxx"; " call cxx"; "bx:"; " call axx"; " call bxx"; " call cxx";
    "cx:"; " call axx"; " call bxx"; " call cxx"]%string) /\ length (ladder 12) = 2055%nat.
Proof. vm_compute. auto. Qed.
Definition calls_for (olab : list (view * Z) -> list (view * Z)) (n : nat) : option nat :=
  match runC mblen_ascii no_filter id olab 100 (ladder n) [] with Ok (_, _, c) => Some c | _ => None end.
Example asm_search_case : map (calls_for id) [1; 2; 3; 4]%nat = [Some 7; Some 28; Some 94; Some 295]%nat /\
  map (calls_for (@rev _)) [1; 2; 3; 4]%nat = [Some 7; Some 21; Some 51; Some 113]%nat.
Proof. vm_compute. auto. Qed.

(** C99.  [fuel] is how deep isUsed may call itself: no deeper than one call for
    each name that is used and two more, ... *)
Theorem asm_recursion_bounded : forall mb flt oref olab, shuffles oref -> (forall m, Permutation (olab m) m) -> forall input,
  Z.of_nat (length input) < two31 ->
  (forall d k, In d (lines_read mb flt input) -> lv_is_data d = true -> mentions d k -> ~ is_label_name mb flt input k) ->
  forall vis, exists r, forall fuel, (length (t_used_labels (read_lines mb flt tstate0 input)) + 2 <= fuel)%nat ->
  AsmText.run mb flt oref olab fuel input vis = Ok r.
Proof.
  intros mb flt oref olab Ho Hl input Hlen Hd vis.
  destruct (C43_ends mb flt oref olab Ho Hl input Hd (enough mb flt input) vis Hlen (le_n _)) as (r & E). exists r. intros fuel Hf.
  eapply run_more; [|exact E]. unfold enough. rewrite <- Nat.add_comm in Hf. exact Hf.
Qed.
(** ... but to the end of every chain of uses that avoids the names taken. *)
Theorem asm_recursion_follows_chains : forall mb flt oref olab, shuffles oref -> (forall m, Permutation (olab m) m) -> forall input,
  Z.of_nat (length input) < two31 ->
  (forall d k, In d (lines_read mb flt input) -> lv_is_data d = true -> mentions d k -> ~ is_label_name mb flt input k) ->
  forall fuel vis s vis', AsmText.run mb flt oref olab fuel input vis = Ok (s, vis') ->
  forall k, is_label_name mb flt input k -> forall p, walk (looked (t_used_labels s)) vis' k p -> (length p <= fuel)%nat.
Proof. exact run_deep. Qed.
(** A global function and a chain of others, each calling the next: in every
    hash order the recursion is as deep as the chain is long. *)
Theorem asm_recursion_deep : forall mb flt oref olab ns, shuffles oref -> (forall m, Permutation (olab m) m) ->
  f_whitespace flt = false -> f_library_functions flt = false ->
  NoDup ns -> Forall (fun n => n <> [] /\ Forall (fun c => 97 <= code c <= 122) n) ns -> ~ In (T "m") ns ->
  Z.of_nat (length (chain_input ns)) < two31 ->
  (exists r f0, forall fuel, (f0 <= fuel)%nat -> AsmText.run mb flt oref olab fuel (chain_input ns) [] = Ok r) /\
  forall fuel r, AsmText.run mb flt oref olab fuel (chain_input ns) [] = Ok r -> (length ns <= fuel)%nat.
Proof.
  intros mb flt oref olab ns Ho Hl Hw Hf Hn Hg Hm Hlen.
  assert (G : Forall good ns).
  { eapply Forall_impl; [|exact Hg]. intros n [A B]. split; [exact A|]. eapply Forall_impl; [|exact B]. intros c Hc. unfold is_lower, in_range.
    change (code "a") with 97. change (code "z") with 122. apply andb_true_intro. split; apply Z.leb_le; apply Hc. }
  split.
  - apply ends_always; auto. now apply chain_no_data.
  - intros fuel [s vis'] H. exact (chain_deep mb flt oref olab Ho Hl Hw Hf ns Hn G Hm Hlen fuel s vis' H).
Qed.
Example asm_recursion_case :
  chain_input (map T ["a"; "b"; "c"; "d"]%string) = join_lines (map T [".globl m"; "m:"; "a:"; " call b"; "b:"; " call c"; "c:"; " call d"; "d:"]%string) /\
  match AsmText.run mblen_ascii no_filter id id 4 (chain_input (map T ["a"; "b"; "c"; "d"]%string)) [] with Ok _ => true | _ => false end = true /\
  AsmText.run mblen_ascii no_filter id id 3 (chain_input (map T ["a"; "b"; "c"; "d"]%string)) [] = Diverges.
Proof. vm_compute. auto. Qed.
Print Assumptions asm_recursion_bounded.
Print Assumptions asm_recursion_follows_chains.
Print Assumptions asm_recursion_deep.
Print Assumptions asm_calls_counted.
Print Assumptions asm_calls_follow_chains.
Print Assumptions asm_search_exponential.
Print Assumptions asm_ladder_length.
