(** src/main.cpp: command line options and the driver. *)
From Verif Require Import ObjDump AsmText.

(** main.cpp:13-21 *)
Record config := mkConfig {
  c_filter : Filter; c_filename : str; c_useStdin : bool; c_isConfigured : bool; c_doDebugDump : bool; c_outputText : bool }.

(** main.cpp:30-31: every member default-initialised, compatmode on *)
Definition config0 : config :=
  mkConfig (mkFilter false false false false false false false false true false) [] false false false false.

Definition with_filter (g : Filter -> Filter) (c : config) : config :=
  mkConfig (g (c_filter c)) (c_filename c) (c_useStdin c) (c_isConfigured c) (c_doDebugDump c) (c_outputText c).

(** main.cpp:23-26 *)
Definition arg_is (a : str) (s : string) : bool := str_eqb a (lit s).

(** main.cpp:35-66, one argument *)
Definition option_step (c : config) (a : str) : config :=
  if arg_is a "-binary" then with_filter (fun f => mkFilter true (f_unused_labels f) (f_library_functions f) (f_directives f) (f_comment_only f) (f_whitespace f) (f_plt f) (f_dont_mask_filenames f) (f_compatmode f) (f_code_only f)) c
  else if arg_is a "-unused_labels" then with_filter (fun f => mkFilter (f_binary f) true (f_library_functions f) (f_directives f) (f_comment_only f) (f_whitespace f) (f_plt f) (f_dont_mask_filenames f) (f_compatmode f) (f_code_only f)) c
  else if arg_is a "-directives" then with_filter (fun f => mkFilter (f_binary f) (f_unused_labels f) (f_library_functions f) true (f_comment_only f) (f_whitespace f) (f_plt f) (f_dont_mask_filenames f) (f_compatmode f) (f_code_only f)) c
  else if arg_is a "-comment_only" then with_filter (fun f => mkFilter (f_binary f) (f_unused_labels f) (f_library_functions f) (f_directives f) true (f_whitespace f) (f_plt f) (f_dont_mask_filenames f) (f_compatmode f) (f_code_only f)) c
  else if arg_is a "-whitespace" then with_filter (fun f => mkFilter (f_binary f) (f_unused_labels f) (f_library_functions f) (f_directives f) (f_comment_only f) true (f_plt f) (f_dont_mask_filenames f) (f_compatmode f) (f_code_only f)) c
  else if arg_is a "-plt" then with_filter (fun f => mkFilter (f_binary f) (f_unused_labels f) (f_library_functions f) (f_directives f) (f_comment_only f) (f_whitespace f) true (f_dont_mask_filenames f) (f_compatmode f) (f_code_only f)) c
  else if arg_is a "-nocompat" then with_filter (fun f => mkFilter (f_binary f) (f_unused_labels f) (f_library_functions f) (f_directives f) (f_comment_only f) (f_whitespace f) (f_plt f) (f_dont_mask_filenames f) false (f_code_only f)) c
  else if arg_is a "-library_functions" then with_filter (fun f => mkFilter (f_binary f) (f_unused_labels f) true (f_directives f) (f_comment_only f) (f_whitespace f) (f_plt f) (f_dont_mask_filenames f) (f_compatmode f) (f_code_only f)) c
  else if arg_is a "-dont_mask_filenames" then with_filter (fun f => mkFilter (f_binary f) (f_unused_labels f) (f_library_functions f) (f_directives f) (f_comment_only f) (f_whitespace f) (f_plt f) true (f_compatmode f) (f_code_only f)) c
  else if arg_is a "-debugdump" then mkConfig (c_filter c) (c_filename c) (c_useStdin c) (c_isConfigured c) true (c_outputText c)
  else if arg_is a "-outputtext" then mkConfig (c_filter c) (c_filename c) (c_useStdin c) (c_isConfigured c) (c_doDebugDump c) true
  else if arg_is a "-stdin" then mkConfig (c_filter c) (c_filename c) true true (c_doDebugDump c) (c_outputText c)
  else mkConfig (c_filter c) a (c_useStdin c) true (c_doDebugDump c) (c_outputText c).

(** main.cpp:28-70; [args] is argv without the program name *)
Definition getConfigurationFromCommandline (args : list str) : config := fold_left option_step args config0.

(** What a run of the program leaves behind. *)
Record result := mkResult { res_exit : Z; res_stdout : str; res_debugfile : option str }.

Section Main.
(** The world: is the locale en_US.UTF-8 installed; [mblen] under it; the
    contents read from a path (empty when it cannot be opened: main.cpp:100
    reports no error); standard input; the clock; hash iteration orders. *)
Variables (locale_ok : bool) (mblen : str -> Z) (file : str -> str) (stdin : str) (clock : Z)
          (ord_refs : list view -> list view) (ord_labels : list (view * Z) -> list (view * Z))
          (ord_m : list (view * list view) -> list (view * list view))
          (ord_a : list (view * view) -> list (view * view)).

(** main.cpp:72-156.  std::cout was constructed before the global locale was
    changed and prints integers plainly ([dec_Z]); the debug file stream is
    constructed afterwards and groups digits ([grp_Z]).  A thread starts with an
    empty [visited]. *)
Definition main (fuel : nat) (args : list str) : outcome result :=
  if negb locale_ok then Ok (mkResult 1 [] None)
  else
    let c := getConfigurationFromCommandline args in
    let f := c_filter c in
    if negb (c_isConfigured c) then Ok (mkResult 1 (lit "Commandline arguments expected" ++ [LF]) None)
    else
      let input := if c_useStdin c then stdin else file (c_filename c) in
      if f_binary f then
        s <- ObjDump.run mblen f input ;;
        Ok (mkResult 0 (if c_outputText c then ObjDump.outputText s else ObjDump.outputJson f dec_Z false clock s) None)
      else
        r <- AsmText.run mblen f ord_refs ord_labels fuel input [] ;;
        let s := fst r in
        Ok (mkResult 0 (if c_outputText c then AsmText.outputText s else AsmText.outputJson f dec_Z false clock s)
              (if negb (c_useStdin c) && c_doDebugDump c
               then Some (AsmText.outputDebugJson f grp_Z ord_m ord_a s) else None)).
End Main.
