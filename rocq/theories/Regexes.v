(** The patterns of src/utils/regexes.hpp that are used by the program, each
    with the line it is transcribed from.  [ctre::match] patterns are used with
    [re_match], [ctre::search] patterns with [re_search] (see Utils.v).
    In the comments <Q> stands for the double quote and a star followed by a
    closing parenthesis has a blank in between (Coq comment syntax).
    Not transcribed, since nothing calls them: labelFindNonMips,
    labelFindMips, mipsLabelDefinition, definesFunction, commentRe. *)
From Verif Require Export Regex.

Definition labelchar c := is_word c || one_of "$.@" c.            (* [\w$.@] *)
Definition idstart c := one_of "." c || is_alpha c || ceq c "_".  (* [.A-Z_a-z] *)
Definition idstartD c := idstart c || ceq c "$".                  (* [$.A-Z_a-z] *)
Definition idchar c := is_word c || one_of "$." c.                (* [\w$.] *)
Definition DQ : char := """".
Definition not_dq c := negb (ceq c DQ).                            (* not a double quote *)
Definition BSL : char := "\".

(* regexes.hpp:11  search  ^(?:.proc\h+)?([\w$.@]+):  *)
Definition labelDef : re :=
  Seqs [Bol; Opt (Seqs [AnyChar; L "proc"; HP]); Grp 1 (Plus (Cls labelchar)); Chr ":"].
(* regexes.hpp:12  search  ^([\.$\w][\w\d]* )\h+=  *)
Definition labelAssignmentDef : re :=
  Seqs [Bol; Grp 1 (Seq (Cls (fun c => one_of ".$" c || is_word c)) (Star true (Cls (fun c => is_word c || is_digit c)))); HP; Chr "="].
(* regexes.hpp:17-18 search ^\h*\.(string|asciz|ascii|base64|[1248]?byte|short|half|[dhx]?word|long|quad|octa|value|zero) *)
Definition dataDefn : re :=
  Seqs [Bol; HS; Chr "."; Grp 1 (Alts [L "string"; L "asciz"; L "ascii"; L "base64";
    Seq (Opt (Cls (one_of "1248"))) (L "byte"); L "short"; L "half"; Seq (Opt (Cls (one_of "dhx"))) (L "word");
    L "long"; L "quad"; L "octa"; L "value"; L "zero"])].
(* regexes.hpp:19 match  ^\h*\.file\h+(\d+)\h+<Q>([^<Q>]+)<Q>(\h+<Q>([^<Q>]+)<Q>)?.*  *)
Definition fileFind : re :=
  Seqs [Bol; HS; L ".file"; HP; Grp 1 (Plus (Cls is_digit)); HP; Chr DQ; Grp 2 (Plus (Cls not_dq)); Chr DQ;
        Opt (Grp 3 (Seqs [HP; Chr DQ; Grp 4 (Plus (Cls not_dq)); Chr DQ])); AnyStar].
(* regexes.hpp:20 search  ^\h*[A-Za-z]  *)
Definition hasOpcodeRe : re := Seqs [Bol; HS; Cls is_alpha].
(* regexes.hpp:22 match  ^\h*[@A-Za-z\|]  *)
Definition hasNvccOpcodeRe : re := Seqs [Bol; HS; Cls (fun c => is_alpha c || one_of "@|" c)].
(* regexes.hpp:24 search  \.type\h*([a-z_A-Z0-9]* ),\h*@?(function|object|proc)  *)
Definition definesFunctionOrObject : re :=
  Seqs [L ".type"; HS; Grp 1 (Star true (Cls is_word)); Chr ","; HS; Opt (Chr "@");
        Grp 2 (Alts [L "function"; L "object"; L "proc"])].
(* regexes.hpp:25 search  ^\h*\.(?:globa?l|GLB|export)\h*([.A-Z_a-z][\w$.]* )  *)
Definition definesGlobal : re :=
  Seqs [Bol; HS; Chr "."; Alts [Seqs [L "glob"; Opt (Chr "a"); Chr "l"]; L "GLB"; L "export"]; HS;
        Grp 1 (Seq (Cls idstart) (Star true (Cls idchar)))].
(* regexes.hpp:26 search  ^\h*\.(?:weakext|weak)\h*([.A-Z_a-z][\w$.]* )  *)
Definition definesWeak : re :=
  Seqs [Bol; HS; Chr "."; Alts [L "weakext"; L "weak"]; HS; Grp 1 (Seq (Cls idstart) (Star true (Cls idchar)))].
(* regexes.hpp:28 match  ^\h*([$.A-Z_a-z][\w$.]+)\h*=  *)
Definition assignmentDef : re :=
  Seqs [Bol; HS; Grp 1 (Seq (Cls idstartD) (Plus (Cls idchar))); HS; Chr "="].
(* regexes.hpp:29 match  ^\h*\..*$  *)
Definition directive : re := Seqs [Bol; HS; Chr "."; AnyStar; Eol].
(* regexes.hpp:30-33 match *)
Definition startAppBlockRe : re := Seqs [HS; L "#APP"; AnyStar].
Definition endAppBlockRe : re := Seqs [HS; L "#NO_APP"; AnyStar].
Definition startAsmNestingRe : re := Seqs [HS; L "# Begin ASM"; AnyStar].
Definition endAsmNestingRe : re := Seqs [HS; L "# End ASM"; AnyStar].
(* regexes.hpp:34 search  \.(entry|func)\h+(?:\([^)]*\)\h* )?([$.A-Z_a-z][\w$.]* )\($  *)
Definition cudaBeginDef : re :=
  Seqs [Chr "."; Grp 1 (Alt (L "entry") (L "func")); HP;
        Opt (Seqs [Chr "("; Star true (Cls (fun c => negb (ceq c ")"))); Chr ")"; HS]);
        Grp 2 (Seq (Cls idstartD) (Star true (Cls idchar))); Chr "("; Eol].
(* regexes.hpp:35 match  ^\h*\)\h*$  *)
Definition cudaEndDef : re := Seqs [Bol; HS; Chr ")"; HS; Eol].
(* regexes.hpp:41 search  (\.inst\.?\w?)\h*(.* )  *)
Definition instOpcodeRe : re :=
  Seqs [Grp 1 (Seqs [L ".inst"; Opt (Chr "."); Opt (Cls is_word)]); HS; Grp 2 AnyStar].
(* regexes.hpp:42 search  ^\h*/\*  and  regexes.hpp:43 search  \*/  *)
Definition blockCommentStart : re := Seqs [Bol; HS; L "/*"].
Definition blockCommentStop : re := L "*/".
(* regexes.hpp:44 match  ^\h*(((#|@|//).* )|(/\*.*\*/)|(;\s* )|(;[^;].* )|(;;.*\S.* ))$  *)
Definition commentOnly : re :=
  Seqs [Bol; HS; Grp 1 (Alts [
     Grp 2 (Seq (Grp 3 (Alts [Chr "#"; Chr "@"; L "//"])) AnyStar);
     Grp 4 (Seqs [L "/*"; AnyStar; L "*/"]);
     Grp 5 (Seq (Chr ";") (Star true (Cls is_space)));
     Grp 6 (Seqs [Chr ";"; Cls (fun c => negb (ceq c ";")); AnyStar]);
     Grp 7 (Seqs [L ";;"; AnyStar; Cls (fun c => negb (is_space c)); AnyStar])]); Eol].
(* regexes.hpp:45 match  ^\h*(((#|;|//).* )|(/\*.*\*/))$  *)
Definition commentOnlyNvcc : re :=
  Seqs [Bol; HS; Grp 1 (Alt
     (Grp 2 (Seq (Grp 3 (Alts [Chr "#"; Chr ";"; L "//"])) AnyStar))
     (Grp 4 (Seqs [L "/*"; AnyStar; L "*/"]))); Eol].
(* regexes.hpp:46 match  ^\h*\.loc\h+(\d+)\h+(\d+).*  *)
Definition sourceTag : re :=
  Seqs [Bol; HS; L ".loc"; HP; Grp 1 (Plus (Cls is_digit)); HP; Grp 2 (Plus (Cls is_digit)); AnyStar].
(* regexes.hpp:47 match  ^\h*\.loc\h+(\d+)\h+(\d+)\h+(\d+).*  *)
Definition sourceTagWithColumn : re :=
  Seqs [Bol; HS; L ".loc"; HP; Grp 1 (Plus (Cls is_digit)); HP; Grp 2 (Plus (Cls is_digit)); HP;
        Grp 3 (Plus (Cls is_digit)); AnyStar].
(* regexes.hpp:48 match  ^\h*\.dbg\h+line,\h*<Q>([^<Q>]+)<Q>,\h*(\d+)  *)
Definition source6502Dbg : re :=
  Seqs [Bol; HS; L ".dbg"; HP; L "line,"; HS; Chr DQ; Grp 1 (Plus (Cls not_dq)); Chr DQ; Chr ","; HS;
        Grp 2 (Plus (Cls is_digit))].
(* regexes.hpp:49 search  ^\h*\.dbg\h+line  *)
Definition source6502DbgEnd : re := Seqs [Bol; HS; L ".dbg"; HP; L "line"].
(* regexes.hpp:50 search  ^\h*\.stabn\h+(\d+),0,(\d+),.*  *)
Definition sourceStab : re :=
  Seqs [Bol; HS; L ".stabn"; HP; Grp 1 (Plus (Cls is_digit)); L ",0,"; Grp 2 (Plus (Cls is_digit)); Chr ","; AnyStar].
(* regexes.hpp:51 match  ^\h*\.d2line\h+(\d+),?\h*(\d* ).*  *)
Definition sourceD2Tag : re :=
  Seqs [Bol; HS; L ".d2line"; HP; Grp 1 (Plus (Cls is_digit)); Opt (Chr ","); HS;
        Grp 2 (Star true (Cls is_digit)); AnyStar].
(* regexes.hpp:52 match  ^\h*\.d2file\h+<Q>(.* )<Q>  *)
Definition sourceD2File : re := Seqs [Bol; HS; L ".d2file"; HP; Chr DQ; Grp 1 AnyStar; Chr DQ].
(* regexes.hpp:53 search  <stdin>|^-$|example\.[^/]+$|<source>  *)
Definition stdInLooking : re :=
  Alts [L "<stdin>"; Seqs [Bol; Chr "-"; Eol];
        Seqs [L "example."; Plus (Cls (fun c => negb (ceq c "/"))); Eol]; L "<source>"].
(* regexes.hpp:54 search  \.cfi_startproc  *)
Definition startProcBlockRe : re := L ".cfi_startproc".
(* regexes.hpp:55 search  \.(cfi_endproc|data|text|section)  *)
Definition endBlockRe : re := Seq (Chr ".") (Grp 1 (Alts [L "cfi_endproc"; L "data"; L "text"; L "section"])).
(* regexes.hpp:56 search  \.cfi_endproc  *)
Definition endProcBlockRe : re := L ".cfi_endproc".
(* regexes.hpp:58 search  \.(data|text|section)\h*<Q>?([.a-zA-Z0-9\-]* )<Q>?  *)
Definition sectionDef : re :=
  Seqs [Chr "."; Grp 1 (Alts [L "data"; L "text"; L "section"]); HS; Opt (Chr DQ);
        Grp 2 (Star true (Cls (fun c => one_of ".-" c || is_alpha c || is_digit c))); Opt (Chr DQ)].
(* regexes.hpp:60 search  (.*?)(<Q>(?:[^<Q>\\]|\\.)*<Q>)(.* )  *)
Definition findQuotes : re :=
  Seqs [Grp 1 (Star false AnyChar);
        Grp 2 (Seqs [Chr DQ; Star true (Alt (Cls (fun c => negb (ceq c DQ) && negb (ceq c BSL))) (Seq (Chr BSL) AnyChar)); Chr DQ]);
        Grp 3 AnyStar].
(* regexes.hpp:62-63 search
   ^(__.*|_(init|start|fini)|(de)?register_tm_clones|call_gmon_start|frame_dummy|\.plt.*|_dl_relocate_static_pie)$ *)
Definition binaryIgnoreFunction : re :=
  Seqs [Bol; Grp 1 (Alts [
     Seq (L "__") AnyStar;
     Seq (Chr "_") (Grp 2 (Alts [L "init"; L "start"; L "fini"]));
     Seq (Opt (Grp 3 (L "de"))) (L "register_tm_clones");
     L "call_gmon_start"; L "frame_dummy"; Seq (L ".plt") AnyStar; L "_dl_relocate_static_pie"]); Eol].
(* regexes.hpp:65 search  ^(.*@plt[\-xa-zA-Z0-9]* )$  *)
Definition pltFunction : re :=
  Seqs [Bol; Grp 1 (Seqs [AnyStar; L "@plt"; Star true (Cls (fun c => one_of "-x" c || is_alpha c || is_digit c))]); Eol].
(* regexwrappers.cpp:223 range  ([$%]?)([.@A-Z_a-z][.\dA-Z_a-z]* )  *)
Definition usedLabelRe : re :=
  Seq (Grp 1 (Opt (Cls (one_of "$%"))))
      (Grp 2 (Seq (Cls (fun c => idstart c || ceq c "@")) (Star true (Cls (fun c => ceq c "." || is_word c))))).
