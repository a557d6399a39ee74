(** Written by tools/gen_ast.py: the syntax trees of the texts of SourceText.v. *)
From Coq Require Import String List ZArith Ascii.
From Verif Require Import Bytes CppSyntax SourceText.
Import ListNotations.
Local Open Scope string_scope.
Local Open Scope Z_scope.

Definition objdump_parser_commonReset : stmt :=
  (SSeq (SExpr (EAsg "=" (EMem (EId "this") "currentLine") (EBrace [])))
            (SSeq (SExpr (ECall (EMem (EMem (EId "this") "text") "clear") []))
               (SSeq (SExpr (EAsg "=" (EMem (EId "this") "hasPrefixingWhitespace") (EId "false")))
                  (SSeq (SExpr (EAsg "=" (EMem (EId "this") "inComment") (EId "false")))
                     (SSeq (SExpr (EAsg "=" (EMem (EId "this") "inAddress") (EId "true")))
                        (SSeq (SExpr (EAsg "=" (EMem (EId "this") "inOpcodes") (EId "false")))
                           (SSeq (SExpr (EAsg "=" (EMem (EId "this") "inLabel") (EId "false")))
                              (SSeq (SExpr (EAsg "=" (EMem (EId "this") "inSectionStart") (EId "false")))
                                 (SSeq (SExpr (EAsg "=" (EMem (EId "this") "inSectionName") (EId "false")))
                                    (SSeq (SExpr (EAsg "=" (EMem (EId "this") "inSourceRef") (EId "false")))
                                       (SSeq (SExpr (EAsg "=" (EMem (EId "this") "skipRestOfTheLine") (EId "false")))
                                          (SSeq (SExpr (EAsg "=" (EMem (EId "this") "inRelocation") (EId "false")))
                                             (SSeq (SExpr (EAsg "=" (EMem (EId "this") "inSourceRefLineNumber") (EId "false"))) SSkip))))))))))))).
Definition objdump_parser_ObjDumpParser : stmt :=
  (SSeq (SExpr (EAsg "=" (EId "reproducible") (EId "false"))) SSkip).
Definition objdump_parser_updateSourceRefLineNumber : stmt :=
  (SSeq (SDecl (Ty "auto" []) false "lineNum" (Some (ECall (EId "atoi") [ECall (EMem (EMem (EMem (EId "this") "state") "text") "c_str") []])))
            (SSeq
               (SIf (EBin ">" (EId "lineNum") (ENum 0))
                  (SBlock (SSeq (SExpr (EAsg "=" (EMem (EMem (EMem (EId "this") "state") "currentSourceRef") "line") (EId "lineNum"))) SSkip)) SSkip)
               SSkip)).
Definition objdump_parser_eol : stmt :=
  (SSeq (SExpr (EPost "++" (EMem (EId "this") "total_lines")))
            (SSeq (SIf (EMem (EMem (EId "this") "state") "inLabel") (SBlock (SSeq (SExpr (ECall (EMem (EId "this") "label") [])) SSkip)) SSkip)
               (SSeq
                  (SIf (EMem (EMem (EId "this") "state") "ignoreUntilNextLabel")
                     (SBlock (SSeq (SExpr (ECall (EMem (EMem (EId "this") "state") "commonReset") [])) (SSeq (SRet None) SSkip))) SSkip)
                  (SSeq
                     (SIf (EMem (EMem (EId "this") "state") "inSourceRefLineNumber")
                        (SBlock (SSeq (SExpr (ECall (EMem (EId "this") "updateSourceRefLineNumber") [])) SSkip))
                        (SIf (EUn "!" (ECall (EMem (EMem (EMem (EId "this") "state") "text") "empty") []))
                           (SBlock
                              (SSeq
                                 (SExpr
                                    (EAsg "=" (EMem (EMem (EMem (EId "this") "state") "currentLine") "text")
                                       (EMem (EMem (EId "this") "state") "text")))
                                 (SSeq
                                    (SExpr
                                       (EAsg "=" (EMem (EMem (EMem (EId "this") "state") "currentLine") "section")
                                          (EMem (EMem (EId "this") "state") "currentSection")))
                                    (SSeq
                                       (SIf (EUn "!" (EMem (EMem (EMem (EId "this") "state") "currentLine") "is_label"))
                                          (SBlock
                                             (SSeq
                                                (SExpr
                                                   (EAsg "=" (EMem (EMem (EMem (EId "this") "state") "currentLine") "text")
                                                      (EBin "+" (EChr " ") (EMem (EMem (EMem (EId "this") "state") "currentLine") "text"))))
                                                (SSeq
                                                   (SForIn true "label" (EMem (EMem (EMem (EId "this") "state") "currentLine") "labels")
                                                      (SBlock
                                                         (SSeq (SExpr (EAsg "+=" (EMem (EMem (EId "label") "range") "start_col") (ENum 2)))
                                                            (SSeq (SExpr (EAsg "+=" (EMem (EMem (EId "label") "range") "end_col") (ENum 2))) SSkip))))
                                                   SSkip))) SSkip)
                                       (SSeq
                                          (SExpr
                                             (EAsg "=" (EMem (EMem (EMem (EId "this") "state") "currentLine") "source")
                                                (EMem (EMem (EId "this") "state") "currentSourceRef")))
                                          (SSeq
                                             (SIf (EBin "<" (ECall (EMem (EId "lines") "size") []) (ENum 5000))
                                                (SBlock
                                                   (SSeq
                                                      (SExpr
                                                         (ECall (EMem (EId "lines") "push_back") [EMem (EMem (EId "this") "state") "currentLine"]))
                                                      SSkip))
                                                (SBlock
                                                   (SSeq (SDecl (Ty "asm_line" []) false "truncated" (Some (EBrace [])))
                                                      (SSeq
                                                         (SExpr
                                                            (EAsg "=" (EMem (EId "truncated") "text")
                                                               (EStr
                                                                  ["["%char; "t"%char; "r"%char; "u"%char; "n"%char; "c"%char; "a"%char; "t"%char;
                                                                   "e"%char; "d"%char; ";"%char; " "%char; "t"%char; "o"%char; "o"%char; " "%char;
                                                                   "m"%char; "a"%char; "n"%char; "y"%char; " "%char; "l"%char; "i"%char; "n"%char;
                                                                   "e"%char; "s"%char; "]"%char])))
                                                         (SSeq (SExpr (ECall (EMem (EId "lines") "push_back") [EId "truncated"]))
                                                            (SSeq (SExpr (EAsg "=" (EMem (EMem (EId "this") "state") "stopParsing") (EId "true")))
                                                               SSkip)))))) SSkip)))))) SSkip))
                     (SSeq (SExpr (ECall (EMem (EMem (EId "this") "state") "commonReset") [])) SSkip))))).
Definition objdump_parser_maybe_remove_last_function : stmt :=
  (SSeq
            (SIf (EUn "!" (ECall (EMem (EMem (EId "this") "labels") "empty") []))
               (SBlock
                  (SSeq (SDecl (Ty "auto" []) false "previousFunc" (Some (ECall (EMem (EMem (EId "this") "labels") "back") [])))
                     (SSeq (SDecl (Ty "bool" []) false "hasUserCode" (Some (EId "false")))
                        (SSeq
                           (SFor (SDecl (Ty "size_t" []) false "lineIdx" (Some (EBin "-" (EMem (EId "previousFunc") "second") (ENum 1))))
                              (EBin "<" (EId "lineIdx") (ECall (EMem (EMem (EId "this") "lines") "size") [])) (Some (EPost "++" (EId "lineIdx")))
                              (SBlock
                                 (SSeq (SDecl (Ty "auto" []) false "line" (Some (EIdx (EMem (EId "this") "lines") (EId "lineIdx"))))
                                    (SSeq
                                       (SIf (EMem (EMem (EId "line") "source") "is_usercode")
                                          (SBlock (SSeq (SExpr (EAsg "=" (EId "hasUserCode") (EId "true"))) (SSeq SBreak SSkip))) SSkip) SSkip))))
                           (SSeq
                              (SIf (EUn "!" (EId "hasUserCode"))
                                 (SBlock
                                    (SSeq
                                       (SExpr
                                          (ECall (EMem (EMem (EId "this") "lines") "erase")
                                             [EBin "-"
                                                (EBin "+" (ECall (EMem (EMem (EId "this") "lines") "begin") []) (EMem (EId "previousFunc") "second"))
                                                (ENum 1); ECall (EMem (EMem (EId "this") "lines") "end") []]))
                                       (SSeq (SExpr (ECall (EMem (EMem (EId "this") "labels") "pop_back") [])) SSkip))) SSkip) SSkip))))) SSkip)
            SSkip).
Definition objdump_parser_label : stmt :=
  (SSeq
            (SIf (ECall (EMem (EMem (EMem (EId "this") "state") "text") "empty") [])
               (SBlock (SSeq (SExpr (EAsg "=" (EMem (EMem (EId "this") "state") "inLabel") (EId "false"))) (SSeq (SRet None) SSkip))) SSkip)
            (SSeq (SDecl (Ty "auto" []) false "label" (Some (ECall (EId "getLabelFromObjdumpLabel") [EMem (EMem (EId "this") "state") "text"])))
               (SSeq (SIf (EId "label") (SExpr (EAsg "=" (EMem (EMem (EId "this") "state") "text") (ECall (EMem (EId "label") "value") []))) SSkip)
                  (SSeq
                     (SIf (EMem (EMem (EId "this") "filter") "library_functions") (SExpr (ECall (EMem (EId "this") "maybe_remove_last_function") []))
                        SSkip)
                     (SSeq
                        (SExpr
                           (EAsg "=" (EMem (EMem (EId "this") "state") "ignoreUntilNextLabel")
                              (ECall (EId "shouldIgnoreFunction") [EMem (EMem (EId "this") "state") "text"; EMem (EId "this") "filter"])))
                        (SSeq (SIf (EMem (EMem (EId "this") "state") "ignoreUntilNextLabel") (SRet None) SSkip)
                           (SSeq
                              (SIf (EMem (EMem (EId "this") "filter") "library_functions")
                                 (SExpr (EAsg "=" (EMem (EMem (EId "this") "state") "checkNextFileForLibraryCode") (EId "true"))) SSkip)
                              (SSeq (SExpr (EAsg "=" (EMem (EMem (EId "this") "state") "previousLabel") (EMem (EMem (EId "this") "state") "text")))
                                 (SSeq
                                    (SExpr
                                       (EAsg "=" (EMem (EMem (EMem (EId "this") "state") "currentLine") "label")
                                          (EMem (EMem (EId "this") "state") "text")))
                                    (SSeq
                                       (SExpr
                                          (EAsg "=" (EMem (EMem (EId "this") "state") "text")
                                             (EBin "+" (EMem (EMem (EId "this") "state") "text") (EStr [":"%char]))))
                                       (SSeq (SExpr (EAsg "=" (EMem (EMem (EMem (EId "this") "state") "currentLine") "is_label") (EId "true")))
                                          (SSeq
                                             (SExpr
                                                (ECall (EMem (EMem (EId "this") "labels") "push_back")
                                                   [EBrace
                                                      [EMem (EMem (EId "this") "state") "previousLabel";
                                                       ECast (Ty "int32_t" []) (EBin "+" (ECall (EMem (EId "lines") "size") []) (ENum 1))]])) SSkip)))))))))))).
Definition objdump_parser_labelref : stmt :=
  (SSeq
            (SIf (EUn "!" (EMem (EMem (EId "this") "state") "ignoreUntilNextLabel"))
               (SBlock
                  (SSeq
                     (SExpr
                        (EAsg "=" (EMem (EMem (EMem (EMem (EId "this") "state") "currentLabelReference") "range") "end_col")
                           (ECast (Ty "uint16_t" []) (ECall (EId "ustrlen") [EMem (EMem (EId "this") "state") "text"]))))
                     (SSeq
                        (STry
                           (SBlock
                              (SSeq
                                 (SExpr
                                    (EAsg "=" (EMem (EMem (EMem (EId "this") "state") "currentLabelReference") "name")
                                       (ECall (EMem (EMem (EMem (EId "this") "state") "text") "substr")
                                          [EMem (EMem (EMem (EMem (EId "this") "state") "currentLabelReference") "range") "start_col"])))
                                 (SSeq
                                    (SIf
                                       (EUn "!"
                                          (ECall (EId "shouldIgnoreFunction")
                                             [EMem (EMem (EMem (EId "this") "state") "currentLabelReference") "name"; EMem (EId "this") "filter"]))
                                       (SBlock
                                          (SSeq
                                             (SExpr
                                                (ECall (EMem (EMem (EMem (EMem (EId "this") "state") "currentLine") "labels") "push_back")
                                                   [EMem (EMem (EId "this") "state") "currentLabelReference"])) SSkip)) SSkip) SSkip)))
                           (SBlock (SSeq (SExpr (EAsg "=" (EMem (EMem (EMem (EId "this") "state") "currentLabelReference") "name") (EStr []))) SSkip)))
                        SSkip))) SSkip) (SSeq (SExpr (EAsg "=" (EMem (EMem (EId "this") "state") "currentLabelReference") (EBrace []))) SSkip)).
Definition objdump_parser_opcodes : stmt :=
  (SSeq
            (SIf (EUn "!" (EMem (EMem (EId "this") "state") "ignoreUntilNextLabel"))
               (SBlock
                  (SSeq (SDecl (Ty "std::string" []) false "opcode" (Some (EBrace [])))
                     (SSeq
                        (SForIn false "c" (EMem (EMem (EId "this") "state") "text")
                           (SBlock
                              (SSeq
                                 (SIf (EBin "!=" (EId "c") (EChr " ")) (SBlock (SSeq (SExpr (EAsg "+=" (EId "opcode") (EId "c"))) SSkip))
                                    (SBlock
                                       (SSeq
                                          (SIf (EUn "!" (ECall (EMem (EId "opcode") "empty") []))
                                             (SBlock
                                                (SSeq
                                                   (SExpr
                                                      (ECall (EMem (EMem (EMem (EMem (EId "this") "state") "currentLine") "opcodes") "push_back")
                                                         [EId "opcode"])) (SSeq (SExpr (ECall (EMem (EId "opcode") "clear") [])) SSkip))) SSkip)
                                          SSkip))) SSkip))) SSkip))) SSkip)
            (SSeq (SExpr (ECall (EMem (EMem (EMem (EId "this") "state") "text") "clear") []))
               (SSeq (SExpr (EAsg "=" (EMem (EMem (EId "this") "state") "inOpcodes") (EId "false"))) SSkip))).
Definition objdump_parser_actually_address : stmt :=
  (SSeq (SDecl (Ty "bool" []) false "maybeNotHexAfterall" (Some (EId "false")))
            (SSeq
               (SIf (EUn "!" (EMem (EMem (EId "this") "state") "ignoreUntilNextLabel"))
                  (SBlock
                     (SSeq (SDecl (Ty "int64_t" []) false "addr" (Some (ENum 0)))
                        (SSeq (SDecl (Ty "int8_t" []) false "bitsdone" (Some (ENum 0)))
                           (SSeq
                              (SFor (SDecl (Ty "auto" []) false "c" (Some (ECall (EMem (EMem (EMem (EId "this") "state") "text") "rbegin") [])))
                                 (EBin "!=" (EId "c") (ECall (EMem (EMem (EMem (EId "this") "state") "text") "rend") []))
                                 (Some (EPost "++" (EId "c")))
                                 (SBlock
                                    (SSeq
                                       (SIf (EUn "!" (ECall (EId "is_hex") [EUn "*" (EId "c")]))
                                          (SBlock (SSeq (SExpr (EAsg "=" (EId "maybeNotHexAfterall") (EId "true"))) (SSeq SBreak SSkip))) SSkip)
                                       (SSeq (SDecl (Ty "auto" []) false "hint" (Some (ECall (EId "hex2int") [EUn "*" (EId "c")])))
                                          (SSeq
                                             (SIf (EBin "!=" (EId "hint") (ENum 0))
                                                (SBlock (SSeq (SExpr (EAsg "+=" (EId "addr") (EBin "<<" (EId "hint") (EId "bitsdone")))) SSkip))
                                                SSkip) (SSeq (SExpr (EAsg "+=" (EId "bitsdone") (ENum 4))) SSkip))))))
                              (SSeq (SExpr (EAsg "=" (EMem (EMem (EMem (EId "this") "state") "currentLine") "address") (EId "addr"))) SSkip)))))
                  SSkip)
               (SSeq
                  (SIf (EId "maybeNotHexAfterall")
                     (SBlock
                        (SSeq (SExpr (EAsg "=" (EMem (EMem (EId "this") "state") "skipRestOfTheLine") (EId "true")))
                           (SSeq (SExpr (EAsg "=" (EMem (EMem (EId "this") "state") "inAddress") (EId "false"))) SSkip)))
                     (SBlock
                        (SSeq (SExpr (EAsg "=" (EMem (EMem (EId "this") "state") "inAddress") (EId "false")))
                           (SSeq (SExpr (EAsg "=" (EMem (EMem (EId "this") "state") "inOpcodes") (EId "true"))) SSkip)))) SSkip))).
Definition objdump_parser_undo_last_line_if_label : stmt :=
  (SSeq (SDecl (Ty "auto" []) false "lastLine" (Some (ECall (EMem (EMem (EId "this") "lines") "back") [])))
            (SSeq
               (SIf (EMem (EId "lastLine") "is_label")
                  (SBlock
                     (SSeq
                        (SExpr
                           (ECall (EId "std::erase_if")
                              [EMem (EId "this") "labels"; ELam "label" (EBin "==" (EMem (EId "label") "first") (EMem (EId "lastLine") "label"))]))
                        (SSeq (SExpr (ECall (EMem (EMem (EId "this") "lines") "pop_back") [])) SSkip))) SSkip) SSkip)).
Definition objdump_parser_do_file_check : stmt :=
  (SSeq
            (SExpr
               (EAsg "=" (EMem (EMem (EMem (EId "this") "state") "currentSourceRef") "is_usercode")
                  (EUn "!" (ECall (EMem (EMem (EId "this") "lib_detection") "file_in_library") [EId "filename"])))) SSkip).
Definition objdump_parser_actually_filename : stmt :=
  (SSeq (SExpr (EAsg "=" (EMem (EMem (EId "this") "state") "currentFilename") (EMem (EMem (EId "this") "state") "text")))
            (SSeq (SExpr (EAsg "=" (EMem (EMem (EId "this") "state") "inAddress") (EId "false")))
               (SSeq (SExpr (EAsg "=" (EMem (EMem (EId "this") "state") "inOpcodes") (EId "false")))
                  (SSeq (SExpr (EAsg "=" (EMem (EMem (EId "this") "state") "skipRestOfTheLine") (EId "true")))
                     (SSeq (SExpr (ECall (EMem (EId "this") "do_file_check") [EMem (EMem (EId "this") "state") "currentFilename"])) SSkip))))).
Definition objdump_parser_address : stmt :=
  (SSeq
            (SIf (EUn "!" (ECall (EMem (EMem (EMem (EId "this") "state") "text") "empty") []))
               (SBlock
                  (SSeq
                     (SIf (EBin "==" (EIdx (EMem (EMem (EId "this") "state") "text") (ENum 0)) (EChr "/"))
                        (SBlock (SSeq (SExpr (ECall (EMem (EId "this") "actually_filename") [])) SSkip))
                        (SBlock (SSeq (SExpr (ECall (EMem (EId "this") "actually_address") [])) SSkip))) SSkip))
               (SBlock
                  (SSeq (SExpr (EAsg "=" (EMem (EMem (EId "this") "state") "inAddress") (EId "false")))
                     (SSeq (SExpr (EAsg "=" (EMem (EMem (EId "this") "state") "inOpcodes") (EId "false"))) SSkip))))
            (SSeq (SExpr (ECall (EMem (EMem (EMem (EId "this") "state") "text") "clear") [])) SSkip)).
Definition objdump_parser_setReproducible : stmt :=
  (SSeq (SExpr (EAsg "=" (EMem (EId "this") "reproducible") (EId "true"))) SSkip).
Definition objdump_parser_fromStream : stmt :=
  (SSeq (SDecl (Ty "char" []) false "c" None)
            (SSeq (SExpr (EAsg "=" (EMem (EId "this") "total_lines") (ENum 0)))
               (SSeq (SExpr (EAsg "=" (EMem (EMem (EId "this") "state") "inAddress") (EId "true")))
                  (SSeq
                     (SWhile (EBin "&&" (EUn "!" (EMem (EMem (EId "this") "state") "stopParsing")) (ECall (EMem (EId "in") "get") [EId "c"]))
                        (SBlock
                           (SSeq
                              (SIf (EBin "==" (EId "c") (EChr "013")) (SBlock SSkip)
                                 (SIf (EBin "==" (EId "c") (EChr "010"))
                                    (SBlock (SSeq (SExpr (ECall (EMem (EId "this") "eol") [])) (SSeq SCont SSkip)))
                                    (SIf (EUn "!" (EMem (EMem (EId "this") "state") "skipRestOfTheLine"))
                                       (SBlock
                                          (SSeq
                                             (SIf (EMem (EMem (EId "this") "state") "inAddress")
                                                (SBlock
                                                   (SSeq
                                                      (SIf (EBin "==" (EId "c") (EChr "/"))
                                                         (SBlock
                                                            (SSeq (SExpr (EAsg "=" (EMem (EMem (EId "this") "state") "inAddress") (EId "false")))
                                                               (SSeq (SExpr (EAsg "=" (EMem (EMem (EId "this") "state") "inSourceRef") (EId "true")))
                                                                  SSkip)))
                                                         (SIf (EBin "==" (EId "c") (EChr ";")) (SBlock (SSeq SCont SSkip))
                                                            (SIf (EBin "==" (EId "c") (EChr ":"))
                                                               (SBlock (SSeq (SExpr (ECall (EMem (EId "this") "address") [])) (SSeq SCont SSkip)))
                                                               (SIf (ECall (EId "is_whitespace") [EId "c"])
                                                                  (SBlock
                                                                     (SSeq
                                                                        (SIf
                                                                           (EBin "==" (EMem (EMem (EId "this") "state") "text")
                                                                              (EStr
                                                                                 ["D"%char; "i"%char; "s"%char; "a"%char; "s"%char; "s"%char;
                                                                                  "e"%char; "m"%char; "b"%char; "l"%char; "y"%char]))
                                                                           (SBlock
                                                                              (SSeq
                                                                                 (SExpr
                                                                                    (EAsg "=" (EMem (EMem (EId "this") "state") "inAddress")
                                                                                       (EId "false")))
                                                                                 (SSeq
                                                                                    (SExpr
                                                                                       (EAsg "=" (EMem (EMem (EId "this") "state") "inSectionStart")
                                                                                          (EId "true")))
                                                                                    (SSeq
                                                                                       (SExpr
                                                                                          (ECall
                                                                                             (EMem
                                                                                                (EMem (EMem (EId "this") "state") "currentSection")
                                                                                                "clear") [])) SSkip))))
                                                                           (SIf
                                                                              (EUn "!"
                                                                                 (ECall (EMem (EMem (EMem (EId "this") "state") "text") "empty") []))
                                                                              (SBlock
                                                                                 (SSeq (SExpr (ECall (EMem (EId "this") "address") []))
                                                                                    (SSeq
                                                                                       (SExpr
                                                                                          (EAsg "=" (EMem (EMem (EId "this") "state") "inAddress")
                                                                                             (EId "false")))
                                                                                       (SSeq
                                                                                          (SExpr
                                                                                             (EAsg "=" (EMem (EMem (EId "this") "state") "inLabel")
                                                                                                (EId "true"))) (SSeq SCont SSkip)))))
                                                                              (SBlock (SSeq SCont SSkip)))) SSkip)) SSkip)))) SSkip))
                                                (SIf (EMem (EMem (EId "this") "state") "inLabel") (SBlock SSkip)
                                                   (SIf (EMem (EMem (EId "this") "state") "inOpcodes")
                                                      (SBlock
                                                         (SSeq
                                                            (SIf (EBin "||" (EBin "==" (EId "c") (EChr " ")) (EBin "==" (EId "c") (EChr "009")))
                                                               (SBlock
                                                                  (SSeq
                                                                     (SIf (ECall (EMem (EMem (EMem (EId "this") "state") "text") "empty") []) SCont
                                                                        SSkip)
                                                                     (SSeq
                                                                        (SIf
                                                                           (EBin "=="
                                                                              (EIdx (EMem (EMem (EId "this") "state") "text")
                                                                                 (EBin "-"
                                                                                    (ECall (EMem (EMem (EMem (EId "this") "state") "text") "length")
                                                                                       []) (ENum 1))) (EChr " "))
                                                                           (SBlock
                                                                              (SSeq (SExpr (ECall (EMem (EId "this") "opcodes") []))
                                                                                 (SSeq SCont SSkip))) SSkip) SSkip)))
                                                               (SIf (EBin "==" (EId "c") (EChr "R"))
                                                                  (SBlock
                                                                     (SSeq
                                                                        (SExpr
                                                                           (EAsg "=" (EMem (EMem (EId "this") "state") "inRelocation") (EId "true")))
                                                                        (SSeq
                                                                           (SExpr
                                                                              (EAsg "=" (EMem (EMem (EId "this") "state") "inOpcodes") (EId "false")))
                                                                           (SSeq
                                                                              (SExpr
                                                                                 (EAsg "+=" (EMem (EMem (EId "this") "state") "text")
                                                                                    (EStr [" "%char; " "%char; " "%char]))) SSkip))))
                                                                  (SIf (EUn "!" (ECall (EId "is_hex") [EId "c"]))
                                                                     (SBlock
                                                                        (SSeq
                                                                           (SExpr
                                                                              (EAsg "=" (EMem (EMem (EId "this") "state") "inOpcodes") (EId "false")))
                                                                           SSkip)) SSkip))) SSkip))
                                                      (SIf (EMem (EMem (EId "this") "state") "inRelocation")
                                                         (SBlock
                                                            (SSeq
                                                               (SIf (EBin "==" (EId "c") (EChr "009"))
                                                                  (SBlock
                                                                     (SSeq (SExpr (EAsg "+=" (EMem (EMem (EId "this") "state") "text") (EChr " ")))
                                                                        (SSeq SCont SSkip))) SSkip) SSkip))
                                                         (SIf (EMem (EMem (EId "this") "state") "inSectionStart")
                                                            (SBlock
                                                               (SSeq
                                                                  (SIf (EUn "!" (EMem (EMem (EId "this") "state") "inSectionName"))
                                                                     (SBlock
                                                                        (SSeq
                                                                           (SExpr
                                                                              (EAsg "=" (EMem (EMem (EId "this") "state") "inSectionName")
                                                                                 (EBin "==" (EMem (EMem (EId "this") "state") "text")
                                                                                    (EStr
                                                                                       ["D"%char; "i"%char; "s"%char; "a"%char; "s"%char; "s"%char;
                                                                                        "e"%char; "m"%char; "b"%char; "l"%char; "y"%char; " "%char;
                                                                                        "o"%char; "f"%char; " "%char; "s"%char; "e"%char; "c"%char;
                                                                                        "t"%char; "i"%char; "o"%char; "n"%char; " "%char]))))
                                                                           (SSeq
                                                                              (SIf (EMem (EMem (EId "this") "state") "inSectionName")
                                                                                 (SBlock
                                                                                    (SSeq
                                                                                       (SExpr
                                                                                          (ECall
                                                                                             (EMem (EMem (EMem (EId "this") "state") "text") "clear")
                                                                                             []))
                                                                                       (SSeq
                                                                                          (SExpr
                                                                                             (ECall
                                                                                                (EMem
                                                                                                   (EMem (EMem (EId "this") "state") "currentSection")
                                                                                                   "clear") []))
                                                                                          (SSeq
                                                                                             (SExpr
                                                                                                (EAsg "+="
                                                                                                   (EMem (EMem (EId "this") "state") "currentSection")
                                                                                                   (EId "c"))) (SSeq SCont SSkip))))) SSkip) SSkip)))
                                                                     (SBlock
                                                                        (SSeq
                                                                           (SIf (EBin "==" (EId "c") (EChr ":"))
                                                                              (SBlock
                                                                                 (SSeq
                                                                                    (SExpr
                                                                                       (EAsg "="
                                                                                          (EMem (EMem (EId "this") "state") "skipRestOfTheLine")
                                                                                          (EId "true")))
                                                                                    (SSeq
                                                                                       (SExpr
                                                                                          (ECall
                                                                                             (EMem (EMem (EMem (EId "this") "state") "text") "clear")
                                                                                             [])) SSkip)))
                                                                              (SBlock
                                                                                 (SSeq
                                                                                    (SExpr
                                                                                       (EAsg "+=" (EMem (EMem (EId "this") "state") "currentSection")
                                                                                          (EId "c"))) SSkip))) (SSeq SCont SSkip)))) SSkip))
                                                            (SIf (EMem (EMem (EId "this") "state") "inSourceRef")
                                                               (SBlock
                                                                  (SSeq
                                                                     (SIf (EBin "==" (EId "c") (EChr ":"))
                                                                        (SBlock
                                                                           (SSeq
                                                                              (SExpr
                                                                                 (EAsg "=" (EMem (EMem (EId "this") "state") "currentSourceRef")
                                                                                    (EInit (Ty "asm_source" [])
                                                                                       [("file", EMem (EMem (EId "this") "state") "text");
                                                                                        ("line", ENum 0); ("column", ENum 0)])))
                                                                              (SSeq
                                                                                 (SExpr
                                                                                    (EAsg "=" (EMem (EMem (EId "this") "state") "currentFilename")
                                                                                       (EMem (EMem (EMem (EId "this") "state") "currentSourceRef")
                                                                                          "file")))
                                                                                 (SSeq
                                                                                    (SExpr
                                                                                       (ECall
                                                                                          (EMem (EMem (EMem (EId "this") "state") "text") "clear") []))
                                                                                    (SSeq
                                                                                       (SExpr
                                                                                          (ECall (EMem (EId "this") "do_file_check")
                                                                                             [EMem
                                                                                                (EMem (EMem (EId "this") "state") "currentSourceRef")
                                                                                                "file"]))
                                                                                       (SSeq
                                                                                          (SExpr
                                                                                             (EAsg "="
                                                                                                (EMem (EMem (EId "this") "state") "inSourceRef")
                                                                                                (EId "true")))
                                                                                          (SSeq
                                                                                             (SExpr
                                                                                                (EAsg "="
                                                                                                   (EMem (EMem (EId "this") "state")
                                                                                                      "inSourceRefLineNumber") 
                                                                                                   (EId "true"))) (SSeq SCont SSkip))))))))
                                                                        (SIf
                                                                           (EBin "&&" (EMem (EMem (EId "this") "state") "inSourceRefLineNumber")
                                                                              (ECall (EId "is_whitespace") [EId "c"]))
                                                                           (SBlock
                                                                              (SSeq
                                                                                 (SExpr (ECall (EMem (EId "this") "updateSourceRefLineNumber") []))
                                                                                 (SSeq
                                                                                    (SExpr
                                                                                       (ECall
                                                                                          (EMem (EMem (EMem (EId "this") "state") "text") "clear") []))
                                                                                    (SSeq
                                                                                       (SExpr
                                                                                          (EAsg "="
                                                                                             (EMem (EMem (EId "this") "state") "skipRestOfTheLine")
                                                                                             (EId "true"))) (SSeq SCont SSkip))))) SSkip)) SSkip))
                                                               (SIf (EUn "!" (EMem (EMem (EId "this") "state") "inComment"))
                                                                  (SBlock
                                                                     (SSeq
                                                                        (SIf (EBin "==" (EId "c") (EChr "#"))
                                                                           (SBlock
                                                                              (SSeq
                                                                                 (SExpr
                                                                                    (EAsg "=" (EMem (EMem (EId "this") "state") "inComment")
                                                                                       (EId "true"))) SSkip))
                                                                           (SIf (EBin "==" (EId "c") (EChr "<"))
                                                                              (SBlock
                                                                                 (SSeq
                                                                                    (SExpr
                                                                                       (EAsg "="
                                                                                          (EMem (EMem (EId "this") "state") "inSomethingWithALabel")
                                                                                          (EId "true")))
                                                                                    (SSeq
                                                                                       (SExpr
                                                                                          (EAsg "="
                                                                                             (EMem
                                                                                                (EMem (EMem (EId "this") "state")
                                                                                                   "currentLabelReference") "range")
                                                                                             (EInit (Ty "asm_range" [])
                                                                                                [("start_col",
                                                                                                  ECast (Ty "uint16_t" [])
                                                                                                    (EBin "+"
                                                                                                       (ECall (EId "ustrlen")
                                                                                                          [EMem (EMem (EId "this") "state") "text"])
                                                                                                       (ENum 1)));
                                                                                                 ("end_col", ECast (Ty "uint16_t" []) (ENum 0))])))
                                                                                       SSkip)))
                                                                              (SIf (EMem (EMem (EId "this") "state") "inSomethingWithALabel")
                                                                                 (SBlock
                                                                                    (SSeq
                                                                                       (SIf (EBin "==" (EId "c") (EChr ">"))
                                                                                          (SBlock
                                                                                             (SSeq
                                                                                                (SExpr
                                                                                                   (EAsg "="
                                                                                                      (EMem (EMem (EId "this") "state")
                                                                                                         "inSomethingWithALabel") 
                                                                                                      (EId "false")))
                                                                                                (SSeq
                                                                                                   (SIf
                                                                                                      (ECall
                                                                                                         (EMem
                                                                                                            (EMem
                                                                                                               (EMem (EMem (EId "this") "state")
                                                                                                                  "currentLabelReference") "name")
                                                                                                            "empty") [])
                                                                                                      (SBlock
                                                                                                         (SSeq
                                                                                                            (SExpr
                                                                                                               (ECall (EMem (EId "this") "labelref")
                                                                                                                  [])) SSkip)) SSkip) SSkip)))
                                                                                          (SIf (EBin "==" (EId "c") (EChr "+"))
                                                                                             (SBlock
                                                                                                (SSeq
                                                                                                   (SExpr
                                                                                                      (EAsg "="
                                                                                                         (EMem (EMem (EId "this") "state")
                                                                                                            "inSomethingWithALabel") 
                                                                                                         (EId "false")))
                                                                                                   (SSeq
                                                                                                      (SExpr
                                                                                                         (ECall (EMem (EId "this") "labelref") []))
                                                                                                      SSkip))) SSkip)) SSkip)) SSkip))) SSkip)) SSkip)))))))
                                             (SSeq
                                                (SIf
                                                   (EBin "&&" (ECall (EId "is_whitespace") [EId "c"])
                                                      (ECall (EMem (EMem (EMem (EId "this") "state") "text") "empty") [])) SCont SSkip)
                                                (SSeq (SExpr (EAsg "+=" (EMem (EMem (EId "this") "state") "text") (EId "c"))) SSkip)))) SSkip)))
                              SSkip))) SSkip)))).
Definition objdump_parser_outputText : stmt :=
  (SSeq
            (SForIn true "line" (EMem (EId "this") "lines")
               (SBlock (SSeq (SExpr (EBin "<<" (EBin "<<" (EId "out") (EMem (EId "line") "text")) (EStr ["010"%char]))) SSkip))) SSkip).
Definition objdump_parser_items : list item :=
  [IFun
          {|
            fn_class := "ObjDumpParserState";
            fn_name := "commonReset";
            fn_ret := Some (Ty "void" []);
            fn_params := [];
            fn_dflt := [];
            fn_body := Some objdump_parser_commonReset
          |};
        IFun
          {|
            fn_class := "ObjDumpParser";
            fn_name := "ObjDumpParser";
            fn_ret := None;
            fn_params := [("filter", Ty "Filter" [])];
            fn_dflt := [];
            fn_body := Some objdump_parser_ObjDumpParser
          |};
        IFun
          {|
            fn_class := "ObjDumpParser";
            fn_name := "updateSourceRefLineNumber";
            fn_ret := Some (Ty "void" []);
            fn_params := [];
            fn_dflt := [];
            fn_body := Some objdump_parser_updateSourceRefLineNumber
          |};
        IFun {| fn_class := "ObjDumpParser"; fn_name := "eol"; fn_ret := Some (Ty "void" []); fn_params := []; fn_dflt := []; fn_body := Some objdump_parser_eol |};
        IFun
          {|
            fn_class := "ObjDumpParser";
            fn_name := "maybe_remove_last_function";
            fn_ret := Some (Ty "void" []);
            fn_params := [];
            fn_dflt := [];
            fn_body := Some objdump_parser_maybe_remove_last_function
          |};
        IFun {| fn_class := "ObjDumpParser"; fn_name := "label"; fn_ret := Some (Ty "void" []); fn_params := []; fn_dflt := []; fn_body := Some objdump_parser_label |};
        IFun {| fn_class := "ObjDumpParser"; fn_name := "labelref"; fn_ret := Some (Ty "void" []); fn_params := []; fn_dflt := []; fn_body := Some objdump_parser_labelref |};
        IFun {| fn_class := "ObjDumpParser"; fn_name := "opcodes"; fn_ret := Some (Ty "void" []); fn_params := []; fn_dflt := []; fn_body := Some objdump_parser_opcodes |};
        IFun
          {|
            fn_class := "ObjDumpParser";
            fn_name := "actually_address";
            fn_ret := Some (Ty "void" []);
            fn_params := [];
            fn_dflt := [];
            fn_body := Some objdump_parser_actually_address
          |};
        IFun
          {|
            fn_class := "ObjDumpParser";
            fn_name := "undo_last_line_if_label";
            fn_ret := Some (Ty "void" []);
            fn_params := [];
            fn_dflt := [];
            fn_body := Some objdump_parser_undo_last_line_if_label
          |};
        IFun
          {|
            fn_class := "ObjDumpParser";
            fn_name := "do_file_check";
            fn_ret := Some (Ty "void" []);
            fn_params := [("filename", Ty "std::string_view" [])];
            fn_dflt := [];
            fn_body := Some objdump_parser_do_file_check
          |};
        IFun
          {|
            fn_class := "ObjDumpParser";
            fn_name := "actually_filename";
            fn_ret := Some (Ty "void" []);
            fn_params := [];
            fn_dflt := [];
            fn_body := Some objdump_parser_actually_filename
          |};
        IFun {| fn_class := "ObjDumpParser"; fn_name := "address"; fn_ret := Some (Ty "void" []); fn_params := []; fn_dflt := []; fn_body := Some objdump_parser_address |};
        IFun
          {|
            fn_class := "ObjDumpParser"; fn_name := "setReproducible"; fn_ret := Some (Ty "void" []); fn_params := []; fn_dflt := []; fn_body := Some objdump_parser_setReproducible
          |};
        IFun
          {|
            fn_class := "ObjDumpParser";
            fn_name := "fromStream";
            fn_ret := Some (Ty "void" []);
            fn_params := [("in", Ty "std::istream" [])];
            fn_dflt := [];
            fn_body := Some objdump_parser_fromStream
          |};
        IFun
          {|
            fn_class := "ObjDumpParser";
            fn_name := "outputJson";
            fn_ret := Some (Ty "void" []);
            fn_params := [("out", Ty "std::ostream" [])];
            fn_dflt := [];
            fn_body := None
          |};
        IFun
          {|
            fn_class := "ObjDumpParser";
            fn_name := "outputDebugJson";
            fn_ret := Some (Ty "void" []);
            fn_params := [("out", Ty "std::ostream" [])];
            fn_dflt := [];
            fn_body := None
          |};
        IFun
          {|
            fn_class := "ObjDumpParser";
            fn_name := "outputText";
            fn_ret := Some (Ty "void" []);
            fn_params := [("out", Ty "std::ostream" [])];
            fn_dflt := [];
            fn_body := Some objdump_parser_outputText
          |}].
Lemma objdump_parser_read : read_file objdump_parser_cpp = Some objdump_parser_items.
Proof. vm_compute. reflexivity. Qed.

Definition objdump_parser_h_items : list item :=
  [IStruct "ObjDumpParserState"
          [("inComment", Ty "bool" [], None); ("inSomethingWithALabel", Ty "bool" [], None); ("hasPrefixingWhitespace", Ty "bool" [], None);
           ("inAddress", Ty "bool" [], None); ("inLabel", Ty "bool" [], None); ("inOpcodes", Ty "bool" [], None);
           ("inSectionStart", Ty "bool" [], None); ("inSectionName", Ty "bool" [], None); ("inSourceRef", Ty "bool" [], None);
           ("inSourceRefLineNumber", Ty "bool" [], None); ("inRelocation", Ty "bool" [], None); ("skipRestOfTheLine", Ty "bool" [], None);
           ("stopParsing", Ty "bool" [], None); ("ignoreUntilNextLabel", Ty "bool" [], None); ("checkNextFileForLibraryCode", Ty "bool" [], None);
           ("currentLabelReference", Ty "asm_label" [], None); ("currentSourceRef", Ty "asm_source" [], None);
           ("previousLabel", Ty "std::string" [], None); ("text", Ty "std::string" [], None); ("currentFilename", Ty "std::string" [], None);
           ("currentSection", Ty "std::string" [], None); ("currentLine", Ty "asm_line" [], None)];
        IStruct "ObjDumpParser"
          [("filter", Ty "Filter" [], None); ("state", Ty "ObjDumpParserState" [], None); ("lib_detection", Ty "LibraryDetection" [], None);
           ("lines", Ty "std::vector" [Ty "asm_line" []], None); ("labels", Ty "std::vector" [Ty "asm_labelpair_t" []], None);
           ("reproducible", Ty "bool" [], None); ("total_lines", Ty "size_t" [], None)]].
Lemma objdump_parser_h_read : read_file objdump_parser_hpp = Some objdump_parser_h_items.
Proof. vm_compute. reflexivity. Qed.

Definition assembly_parser_AssemblyTextParser : stmt :=
  (SSeq (SExpr (EAsg "=" (EMem (EId "this") "reproducible") (EId "false"))) SSkip).
Definition assembly_parser_setReproducible : stmt :=
  (SSeq (SExpr (EAsg "=" (EMem (EId "this") "reproducible") (EId "true"))) SSkip).
Definition assembly_parser_str_contains : stmt :=
  (SSeq (SDecl (Ty "auto" []) false "found" (Some (ECall (EMem (EId "s") "find") [EId "c"])))
            (SSeq (SRet (Some (EBin "!=" (EId "found") (EId "std::string::npos")))) SSkip)).
Definition assembly_parser_handleStabs : stmt :=
  (SSeq (SDecl (Ty "auto" []) false "stabs_opt" (Some (ECall (EId "getSourceInfoFromStabs") [EId "line"])))
            (SSeq
               (SIf (EId "stabs_opt")
                  (SBlock
                     (SSeq (SBind ["type"; "iline"] (ECall (EMem (EId "stabs_opt") "value") []))
                        (SSeq
                           (SIf (EBin "==" (EId "type") (ENum 68))
                              (SBlock
                                 (SSeq
                                    (SExpr
                                       (EAsg "=" (EMem (EMem (EId "this") "state") "currentSourceRef")
                                          (EInit (Ty "asm_source_v" [])
                                             [("file", EBrace []); ("file_idx", ENum 0); ("line", EId "iline"); ("column", ENum 0);
                                              ("is_end", EId "false"); ("is_usercode", EId "false"); ("inside_proc", EId "false")]))) SSkip))
                              (SIf (EBin "||" (EBin "==" (EId "type") (ENum 100)) (EBin "==" (EId "type") (ENum 132)))
                                 (SBlock
                                    (SSeq (SExpr (EAsg "=" (EMem (EMem (EId "this") "state") "currentSourceRef") (EBrace [])))
                                       (SSeq (SExpr (EAsg "=" (EMem (EMem (EId "this") "state") "previousLabel") (EBrace []))) SSkip))) SSkip))
                           (SSeq (SRet (Some (EId "true"))) SSkip)))) SSkip) (SSeq (SRet (Some (EId "false"))) SSkip))).
Definition assembly_parser_handleFiledef : stmt :=
  (SSeq (SDecl (Ty "auto" []) false "opt_file_def" (Some (ECall (EId "getFileDef") [EId "line"])))
            (SSeq
               (SIf (EId "opt_file_def")
                  (SBlock
                     (SSeq (SDecl (Ty "auto" []) false "file_def" (Some (ECall (EMem (EId "opt_file_def") "value") [])))
                        (SSeq (SExpr (EAsg "=" (EIdx (EId "files") (EMem (EId "file_def") "file_index")) (EMem (EId "file_def") "file_name")))
                           (SSeq (SRet (Some (EId "true"))) SSkip)))) SSkip) (SSeq (SRet (Some (EId "false"))) SSkip))).
Definition assembly_parser_handleSource : stmt :=
  (SSeq (SBind ["file_index"; "line_index"; "column"] (ECall (EId "getSourceRef") [EId "line"]))
            (SSeq
               (SIf (EBin "!=" (EId "file_index") (ENum 0))
                  (SBlock
                     (SSeq (SExpr (EAsg "=" (EMem (EMem (EId "this") "state") "hasProcMarkers") (EId "true")))
                        (SSeq (SExpr (EAsg "=" (EMem (EMem (EMem (EId "this") "state") "currentSourceRef") "file_idx") (EId "file_index")))
                           (SSeq (SExpr (EAsg "=" (EMem (EMem (EMem (EId "this") "state") "currentSourceRef") "line") (EId "line_index")))
                              (SSeq (SExpr (EAsg "=" (EMem (EMem (EMem (EId "this") "state") "currentSourceRef") "column") (EId "column")))
                                 (SSeq (SExpr (EAsg "=" (EMem (EMem (EMem (EId "this") "state") "currentSourceRef") "inside_proc") (EId "true")))
                                    (SSeq
                                       (SExpr
                                          (ECall (EMem (EId "this") "amendPreviousLinesWith") [EMem (EMem (EId "this") "state") "currentSourceRef"]))
                                       (SSeq (SRet (Some (EId "true"))) SSkip)))))))) SSkip) (SSeq (SRet (Some (EId "false"))) SSkip))).
Definition assembly_parser_getLabelFromLine : stmt :=
  (SSeq (SDecl (Ty "auto" []) false "match_label" (Some (ECall (EId "getLabel") [EId "line"])))
            (SSeq (SIf (EId "match_label") (SBlock (SSeq (SRet (Some (EId "match_label"))) SSkip)) SSkip)
               (SSeq (SDecl (Ty "auto" []) false "match_label_assign" (Some (ECall (EId "getLabelAssignment") [EId "line"])))
                  (SSeq
                     (SIf (EId "match_label_assign")
                        (SBlock
                           (SSeq (SExpr (EAsg "=" (EMem (EMem (EMem (EId "this") "state") "currentLine") "is_assignment") (EId "true")))
                              (SSeq (SRet (Some (EId "match_label_assign"))) SSkip))) SSkip)
                     (SSeq (SDecl (Ty "auto" []) false "match_assign" (Some (ECall (EId "getAssignmentDef") [EId "line"])))
                        (SSeq
                           (SIf (EId "match_assign")
                              (SBlock
                                 (SSeq (SExpr (EAsg "=" (EMem (EMem (EMem (EId "this") "state") "currentLine") "is_assignment") (EId "true")))
                                    (SSeq (SRet (Some (EId "match_assign"))) SSkip))) SSkip)
                           (SSeq (SDecl (Ty "auto" []) false "match_cuda" (Some (ECall (EId "getCudaLabel") [EId "line"])))
                              (SSeq
                                 (SIf (EId "match_cuda")
                                    (SBlock
                                       (SSeq (SExpr (EAsg "=" (EMem (EMem (EId "this") "state") "inNvccDef") (EId "true")))
                                          (SSeq (SExpr (EAsg "=" (EMem (EMem (EId "this") "state") "inNvccCode") (EId "true")))
                                             (SSeq (SRet (Some (EId "match_cuda"))) SSkip)))) SSkip) (SSeq (SRet (Some (EId "std::nullopt"))) SSkip))))))))).
Definition assembly_parser_maybeAddBlank : stmt :=
  (SSeq
            (SDecl (Ty "bool" []) false "lastBlank"
               (Some
                  (EBin "||" (EBin "==" (ECall (EMem (EId "lines") "size") []) (ENum 0))
                     (ECall (EMem (EMem (EIdx (EId "lines") (EBin "-" (ECall (EMem (EId "lines") "size") []) (ENum 1))) "text") "empty") []))))
            (SSeq
               (SIf (EUn "!" (EId "lastBlank")) (SExpr (ECall (EMem (EId "lines") "emplace_back") [ETCall "std::make_unique" "asm_line_v" []])) SSkip)
               SSkip)).
Definition assembly_parser_isEmptyOrJustWhitespace : stmt :=
  (SSeq (SIf (ECall (EMem (EId "line") "empty") []) (SRet (Some (EId "true"))) SSkip)
            (SSeq
               (SForIn false "c" (EId "line")
                  (SBlock (SSeq (SIf (EUn "!" (ECall (EId "is_whitespace") [EId "c"])) (SRet (Some (EId "false"))) SSkip) SSkip)))
               (SSeq (SRet (Some (EId "true"))) SSkip))).
Definition assembly_parser_handleD2 : stmt :=
  (SSeq (SDecl (Ty "auto" []) false "match_line" (Some (ECall (EId "getD2LineInfo") [EId "line"])))
            (SSeq
               (SIf (EId "match_line")
                  (SBlock
                     (SSeq (SDecl (Ty "auto" []) false "line_source" (Some (ECall (EMem (EId "match_line") "value") [])))
                        (SSeq
                           (SDecl (Ty "auto" []) false "match_stdin"
                              (Some (ECall (EId "isExampleOrStdin") [EMem (EMem (EId "this") "state") "currentSourceFile"])))
                           (SSeq
                              (SExpr
                                 (EAsg "=" (EMem (EMem (EId "this") "state") "currentSourceRef")
                                    (EInit (Ty "asm_source_v" [])
                                       [("file", EMem (EMem (EId "this") "state") "currentSourceFile"); ("file_idx", ENum 0);
                                        ("line", EMem (EId "line_source") "line"); ("column", ENum 0); ("is_end", EId "false");
                                        ("is_usercode", EId "match_stdin"); ("inside_proc", EId "false")])))
                              (SSeq
                                 (SExpr (ECall (EMem (EId "this") "amendPreviousLinesWith") [EMem (EMem (EId "this") "state") "currentSourceRef"]))
                                 (SSeq (SRet (Some (EId "true"))) SSkip))))))
                  (SBlock
                     (SSeq (SDecl (Ty "auto" []) false "match_file" (Some (ECall (EId "getD2FileInfo") [EId "line"])))
                        (SSeq
                           (SIf (EId "match_file")
                              (SBlock
                                 (SSeq (SDecl (Ty "auto" []) false "file_source" (Some (ECall (EMem (EId "match_file") "value") [])))
                                    (SSeq (SExpr (EAsg "=" (EMem (EMem (EId "this") "state") "currentSourceFile") (EMem (EId "file_source") "file")))
                                       (SSeq (SRet (Some (EId "true"))) SSkip)))) SSkip) SSkip)))) (SSeq (SRet (Some (EId "false"))) SSkip))).
Definition assembly_parser_handle6502 : stmt :=
  (SSeq (SDecl (Ty "auto" []) false "match" (Some (ECall (EId "get6502DbgInfo") [EId "line"])))
            (SSeq
               (SIf (EId "match")
                  (SBlock
                     (SSeq (SDecl (Ty "auto" []) false "source" (Some (ECall (EMem (EId "match") "value") [])))
                        (SSeq
                           (SIf (EUn "!" (EMem (EId "source") "is_end"))
                              (SExpr
                                 (EAsg "=" (EMem (EMem (EId "this") "state") "currentSourceRef")
                                    (EInit (Ty "asm_source_v" [])
                                       [("file", EMem (EId "source") "file"); ("file_idx", ENum 0); ("line", EMem (EId "source") "line");
                                        ("column", ENum 0); ("is_end", EId "false"); ("is_usercode", EId "false"); ("inside_proc", EId "false")])))
                              SSkip) (SSeq (SRet (Some (EId "true"))) SSkip)))) SSkip) (SSeq (SRet (Some (EId "false"))) SSkip))).
Definition assembly_parser_handleSection : stmt :=
  (SSeq (SDecl (Ty "auto" []) false "match" (Some (ECall (EId "getSectionNameDef") [EId "line"])))
            (SSeq
               (SIf (EId "match")
                  (SBlock
                     (SSeq (SExpr (EAsg "=" (EMem (EMem (EId "this") "state") "currentSection") (ECall (EMem (EId "match") "value") [])))
                        (SSeq (SRet (Some (EId "true"))) SSkip))) SSkip) (SSeq (SRet (Some (EId "false"))) SSkip))).
Definition assembly_parser_extractUsedLabelsFromDirective : stmt :=
  (SSeq (SDecl (Ty "auto" []) false "weakDef" (Some (ECall (EId "getWeakDefinedLabel") [EId "line"])))
            (SSeq
               (SIf (EId "weakDef")
                  (SBlock
                     (SSeq
                        (SExpr
                           (ECall (EMem (EIdx (EMem (EId "this") "used_labels") (ECall (EMem (EId "weakDef") "value") [])) "insert")
                              [EMem (EMem (EId "this") "state") "previousLabel"])) SSkip))
                  (SBlock
                     (SSeq (SDecl (Ty "auto" []) false "globalDef" (Some (ECall (EId "getGlobalDefinedLabel") [EId "line"])))
                        (SSeq
                           (SIf (EId "globalDef")
                              (SBlock
                                 (SSeq
                                    (SExpr (ECall (EMem (EMem (EId "this") "usercode_labels") "insert") [ECall (EMem (EId "globalDef") "value") []]))
                                    (SSeq
                                       (SExpr
                                          (ECall (EMem (EIdx (EMem (EId "this") "used_labels") (ECall (EMem (EId "globalDef") "value") [])) "insert")
                                             [EMem (EMem (EId "this") "state") "previousLabel"])) SSkip))) SSkip) SSkip)))) SSkip)).
Definition assembly_parser_extractUsedLabelsFromOpcodeLine : stmt :=
  (SSeq (SExpr (EAsg "=" (EMem (EMem (EMem (EId "this") "state") "currentLine") "labels") (ECall (EId "getUsedLabelsInLine") [EId "line"])))
            (SSeq
               (SForIn true "label_ref" (EMem (EMem (EMem (EId "this") "state") "currentLine") "labels")
                  (SBlock
                     (SSeq
                        (SIf (EBin "!=" (EMem (EId "label_ref") "name") (EMem (EMem (EId "this") "state") "previousParentLabel"))
                           (SExpr
                              (ECall (EMem (EIdx (EMem (EId "this") "used_labels") (EMem (EId "label_ref") "name")) "insert")
                                 [EMem (EMem (EId "this") "state") "previousParentLabel"])) SSkip) SSkip))) SSkip)).
Definition assembly_parser_extractUsedLabelsFromDataLine : stmt :=
  (SSeq (SExpr (EAsg "=" (EMem (EMem (EMem (EId "this") "state") "currentLine") "labels") (ECall (EId "getUsedLabelsInLine") [EId "line"])))
            (SSeq
               (SForIn true "label_ref" (EMem (EMem (EMem (EId "this") "state") "currentLine") "labels")
                  (SBlock
                     (SSeq
                        (SExpr
                           (ECall (EMem (EIdx (EMem (EId "this") "data_used_labels") (EMem (EId "label_ref") "name")) "insert")
                              [EMem (EMem (EId "this") "state") "previousLabel"]))
                        (SSeq
                           (SIf (EMem (EMem (EMem (EId "this") "state") "currentSourceRef") "inside_proc")
                              (SBlock
                                 (SSeq
                                    (SExpr
                                       (ECall (EMem (EIdx (EMem (EId "this") "data_used_labels") (EMem (EId "label_ref") "name")) "insert")
                                          [EMem (EMem (EId "this") "state") "previousParentLabel"])) SSkip)) SSkip) SSkip)))) SSkip)).
Definition assembly_parser_handleLabelAliasing : stmt :=
  (SSeq
            (SIf (EUn "!" (ECall (EMem (EMem (EMem (EId "this") "state") "previousLabelOnSameAddress") "empty") []))
               (SBlock
                  (SSeq
                     (SIf (EUn "!" (EMem (EMem (EMem (EId "this") "state") "currentLine") "is_assignment"))
                        (SBlock
                           (SSeq
                              (SIf (EMem (EMem (EMem (EId "this") "state") "currentLine") "is_label")
                                 (SBlock
                                    (SSeq
                                       (SExpr
                                          (EAsg "="
                                             (EIdx (EMem (EId "this") "aliased_labels")
                                                (EMem (EMem (EMem (EId "this") "state") "currentLine") "label"))
                                             (EMem (EMem (EId "this") "state") "previousLabelOnSameAddress"))) SSkip))
                                 (SIf
                                    (EBin "||" (EMem (EMem (EMem (EId "this") "state") "currentLine") "has_opcode")
                                       (EMem (EMem (EMem (EId "this") "state") "currentLine") "is_data"))
                                    (SBlock
                                       (SSeq (SExpr (EAsg "=" (EMem (EMem (EId "this") "state") "previousLabelOnSameAddress") (EBrace []))) SSkip))
                                    SSkip)) SSkip))
                        (SBlock (SSeq (SExpr (EAsg "=" (EMem (EMem (EId "this") "state") "previousLabelOnSameAddress") (EBrace []))) SSkip))) SSkip))
               SSkip)
            (SSeq
               (SIf
                  (EBin "&&" (EMem (EMem (EMem (EId "this") "state") "currentLine") "is_label")
                     (EUn "!" (EMem (EMem (EMem (EId "this") "state") "currentLine") "is_assignment")))
                  (SBlock
                     (SSeq
                        (SExpr
                           (EAsg "=" (EMem (EMem (EId "this") "state") "previousLabelOnSameAddress")
                              (EMem (EMem (EMem (EId "this") "state") "currentLine") "label"))) SSkip)) SSkip) SSkip)).
Definition assembly_parser_handleLabelDefinition : stmt :=
  (SSeq (SDecl (Ty "auto" []) false "found_label" (Some (ECall (EMem (EId "this") "getLabelFromLine") [EId "line"])))
            (SSeq
               (SIf (EId "found_label")
                  (SBlock
                     (SSeq
                        (SExpr
                           (EAsg "=" (EMem (EMem (EMem (EId "this") "state") "currentLine") "label") (ECall (EMem (EId "found_label") "value") [])))
                        (SSeq (SExpr (EAsg "=" (EMem (EMem (EMem (EId "this") "state") "currentLine") "is_label") (EId "true")))
                           (SSeq
                              (SExpr
                                 (EAsg "=" (EMem (EMem (EMem (EId "this") "state") "currentLine") "is_internal_label")
                                    (ECall (EMem (EId "this") "isInternalLabel") [EMem (EMem (EMem (EId "this") "state") "currentLine") "label"])))
                              (SSeq
                                 (SExpr
                                    (EAsg "=" (EMem (EMem (EId "this") "state") "previousLabel")
                                       (EMem (EMem (EMem (EId "this") "state") "currentLine") "label")))
                                 (SSeq
                                    (SExpr
                                       (EAsg "="
                                          (EIdx (EMem (EId "this") "labels_defined") (EMem (EMem (EMem (EId "this") "state") "currentLine") "label"))
                                          (ECast (Ty "int32_t" []) (EBin "+" (ECall (EMem (EId "lines") "size") []) (ENum 1)))))
                                    (SSeq
                                       (SIf (EUn "!" (EMem (EMem (EMem (EId "this") "state") "currentLine") "is_internal_label"))
                                          (SBlock
                                             (SSeq
                                                (SExpr
                                                   (EAsg "=" (EMem (EMem (EId "this") "state") "previousParentLabel")
                                                      (EMem (EMem (EMem (EId "this") "state") "currentLine") "label"))) SSkip)) SSkip) SSkip)))))))
                  (SBlock
                     (SSeq (SExpr (EAsg "=" (EMem (EMem (EMem (EId "this") "state") "currentLine") "is_label") (EId "false")))
                        (SSeq (SExpr (EAsg "=" (EMem (EMem (EMem (EId "this") "state") "currentLine") "is_internal_label") (EId "false"))) SSkip))))
               SSkip)).
Definition assembly_parser_eol : stmt :=
  (SSeq (SExpr (EPost "++" (EMem (EId "this") "total_lines")))
            (SSeq (SExpr (EAsg "=" (EMem (EMem (EId "this") "state") "currentLine") (ETCall "std::make_unique" "asm_line_v" [])))
               (SSeq (SDecl (Ty "std::string_view" []) false "line" (Some (EMem (EMem (EId "this") "state") "text")))
                  (SSeq
                     (SIf (EMem (EMem (EId "this") "filter") "comment_only")
                        (SBlock
                           (SSeq (SDecl (Ty "bool" []) false "removeThisLine" (Some (EId "false")))
                              (SSeq
                                 (SIf (EUn "!" (EMem (EMem (EId "this") "state") "hasStartedCommentBlock"))
                                    (SBlock
                                       (SSeq
                                          (SExpr
                                             (EAsg "=" (EMem (EMem (EId "this") "state") "hasStartedCommentBlock")
                                                (ECall (EId "startCommentBlock") [EId "line"]))) SSkip)) SSkip)
                                 (SSeq
                                    (SIf (EMem (EMem (EId "this") "state") "hasStartedCommentBlock")
                                       (SBlock
                                          (SSeq (SExpr (EAsg "=" (EId "removeThisLine") (EId "true")))
                                             (SSeq
                                                (SExpr
                                                   (EAsg "=" (EMem (EMem (EId "this") "state") "hasStartedCommentBlock")
                                                      (EUn "!" (ECall (EId "endCommentBlock") [EId "line"])))) SSkip))) SSkip)
                                    (SSeq
                                       (SIf (EId "removeThisLine")
                                          (SBlock
                                             (SSeq (SExpr (ECall (EMem (EMem (EMem (EId "this") "state") "text") "clear") []))
                                                (SSeq (SRet None) SSkip))) SSkip) SSkip))))) SSkip)
                     (SSeq
                        (SIf (ECall (EId "isEmptyOrJustWhitespace") [EId "line"])
                           (SBlock (SSeq (SExpr (ECall (EId "maybeAddBlank") [])) (SSeq (SRet None) SSkip))) SSkip)
                        (SSeq
                           (SIf (EBin "||" (ECall (EId "startAppBlock") [EId "line"]) (ECall (EId "startAsmNesting") [EId "line"]))
                              (SBlock (SSeq (SExpr (EPost "++" (EMem (EMem (EId "this") "state") "inCustomAssembly"))) SSkip))
                              (SIf (EBin "||" (ECall (EId "endAppBlock") [EId "line"]) (ECall (EId "endAsmNesting") [EId "line"]))
                                 (SBlock (SSeq (SExpr (EPost "--" (EMem (EMem (EId "this") "state") "inCustomAssembly"))) SSkip)) SSkip))
                           (SSeq
                              (SBlock
                                 (SSeq (SDecl (Ty "std::string" []) false "filteredLine" (Some (EBrace [EId "line"])))
                                    (SSeq
                                       (SIf (EBin ">" (EMem (EMem (EId "this") "state") "inCustomAssembly") (ENum 0))
                                          (SBlock
                                             (SSeq (SExpr (EAsg "=" (EId "filteredLine") (ECall (EId "fixLabelIndentation") [EId "filteredLine"])))
                                                SSkip)) SSkip)
                                       (SSeq (SExpr (EAsg "=" (EId "filteredLine") (ECall (EId "expandTabs") [EId "filteredLine"])))
                                          (SSeq
                                             (SIf (EMem (EMem (EId "this") "filter") "whitespace")
                                                (SBlock
                                                   (SSeq
                                                      (SExpr
                                                         (EAsg "=" (EId "filteredLine")
                                                            (ECall (EId "squashHorizontalWhitespaceWithQuotes") [EId "filteredLine"; EId "true"])))
                                                      SSkip)) SSkip)
                                             (SSeq
                                                (SExpr
                                                   (EAsg "=" (EMem (EMem (EMem (EId "this") "state") "currentLine") "text")
                                                      (ECall (EId "std::move") [EId "filteredLine"]))) SSkip))))))
                              (SSeq
                                 (SIf
                                    (EBin "&&" (ECall (EId "startProcBlock") [EMem (EMem (EMem (EId "this") "state") "currentLine") "text"])
                                       (EBin "==" (EMem (EMem (EMem (EId "this") "state") "currentSourceRef") "line") (ENum 0)))
                                    (SBlock
                                       (SSeq (SExpr (ECall (EMem (EId "this") "markPreviousInternalLabelAsInsideProc") []))
                                          (SSeq
                                             (SIf (EMem (EMem (EId "this") "filter") "directives")
                                                (SBlock
                                                   (SSeq (SExpr (ECall (EMem (EMem (EMem (EId "this") "state") "text") "clear") []))
                                                      (SSeq (SRet None) SSkip))) SSkip) SSkip))) SSkip)
                                 (SSeq (SDecl (Ty "bool" []) false "handledSourceDirective" (Some (EId "false")))
                                    (SSeq
                                       (SIf
                                          (EBin "||" (ECall (EId "endBlock") [EMem (EMem (EMem (EId "this") "state") "currentLine") "text"])
                                             (EBin "&&" (EMem (EMem (EId "this") "state") "inNvccCode")
                                                (ECall (EId "str_contains") [EMem (EMem (EMem (EId "this") "state") "currentLine") "text"; EChr "}"])))
                                          (SBlock
                                             (SSeq (SExpr (EAsg "=" (EMem (EMem (EId "this") "state") "currentSourceRef") (EBrace [])))
                                                (SSeq (SExpr (EAsg "=" (EMem (EMem (EId "this") "state") "previousLabel") (EBrace [])))
                                                   (SSeq (SExpr (EAsg "=" (EMem (EMem (EId "this") "state") "lastOwnSource") (EBrace []))) SSkip))))
                                          (SBlock
                                             (SSeq
                                                (SExpr
                                                   (EAsg "=" (EId "handledSourceDirective")
                                                      (ECall (EMem (EId "this") "handleFiledef")
                                                         [EMem (EMem (EMem (EId "this") "state") "currentLine") "text"])))
                                                (SSeq
                                                   (SIf (EUn "!" (EId "handledSourceDirective"))
                                                      (SExpr
                                                         (EAsg "=" (EId "handledSourceDirective")
                                                            (ECall (EMem (EId "this") "handleSource")
                                                               [EMem (EMem (EMem (EId "this") "state") "currentLine") "text"]))) SSkip)
                                                   (SSeq
                                                      (SIf (EUn "!" (EId "handledSourceDirective"))
                                                         (SExpr
                                                            (EAsg "=" (EId "handledSourceDirective")
                                                               (ECall (EMem (EId "this") "handleStabs")
                                                                  [EMem (EMem (EMem (EId "this") "state") "currentLine") "text"]))) SSkip)
                                                      (SSeq
                                                         (SIf (EUn "!" (EId "handledSourceDirective"))
                                                            (SExpr
                                                               (EAsg "=" (EId "handledSourceDirective")
                                                                  (ECall (EMem (EId "this") "handle6502")
                                                                     [EMem (EMem (EMem (EId "this") "state") "currentLine") "text"]))) SSkip)
                                                         (SSeq
                                                            (SIf (EUn "!" (EId "handledSourceDirective"))
                                                               (SExpr
                                                                  (EAsg "=" (EId "handledSourceDirective")
                                                                     (ECall (EMem (EId "this") "handleD2")
                                                                        [EMem (EMem (EMem (EId "this") "state") "currentLine") "text"]))) SSkip)
                                                            SSkip)))))))
                                       (SSeq
                                          (SIf (EUn "!" (EId "handledSourceDirective"))
                                             (SExpr
                                                (ECall (EMem (EId "this") "handleSection")
                                                   [EMem (EMem (EMem (EId "this") "state") "currentLine") "text"])) SSkip)
                                          (SSeq
                                             (SIf
                                                (EBin "&&"
                                                   (EBin "&&" (EMem (EMem (EId "this") "filter") "library_functions")
                                                      (EUn "!" (EMem (EMem (EMem (EId "this") "state") "lastOwnSource") "line")))
                                                   (ECall (EMem (EMem (EMem (EId "this") "state") "currentFilename") "empty") []))
                                                (SBlock
                                                   (SSeq
                                                      (SIf
                                                         (EBin "&&" (EMem (EMem (EId "this") "state") "mayRemovePreviousLabel")
                                                            (EBin ">" (ECall (EMem (EMem (EId "this") "lines") "size") []) (ENum 0)))
                                                         (SBlock
                                                            (SSeq
                                                               (SIf
                                                                  (ECall
                                                                     (EMem
                                                                        (EMem
                                                                           (EIdx (EMem (EId "this") "lines")
                                                                              (EBin "-" (ECall (EMem (EMem (EId "this") "lines") "size") []) (ENum 1)))
                                                                           "text") "empty") [])
                                                                  (SBlock
                                                                     (SSeq
                                                                        (SExpr
                                                                           (EAsg "=" (EMem (EMem (EId "this") "state") "keepInlineCode") (EId "true")))
                                                                        SSkip))
                                                                  (SBlock
                                                                     (SSeq
                                                                        (SIf
                                                                           (EMem
                                                                              (EIdx (EMem (EId "this") "lines")
                                                                                 (EBin "-" (ECall (EMem (EMem (EId "this") "lines") "size") [])
                                                                                    (ENum 1))) "is_label")
                                                                           (SBlock
                                                                              (SSeq (SExpr (ECall (EMem (EMem (EId "this") "lines") "pop_back") []))
                                                                                 (SSeq
                                                                                    (SExpr
                                                                                       (EAsg "=" (EMem (EMem (EId "this") "state") "keepInlineCode")
                                                                                          (EId "false"))) SSkip)))
                                                                           (SBlock
                                                                              (SSeq
                                                                                 (SExpr
                                                                                    (EAsg "=" (EMem (EMem (EId "this") "state") "keepInlineCode")
                                                                                       (EId "true"))) SSkip))) SSkip)))
                                                               (SSeq
                                                                  (SExpr
                                                                     (EAsg "=" (EMem (EMem (EId "this") "state") "mayRemovePreviousLabel")
                                                                        (EId "false"))) SSkip))) SSkip)
                                                      (SSeq
                                                         (SIf (EUn "!" (EMem (EMem (EId "this") "state") "keepInlineCode"))
                                                            (SBlock
                                                               (SSeq (SExpr (ECall (EMem (EMem (EMem (EId "this") "state") "text") "clear") []))
                                                                  (SSeq (SRet None) SSkip))) SSkip) (SSeq SSkip SSkip))))
                                                (SBlock
                                                   (SSeq (SExpr (EAsg "=" (EMem (EMem (EId "this") "state") "mayRemovePreviousLabel") (EId "true")))
                                                      SSkip)))
                                             (SSeq
                                                (SIf
                                                   (EBin "&&" (EMem (EMem (EId "this") "filter") "comment_only")
                                                      (EBin "||"
                                                         (EBin "&&" (ECall (EId "isJustComments") [EId "line"])
                                                            (EUn "!" (EMem (EMem (EId "this") "state") "inNvccCode")))
                                                         (EBin "&&" (ECall (EId "isJustNvccComments") [EId "line"])
                                                            (EMem (EMem (EId "this") "state") "inNvccCode"))))
                                                   (SBlock
                                                      (SSeq (SExpr (ECall (EMem (EMem (EMem (EId "this") "state") "text") "clear") []))
                                                         (SSeq (SRet None) SSkip))) SSkip)
                                                (SSeq
                                                   (SIf (EId "handledSourceDirective")
                                                      (SBlock
                                                         (SSeq
                                                            (SExpr
                                                               (EAsg "=" (EMem (EMem (EMem (EId "this") "state") "currentLine") "is_data")
                                                                  (EId "false")))
                                                            (SSeq
                                                               (SExpr
                                                                  (EAsg "=" (EMem (EMem (EMem (EId "this") "state") "currentLine") "is_directive")
                                                                     (EId "true")))
                                                               (SSeq
                                                                  (SExpr
                                                                     (EAsg "=" (EMem (EMem (EMem (EId "this") "state") "currentLine") "is_label")
                                                                        (EId "false")))
                                                                  (SSeq
                                                                     (SExpr
                                                                        (EAsg "="
                                                                           (EMem (EMem (EMem (EId "this") "state") "currentLine") "is_internal_label")
                                                                           (EId "false"))) SSkip)))))
                                                      (SBlock
                                                         (SSeq
                                                            (SExpr
                                                               (ECall (EMem (EId "this") "handleLabelDefinition")
                                                                  [EMem (EMem (EMem (EId "this") "state") "currentLine") "text"]))
                                                            (SSeq
                                                               (SExpr
                                                                  (EAsg "=" (EMem (EMem (EMem (EId "this") "state") "currentLine") "is_data")
                                                                     (ECall (EId "isDataDefn")
                                                                        [EMem (EMem (EMem (EId "this") "state") "currentLine") "text"])))
                                                               (SSeq
                                                                  (SExpr
                                                                     (EAsg "=" (EMem (EMem (EMem (EId "this") "state") "currentLine") "is_directive")
                                                                        (EId "false"))) SSkip)))))
                                                   (SSeq
                                                      (SIf (EMem (EMem (EId "this") "state") "inNvccDef")
                                                         (SBlock
                                                            (SSeq
                                                               (SIf
                                                                  (ECall (EId "isCudaEndDef")
                                                                     [EMem (EMem (EMem (EId "this") "state") "currentLine") "text"])
                                                                  (SExpr (EAsg "=" (EMem (EMem (EId "this") "state") "inNvccDef") (EId "false")))
                                                                  SSkip) SSkip))
                                                         (SIf
                                                            (EBin "&&" (EUn "!" (EMem (EMem (EMem (EId "this") "state") "currentLine") "is_label"))
                                                               (EUn "!" (EMem (EMem (EMem (EId "this") "state") "currentLine") "is_data")))
                                                            (SBlock
                                                               (SSeq
                                                                  (SIf (EUn "!" (EId "handledSourceDirective"))
                                                                     (SBlock
                                                                        (SSeq
                                                                           (SExpr
                                                                              (EAsg "="
                                                                                 (EMem (EMem (EMem (EId "this") "state") "currentLine")
                                                                                    "is_directive")
                                                                                 (ECall (EId "isDirective")
                                                                                    [EMem (EMem (EMem (EId "this") "state") "currentLine") "text"])))
                                                                           SSkip)) SSkip)
                                                                  (SSeq
                                                                     (SIf
                                                                        (EBin "&&"
                                                                           (EMem (EMem (EMem (EId "this") "state") "currentLine") "is_directive")
                                                                           (EUn "!"
                                                                              (ECall (EId "isInstOpcode")
                                                                                 [EMem (EMem (EMem (EId "this") "state") "currentLine") "text"])))
                                                                        (SBlock
                                                                           (SSeq
                                                                              (SExpr
                                                                                 (ECall (EMem (EId "this") "extractUsedLabelsFromDirective")
                                                                                    [EMem (EMem (EMem (EId "this") "state") "currentLine") "text"]))
                                                                              (SSeq
                                                                                 (SIf (EMem (EMem (EId "this") "filter") "directives")
                                                                                    (SBlock
                                                                                       (SSeq
                                                                                          (SExpr
                                                                                             (ECall
                                                                                                (EMem
                                                                                                   (EMem (EMem (EId "this") "state") "filteredlines")
                                                                                                   "push_back")
                                                                                                [ECall (EId "std::move")
                                                                                                   [EMem (EMem (EId "this") "state") "currentLine"]]))
                                                                                          (SSeq
                                                                                             (SExpr
                                                                                                (ECall
                                                                                                   (EMem (EMem (EMem (EId "this") "state") "text")
                                                                                                      "clear") [])) (SSeq (SRet None) SSkip)))) SSkip)
                                                                                 SSkip))) SSkip) SSkip))) SSkip))
                                                      (SSeq
                                                         (SExpr
                                                            (EAsg "=" (EMem (EMem (EMem (EId "this") "state") "currentLine") "is_inline_asm")
                                                               (EBin ">" (EMem (EMem (EId "this") "state") "inCustomAssembly") (ENum 0))))
                                                         (SSeq
                                                            (SExpr
                                                               (EAsg "=" (EMem (EMem (EMem (EId "this") "state") "currentLine") "has_opcode")
                                                                  (ECall (EId "hasOpcode")
                                                                     [EMem (EMem (EMem (EId "this") "state") "currentLine") "text";
                                                                      EMem (EMem (EId "this") "state") "inNvccCode"])))
                                                            (SSeq
                                                               (SExpr
                                                                  (ECall
                                                                     (EMem (EMem (EMem (EMem (EId "this") "state") "currentLine") "labels") "clear")
                                                                     []))
                                                               (SSeq
                                                                  (SIf
                                                                     (EBin "&&"
                                                                        (EUn "!" (EMem (EMem (EMem (EId "this") "state") "currentLine") "is_label"))
                                                                        (EMem (EMem (EMem (EId "this") "state") "currentLine") "has_opcode"))
                                                                     (SBlock
                                                                        (SSeq
                                                                           (SExpr
                                                                              (ECall (EMem (EId "this") "extractUsedLabelsFromOpcodeLine")
                                                                                 [EMem (EMem (EMem (EId "this") "state") "currentLine") "text"]))
                                                                           SSkip)) SSkip)
                                                                  (SSeq
                                                                     (SIf
                                                                        (EBin "&&"
                                                                           (EUn "!"
                                                                              (EMem (EMem (EMem (EId "this") "state") "currentLine") "is_label"))
                                                                           (EMem (EMem (EMem (EId "this") "state") "currentLine") "is_data"))
                                                                        (SBlock
                                                                           (SSeq
                                                                              (SExpr
                                                                                 (ECall (EMem (EId "this") "extractUsedLabelsFromDataLine")
                                                                                    [EMem (EMem (EMem (EId "this") "state") "currentLine") "text"]))
                                                                              SSkip)) SSkip)
                                                                     (SSeq
                                                                        (SIf
                                                                           (EBin "||"
                                                                              (EMem (EMem (EMem (EId "this") "state") "currentLine") "is_assignment")
                                                                              (EBin "=="
                                                                                 (EMem (EMem (EMem (EId "this") "state") "currentLine") "label")
                                                                                 (EMem (EMem (EId "this") "state") "previousParentLabel")))
                                                                           (SBlock
                                                                              (SSeq
                                                                                 (SExpr
                                                                                    (ECall
                                                                                       (EMem
                                                                                          (EMem (EMem (EMem (EId "this") "state") "currentLine")
                                                                                             "closest_parent_label") "clear") [])) SSkip))
                                                                           (SBlock
                                                                              (SSeq
                                                                                 (SExpr
                                                                                    (EAsg "="
                                                                                       (EMem (EMem (EMem (EId "this") "state") "currentLine")
                                                                                          "closest_parent_label")
                                                                                       (EMem (EMem (EId "this") "state") "previousParentLabel")))
                                                                                 SSkip)))
                                                                        (SSeq
                                                                           (SExpr
                                                                              (EAsg "="
                                                                                 (EMem (EMem (EMem (EId "this") "state") "currentLine") "source")
                                                                                 (EMem (EMem (EId "this") "state") "currentSourceRef")))
                                                                           (SSeq
                                                                              (SExpr
                                                                                 (EAsg "="
                                                                                    (EMem (EMem (EMem (EId "this") "state") "currentLine") "section")
                                                                                    (EMem (EMem (EId "this") "state") "currentSection")))
                                                                              (SSeq (SExpr (ECall (EMem (EId "this") "handleLabelAliasing") []))
                                                                                 (SSeq
                                                                                    (SExpr
                                                                                       (ECall (EMem (EMem (EId "this") "lines") "push_back")
                                                                                          [ECall (EId "std::move")
                                                                                             [EMem (EMem (EId "this") "state") "currentLine"]]))
                                                                                    (SSeq
                                                                                       (SExpr
                                                                                          (ECall
                                                                                             (EMem (EMem (EMem (EId "this") "state") "text") "clear")
                                                                                             [])) SSkip)))))))))))))))))))))))))).
Definition assembly_parser_isInternalLabel : stmt :=
  (SSeq
            (SRet
               (Some
                  (EBin "||"
                     (EBin "||" (ECall (EMem (EId "label") "starts_with") [EStr ["."%char]])
                        (ECall (EMem (EId "label") "starts_with") [EStr ["$"%char]])) (ECall (EMem (EId "label") "starts_with") [EStr ["L"%char]]))))
            SSkip).
Definition assembly_parser_amendPreviousLinesWith : stmt :=
  (SSeq
            (SFor (SDecl (Ty "auto" []) false "it" (Some (ECall (EMem (EMem (EId "this") "lines") "rbegin") [])))
               (EBin "!=" (EId "it") (ECall (EMem (EMem (EId "this") "lines") "rend") [])) (Some (EPost "++" (EId "it")))
               (SBlock
                  (SSeq (SDecl (Ty "auto" []) true "line" (Some (EUn "*" (EId "it"))))
                     (SSeq
                        (SIf (EMem (EId "line") "is_label")
                           (SBlock
                              (SSeq
                                 (SExpr
                                    (EAsg "=" (EMem (EId "line") "source")
                                       (EInit (Ty "asm_source_v" [])
                                          [("file", EMem (EId "source") "file"); ("file_idx", EMem (EId "source") "file_idx");
                                           ("line", EMem (EId "source") "line"); ("column", EMem (EId "source") "column"); (
                                           "is_end", EId "false");
                                           ("is_usercode",
                                            EBin "&&" (EMem (EId "source") "is_usercode") (EUn "!" (EMem (EId "line") "is_internal_label")));
                                           ("inside_proc", EMem (EId "source") "inside_proc")])))
                                 (SSeq (SIf (EUn "!" (EMem (EId "line") "is_internal_label")) (SBlock (SSeq SBreak SSkip)) SSkip) SSkip)))
                           (SBlock (SSeq SBreak SSkip))) SSkip)))) SSkip).
Definition assembly_parser_markPreviousInternalLabelAsInsideProc : stmt :=
  (SSeq
            (SFor (SDecl (Ty "auto" []) false "it" (Some (ECall (EMem (EMem (EId "this") "lines") "rbegin") [])))
               (EBin "!=" (EId "it") (ECall (EMem (EMem (EId "this") "lines") "rend") [])) (Some (EPost "++" (EId "it")))
               (SBlock
                  (SSeq (SDecl (Ty "auto" []) true "line" (Some (EUn "*" (EId "it"))))
                     (SSeq
                        (SIf (EMem (EId "line") "is_label")
                           (SBlock
                              (SSeq
                                 (SIf (EMem (EId "line") "is_internal_label")
                                    (SBlock (SSeq (SExpr (EAsg "=" (EMem (EMem (EId "line") "source") "inside_proc") (EId "true"))) SSkip)) SSkip)
                                 (SSeq SBreak SSkip))) (SBlock (SSeq SBreak SSkip))) SSkip)))) SSkip).
Definition assembly_parser_filterOutReferedLabelsThatArentDefined : stmt :=
  (SSeq
            (SFor (SDecl (Ty "auto" []) false "it" (Some (ECall (EMem (EMem (EId "line") "labels") "begin") [])))
               (EBin "!=" (EId "it") (ECall (EMem (EMem (EId "line") "labels") "end") [])) None
               (SBlock
                  (SSeq (SDecl (Ty "auto" []) false "label" (Some (EUn "*" (EId "it"))))
                     (SSeq
                        (SIf (EUn "!" (ECall (EMem (EMem (EId "this") "labels_defined") "contains") [EMem (EId "label") "name"]))
                           (SBlock (SSeq (SExpr (EAsg "=" (EId "it") (ECall (EMem (EMem (EId "line") "labels") "erase") [EId "it"]))) SSkip))
                           (SBlock (SSeq (SExpr (EUn "++" (EId "it"))) SSkip))) SSkip)))) SSkip).
Definition assembly_parser_isUsedThroughAlias : stmt :=
  (SSeq (SDecl (Ty "auto" []) false "aliasfind" (Some (ECall (EMem (EMem (EId "this") "aliased_labels") "find") [EId "label"])))
            (SSeq
               (SIf (EBin "!=" (EId "aliasfind") (ECall (EMem (EMem (EId "this") "aliased_labels") "end") []))
                  (SBlock (SSeq (SRet (Some (ECall (EMem (EId "this") "isUsed") [EMem (EId "aliasfind") "second"; ENum 1]))) SSkip)) SSkip)
               (SSeq (SRet (Some (EId "false"))) SSkip))).
Definition assembly_parser_isUsed : stmt :=
  (SSeq (SStatic (Ty "std::unordered_set" [Ty "std::string_view" []]) "visited")
            (SSeq (SIf (EBin "==" (EId "depth") (ENum 0)) (SBlock (SSeq (SExpr (ECall (EMem (EId "visited") "clear") [])) SSkip)) SSkip)
               (SSeq (SIf (ECall (EMem (EId "visited") "count") [EId "label"]) (SBlock (SSeq (SRet (Some (EId "false"))) SSkip)) SSkip)
                  (SSeq (SExpr (ECall (EMem (EId "visited") "insert") [EId "label"]))
                     (SSeq (SIf (ECall (EMem (EMem (EId "this") "usercode_labels") "contains") [EId "label"]) (SRet (Some (EId "true"))) SSkip)
                        (SSeq (SDecl (Ty "auto" []) false "usedfind" (Some (ECall (EMem (EMem (EId "this") "used_labels") "find") [EId "label"])))
                           (SSeq
                              (SIf (EBin "!=" (EId "usedfind") (ECall (EMem (EMem (EId "this") "used_labels") "end") []))
                                 (SBlock
                                    (SSeq
                                       (SForIn true "ref" (EMem (EId "usedfind") "second")
                                          (SBlock
                                             (SSeq (SIf (ECall (EMem (EId "ref") "empty") []) (SRet (Some (EId "true"))) SSkip)
                                                (SSeq
                                                   (SDecl (Ty "auto" []) false "used"
                                                      (Some (ECall (EMem (EId "this") "isUsed") [EId "ref"; EBin "+" (EId "depth") (ENum 1)])))
                                                   (SSeq (SIf (EId "used") (SRet (Some (EId "true"))) SSkip) SSkip))))) SSkip)) SSkip)
                              (SSeq
                                 (SIf (EBin ">" (EId "depth") (ENum 0))
                                    (SBlock
                                       (SSeq
                                          (SDecl (Ty "auto" []) false "weakfind"
                                             (Some (ECall (EMem (EMem (EId "this") "weakly_used_labels") "find") [EId "label"])))
                                          (SSeq
                                             (SIf (EBin "!=" (EId "weakfind") (ECall (EMem (EMem (EId "this") "weakly_used_labels") "end") []))
                                                (SBlock
                                                   (SSeq
                                                      (SForIn true "ref" (EMem (EId "weakfind") "second")
                                                         (SBlock
                                                            (SSeq
                                                               (SDecl (Ty "auto" []) false "used"
                                                                  (Some
                                                                     (ECall (EMem (EId "this") "isUsed") [EId "ref"; EBin "-" (EId "depth") (ENum 1)])))
                                                               (SSeq (SIf (EId "used") (SRet (Some (EId "true"))) SSkip) SSkip)))) SSkip)) SSkip)
                                             (SSeq
                                                (SDecl (Ty "auto" []) false "datafind"
                                                   (Some (ECall (EMem (EMem (EId "this") "data_used_labels") "find") [EId "label"])))
                                                (SSeq
                                                   (SIf (EBin "!=" (EId "datafind") (ECall (EMem (EMem (EId "this") "data_used_labels") "end") []))
                                                      (SBlock
                                                         (SSeq
                                                            (SForIn true "ref" (EMem (EId "datafind") "second")
                                                               (SBlock
                                                                  (SSeq
                                                                     (SDecl (Ty "auto" []) false "used"
                                                                        (Some
                                                                           (ECall (EMem (EId "this") "isUsed")
                                                                              [EId "ref"; EBin "-" (EId "depth") (ENum 1)])))
                                                                     (SSeq (SIf (EId "used") (SRet (Some (EId "true"))) SSkip) SSkip)))) SSkip))
                                                      SSkip) SSkip))))) SSkip)
                                 (SSeq (SExpr (ECall (EMem (EId "visited") "erase") [EId "label"])) (SSeq (SRet (Some (EId "false"))) SSkip)))))))))).
Definition assembly_parser_isDataUsedThroughAlias : stmt :=
  (SSeq (SDecl (Ty "auto" []) false "weakfind" (Some (ECall (EMem (EMem (EId "this") "data_used_labels") "find") [EId "label"])))
            (SSeq
               (SIf (EBin "!=" (EId "weakfind") (ECall (EMem (EMem (EId "this") "data_used_labels") "end") []))
                  (SBlock
                     (SSeq
                        (SForIn true "ref" (EMem (EId "weakfind") "second")
                           (SBlock
                              (SSeq (SDecl (Ty "auto" []) false "used" (Some (ECall (EMem (EId "this") "isUsedThroughAlias") [EId "ref"])))
                                 (SSeq (SIf (EId "used") (SRet (Some (EId "true"))) SSkip) SSkip)))) SSkip)) SSkip)
               (SSeq (SRet (Some (EId "false"))) SSkip))).
Definition assembly_parser_filterNonLabels : stmt :=
  (SSeq
            (SExpr
               (ECall (EId "std::erase_if")
                  [EMem (EId "this") "used_labels";
                   ELam "label" (EUn "!" (ECall (EMem (EMem (EId "this") "labels_defined") "contains") [EMem (EId "label") "first"]))]))
            (SSeq
               (SExpr
                  (ECall (EId "std::erase_if")
                     [EMem (EId "this") "weakly_used_labels";
                      ELam "label" (EUn "!" (ECall (EMem (EMem (EId "this") "labels_defined") "contains") [EMem (EId "label") "first"]))])) SSkip)).
Definition assembly_parser_markLabelUsage : stmt :=
  (SSeq
            (SForIn true "label" (EMem (EId "this") "labels_defined")
               (SBlock
                  (SSeq
                     (SDecl (Ty "auto" []) true "line" (Some (EIdx (EMem (EId "this") "lines") (EBin "-" (EMem (EId "label") "second") (ENum 1)))))
                     (SSeq
                        (SIf (ECall (EMem (EId "this") "isUsed") [EMem (EId "line") "label"; ENum 1])
                           (SBlock (SSeq (SExpr (EAsg "=" (EMem (EId "line") "is_used") (EId "true"))) SSkip))
                           (SIf (ECall (EMem (EId "this") "isDataUsedThroughAlias") [EMem (EId "line") "label"])
                              (SBlock (SSeq (SExpr (EAsg "=" (EMem (EId "line") "is_used_data_through_alias") (EId "true"))) SSkip))
                              (SIf (ECall (EMem (EId "this") "isUsedThroughAlias") [EMem (EId "line") "label"])
                                 (SBlock (SSeq (SExpr (EAsg "=" (EMem (EId "line") "is_used_through_alias") (EId "true"))) SSkip)) SSkip))) SSkip))))
            SSkip).
Definition assembly_parser_removeUnused : stmt :=
  (SSeq (SDecl (Ty "bool" []) false "remove" (Some (EId "false")))
            (SSeq (SDecl (Ty "bool" []) false "removeOnlyThis" (Some (EId "false")))
               (SSeq (SDecl (Ty "bool" []) false "isUsed" (Some (EId "false")))
                  (SSeq (SDecl (Ty "bool" []) false "isUsedThroughAlias" (Some (EId "false")))
                     (SSeq (SDecl (Ty "bool" []) false "isDataUsedThroughAlias" (Some (EId "false")))
                        (SSeq
                           (SFor (SDecl (Ty "auto" []) false "it" (Some (ECall (EMem (EMem (EId "this") "lines") "begin") [])))
                              (EBin "!=" (EId "it") (ECall (EMem (EMem (EId "this") "lines") "end") [])) None
                              (SBlock
                                 (SSeq (SDecl (Ty "auto" []) true "line" (Some (EUn "*" (EId "it"))))
                                    (SSeq (SExpr (EAsg "=" (EId "removeOnlyThis") (EId "false")))
                                       (SSeq
                                          (SIf (EMem (EId "line") "is_label")
                                             (SBlock
                                                (SSeq (SExpr (EAsg "=" (EId "isUsed") (EMem (EId "line") "is_used")))
                                                   (SSeq (SExpr (EAsg "=" (EId "isUsedThroughAlias") (EMem (EId "line") "is_used_through_alias")))
                                                      (SSeq
                                                         (SExpr
                                                            (EAsg "=" (EId "isDataUsedThroughAlias") (EMem (EId "line") "is_used_data_through_alias")))
                                                         (SSeq
                                                            (SIf (EMem (EMem (EId "this") "filter") "unused_labels")
                                                               (SBlock
                                                                  (SSeq
                                                                     (SIf (EBin "&&" (EId "remove") (EId "isUsed"))
                                                                        (SBlock (SSeq (SExpr (EAsg "=" (EId "remove") (EId "false"))) SSkip))
                                                                        (SIf (EBin "&&" (EUn "!" (EId "remove")) (EUn "!" (EId "isUsed")))
                                                                           (SBlock
                                                                              (SSeq
                                                                                 (SIf (EId "isUsedThroughAlias")
                                                                                    (SBlock
                                                                                       (SSeq (SExpr (EAsg "=" (EId "removeOnlyThis") (EId "true")))
                                                                                          SSkip))
                                                                                    (SIf (EId "isDataUsedThroughAlias") (SBlock SSkip)
                                                                                       (SBlock
                                                                                          (SSeq
                                                                                             (SIf (EMem (EId "line") "is_internal_label")
                                                                                                (SBlock
                                                                                                   (SSeq
                                                                                                      (SExpr
                                                                                                         (EAsg "=" (EId "removeOnlyThis")
                                                                                                            (EId "true"))) SSkip))
                                                                                                (SIf (EMem (EId "line") "is_inline_asm")
                                                                                                   (SBlock
                                                                                                      (SSeq
                                                                                                         (SExpr
                                                                                                            (EAsg "=" (EId "removeOnlyThis")
                                                                                                               (EId "true"))) SSkip))
                                                                                                   (SIf
                                                                                                      (EUn "!"
                                                                                                         (ECall
                                                                                                            (EMem
                                                                                                               (EMem (EId "line")
                                                                                                                  "closest_parent_label") "empty") []))
                                                                                                      (SBlock
                                                                                                         (SSeq
                                                                                                            (SExpr
                                                                                                               (EAsg "=" 
                                                                                                                  (EId "remove")
                                                                                                                  (EUn "!"
                                                                                                                     (ECall
                                                                                                                        (EMem
                                                                                                                        (EMem 
                                                                                                                        (EId "this") "used_labels")
                                                                                                                        "contains")
                                                                                                                        [
                                                                                                                        EMem 
                                                                                                                        (EId "line")
                                                                                                                        "closest_parent_label"]))))
                                                                                                            (SSeq
                                                                                                               (SExpr
                                                                                                                  (EAsg "=" 
                                                                                                                     (EId "removeOnlyThis")
                                                                                                                     (EBin "&&"
                                                                                                                        (EUn "!" (EId "remove"))
                                                                                                                        (EMem 
                                                                                                                        (EId "line")
                                                                                                                        "is_internal_label")))) SSkip)))
                                                                                                      (SBlock
                                                                                                         (SSeq
                                                                                                            (SExpr
                                                                                                               (EAsg "=" (EId "remove") (EId "true")))
                                                                                                            SSkip))))) SSkip)))) SSkip)) SSkip))
                                                                     SSkip)) SSkip) SSkip))))) SSkip)
                                          (SSeq
                                             (SIf
                                                (EBin "||" (EBin "||" (EId "remove") (EId "removeOnlyThis"))
                                                   (EBin "&&"
                                                      (EBin "&&"
                                                         (EBin "&&"
                                                            (EBin "&&"
                                                               (EBin "&&" (EBin "&&" (EUn "!" (EId "isUsed")) (EUn "!" (EId "isUsedThroughAlias")))
                                                                  (EUn "!" (EId "isDataUsedThroughAlias")))
                                                               (EMem (EMem (EId "this") "filter") "compatmode"))
                                                            (EMem (EMem (EId "this") "filter") "directives")) (EMem (EId "line") "is_data"))
                                                      (EUn "!" (EMem (EMem (EId "line") "source") "inside_proc"))))
                                                (SBlock
                                                   (SSeq
                                                      (SExpr
                                                         (ECall (EMem (EMem (EMem (EId "this") "state") "filteredlines") "push_back")
                                                            [ECall (EId "std::move") [EId "line"]]))
                                                      (SSeq
                                                         (SExpr (EAsg "=" (EId "it") (ECall (EMem (EMem (EId "this") "lines") "erase") [EId "it"])))
                                                         SSkip)))
                                                (SBlock
                                                   (SSeq
                                                      (SExpr
                                                         (ECall (EMem (EId "this") "filterOutReferedLabelsThatArentDefined")
                                                            [ECall (EMem (EId "line") "get") []]))
                                                      (SSeq
                                                         (SIf (EBin "!=" (EMem (EMem (EId "line") "source") "file_idx") (ENum 0))
                                                            (SBlock
                                                               (SSeq
                                                                  (STry
                                                                     (SBlock
                                                                        (SSeq
                                                                           (SDecl (Ty "auto" []) true "file"
                                                                              (Some
                                                                                 (ECall (EMem (EId "files") "at")
                                                                                    [EMem (EMem (EId "line") "source") "file_idx"])))
                                                                           (SSeq
                                                                              (SDecl (Ty "auto" []) false "match_stdin"
                                                                                 (Some (ECall (EId "isExampleOrStdin") [EId "file"])))
                                                                              (SSeq
                                                                                 (SIf (EId "match_stdin")
                                                                                    (SBlock
                                                                                       (SSeq
                                                                                          (SExpr
                                                                                             (EAsg "="
                                                                                                (EMem (EMem (EId "line") "source") "is_usercode")
                                                                                                (EId "true")))
                                                                                          (SSeq
                                                                                             (SExpr
                                                                                                (EAsg "=" (EMem (EMem (EId "line") "source") "file")
                                                                                                   (EId "file"))) SSkip)))
                                                                                    (SBlock
                                                                                       (SSeq
                                                                                          (SExpr
                                                                                             (EAsg "=" (EMem (EMem (EId "line") "source") "file")
                                                                                                (EId "file"))) SSkip))) SSkip))))
                                                                     (SBlock (SSeq (SExpr (EAsg "=" (EMem (EId "line") "source") (EBrace []))) SSkip)))
                                                                  SSkip)) SSkip) (SSeq (SExpr (EUn "++" (EId "it"))) SSkip))))) SSkip)))))) SSkip)))))).
Definition assembly_parser_fromStream : stmt :=
  (SSeq (SDecl (Ty "char" []) false "c" None)
            (SSeq (SExpr (EAsg "=" (EMem (EId "this") "total_lines") (ENum 0)))
               (SSeq (SExpr (ECall (EMem (EMem (EMem (EId "this") "state") "text") "reserve") [ENum 1024]))
                  (SSeq
                     (SWhile (EBin "&&" (EUn "!" (EMem (EMem (EId "this") "state") "stopParsing")) (ECall (EMem (EId "in") "get") [EId "c"]))
                        (SBlock
                           (SSeq
                              (SIf (EBin "==" (EId "c") (ENum 13)) (SBlock SSkip)
                                 (SIf (EBin "==" (EId "c") (ENum 10)) (SBlock (SSeq (SExpr (ECall (EMem (EId "this") "eol") [])) (SSeq SCont SSkip)))
                                    SSkip)) (SSeq (SExpr (EAsg "+=" (EMem (EMem (EId "this") "state") "text") (EId "c"))) SSkip))))
                     (SSeq
                        (SIf (EUn "!" (ECall (EMem (EMem (EMem (EId "this") "state") "text") "empty") []))
                           (SBlock (SSeq (SExpr (ECall (EMem (EId "this") "eol") [])) SSkip)) SSkip)
                        (SSeq (SExpr (ECall (EMem (EId "this") "filterNonLabels") []))
                           (SSeq (SExpr (ECall (EMem (EId "this") "markLabelUsage") []))
                              (SSeq (SExpr (ECall (EMem (EId "this") "removeUnused") [])) SSkip)))))))).
Definition assembly_parser_redetermineLabels : stmt :=
  (SSeq (SDecl (Ty "std::vector" [Ty "asm_labelpair" []]) false "labels" None)
            (SSeq (SExpr (ECall (EMem (EId "labels") "reserve") [ECall (EMem (EMem (EId "this") "lines") "size") []]))
               (SSeq (SDecl (Ty "int" []) false "line_number" (Some (ENum 1)))
                  (SSeq
                     (SForIn true "line" (EMem (EId "this") "lines")
                        (SBlock
                           (SSeq
                              (SIf (EMem (EId "line") "is_label")
                                 (SBlock
                                    (SSeq
                                       (SExpr
                                          (ECall (EMem (EId "labels") "emplace_back")
                                             [EMake (Ty "asm_labelpair" []) [EMem (EId "line") "label"; EId "line_number"]])) SSkip)) SSkip)
                              (SSeq (SExpr (EPost "++" (EId "line_number"))) SSkip)))) (SSeq (SRet (Some (EId "labels"))) SSkip))))).
Definition assembly_parser_outputText : stmt :=
  (SSeq
            (SForIn true "line" (EMem (EId "this") "lines")
               (SBlock (SSeq (SExpr (EBin "<<" (EBin "<<" (EId "out") (EMem (EId "line") "text")) (EStr ["010"%char]))) SSkip))) SSkip).
Definition assembly_parser_items : list item :=
  [IFun
          {|
            fn_class := "AssemblyTextParser";
            fn_name := "AssemblyTextParser";
            fn_ret := None;
            fn_params := [("filter", Ty "Filter" [])];
            fn_dflt := [];
            fn_body := Some assembly_parser_AssemblyTextParser
          |};
        IFun
          {|
            fn_class := "AssemblyTextParser";
            fn_name := "setReproducible";
            fn_ret := Some (Ty "void" []);
            fn_params := [];
            fn_dflt := [];
            fn_body := Some assembly_parser_setReproducible
          |};
        IFun
          {|
            fn_class := "";
            fn_name := "str_contains";
            fn_ret := Some (Ty "bool" []);
            fn_params := [("s", Ty "std::string_view" []); ("c", Ty "char" [])];
            fn_dflt := [];
            fn_body := Some assembly_parser_str_contains
          |};
        IFun
          {|
            fn_class := "AssemblyTextParser";
            fn_name := "handleStabs";
            fn_ret := Some (Ty "bool" []);
            fn_params := [("line", Ty "std::string_view" [])];
            fn_dflt := [];
            fn_body := Some assembly_parser_handleStabs
          |};
        IFun
          {|
            fn_class := "AssemblyTextParser";
            fn_name := "handleFiledef";
            fn_ret := Some (Ty "bool" []);
            fn_params := [("line", Ty "std::string_view" [])];
            fn_dflt := [];
            fn_body := Some assembly_parser_handleFiledef
          |};
        IFun
          {|
            fn_class := "AssemblyTextParser";
            fn_name := "handleSource";
            fn_ret := Some (Ty "bool" []);
            fn_params := [("line", Ty "std::string_view" [])];
            fn_dflt := [];
            fn_body := Some assembly_parser_handleSource
          |};
        IFun
          {|
            fn_class := "AssemblyTextParser";
            fn_name := "getLabelFromLine";
            fn_ret := Some (Ty "std::optional" [Ty "std::string_view" []]);
            fn_params := [("line", Ty "std::string_view" [])];
            fn_dflt := [];
            fn_body := Some assembly_parser_getLabelFromLine
          |};
        IFun
          {|
            fn_class := "AssemblyTextParser";
            fn_name := "maybeAddBlank";
            fn_ret := Some (Ty "void" []);
            fn_params := [];
            fn_dflt := [];
            fn_body := Some assembly_parser_maybeAddBlank
          |};
        IFun
          {|
            fn_class := "AssemblyTextParser";
            fn_name := "isEmptyOrJustWhitespace";
            fn_ret := Some (Ty "bool" []);
            fn_params := [("line", Ty "std::string_view" [])];
            fn_dflt := [];
            fn_body := Some assembly_parser_isEmptyOrJustWhitespace
          |};
        IFun
          {|
            fn_class := "AssemblyTextParser";
            fn_name := "handleD2";
            fn_ret := Some (Ty "bool" []);
            fn_params := [("line", Ty "std::string_view" [])];
            fn_dflt := [];
            fn_body := Some assembly_parser_handleD2
          |};
        IFun
          {|
            fn_class := "AssemblyTextParser";
            fn_name := "handle6502";
            fn_ret := Some (Ty "bool" []);
            fn_params := [("line", Ty "std::string_view" [])];
            fn_dflt := [];
            fn_body := Some assembly_parser_handle6502
          |};
        IFun
          {|
            fn_class := "AssemblyTextParser";
            fn_name := "handleSection";
            fn_ret := Some (Ty "bool" []);
            fn_params := [("line", Ty "std::string_view" [])];
            fn_dflt := [];
            fn_body := Some assembly_parser_handleSection
          |};
        IFun
          {|
            fn_class := "AssemblyTextParser";
            fn_name := "extractUsedLabelsFromDirective";
            fn_ret := Some (Ty "void" []);
            fn_params := [("line", Ty "std::string_view" [])];
            fn_dflt := [];
            fn_body := Some assembly_parser_extractUsedLabelsFromDirective
          |};
        IFun
          {|
            fn_class := "AssemblyTextParser";
            fn_name := "extractUsedLabelsFromOpcodeLine";
            fn_ret := Some (Ty "void" []);
            fn_params := [("line", Ty "std::string_view" [])];
            fn_dflt := [];
            fn_body := Some assembly_parser_extractUsedLabelsFromOpcodeLine
          |};
        IFun
          {|
            fn_class := "AssemblyTextParser";
            fn_name := "extractUsedLabelsFromDataLine";
            fn_ret := Some (Ty "void" []);
            fn_params := [("line", Ty "std::string_view" [])];
            fn_dflt := [];
            fn_body := Some assembly_parser_extractUsedLabelsFromDataLine
          |};
        IFun
          {|
            fn_class := "AssemblyTextParser";
            fn_name := "handleLabelAliasing";
            fn_ret := Some (Ty "void" []);
            fn_params := [];
            fn_dflt := [];
            fn_body := Some assembly_parser_handleLabelAliasing
          |};
        IFun
          {|
            fn_class := "AssemblyTextParser";
            fn_name := "handleLabelDefinition";
            fn_ret := Some (Ty "void" []);
            fn_params := [("line", Ty "std::string_view" [])];
            fn_dflt := [];
            fn_body := Some assembly_parser_handleLabelDefinition
          |};
        IFun {| fn_class := "AssemblyTextParser"; fn_name := "eol"; fn_ret := Some (Ty "void" []); fn_params := []; fn_dflt := []; fn_body := Some assembly_parser_eol |};
        IFun
          {|
            fn_class := "AssemblyTextParser";
            fn_name := "isInternalLabel";
            fn_ret := Some (Ty "bool" []);
            fn_params := [("label", Ty "std::string_view" [])];
            fn_dflt := [];
            fn_body := Some assembly_parser_isInternalLabel
          |};
        IFun
          {|
            fn_class := "AssemblyTextParser";
            fn_name := "amendPreviousLinesWith";
            fn_ret := Some (Ty "void" []);
            fn_params := [("source", Ty "asm_source_v" [])];
            fn_dflt := [];
            fn_body := Some assembly_parser_amendPreviousLinesWith
          |};
        IFun
          {|
            fn_class := "AssemblyTextParser";
            fn_name := "markPreviousInternalLabelAsInsideProc";
            fn_ret := Some (Ty "void" []);
            fn_params := [];
            fn_dflt := [];
            fn_body := Some assembly_parser_markPreviousInternalLabelAsInsideProc
          |};
        IFun
          {|
            fn_class := "AssemblyTextParser";
            fn_name := "filterOutReferedLabelsThatArentDefined";
            fn_ret := Some (Ty "void" []);
            fn_params := [("line", Ty "*" [Ty "asm_line_v" []])];
            fn_dflt := [];
            fn_body := Some assembly_parser_filterOutReferedLabelsThatArentDefined
          |};
        IFun
          {|
            fn_class := "AssemblyTextParser";
            fn_name := "isUsedThroughAlias";
            fn_ret := Some (Ty "bool" []);
            fn_params := [("label", Ty "std::string_view" [])];
            fn_dflt := [];
            fn_body := Some assembly_parser_isUsedThroughAlias
          |};
        IFun
          {|
            fn_class := "AssemblyTextParser";
            fn_name := "isUsed";
            fn_ret := Some (Ty "bool" []);
            fn_params := [("label", Ty "std::string_view" []); ("depth", Ty "int" [])];
            fn_dflt := [];
            fn_body := Some assembly_parser_isUsed
          |};
        IFun
          {|
            fn_class := "AssemblyTextParser";
            fn_name := "isDataUsedThroughAlias";
            fn_ret := Some (Ty "bool" []);
            fn_params := [("label", Ty "std::string_view" [])];
            fn_dflt := [];
            fn_body := Some assembly_parser_isDataUsedThroughAlias
          |};
        IFun
          {|
            fn_class := "AssemblyTextParser";
            fn_name := "filterNonLabels";
            fn_ret := Some (Ty "void" []);
            fn_params := [];
            fn_dflt := [];
            fn_body := Some assembly_parser_filterNonLabels
          |};
        IFun
          {|
            fn_class := "AssemblyTextParser";
            fn_name := "markLabelUsage";
            fn_ret := Some (Ty "void" []);
            fn_params := [];
            fn_dflt := [];
            fn_body := Some assembly_parser_markLabelUsage
          |};
        IFun
          {|
            fn_class := "AssemblyTextParser";
            fn_name := "removeUnused";
            fn_ret := Some (Ty "void" []);
            fn_params := [];
            fn_dflt := [];
            fn_body := Some assembly_parser_removeUnused
          |};
        IFun
          {|
            fn_class := "AssemblyTextParser";
            fn_name := "fromStream";
            fn_ret := Some (Ty "void" []);
            fn_params := [("in", Ty "std::istream" [])];
            fn_dflt := [];
            fn_body := Some assembly_parser_fromStream
          |};
        IFun
          {|
            fn_class := "AssemblyTextParser";
            fn_name := "redetermineLabels";
            fn_ret := Some (Ty "std::vector" [Ty "asm_labelpair" []]);
            fn_params := [];
            fn_dflt := [];
            fn_body := Some assembly_parser_redetermineLabels
          |};
        IFun
          {|
            fn_class := "AssemblyTextParser";
            fn_name := "outputDebugJson";
            fn_ret := Some (Ty "void" []);
            fn_params := [("out", Ty "std::ostream" [])];
            fn_dflt := [];
            fn_body := None
          |};
        IFun
          {|
            fn_class := "AssemblyTextParser";
            fn_name := "outputJson";
            fn_ret := Some (Ty "void" []);
            fn_params := [("out", Ty "std::ostream" [])];
            fn_dflt := [];
            fn_body := None
          |};
        IFun
          {|
            fn_class := "AssemblyTextParser";
            fn_name := "outputText";
            fn_ret := Some (Ty "void" []);
            fn_params := [("out", Ty "std::ostream" [])];
            fn_dflt := [];
            fn_body := Some assembly_parser_outputText
          |}].
Lemma assembly_parser_read : read_file assembly_parser_cpp = Some assembly_parser_items.
Proof. vm_compute. reflexivity. Qed.

Definition assembly_parser_h_items : list item :=
  [IStruct "AssemblyTextParserState"
          [("stopParsing", Ty "bool" [], None); ("hasProcMarkers", Ty "bool" [], None); ("hasStartedCommentBlock", Ty "bool" [], None);
           ("mayRemovePreviousLabel", Ty "bool" [], Some (EId "true")); ("keepInlineCode", Ty "bool" [], None);
           ("lastOwnSource", Ty "asm_source_v" [], None); ("inNvccDef", Ty "bool" [], None); ("inNvccCode", Ty "bool" [], None);
           ("inCustomAssembly", Ty "int" [], Some (ENum 0)); ("currentLabelReference", Ty "asm_label_v" [], None);
           ("currentSourceRef", Ty "asm_source_v" [], None); ("previousLabel", Ty "std::string_view" [], None);
           ("previousParentLabel", Ty "std::string_view" [], None); ("previousLabelOnSameAddress", Ty "std::string_view" [], None);
           ("text", Ty "std::string" [], None); ("currentFilename", Ty "std::string_view" [], None);
           ("currentSection", Ty "std::string_view" [], None); ("currentSourceFile", Ty "std::string_view" [], None);
           ("currentLine", Ty "std::unique_ptr" [Ty "asm_line_v" []], None);
           ("filteredlines", Ty "std::vector" [Ty "std::unique_ptr" [Ty "asm_line_v" []]], None)];
        IStruct "AssemblyTextParser"
          [("filter", Ty "Filter" [], None); ("state", Ty "AssemblyTextParserState" [], None);
           ("files", Ty "std::unordered_map" [Ty "int" []; Ty "std::string" []], None);
           ("lines", Ty "std::vector" [Ty "std::unique_ptr" [Ty "asm_line_v" []]], None);
           ("labels_defined", Ty "std::unordered_map" [Ty "std::string_view" []; Ty "int32_t" []], None);
           ("usercode_labels", Ty "std::unordered_set" [Ty "std::string_view" []], None);
           ("used_labels", Ty "std::unordered_map" [Ty "std::string_view" []; Ty "std::unordered_set" [Ty "std::string_view" []]], None);
           ("data_used_labels", Ty "std::unordered_map" [Ty "std::string_view" []; Ty "std::unordered_set" [Ty "std::string_view" []]], None);
           ("weakly_used_labels", Ty "std::unordered_map" [Ty "std::string_view" []; Ty "std::unordered_set" [Ty "std::string_view" []]], None);
           ("aliased_labels", Ty "std::unordered_map" [Ty "std::string_view" []; Ty "std::string_view" []], None);
           ("reproducible", Ty "bool" [], None); ("total_lines", Ty "size_t" [], None)]].
Lemma assembly_parser_h_read : read_file assembly_parser_hpp = Some assembly_parser_h_items.
Proof. vm_compute. reflexivity. Qed.

Definition types_line_h_items : list item :=
  [IStruct "asm_stabn" [("type", Ty "int" [], None); ("line", Ty "int" [], None)];
        IStruct "asm_range" [("start_col", Ty "uint16_t" [], None); ("end_col", Ty "uint16_t" [], None)];
        IStruct "asm_link" [("offset", Ty "int32_t" [], None); ("length", Ty "int32_t" [], None); ("to", Ty "int32_t" [], None)];
        IStruct "asm_label" [("name", Ty "std::string" [], None); ("range", Ty "asm_range" [], None)];
        IStruct "asm_label_v" [("name", Ty "std::string_view" [], None); ("range", Ty "asm_range" [], None)];
        IStruct "asm_source"
          [("file", Ty "std::string" [], None); ("file_idx", Ty "int32_t" [], Some (ENum 0)); ("line", Ty "int32_t" [], Some (ENum 0));
           ("column", Ty "int32_t" [], None); ("is_usercode", Ty "bool" [], None); ("inside_proc", Ty "bool" [], None)];
        IStruct "asm_source_v"
          [("file", Ty "std::string_view" [], None); ("file_idx", Ty "int32_t" [], None); ("line", Ty "int32_t" [], None);
           ("column", Ty "int32_t" [], None); ("is_end", Ty "bool" [], None); ("is_usercode", Ty "bool" [], None);
           ("inside_proc", Ty "bool" [], None)]; IStruct "asm_source_f" [("file", Ty "std::string_view" [], None)];
        IStruct "asm_source_l" [("line", Ty "int32_t" [], Some (ENum 0))];
        IStruct "asm_file_def" [("file_index", Ty "int" [], None); ("file_name", Ty "std::string" [], None)];
        IStruct "asm_labelpair" [("first", Ty "std::string_view" [], None); ("second", Ty "int32_t" [], None)];
        IStruct "asm_labelpair_t" [("first", Ty "std::string" [], None); ("second", Ty "int32_t" [], None)];
        IStruct "asm_line"
          [("text", Ty "std::string" [], None); ("section", Ty "std::string" [], None); ("labels", Ty "std::vector" [Ty "asm_label" []], None);
           ("opcodes", Ty "std::vector" [Ty "std::string" []], None); ("closest_parent_label", Ty "std::string" [], None);
           ("is_label", Ty "bool" [], None); ("is_internal_label", Ty "bool" [], None); ("label", Ty "std::string" [], None);
           ("source", Ty "asm_source" [], None); ("address", Ty "std::optional" [Ty "int64_t" []], None); ("is_used", Ty "bool" [], None);
           ("is_used_through_alias", Ty "bool" [], None); ("is_used_data_through_alias", Ty "bool" [], None); ("is_data", Ty "bool" [], None);
           ("is_inline_asm", Ty "bool" [], None); ("has_opcode", Ty "bool" [], None); ("is_directive", Ty "bool" [], None);
           ("is_assignment", Ty "bool" [], None)];
        IStruct "asm_line_v"
          [("text", Ty "std::string" [], None); ("section", Ty "std::string_view" [], None);
           ("labels", Ty "std::vector" [Ty "asm_label_v" []], None); ("opcodes", Ty "std::vector" [Ty "std::string" []], None);
           ("closest_parent_label", Ty "std::string" [], None); ("is_label", Ty "bool" [], None); ("is_internal_label", Ty "bool" [], None);
           ("label", Ty "std::string_view" [], None); ("source", Ty "asm_source_v" [], None);
           ("address", Ty "std::optional" [Ty "int64_t" []], None); ("is_used", Ty "bool" [], None); ("is_used_through_alias", Ty "bool" [], None);
           ("is_used_data_through_alias", Ty "bool" [], None); ("is_data", Ty "bool" [], None); ("is_inline_asm", Ty "bool" [], None);
           ("has_opcode", Ty "bool" [], None); ("is_directive", Ty "bool" [], None); ("is_assignment", Ty "bool" [], None)]].
Lemma types_line_h_read : read_file types_line_hpp = Some types_line_h_items.
Proof. vm_compute. reflexivity. Qed.

Definition types_filter_h_items : list item :=
  [IStruct "Filter"
          [("binary", Ty "bool" [], None); ("unused_labels", Ty "bool" [], None); ("library_functions", Ty "bool" [], None);
           ("directives", Ty "bool" [], None); ("comment_only", Ty "bool" [], None); ("whitespace", Ty "bool" [], None); (
           "plt", Ty "bool" [], None); ("dont_mask_filenames", Ty "bool" [], None); ("compatmode", Ty "bool" [], None);
           ("code_only", Ty "bool" [], None)]].
Lemma types_filter_h_read : read_file types_filter_hpp = Some types_filter_h_items.
Proof. vm_compute. reflexivity. Qed.

Definition utils_utils_is_hex : stmt :=
  (SSeq
            (SRet
               (Some
                  (EBin "||" (EBin "&&" (EBin ">=" (EId "c") (EChr "a")) (EBin "<=" (EId "c") (EChr "f")))
                     (EBin "&&" (EBin ">=" (EId "c") (EChr "0")) (EBin "<=" (EId "c") (EChr "9")))))) SSkip).
Definition utils_utils_hex2int : stmt :=
  (SSeq
            (SIf (EBin "&&" (EBin ">=" (EId "c") (EChr "0")) (EBin "<=" (EId "c") (EChr "9")))
               (SBlock (SSeq (SRet (Some (EBin "-" (EId "c") (EChr "0")))) SSkip))
               (SBlock (SSeq (SRet (Some (ECast (Ty "int8_t" []) (EBin "+" (ENum 10) (EBin "-" (EId "c") (EChr "a")))))) SSkip))) SSkip).
Definition utils_utils_ustrlen : stmt :=
  (SSeq (SDecl (Ty "*" [Ty "char" []]) false "cstrptr" (Some (ECall (EMem (EId "s") "data") [])))
            (SSeq (SExpr (ECall (EId "mblen") [EId "nullptr"; ENum 0]))
               (SSeq (SDecl (Ty "size_t" []) false "maxlen" (Some (ECall (EMem (EId "s") "length") [])))
                  (SSeq (SDecl (Ty "size_t" []) false "ulen" (Some (ENum 0)))
                     (SSeq
                        (SWhile (EBin "!=" (EId "maxlen") (ENum 0))
                           (SBlock
                              (SSeq (SDecl (Ty "auto" []) false "mbcharlen" (Some (ECall (EId "mblen") [EId "cstrptr"; EId "maxlen"])))
                                 (SSeq (SIf (EBin "<" (EId "mbcharlen") (ENum 1)) (SBlock (SSeq SBreak SSkip)) SSkip)
                                    (SSeq (SExpr (EAsg "+=" (EId "cstrptr") (EId "mbcharlen")))
                                       (SSeq (SExpr (EAsg "+=" (EId "ulen") (ENum 1)))
                                          (SSeq
                                             (SIf (EBin ">" (EId "maxlen") (ECast (Ty "size_t" []) (EId "mbcharlen")))
                                                (SBlock (SSeq (SExpr (EAsg "-=" (EId "maxlen") (EId "mbcharlen"))) SSkip))
                                                (SBlock (SSeq SBreak SSkip))) SSkip))))))) (SSeq (SRet (Some (EId "ulen"))) SSkip)))))).
Definition utils_utils_global_start_timer : stmt :=
  (SSeq (SExpr (EAsg "=" (EId "global_timer_started") (ECall (EId "std::chrono::steady_clock::now") []))) SSkip).
Definition utils_utils_global_current_running_time : stmt :=
  (SSeq (SDecl (Ty "auto" []) false "end" (Some (ECall (EId "std::chrono::steady_clock::now") [])))
            (SSeq
               (SDecl (Ty "std::chrono::duration" [Ty "double" []; Ty "std::milli" []]) false "diff"
                  (Some (EBin "-" (EId "end") (EId "global_timer_started"))))
               (SSeq
                  (SDecl (Ty "auto" []) false "rounded_diff"
                     (Some (EBin ">" (EBin "<" (EId "std::chrono::round") (EId "std::chrono::milliseconds")) (EId "diff"))))
                  (SSeq (SRet (Some (ECall (EMem (EId "rounded_diff") "count") []))) SSkip)))).
Definition utils_utils_items : list item :=
  [IFun
          {|
            fn_class := "AsmParser";
            fn_name := "is_hex";
            fn_ret := Some (Ty "bool" []);
            fn_params := [("c", Ty "char" [])];
            fn_dflt := [];
            fn_body := Some utils_utils_is_hex
          |};
        IFun
          {|
            fn_class := "AsmParser";
            fn_name := "hex2int";
            fn_ret := Some (Ty "int8_t" []);
            fn_params := [("c", Ty "char" [])];
            fn_dflt := [];
            fn_body := Some utils_utils_hex2int
          |};
        IFun
          {|
            fn_class := "AsmParser";
            fn_name := "ustrlen";
            fn_ret := Some (Ty "size_t" []);
            fn_params := [("s", Ty "std::string_view" [])];
            fn_dflt := [];
            fn_body := Some utils_utils_ustrlen
          |};
        IFun
          {|
            fn_class := "AsmParser"; fn_name := "global_start_timer"; fn_ret := Some (Ty "void" []); fn_params := []; fn_dflt := []; fn_body := Some utils_utils_global_start_timer
          |};
        IFun
          {|
            fn_class := "AsmParser";
            fn_name := "global_current_running_time";
            fn_ret := Some (Ty "int64_t" []);
            fn_params := [];
            fn_dflt := [];
            fn_body := Some utils_utils_global_current_running_time
          |}].
Lemma utils_utils_read : read_file utils_utils_cpp = Some utils_utils_items.
Proof. vm_compute. reflexivity. Qed.

Definition utils_utils_h_is_whitespace : stmt :=
  (SSeq (SRet (Some (EBin "||" (EBin "==" (EId "c") (ENum 32)) (EBin "==" (EId "c") (EChr "009"))))) SSkip).
Definition utils_utils_h_items : list item :=
  [IFun
          {|
            fn_class := "";
            fn_name := "is_whitespace";
            fn_ret := Some (Ty "bool" []);
            fn_params := [("c", Ty "char" [])];
            fn_dflt := [];
            fn_body := Some utils_utils_h_is_whitespace
          |}].
Lemma utils_utils_h_read : read_file utils_utils_hpp = Some utils_utils_h_items.
Proof. vm_compute. reflexivity. Qed.

Definition utils_library_detection_LibraryDetection : stmt :=
  SSkip.
Definition utils_library_detection_file_in_library : stmt :=
  (SSeq
            (SRet
               (Some
                  (EBin "||"
                     (EBin "||"
                        (ECall (EMem (EId "filepath") "starts_with")
                           [EStr
                              ["/"%char; "o"%char; "p"%char; "t"%char; "/"%char; "c"%char; "o"%char; "m"%char; "p"%char; "i"%char; "l"%char;
                               "e"%char; "r"%char; "-"%char; "e"%char; "x"%char; "p"%char; "l"%char; "o"%char; "r"%char; "e"%char; "r"%char; "/"%char]])
                        (ECall (EMem (EId "filepath") "starts_with")
                           [EStr
                              ["/"%char; "u"%char; "s"%char; "r"%char; "/"%char; "i"%char; "n"%char; "c"%char; "l"%char; "u"%char; "d"%char; "e"%char]]))
                     (ECall (EMem (EId "filepath") "starts_with")
                        [EStr
                           ["/"%char; "u"%char; "s"%char; "r"%char; "/"%char; "l"%char; "o"%char; "c"%char; "a"%char; "l"%char; "/"%char; "i"%char;
                            "n"%char; "c"%char; "l"%char; "u"%char; "d"%char; "e"%char]])))) SSkip).
Definition utils_library_detection_items : list item :=
  [IFun {| fn_class := "LibraryDetection"; fn_name := "LibraryDetection"; fn_ret := None; fn_params := []; fn_dflt := []; fn_body := Some utils_library_detection_LibraryDetection |};
        IFun
          {|
            fn_class := "LibraryDetection";
            fn_name := "file_in_library";
            fn_ret := Some (Ty "bool" []);
            fn_params := [("filepath", Ty "std::string_view" [])];
            fn_dflt := [];
            fn_body := Some utils_library_detection_file_in_library
          |}].
Lemma utils_library_detection_read : read_file utils_library_detection_cpp = Some utils_library_detection_items.
Proof. vm_compute. reflexivity. Qed.

Definition utils_library_detection_h_items : list item :=
  [IStruct "LibraryDetection" []].
Lemma utils_library_detection_h_read : read_file utils_library_detection_hpp = Some utils_library_detection_h_items.
Proof. vm_compute. reflexivity. Qed.

Definition utils_regexwrappers_getSourceRef : stmt :=
  (SSeq
            (SIfDecl "match" (ECall (EId "Regexes::sourceTag") [EId "line"])
               (SBlock
                  (SSeq (SDecl (Ty "auto" []) false "file_index" (Some (ECall (EMem (ECall (EMem (EId "match") "get<1>") []) "to_number") [])))
                     (SSeq (SDecl (Ty "auto" []) false "line_index" (Some (ECall (EMem (ECall (EMem (EId "match") "get<2>") []) "to_number") [])))
                        (SSeq (SDecl (Ty "int" []) false "column" (Some (ENum 0)))
                           (SSeq (SDecl (Ty "auto" []) false "matchWithColumn" (Some (ECall (EId "Regexes::sourceTagWithColumn") [EId "line"])))
                              (SSeq
                                 (SIf (EId "matchWithColumn")
                                    (SBlock
                                       (SSeq
                                          (SExpr
                                             (EAsg "=" (EId "column")
                                                (ECall (EMem (ECall (EMem (EId "matchWithColumn") "get<3>") []) "to_number") []))) SSkip)) SSkip)
                                 (SSeq (SRet (Some (EBrace [EId "file_index"; EId "line_index"; EId "column"]))) SSkip))))))) SSkip)
            (SSeq (SRet (Some (EBrace [ENum 0; ENum 0; ENum 0]))) SSkip)).
Definition utils_regexwrappers_getFileDef : stmt :=
  (SSeq
            (SIfDecl "match" (ECall (EId "Regexes::fileFind") [EId "line"])
               (SBlock
                  (SSeq (SDecl (Ty "auto" []) false "file_index" (Some (ECall (EMem (ECall (EMem (EId "match") "get<1>") []) "to_number") [])))
                     (SSeq (SDecl (Ty "auto" []) false "file_name" (Some (ECall (EMem (ECall (EMem (EId "match") "get<2>") []) "to_view") [])))
                        (SSeq
                           (SDecl (Ty "auto" []) false "file_name_rest" (Some (ECall (EMem (ECall (EMem (EId "match") "get<4>") []) "to_view") [])))
                           (SSeq
                              (SIf (EUn "!" (ECall (EMem (EId "file_name_rest") "empty") []))
                                 (SBlock
                                    (SSeq
                                       (SRet
                                          (Some
                                             (EMake (Ty "asm_file_def" [])
                                                [EId "file_index";
                                                 ECall (EId "fmt::format")
                                                   [EStr ["{"%char; "}"%char; "/"%char; "{"%char; "}"%char]; EId "file_name"; EId "file_name_rest"]])))
                                       SSkip)) SSkip)
                              (SSeq (SRet (Some (EMake (Ty "asm_file_def" []) [EId "file_index"; ECall (EId "std::string") [EId "file_name"]])))
                                 SSkip)))))) SSkip) (SSeq (SRet (Some (EId "std::nullopt"))) SSkip)).
Definition utils_regexwrappers_expandTabs : stmt :=
  (SSeq (SDecl (Ty "std::string" []) false "expandedLine" None)
            (SSeq
               (SDecl (Ty "std::string" []) false "spaces"
                  (Some (EStr [" "%char; " "%char; " "%char; " "%char; " "%char; " "%char; " "%char; " "%char])))
               (SSeq (SExpr (ECall (EMem (EId "expandedLine") "reserve") [ECall (EMem (EId "line") "length") []]))
                  (SSeq (SDecl (Ty "long unsigned int" []) false "extraChars" (Some (ENum 0)))
                     (SSeq
                        (SForIn false "c" (EId "line")
                           (SBlock
                              (SSeq
                                 (SIf (EBin "==" (EId "c") (EChr "009"))
                                    (SBlock
                                       (SSeq
                                          (SDecl (Ty "auto" []) false "total"
                                             (Some (EBin "+" (ECall (EMem (EId "expandedLine") "length") []) (EId "extraChars"))))
                                          (SSeq
                                             (SDecl (Ty "auto" []) false "spacesNeeded" (Some (EBin "&" (EBin "+" (EId "total") (ENum 8)) (ENum 7))))
                                             (SSeq (SExpr (EAsg "+=" (EId "extraChars") (EId "spacesNeeded")))
                                                (SSeq
                                                   (SExpr
                                                      (EAsg "+=" (EId "expandedLine") (ECall (EMem (EId "spaces") "substr") [EId "spacesNeeded"])))
                                                   SSkip))))) (SBlock (SSeq (SExpr (EAsg "+=" (EId "expandedLine") (EId "c"))) SSkip))) SSkip)))
                        (SSeq (SRet (Some (EId "expandedLine"))) SSkip)))))).
Definition utils_regexwrappers_ltrim : stmt :=
  (SSeq
            (SExpr
               (ECall (EMem (EId "s") "erase")
                  [ECall (EMem (EId "s") "begin") [];
                   ECall (EId "std::find_if")
                     [ECall (EMem (EId "s") "begin") []; ECall (EMem (EId "s") "end") []; ELam "ch" (EUn "!" (ECall (EId "std::isspace") [EId "ch"]))]]))
            SSkip).
Definition utils_regexwrappers_getLineWithoutComment : stmt :=
  (SSeq (SDecl (Ty "bool" []) false "spacing" (Some (EId "false")))
            (SSeq (SDecl (Ty "bool" []) false "stillStarting" (Some (EId "true")))
               (SSeq (SDecl (Ty "auto" []) false "lastit" (Some (ECall (EMem (EId "line") "end") [])))
                  (SSeq
                     (SFor (SDecl (Ty "auto" []) false "it" (Some (ECall (EMem (EId "line") "begin") [])))
                        (EBin "!=" (EId "it") (ECall (EMem (EId "line") "end") [])) (Some (EPost "++" (EId "it")))
                        (SBlock
                           (SSeq (SDecl (Ty "auto" []) false "c" (Some (EUn "*" (EId "it"))))
                              (SSeq
                                 (SIf (EBin "||" (EBin "==" (EId "c") (EChr ";")) (EBin "==" (EId "c") (EChr "#")))
                                    (SBlock
                                       (SSeq (SIf (EUn "!" (EId "spacing")) (SExpr (EAsg "=" (EId "lastit") (EId "it"))) SSkip) (SSeq SBreak SSkip)))
                                    (SIf (EId "spacing")
                                       (SBlock
                                          (SSeq
                                             (SIf (EUn "!" (ECall (EId "is_whitespace") [EId "c"]))
                                                (SBlock (SSeq (SExpr (EAsg "=" (EId "spacing") (EId "false"))) SSkip)) SSkip) SSkip))
                                       (SIf (ECall (EId "is_whitespace") [EId "c"])
                                          (SBlock
                                             (SSeq
                                                (SIf (EUn "!" (EId "stillStarting"))
                                                   (SBlock
                                                      (SSeq (SExpr (EAsg "=" (EId "spacing") (EId "true")))
                                                         (SSeq (SExpr (EAsg "=" (EId "lastit") (EId "it"))) SSkip))) SSkip) SSkip))
                                          (SBlock (SSeq (SExpr (EAsg "=" (EId "stillStarting") (EId "false"))) SSkip))))) SSkip))))
                     (SSeq (SRet (Some (EMake (Ty "std::string_view" []) [ECall (EMem (EId "line") "begin") []; EId "lastit"]))) SSkip))))).
Definition utils_regexwrappers_getLineWithoutCommentAndStripFirstWord : stmt :=
  (SSeq (SDecl (Ty "bool" []) false "wordstarted" (Some (EId "false")))
            (SSeq (SDecl (Ty "bool" []) false "wordended" (Some (EId "false")))
               (SSeq (SDecl (Ty "bool" []) false "spacing" (Some (EId "false")))
                  (SSeq (SDecl (Ty "auto" []) false "lastit" (Some (ECall (EMem (EId "line") "end") [])))
                     (SSeq (SDecl (Ty "auto" []) false "afterfirstword" (Some (ECall (EMem (EId "line") "begin") [])))
                        (SSeq
                           (SFor (SDecl (Ty "auto" []) false "it" (Some (ECall (EMem (EId "line") "begin") [])))
                              (EBin "!=" (EId "it") (ECall (EMem (EId "line") "end") [])) (Some (EPost "++" (EId "it")))
                              (SBlock
                                 (SSeq (SDecl (Ty "auto" []) false "c" (Some (EUn "*" (EId "it"))))
                                    (SSeq
                                       (SIf (EBin "||" (EBin "==" (EId "c") (EChr ";")) (EBin "==" (EId "c") (EChr "#")))
                                          (SBlock
                                             (SSeq (SDecl (Ty "auto" []) false "nextit" (Some (EBin "+" (EId "it") (ENum 1))))
                                                (SSeq
                                                   (SIf (EBin "!=" (EId "nextit") (ECall (EMem (EId "line") "end") []))
                                                      (SBlock
                                                         (SSeq (SDecl (Ty "auto" []) false "nextchar" (Some (EUn "*" (EId "nextit"))))
                                                            (SSeq
                                                               (SIf
                                                                  (EBin "&&" (EBin "!=" (EId "nextchar") (EChr " "))
                                                                     (EBin "!=" (EId "nextchar") (EChr "009"))) (SBlock (SSeq SCont SSkip)) SSkip)
                                                               SSkip))) SSkip)
                                                   (SSeq (SIf (EUn "!" (EId "spacing")) (SExpr (EAsg "=" (EId "lastit") (EId "it"))) SSkip)
                                                      (SSeq SBreak SSkip)))))
                                          (SIf
                                             (EBin "&&" (EUn "!" (EId "wordstarted"))
                                                (EBin "||" (EBin "&&" (EBin ">=" (EId "c") (EChr "a")) (EBin "<=" (EId "c") (EChr "z")))
                                                   (EBin "&&" (EBin ">=" (EId "c") (EChr "A")) (EBin "<=" (EId "c") (EChr "Z")))))
                                             (SBlock (SSeq (SExpr (EAsg "=" (EId "wordstarted") (EId "true"))) SSkip))
                                             (SIf
                                                (EBin "&&" (EBin "&&" (EId "wordstarted") (EUn "!" (EId "wordended")))
                                                   (ECall (EId "is_whitespace") [EId "c"]))
                                                (SBlock
                                                   (SSeq (SExpr (EAsg "=" (EId "wordended") (EId "true")))
                                                      (SSeq (SExpr (EAsg "=" (EId "afterfirstword") (EId "it"))) SSkip)))
                                                (SIf (EId "wordended")
                                                   (SBlock
                                                      (SSeq
                                                         (SIf (EId "spacing")
                                                            (SBlock
                                                               (SSeq
                                                                  (SIf (EUn "!" (ECall (EId "is_whitespace") [EId "c"]))
                                                                     (SBlock
                                                                        (SSeq (SExpr (EAsg "=" (EId "lastit") (ECall (EMem (EId "line") "end") [])))
                                                                           (SSeq (SExpr (EAsg "=" (EId "spacing") (EId "false"))) SSkip))) SSkip)
                                                                  SSkip))
                                                            (SIf (ECall (EId "is_whitespace") [EId "c"])
                                                               (SBlock
                                                                  (SSeq (SExpr (EAsg "=" (EId "spacing") (EId "true")))
                                                                     (SSeq (SExpr (EAsg "=" (EId "lastit") (EId "it"))) SSkip))) SSkip)) SSkip))
                                                   SSkip)))) SSkip))))
                           (SSeq (SRet (Some (EMake (Ty "std::string_view" []) [EId "afterfirstword"; EId "lastit"]))) SSkip))))))).
Definition utils_regexwrappers_is_probably_label : stmt :=
  (SSeq (SDecl (Ty "auto" []) false "filtered" (Some (ECall (EId "getLineWithoutComment") [EId "line"])))
            (SSeq (SRet (Some (ECall (EMem (EId "filtered") "ends_with") [EStr [":"%char]]))) SSkip)).
Definition utils_regexwrappers_fixLabelIndentation : stmt :=
  (SSeq (SDecl (Ty "std::string" []) false "filtered" (Some (EBrace [EId "line"])))
            (SSeq (SIf (ECall (EId "is_probably_label") [EId "line"]) (SExpr (ECall (EId "ltrim") [EId "filtered"])) SSkip)
               (SSeq (SRet (Some (EId "filtered"))) SSkip))).
Definition utils_regexwrappers_getUsedLabelsInLine : stmt :=
  (SSeq (SDecl (Ty "std::vector" [Ty "asm_label_v" []]) false "labelsInLine" None)
            (SSeq (SDecl (Ty "auto" []) false "filteredLine" (Some (ECall (EId "getLineWithoutCommentAndStripFirstWord") [EId "line"])))
               (SSeq
                  (SIf (EBin "!=" (ECall (EMem (EId "filteredLine") "find") [EChr """"]) (EId "std::string_view::npos"))
                     (SBlock (SSeq (SRet (Some (EId "labelsInLine"))) SSkip)) SSkip)
                  (SSeq
                     (SDecl (Ty "long unsigned int" []) false "diffLen"
                        (Some (EBin "+" (EBin "-" (ECall (EMem (EId "line") "length") []) (ECall (EMem (EId "filteredLine") "length") [])) (ENum 1))))
                     (SSeq (SDecl (Ty "long unsigned int" []) false "startidx" (Some (ENum 0)))
                        (SSeq
                           (SForIn false "match" (ETCall "ctre::range" "([$%]?)([.@A-Z_a-z][.\dA-Z_a-z]*)" [EId "filteredLine"])
                              (SBlock
                                 (SSeq (SDecl (Ty "asm_label_v" []) false "label" (Some (EBrace [])))
                                    (SSeq
                                       (SExpr
                                          (EAsg "=" (EMem (EId "label") "name") (ECall (EMem (ECall (EMem (EId "match") "get<2>") []) "to_view") [])))
                                       (SSeq (SDecl (Ty "auto" []) false "len" (Some (ECall (EMem (EMem (EId "label") "name") "length") [])))
                                          (SSeq
                                             (SDecl (Ty "auto" []) false "loc"
                                                (Some (ECall (EMem (EId "filteredLine") "find") [EMem (EId "label") "name"; EId "startidx"])))
                                             (SSeq
                                                (SExpr (EAsg "+=" (EId "startidx") (EBin "+" (EBin "-" (EId "loc") (EId "startidx")) (EId "len"))))
                                                (SSeq
                                                   (SExpr
                                                      (EAsg "=" (EMem (EMem (EId "label") "range") "start_col")
                                                         (ECast (Ty "uint16_t" []) (EBin "+" (EId "loc") (EId "diffLen")))))
                                                   (SSeq
                                                      (SExpr
                                                         (EAsg "=" (EMem (EMem (EId "label") "range") "end_col")
                                                            (ECast (Ty "uint16_t" [])
                                                               (EBin "+" (EBin "+" (EId "loc") (EId "diffLen"))
                                                                  (ECall (EId "ustrlen") [EMem (EId "label") "name"])))))
                                                      (SSeq (SExpr (ECall (EMem (EId "labelsInLine") "push_back") [EId "label"]))
                                                         (SSeq
                                                            (SDecl (Ty "auto" []) false "prefix"
                                                               (Some (ECall (EMem (ECall (EMem (EId "match") "get<1>") []) "to_view") [])))
                                                            (SSeq
                                                               (SIf (EUn "!" (ECall (EMem (EId "prefix") "empty") []))
                                                                  (SBlock
                                                                     (SSeq (SDecl (Ty "asm_label_v" []) false "labelWithPrefix" (Some (EId "label")))
                                                                        (SSeq
                                                                           (SExpr
                                                                              (EAsg "=" (EMem (EId "labelWithPrefix") "name")
                                                                                 (ECall (EId "std::string_view")
                                                                                    [ECall (EMem (EId "prefix") "begin") [];
                                                                                     ECall (EMem (EMem (EId "label") "name") "end") []])))
                                                                           (SSeq
                                                                              (SExpr
                                                                                 (EPost "--"
                                                                                    (EMem (EMem (EId "labelWithPrefix") "range") "start_col")))
                                                                              (SSeq
                                                                                 (SExpr
                                                                                    (ECall (EMem (EId "labelsInLine") "push_back")
                                                                                       [EId "labelWithPrefix"])) SSkip))))) SSkip) SSkip))))))))))))
                           (SSeq (SRet (Some (EId "labelsInLine"))) SSkip))))))).
Definition utils_regexwrappers_hasOpcode : stmt :=
  (SSeq (SIfDecl "match" (ECall (EId "Regexes::labelDef") [EId "line"]) (SBlock SSkip) SSkip)
            (SSeq (SDecl (Ty "auto" []) false "lineWithoutComment" (Some (ECall (EId "getLineWithoutComment") [EId "line"])))
               (SSeq (SIf (ECall (EId "Regexes::instOpcodeRe") [EId "lineWithoutComment"]) (SRet (Some (EId "true"))) SSkip)
                  (SSeq (SIf (ECall (EId "Regexes::assignmentDef") [EId "lineWithoutComment"]) (SRet (Some (EId "false"))) SSkip)
                     (SSeq (SIf (EId "inNvccCode") (SRet (Some (ECall (EId "Regexes::hasNvccOpcodeRe") [EId "lineWithoutComment"]))) SSkip)
                        (SSeq (SRet (Some (ECall (EId "Regexes::hasOpcodeRe") [EId "lineWithoutComment"]))) SSkip)))))).
Definition utils_regexwrappers_isExampleOrStdin : stmt :=
  (SSeq (SIf (ECall (EId "Regexes::stdInLooking") [EId "filename"]) (SRet (Some (EId "true"))) SSkip) (SSeq (SRet (Some (EId "false"))) SSkip)).
Definition utils_regexwrappers_getSourceInfoFromStabs : stmt :=
  (SSeq (SDecl (Ty "auto" []) false "match" (Some (ECall (EId "Regexes::sourceStab") [EId "line"])))
            (SSeq (SIf (EUn "!" (EId "match")) (SRet (Some (EId "std::nullopt"))) SSkip)
               (SSeq (SDecl (Ty "auto" []) false "type" (Some (ECall (EMem (ECall (EMem (EId "match") "get<1>") []) "to_number") [])))
                  (SSeq
                     (SIf (EBin "==" (EId "type") (ENum 68))
                        (SBlock
                           (SSeq
                              (SDecl (Ty "auto" []) false "line_num" (Some (ECall (EMem (ECall (EMem (EId "match") "get<2>") []) "to_number") [])))
                              (SSeq (SRet (Some (EMake (Ty "asm_stabn" []) [EId "type"; EId "line_num"]))) SSkip)))
                        (SBlock (SSeq (SRet (Some (EMake (Ty "asm_stabn" []) [EId "type"; ENum 0]))) SSkip))) SSkip)))).
Definition utils_regexwrappers_get6502DbgInfo : stmt :=
  (SSeq
            (SIfDecl "match" (ECall (EId "Regexes::source6502Dbg") [EId "line"])
               (SBlock
                  (SSeq (SDecl (Ty "auto" []) false "file" (Some (ECall (EMem (ECall (EMem (EId "match") "get<1>") []) "to_view") [])))
                     (SSeq (SDecl (Ty "auto" []) false "iline" (Some (ECall (EMem (ECall (EMem (EId "match") "get<2>") []) "to_number") [])))
                        (SSeq
                           (SRet
                              (Some
                                 (EInit (Ty "asm_source_v" [])
                                    [("file", EId "file"); ("file_idx", ENum 0); ("line", EId "iline"); ("column", ENum 0); (
                                     "is_end", EId "false"); ("is_usercode", EId "false"); ("inside_proc", EId "false")]))) SSkip)))) SSkip)
            (SSeq
               (SIfDecl "matchend" (ECall (EId "Regexes::source6502DbgEnd") [EId "line"])
                  (SBlock
                     (SSeq
                        (SRet
                           (Some
                              (EInit (Ty "asm_source_v" [])
                                 [("file", EBrace []); ("file_idx", ENum 0); ("line", ENum 0); ("column", ENum 0); ("is_end", EId "true");
                                  ("is_usercode", EId "false"); ("inside_proc", EId "false")]))) SSkip)) SSkip)
               (SSeq (SRet (Some (EId "std::nullopt"))) SSkip))).
Definition utils_regexwrappers_getD2LineInfo : stmt :=
  (SSeq
            (SIfDecl "match" (ECall (EId "Regexes::sourceD2Tag") [EId "line"])
               (SBlock
                  (SSeq (SDecl (Ty "auto" []) false "line_num" (Some (ECall (EMem (ECall (EMem (EId "match") "get<1>") []) "to_number") [])))
                     (SSeq (SRet (Some (EInit (Ty "asm_source_l" []) [("line", EId "line_num")]))) SSkip))) SSkip)
            (SSeq (SRet (Some (EId "std::nullopt"))) SSkip)).
Definition utils_regexwrappers_getD2FileInfo : stmt :=
  (SSeq
            (SIfDecl "match" (ECall (EId "Regexes::sourceD2File") [EId "line"])
               (SBlock
                  (SSeq (SDecl (Ty "auto" []) false "file" (Some (ECall (EMem (ECall (EMem (EId "match") "get<1>") []) "to_view") [])))
                     (SSeq (SRet (Some (EInit (Ty "asm_source_f" []) [("file", EId "file")]))) SSkip))) SSkip)
            (SSeq (SRet (Some (EId "std::nullopt"))) SSkip)).
Definition utils_regexwrappers_startCommentBlock : stmt :=
  (SSeq (SIf (ECall (EId "Regexes::blockCommentStart") [EId "line"]) (SRet (Some (EId "true"))) SSkip)
            (SSeq (SRet (Some (EId "false"))) SSkip)).
Definition utils_regexwrappers_endCommentBlock : stmt :=
  (SSeq (SIf (ECall (EId "Regexes::blockCommentStop") [EId "line"]) (SRet (Some (EId "true"))) SSkip) (SSeq (SRet (Some (EId "false"))) SSkip)).
Definition utils_regexwrappers_startAppBlock : stmt :=
  (SSeq (SIf (ECall (EId "Regexes::startAppBlock") [EId "line"]) (SRet (Some (EId "true"))) SSkip) (SSeq (SRet (Some (EId "false"))) SSkip)).
Definition utils_regexwrappers_endAppBlock : stmt :=
  (SSeq (SIf (ECall (EId "Regexes::endAppBlock") [EId "line"]) (SRet (Some (EId "true"))) SSkip) (SSeq (SRet (Some (EId "false"))) SSkip)).
Definition utils_regexwrappers_startAsmNesting : stmt :=
  (SSeq (SIf (ECall (EId "Regexes::startAsmNesting") [EId "line"]) (SRet (Some (EId "true"))) SSkip) (SSeq (SRet (Some (EId "false"))) SSkip)).
Definition utils_regexwrappers_endAsmNesting : stmt :=
  (SSeq (SIf (ECall (EId "Regexes::endAsmNesting") [EId "line"]) (SRet (Some (EId "true"))) SSkip) (SSeq (SRet (Some (EId "false"))) SSkip)).
Definition utils_regexwrappers_startProcBlock : stmt :=
  (SSeq (SIf (ECall (EId "Regexes::startProcBlock") [EId "line"]) (SRet (Some (EId "true"))) SSkip) (SSeq (SRet (Some (EId "false"))) SSkip)).
Definition utils_regexwrappers_endBlock : stmt :=
  (SSeq (SIf (ECall (EId "Regexes::endBlock") [EId "line"]) (SRet (Some (EId "true"))) SSkip) (SSeq (SRet (Some (EId "false"))) SSkip)).
Definition utils_regexwrappers_endProcBlock : stmt :=
  (SSeq (SIf (ECall (EId "Regexes::endProcBlock") [EId "line"]) (SRet (Some (EId "true"))) SSkip) (SSeq (SRet (Some (EId "false"))) SSkip)).
Definition utils_regexwrappers_getLabel : stmt :=
  (SSeq
            (SIfDecl "match" (ECall (EId "Regexes::labelDef") [EId "line"])
               (SBlock (SSeq (SRet (Some (ECall (EMem (ECall (EMem (EId "match") "get<1>") []) "to_view") []))) SSkip)) SSkip)
            (SSeq (SRet (Some (EId "std::nullopt"))) SSkip)).
Definition utils_regexwrappers_getLabelFromObjdumpLabel : stmt :=
  (SSeq
            (SIf
               (EBin "&&" (ECall (EMem (EId "line") "starts_with") [EStr ["<"%char]])
                  (ECall (EMem (EId "line") "ends_with") [EStr [">"%char; ":"%char]]))
               (SBlock
                  (SSeq
                     (SRet
                        (Some
                           (EMake (Ty "std::string_view" [])
                              [EBin "+" (ECall (EMem (EId "line") "begin") []) (ENum 1); EBin "-" (ECall (EMem (EId "line") "end") []) (ENum 2)])))
                     SSkip)) SSkip) (SSeq (SRet (Some (EId "std::nullopt"))) SSkip)).
Definition utils_regexwrappers_getLabelAssignment : stmt :=
  (SSeq
            (SIfDecl "matchAssign" (ECall (EId "Regexes::labelAssignmentDef") [EId "line"])
               (SBlock (SSeq (SRet (Some (ECall (EMem (ECall (EMem (EId "matchAssign") "get<1>") []) "to_view") []))) SSkip)) SSkip)
            (SSeq (SRet (Some (EId "std::nullopt"))) SSkip)).
Definition utils_regexwrappers_getAssignmentDef : stmt :=
  (SSeq
            (SIfDecl "match" (ECall (EId "Regexes::assignmentDef") [EId "line"])
               (SRet (Some (ECall (EMem (ECall (EMem (EId "match") "get<1>") []) "to_view") []))) SSkip)
            (SSeq (SRet (Some (EId "std::nullopt"))) SSkip)).
Definition utils_regexwrappers_getCudaLabel : stmt :=
  (SSeq
            (SIfDecl "match" (ECall (EId "Regexes::cudaBeginDef") [EId "line"])
               (SRet (Some (ECall (EMem (ECall (EMem (EId "match") "get<1>") []) "to_view") []))) SSkip)
            (SSeq (SRet (Some (EId "std::nullopt"))) SSkip)).
Definition utils_regexwrappers_getFunctionTypeDefinedLabel : stmt :=
  (SSeq
            (SIfDecl "match" (ECall (EId "Regexes::definesFunctionOrObject") [EId "line"])
               (SRet (Some (ECall (EMem (ECall (EMem (EId "match") "get<1>") []) "to_view") []))) SSkip)
            (SSeq (SRet (Some (EId "std::nullopt"))) SSkip)).
Definition utils_regexwrappers_getWeakDefinedLabel : stmt :=
  (SSeq
            (SIfDecl "match" (ECall (EId "Regexes::definesWeak") [EId "line"])
               (SRet (Some (ECall (EMem (ECall (EMem (EId "match") "get<1>") []) "to_view") []))) SSkip)
            (SSeq (SRet (Some (EId "std::nullopt"))) SSkip)).
Definition utils_regexwrappers_getGlobalDefinedLabel : stmt :=
  (SSeq
            (SIfDecl "match" (ECall (EId "Regexes::definesGlobal") [EId "line"])
               (SRet (Some (ECall (EMem (ECall (EMem (EId "match") "get<1>") []) "to_view") []))) SSkip)
            (SSeq (SRet (Some (EId "std::nullopt"))) SSkip)).
Definition utils_regexwrappers_getSectionNameDef : stmt :=
  (SSeq
            (SIfDecl "match" (ECall (EId "Regexes::sectionDef") [EId "line"])
               (SBlock
                  (SSeq
                     (SIf
                        (EBin "==" (ECall (EMem (ECall (EMem (EId "match") "get<1>") []) "to_view") [])
                           (EStr ["s"%char; "e"%char; "c"%char; "t"%char; "i"%char; "o"%char; "n"%char]))
                        (SBlock (SSeq (SRet (Some (ECall (EMem (ECall (EMem (EId "match") "get<2>") []) "to_view") []))) SSkip)) SSkip)
                     (SSeq (SRet (Some (ECall (EMem (ECall (EMem (EId "match") "get<1>") []) "to_view") []))) SSkip))) SSkip)
            (SSeq (SRet (Some (EId "std::nullopt"))) SSkip)).
Definition utils_regexwrappers_isJustComments : stmt :=
  (SSeq (SIf (ECall (EId "Regexes::commentOnly") [EId "line"]) (SRet (Some (EId "true"))) SSkip) (SSeq (SRet (Some (EId "false"))) SSkip)).
Definition utils_regexwrappers_isJustNvccComments : stmt :=
  (SSeq (SIf (ECall (EId "Regexes::commentOnlyNvcc") [EId "line"]) (SRet (Some (EId "true"))) SSkip) (SSeq (SRet (Some (EId "false"))) SSkip)).
Definition utils_regexwrappers_isCudaEndDef : stmt :=
  (SSeq (SIf (ECall (EId "Regexes::cudaEndDef") [EId "line"]) (SRet (Some (EId "true"))) SSkip) (SSeq (SRet (Some (EId "false"))) SSkip)).
Definition utils_regexwrappers_isDataDefn : stmt :=
  (SSeq (SIf (ECall (EId "Regexes::dataDefn") [EId "line"]) (SRet (Some (EId "true"))) SSkip) (SSeq (SRet (Some (EId "false"))) SSkip)).
Definition utils_regexwrappers_isDirective : stmt :=
  (SSeq (SIf (ECall (EId "Regexes::directive") [EId "line"]) (SRet (Some (EId "true"))) SSkip) (SSeq (SRet (Some (EId "false"))) SSkip)).
Definition utils_regexwrappers_isInstOpcode : stmt :=
  (SSeq (SIf (ECall (EId "Regexes::instOpcodeRe") [EId "line"]) (SRet (Some (EId "true"))) SSkip) (SSeq (SRet (Some (EId "false"))) SSkip)).
Definition utils_regexwrappers_squashHorizontalWhitespace : stmt :=
  (SSeq (SDecl (Ty "std::string" []) false "squashed" None)
            (SSeq (SExpr (ECall (EMem (EId "squashed") "reserve") [ECall (EMem (EId "line") "length") []]))
               (SSeq (SEnum "HorSpaceState" ["Start"; "Second"; "Stop"; "JustOne"] "state")
                  (SSeq
                     (SIf (EId "atStart") (SBlock (SSeq (SExpr (EAsg "=" (EId "state") (EId "HorSpaceState::Start"))) SSkip))
                        (SBlock (SSeq (SExpr (EAsg "=" (EId "state") (EId "HorSpaceState::JustOne"))) SSkip)))
                     (SSeq (SDecl (Ty "bool" []) false "justspaces" (Some (EId "true")))
                        (SSeq
                           (SForIn false "c" (EId "line")
                              (SBlock
                                 (SSeq
                                    (SIf (EBin "==" (EId "state") (EId "HorSpaceState::Stop"))
                                       (SBlock
                                          (SSeq
                                             (SIf (ECall (EId "is_whitespace") [EId "c"]) (SBlock SSkip)
                                                (SBlock
                                                   (SSeq (SExpr (EAsg "=" (EId "state") (EId "HorSpaceState::JustOne")))
                                                      (SSeq (SExpr (EAsg "+=" (EId "squashed") (EId "c")))
                                                         (SSeq (SExpr (EAsg "=" (EId "justspaces") (EId "false"))) SSkip))))) SSkip))
                                       (SIf (EBin "==" (EId "state") (EId "HorSpaceState::JustOne"))
                                          (SBlock
                                             (SSeq
                                                (SIf (ECall (EId "is_whitespace") [EId "c"])
                                                   (SBlock
                                                      (SSeq (SExpr (EAsg "=" (EId "state") (EId "HorSpaceState::Stop")))
                                                         (SSeq (SExpr (EAsg "+=" (EId "squashed") (EChr " "))) SSkip)))
                                                   (SBlock
                                                      (SSeq (SExpr (EAsg "+=" (EId "squashed") (EId "c")))
                                                         (SSeq (SExpr (EAsg "=" (EId "justspaces") (EId "false"))) SSkip)))) SSkip))
                                          (SIf (EBin "==" (EId "state") (EId "HorSpaceState::Start"))
                                             (SBlock
                                                (SSeq
                                                   (SIf (ECall (EId "is_whitespace") [EId "c"])
                                                      (SBlock
                                                         (SSeq (SExpr (EAsg "=" (EId "state") (EId "HorSpaceState::Second")))
                                                            (SSeq (SExpr (EAsg "+=" (EId "squashed") (EChr " "))) SSkip)))
                                                      (SBlock
                                                         (SSeq (SExpr (EAsg "=" (EId "state") (EId "HorSpaceState::Stop")))
                                                            (SSeq (SExpr (EAsg "+=" (EId "squashed") (EId "c")))
                                                               (SSeq (SExpr (EAsg "=" (EId "justspaces") (EId "false"))) SSkip))))) SSkip))
                                             (SIf (EBin "==" (EId "state") (EId "HorSpaceState::Second"))
                                                (SBlock
                                                   (SSeq
                                                      (SIf (ECall (EId "is_whitespace") [EId "c"])
                                                         (SBlock (SSeq (SExpr (EAsg "+=" (EId "squashed") (EChr " "))) SSkip))
                                                         (SBlock
                                                            (SSeq (SExpr (EAsg "+=" (EId "squashed") (EId "c")))
                                                               (SSeq (SExpr (EAsg "=" (EId "justspaces") (EId "false"))) SSkip))))
                                                      (SSeq (SExpr (EAsg "=" (EId "state") (EId "HorSpaceState::Stop"))) SSkip))) SSkip)))) SSkip)))
                           (SSeq
                              (SIf (EBin "&&" (EId "atStart") (EId "justspaces"))
                                 (SBlock (SSeq (SExpr (ECall (EMem (EId "squashed") "clear") [])) SSkip)) SSkip)
                              (SSeq (SRet (Some (EId "squashed"))) SSkip)))))))).
Definition utils_regexwrappers_squashHorizontalWhitespaceWithQuotes : stmt :=
  (SSeq
            (SIfDecl "quotes" (ECall (EId "Regexes::findQuotes") [EId "line"])
               (SBlock
                  (SSeq
                     (SRet
                        (Some
                           (ECall (EId "fmt::format")
                              [EStr ["{"%char; "}"%char; "{"%char; "}"%char; "{"%char; "}"%char];
                               ECall (EId "squashHorizontalWhitespaceWithQuotes")
                                 [ECall (EMem (ECall (EMem (EId "quotes") "get<1>") []) "to_view") []; EId "atStart"];
                               ECall (EMem (ECall (EMem (EId "quotes") "get<2>") []) "to_view") [];
                               ECall (EId "squashHorizontalWhitespaceWithQuotes")
                                 [ECall (EMem (ECall (EMem (EId "quotes") "get<3>") []) "to_view") []; EId "false"]]))) SSkip)) SSkip)
            (SSeq (SRet (Some (ECall (EId "squashHorizontalWhitespace") [EId "line"]))) SSkip)).
Definition utils_regexwrappers_shouldIgnoreFunction : stmt :=
  (SSeq
            (SIfDecl "match" (ECall (EId "Regexes::binaryIgnoreFunction") [EId "name"]) (SBlock (SSeq (SRet (Some (EId "true"))) SSkip))
               (SIf (EMem (EId "filter") "plt")
                  (SBlock
                     (SSeq
                        (SRet
                           (Some
                              (EBin "||"
                                 (EBin "||" (ECall (EMem (EId "name") "ends_with") [EStr ["@"%char; "p"%char; "l"%char; "t"%char]])
                                    (ECall (EMem (EId "name") "ends_with") [EStr ["@"%char; "p"%char; "l"%char; "t"%char; ">"%char]]))
                                 (ECall (EId "Regexes::pltFunction") [EId "name"])))) SSkip)) (SBlock (SSeq (SRet (Some (EId "false"))) SSkip))))
            SSkip).
Definition utils_regexwrappers_items : list item :=
  [IFun
          {|
            fn_class := "AssemblyTextParserUtils";
            fn_name := "getSourceRef";
            fn_ret := Some (Ty "regexed_sourceref" []);
            fn_params := [("line", Ty "std::string_view" [])];
            fn_dflt := [];
            fn_body := Some utils_regexwrappers_getSourceRef
          |};
        IFun
          {|
            fn_class := "AssemblyTextParserUtils";
            fn_name := "getFileDef";
            fn_ret := Some (Ty "std::optional" [Ty "asm_file_def" []]);
            fn_params := [("line", Ty "std::string_view" [])];
            fn_dflt := [];
            fn_body := Some utils_regexwrappers_getFileDef
          |};
        IFun
          {|
            fn_class := "AssemblyTextParserUtils";
            fn_name := "expandTabs";
            fn_ret := Some (Ty "std::string" []);
            fn_params := [("line", Ty "std::string_view" [])];
            fn_dflt := [];
            fn_body := Some utils_regexwrappers_expandTabs
          |};
        IFun
          {|
            fn_class := "";
            fn_name := "ltrim";
            fn_ret := Some (Ty "void" []);
            fn_params := [("s", Ty "&" [Ty "std::string" []])];
            fn_dflt := [];
            fn_body := Some utils_regexwrappers_ltrim
          |};
        IFun
          {|
            fn_class := "AssemblyTextParserUtils";
            fn_name := "getLineWithoutComment";
            fn_ret := Some (Ty "std::string_view" []);
            fn_params := [("line", Ty "std::string_view" [])];
            fn_dflt := [];
            fn_body := Some utils_regexwrappers_getLineWithoutComment
          |};
        IFun
          {|
            fn_class := "AssemblyTextParserUtils";
            fn_name := "getLineWithoutCommentAndStripFirstWord";
            fn_ret := Some (Ty "std::string_view" []);
            fn_params := [("line", Ty "std::string_view" [])];
            fn_dflt := [];
            fn_body := Some utils_regexwrappers_getLineWithoutCommentAndStripFirstWord
          |};
        IFun
          {|
            fn_class := "AssemblyTextParserUtils";
            fn_name := "is_probably_label";
            fn_ret := Some (Ty "bool" []);
            fn_params := [("line", Ty "std::string_view" [])];
            fn_dflt := [];
            fn_body := Some utils_regexwrappers_is_probably_label
          |};
        IFun
          {|
            fn_class := "AssemblyTextParserUtils";
            fn_name := "fixLabelIndentation";
            fn_ret := Some (Ty "std::string" []);
            fn_params := [("line", Ty "std::string_view" [])];
            fn_dflt := [];
            fn_body := Some utils_regexwrappers_fixLabelIndentation
          |};
        IFun
          {|
            fn_class := "AssemblyTextParserUtils";
            fn_name := "getUsedLabelsInLine";
            fn_ret := Some (Ty "std::vector" [Ty "asm_label_v" []]);
            fn_params := [("line", Ty "std::string_view" [])];
            fn_dflt := [];
            fn_body := Some utils_regexwrappers_getUsedLabelsInLine
          |};
        IFun
          {|
            fn_class := "AssemblyTextParserUtils";
            fn_name := "hasOpcode";
            fn_ret := Some (Ty "bool" []);
            fn_params := [("line", Ty "std::string_view" []); ("inNvccCode", Ty "bool" [])];
            fn_dflt := [];
            fn_body := Some utils_regexwrappers_hasOpcode
          |};
        IFun
          {|
            fn_class := "AssemblyTextParserUtils";
            fn_name := "isExampleOrStdin";
            fn_ret := Some (Ty "bool" []);
            fn_params := [("filename", Ty "std::string_view" [])];
            fn_dflt := [];
            fn_body := Some utils_regexwrappers_isExampleOrStdin
          |};
        IFun
          {|
            fn_class := "AssemblyTextParserUtils";
            fn_name := "getSourceInfoFromStabs";
            fn_ret := Some (Ty "std::optional" [Ty "asm_stabn" []]);
            fn_params := [("line", Ty "std::string_view" [])];
            fn_dflt := [];
            fn_body := Some utils_regexwrappers_getSourceInfoFromStabs
          |};
        IFun
          {|
            fn_class := "AssemblyTextParserUtils";
            fn_name := "get6502DbgInfo";
            fn_ret := Some (Ty "std::optional" [Ty "asm_source_v" []]);
            fn_params := [("line", Ty "std::string_view" [])];
            fn_dflt := [];
            fn_body := Some utils_regexwrappers_get6502DbgInfo
          |};
        IFun
          {|
            fn_class := "AssemblyTextParserUtils";
            fn_name := "getD2LineInfo";
            fn_ret := Some (Ty "std::optional" [Ty "asm_source_l" []]);
            fn_params := [("line", Ty "std::string_view" [])];
            fn_dflt := [];
            fn_body := Some utils_regexwrappers_getD2LineInfo
          |};
        IFun
          {|
            fn_class := "AssemblyTextParserUtils";
            fn_name := "getD2FileInfo";
            fn_ret := Some (Ty "std::optional" [Ty "asm_source_f" []]);
            fn_params := [("line", Ty "std::string_view" [])];
            fn_dflt := [];
            fn_body := Some utils_regexwrappers_getD2FileInfo
          |};
        IFun
          {|
            fn_class := "AssemblyTextParserUtils";
            fn_name := "startCommentBlock";
            fn_ret := Some (Ty "bool" []);
            fn_params := [("line", Ty "std::string_view" [])];
            fn_dflt := [];
            fn_body := Some utils_regexwrappers_startCommentBlock
          |};
        IFun
          {|
            fn_class := "AssemblyTextParserUtils";
            fn_name := "endCommentBlock";
            fn_ret := Some (Ty "bool" []);
            fn_params := [("line", Ty "std::string_view" [])];
            fn_dflt := [];
            fn_body := Some utils_regexwrappers_endCommentBlock
          |};
        IFun
          {|
            fn_class := "AssemblyTextParserUtils";
            fn_name := "startAppBlock";
            fn_ret := Some (Ty "bool" []);
            fn_params := [("line", Ty "std::string_view" [])];
            fn_dflt := [];
            fn_body := Some utils_regexwrappers_startAppBlock
          |};
        IFun
          {|
            fn_class := "AssemblyTextParserUtils";
            fn_name := "endAppBlock";
            fn_ret := Some (Ty "bool" []);
            fn_params := [("line", Ty "std::string_view" [])];
            fn_dflt := [];
            fn_body := Some utils_regexwrappers_endAppBlock
          |};
        IFun
          {|
            fn_class := "AssemblyTextParserUtils";
            fn_name := "startAsmNesting";
            fn_ret := Some (Ty "bool" []);
            fn_params := [("line", Ty "std::string_view" [])];
            fn_dflt := [];
            fn_body := Some utils_regexwrappers_startAsmNesting
          |};
        IFun
          {|
            fn_class := "AssemblyTextParserUtils";
            fn_name := "endAsmNesting";
            fn_ret := Some (Ty "bool" []);
            fn_params := [("line", Ty "std::string_view" [])];
            fn_dflt := [];
            fn_body := Some utils_regexwrappers_endAsmNesting
          |};
        IFun
          {|
            fn_class := "AssemblyTextParserUtils";
            fn_name := "startProcBlock";
            fn_ret := Some (Ty "bool" []);
            fn_params := [("line", Ty "std::string_view" [])];
            fn_dflt := [];
            fn_body := Some utils_regexwrappers_startProcBlock
          |};
        IFun
          {|
            fn_class := "AssemblyTextParserUtils";
            fn_name := "endBlock";
            fn_ret := Some (Ty "bool" []);
            fn_params := [("line", Ty "std::string_view" [])];
            fn_dflt := [];
            fn_body := Some utils_regexwrappers_endBlock
          |};
        IFun
          {|
            fn_class := "AssemblyTextParserUtils";
            fn_name := "endProcBlock";
            fn_ret := Some (Ty "bool" []);
            fn_params := [("line", Ty "std::string_view" [])];
            fn_dflt := [];
            fn_body := Some utils_regexwrappers_endProcBlock
          |};
        IFun
          {|
            fn_class := "AssemblyTextParserUtils";
            fn_name := "getLabel";
            fn_ret := Some (Ty "std::optional" [Ty "std::string_view" []]);
            fn_params := [("line", Ty "std::string_view" [])];
            fn_dflt := [];
            fn_body := Some utils_regexwrappers_getLabel
          |};
        IFun
          {|
            fn_class := "AssemblyTextParserUtils";
            fn_name := "getLabelFromObjdumpLabel";
            fn_ret := Some (Ty "std::optional" [Ty "std::string_view" []]);
            fn_params := [("line", Ty "std::string_view" [])];
            fn_dflt := [];
            fn_body := Some utils_regexwrappers_getLabelFromObjdumpLabel
          |};
        IFun
          {|
            fn_class := "AssemblyTextParserUtils";
            fn_name := "getLabelAssignment";
            fn_ret := Some (Ty "std::optional" [Ty "std::string_view" []]);
            fn_params := [("line", Ty "std::string_view" [])];
            fn_dflt := [];
            fn_body := Some utils_regexwrappers_getLabelAssignment
          |};
        IFun
          {|
            fn_class := "AssemblyTextParserUtils";
            fn_name := "getAssignmentDef";
            fn_ret := Some (Ty "std::optional" [Ty "std::string_view" []]);
            fn_params := [("line", Ty "std::string_view" [])];
            fn_dflt := [];
            fn_body := Some utils_regexwrappers_getAssignmentDef
          |};
        IFun
          {|
            fn_class := "AssemblyTextParserUtils";
            fn_name := "getCudaLabel";
            fn_ret := Some (Ty "std::optional" [Ty "std::string_view" []]);
            fn_params := [("line", Ty "std::string_view" [])];
            fn_dflt := [];
            fn_body := Some utils_regexwrappers_getCudaLabel
          |};
        IFun
          {|
            fn_class := "AssemblyTextParserUtils";
            fn_name := "getFunctionTypeDefinedLabel";
            fn_ret := Some (Ty "std::optional" [Ty "std::string_view" []]);
            fn_params := [("line", Ty "std::string_view" [])];
            fn_dflt := [];
            fn_body := Some utils_regexwrappers_getFunctionTypeDefinedLabel
          |};
        IFun
          {|
            fn_class := "AssemblyTextParserUtils";
            fn_name := "getWeakDefinedLabel";
            fn_ret := Some (Ty "std::optional" [Ty "std::string_view" []]);
            fn_params := [("line", Ty "std::string_view" [])];
            fn_dflt := [];
            fn_body := Some utils_regexwrappers_getWeakDefinedLabel
          |};
        IFun
          {|
            fn_class := "AssemblyTextParserUtils";
            fn_name := "getGlobalDefinedLabel";
            fn_ret := Some (Ty "std::optional" [Ty "std::string_view" []]);
            fn_params := [("line", Ty "std::string_view" [])];
            fn_dflt := [];
            fn_body := Some utils_regexwrappers_getGlobalDefinedLabel
          |};
        IFun
          {|
            fn_class := "AssemblyTextParserUtils";
            fn_name := "getSectionNameDef";
            fn_ret := Some (Ty "std::optional" [Ty "std::string_view" []]);
            fn_params := [("line", Ty "std::string_view" [])];
            fn_dflt := [];
            fn_body := Some utils_regexwrappers_getSectionNameDef
          |};
        IFun
          {|
            fn_class := "AssemblyTextParserUtils";
            fn_name := "isJustComments";
            fn_ret := Some (Ty "bool" []);
            fn_params := [("line", Ty "std::string_view" [])];
            fn_dflt := [];
            fn_body := Some utils_regexwrappers_isJustComments
          |};
        IFun
          {|
            fn_class := "AssemblyTextParserUtils";
            fn_name := "isJustNvccComments";
            fn_ret := Some (Ty "bool" []);
            fn_params := [("line", Ty "std::string_view" [])];
            fn_dflt := [];
            fn_body := Some utils_regexwrappers_isJustNvccComments
          |};
        IFun
          {|
            fn_class := "AssemblyTextParserUtils";
            fn_name := "isCudaEndDef";
            fn_ret := Some (Ty "bool" []);
            fn_params := [("line", Ty "std::string_view" [])];
            fn_dflt := [];
            fn_body := Some utils_regexwrappers_isCudaEndDef
          |};
        IFun
          {|
            fn_class := "AssemblyTextParserUtils";
            fn_name := "isDataDefn";
            fn_ret := Some (Ty "bool" []);
            fn_params := [("line", Ty "std::string_view" [])];
            fn_dflt := [];
            fn_body := Some utils_regexwrappers_isDataDefn
          |};
        IFun
          {|
            fn_class := "AssemblyTextParserUtils";
            fn_name := "isDirective";
            fn_ret := Some (Ty "bool" []);
            fn_params := [("line", Ty "std::string_view" [])];
            fn_dflt := [];
            fn_body := Some utils_regexwrappers_isDirective
          |};
        IFun
          {|
            fn_class := "AssemblyTextParserUtils";
            fn_name := "isInstOpcode";
            fn_ret := Some (Ty "bool" []);
            fn_params := [("line", Ty "std::string_view" [])];
            fn_dflt := [];
            fn_body := Some utils_regexwrappers_isInstOpcode
          |};
        IFun
          {|
            fn_class := "AssemblyTextParserUtils";
            fn_name := "squashHorizontalWhitespace";
            fn_ret := Some (Ty "std::string" []);
            fn_params := [("line", Ty "std::string_view" []); ("atStart", Ty "bool" [])];
            fn_dflt := [];
            fn_body := Some utils_regexwrappers_squashHorizontalWhitespace
          |};
        IFun
          {|
            fn_class := "AssemblyTextParserUtils";
            fn_name := "squashHorizontalWhitespaceWithQuotes";
            fn_ret := Some (Ty "std::string" []);
            fn_params := [("line", Ty "std::string_view" []); ("atStart", Ty "bool" [])];
            fn_dflt := [];
            fn_body := Some utils_regexwrappers_squashHorizontalWhitespaceWithQuotes
          |};
        IFun
          {|
            fn_class := "AssemblyTextParserUtils";
            fn_name := "shouldIgnoreFunction";
            fn_ret := Some (Ty "bool" []);
            fn_params := [("name", Ty "std::string_view" []); ("filter", Ty "Filter" [])];
            fn_dflt := [];
            fn_body := Some utils_regexwrappers_shouldIgnoreFunction
          |}].
Lemma utils_regexwrappers_read : read_file utils_regexwrappers_cpp = Some utils_regexwrappers_items.
Proof. vm_compute. reflexivity. Qed.

Definition utils_regexwrappers_h_items : list item :=
  [IStruct "regexed_sourceref" [("file_index", Ty "int" [], None); ("line_index", Ty "int" [], None); ("column", Ty "int" [], None)];
        IStruct "AssemblyTextParserUtils" []; IDefault "squashHorizontalWhitespace" 1 [EId "true"]].
Lemma utils_regexwrappers_h_read : read_file utils_regexwrappers_hpp = Some utils_regexwrappers_h_items.
Proof. vm_compute. reflexivity. Qed.
