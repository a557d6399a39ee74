(** The unit tests of src/test/test_test.cpp, replayed on the model, and a few
    small runs.  These are tests of the transcription, not proofs. *)
From Verif Require Import ObjDump AsmText Cli.
Local Open Scope string_scope.

(** TAB and double quote cannot be written conveniently in a Coq string: tests
    write ~ for TAB and ` for the double quote. *)
Definition T (s : string) : str :=
  map (fun c => if ceq c "~" then TAB else if ceq c "`" then DQ else c) (lit s).
Definition names (l : list asm_label) : list str := map lb_name l.

(* test_test.cpp:6-26 *)
Example t_srcref : getSourceRef (T "        .loc 1 351 7") = (1, 351, 7). Proof. reflexivity. Qed.
Example t_filedef : getFileDef (T "        .file 2 `/opt/gcc/bits/char_traits.h`") = Some (2, T "/opt/gcc/bits/char_traits.h").
Proof. reflexivity. Qed.
Example t_endblock : endBlock (T "~.cfi_endproc") = true /\ endProcBlock (T "~.cfi_endproc") = true. Proof. now split. Qed.
Example t_indented : getLineWithoutComment (T "~label:") = T "~label:". Proof. reflexivity. Qed.
(* :28-33 *)
Example t_clangfile : getFileDef (T "        .file 1 `/dir/src` `filename.cpp`") = Some (1, T "/dir/src/filename.cpp").
Proof. reflexivity. Qed.
(* :35-48 *)
Example t_tabs : map expandTabs (map T ["no tabs in here"; "0~1234567A"; "01~234567A"; "012~34567A"; "0123~4567A";
    "01234~567A"; "012345~67A"; "0123456~7A"; "01234567~A"; "~push~rbp"])
  = map T ["no tabs in here"; "0       1234567A"; "01      234567A"; "012     34567A"; "0123    4567A"; "01234   567A";
    "012345  67A"; "0123456 7A"; "01234567        A"; "        push    rbp"]. Proof. reflexivity. Qed.
(* :50-81 *)
Example t_glwc : map getLineWithoutComment (map T ["   mov eax, [_mylabel+8]  "; "_label123:  # comment"; "_label123:"])
  = map T ["   mov eax, [_mylabel+8]"; "_label123:"; "_label123:"]. Proof. reflexivity. Qed.
Example t_strip : map getLineWithoutCommentAndStripFirstWord
    (map T ["   mov eax, [_mylabel+8]  # some comment"; "   mov eax, ptr [_mylabel+8]"; "   mov eax, ptr [_mylabel+8]     # comment";
            "   mov eax, ptr #notacomment"; "        movl    $.L.str, %edi"])
  = map T [" eax, [_mylabel+8]"; " eax, ptr [_mylabel+8]"; " eax, ptr [_mylabel+8]"; " eax, ptr #notacomment"; "    $.L.str, %edi"].
Proof. reflexivity. Qed.
(* :83-142 *)
Definition used := getUsedLabelsInLine mblen_ascii.
Example t_used1 : names (used (T "  mov ptr eax, <_somelabel+8>  # my comments")) = map T ["ptr"; "eax"; "_somelabel"]. Proof. reflexivity. Qed.
Example t_used2 : used (T "        jbe     .LBB0_3") = [mkLabel (T ".LBB0_3") (mkRange 17 24)]. Proof. reflexivity. Qed.
Example t_used3 : names (used (T "        movw    r1, #:lower16:.LC0")) = map T ["r1"; "lower16"; ".LC0"]. Proof. reflexivity. Qed.
Example t_used4 : names (used (T "        movl    $.L.str, %edi")) = map T [".L.str"; "$.L.str"; "edi"; "%edi"]. Proof. reflexivity. Qed.
Example t_used5 : names (used (T "        bltid   r18,$L2")) = map T ["r18"; "L2"; "$L2"]. Proof. reflexivity. Qed.
Example t_used6 : used (T "        movsd   xmm0, qword ptr [rsi + 8*rax]") =
  [mkLabel (T "xmm0") (mkRange 17 21); mkLabel (T "qword") (mkRange 23 28); mkLabel (T "ptr") (mkRange 29 32);
   mkLabel (T "rsi") (mkRange 34 37); mkLabel (T "rax") (mkRange 42 45)]. Proof. reflexivity. Qed.
Example t_used7 : used (T " .ascii  \`Hello world\\000\`") = []. Proof. reflexivity. Qed.
(* :144-170 *)
Example t_squash : map (fun s => squashHorizontalWhitespace s true) (map T [""; " "; "    "; " abc"; "   abc"; "       abc"; "abc abc";
    "abc   abc"; "abc     abc"; " abc  abc"; "  abc abc"; "  abc     abc"; "    abc   abc"])
  = map T [""; ""; ""; " abc"; "  abc"; "  abc"; "abc abc"; "abc abc"; "abc abc"; " abc abc"; "  abc abc"; "  abc abc"; "  abc abc"].
Proof. reflexivity. Qed.
Example t_squashq : squashHorizontalWhitespaceWithQuotes (T "  .string   `   abc  etc`   # hello   `  wor  ld`") true
  = T "  .string `   abc  etc`  # hello `  wor  ld`". Proof. reflexivity. Qed.
(* :172-180, :238-244 *)
Example t_data : map isDataDefn (map T ["  .string   `   abc  etc`   # hello   `  wor  ld`"; "        .ascii  `Hello world\000`"; "        .4byte  0x37d";
    "        .byte   0x2"; "        .asciz   `Hello world`"; "    mov eax, 0x12"; "    .dword 12h"; "    .string 'hello, world!'"; "    .base64 'abc'"])
  = [true; true; true; true; true; false; true; true; true]. Proof. reflexivity. Qed.
(* :182-198 *)
Example t_labels : map getLabel (map T ["hello:"; ".LC0:"; "_Z12testFunctionPii:"; "..___tag_value_main.2:"; "$Ltext0:";
    "_ZN95_$LT$example..Bla$LT$$u27$a$GT$$u20$as$GT$4into17h38301ffbb2e8fb47E:"; "__do_global_dtors_aux:"])
  = map (fun s => Some (T s)) ["hello"; ".LC0"; "_Z12testFunctionPii"; "..___tag_value_main.2"; "$Ltext0";
    "_ZN95_$LT$example..Bla$LT$$u27$a$GT$$u20$as$GT$4into17h38301ffbb2e8fb47E"; "__do_global_dtors_aux"]. Proof. reflexivity. Qed.
Example t_assign : map getLabelAssignment (map T [".Lset0 = .Lpubnames_end1-.Lpubnames_begin1"; "$LFB0 = ."])
  = [Some (T ".Lset0"); Some (T "$LFB0")]. Proof. reflexivity. Qed.
(* :200-236 *)
Example t_ignore : shouldIgnoreFunction (T "__do_global_dtors_aux") no_filter = true. Proof. reflexivity. Qed.
Example t_6502 : map get6502DbgInfo (map T ["~.dbg~line, `/tmp/test.c`, 2"; "~.dbg~line"])
  = [Some (T "/tmp/test.c", 2, false); Some ([], 0, true)]. Proof. reflexivity. Qed.
Example t_inst : isInstOpcode (T "        .inst.n 0xdefe") = true. Proof. reflexivity. Qed.
Example t_d2 : getD2FileInfo (T "        .d2file   `/tmp/x/example.cpp`") = Some (T "/tmp/x/example.cpp")
  /\ getD2LineInfo (T "        .d2line         4,8") = Some 4 /\ getD2LineInfo (T "        .d2line         5") = Some 5.
Proof. now repeat split. Qed.
