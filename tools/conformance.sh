#!/bin/sh
# Runs the extracted model on the input files of the repository's approval tests
# and compares with the approved outputs (recorded runs of the real program).
# Needs ocamlfind; works in a scratch directory; not part of the proof.
# usage: tools/conformance.sh [/repo]
set -e
REPO=${1:-/repo}
HERE=$(cd "$(dirname "$0")/.." && pwd)
TMP=$(mktemp -d)
cd "$TMP"
cat > Ext.v <<'EOF'
From Coq Require Import Extraction ExtrOcamlBasic ExtrOcamlString.
From Verif Require Import ObjDump Json Utils.
Extraction Language OCaml.
Extraction "model.ml" ObjDump.run ObjDump.outputText ObjDump.outputJson dec_Z mblen_utf8 no_filter.
EOF
coqc -Q "$HERE/rocq/theories" Verif Ext.v
sed -i '/^type char = char$/d' model.ml model.mli
cat > drv.ml <<'EOF'
open Model
let read f = let ic = open_in_bin f in let n = in_channel_length ic in let s = really_input_string ic n in close_in ic; s
let expl s = List.init (String.length s) (String.get s)
let impl l = let b = Buffer.create 1000 in List.iter (Buffer.add_char b) l; Buffer.contents b
let res = Sys.argv.(1) ^ "/resources/"
let on = { no_filter with f_binary = true; f_plt = true; f_library_functions = true; f_unused_labels = true }
let off = { no_filter with f_binary = true }
(* the approval files end in a newline that the test library adds *)
let strip s = let n = String.length s in if n > 0 && s.[n-1] = '\n' then String.sub s 0 (n-1) else s
let t name file flt json =
  match run mblen_utf8 flt (expl (read (res ^ file))) with
  | Ok s ->
    let out = impl (if json then outputJson flt dec_Z true Z0 s else outputText s) in
    let exp = read (res ^ "asmtext_filter_tests." ^ name ^ ".approved.txt") in
    Printf.printf "%s: %s (%d bytes)\n" name (if out = strip exp then "same" else "DIFFERENT") (String.length out)
  | _ -> Printf.printf "%s: no result\n" name
let () =
  t "ce-bug-4848" "ce-bug-4848.asm" {on with f_code_only = true} true;
  t "ce-bug-3963" "ce-bug-3963.asm" on true;
  t "ce-bug-7000" "ce-bug-7000.asm" on true;
  t "example-llvm-objdump" "example-llvm-objdump.asm" on true;
  t "filter_example" "example.asm" on false;
  t "gcc12_sort_object_reloc" "gcc12_sort_object_reloc.asm" off false;
  t "filter_example_intel" "example_intel.asm" on false
EOF
ocamlfind ocamlopt -w -a model.mli model.ml drv.ml -o drv 2>/dev/null
ulimit -s unlimited
./drv "$REPO"
rm -rf "$TMP"
