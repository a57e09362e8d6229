#!/bin/sh
# Extracts the model to OCaml in /tmp/ext and builds the driver used by the two fuzzers.
# A test of the model against an independent Python port of the Rust text; not part of the proof.
set -e
mkdir -p /tmp/ext && cd /tmp/ext
cat > ex.v <<'E'
From Coq Require Import Extraction ExtrOcamlBasic ExtrOcamlZBigInt ExtrOcamlNatInt NArith.
From Verif Require Import Base Formats Signatures IO Find Utf8 Readers Lib Conf Derive.
Definition cfg64 := cfg_all.
Definition cfg64d := mkcfg (fun _ => true) true 64.
Definition cfg32 := mkcfg (fun _ => true) false 32.
Definition cfg32d := mkcfg (fun _ => true) true 32.
Extract Constant N.of_nat => "Big_int_Z.big_int_of_int".
Extract Constant N.to_nat => "Big_int_Z.int_of_big_int".
Extraction "model.ml" from_bytes cfg64 cfg64d cfg32 cfg32d.
E
coqc -R /verif/rocq/theories Verif ex.v
rm -f model.mli
cat > drv.ml <<'E'
open Model
let rd_list n =
  let s = really_input_string stdin n in
  let r = ref [] in
  for i = n - 1 downto 0 do r := (Obj.magic (Char.code s.[i])) :: !r done; !r
let show = function
  | Done f -> string_of_int (Obj.magic f : int)
  | Panicked -> "P" | OutOfFuel -> "F"
let () =
  set_binary_mode_in stdin true;
  try while true do
    let n = input_binary_int stdin in
    let l = rd_list n in
    print_endline (String.concat " " (List.map (fun c -> show (from_bytes c l)) [cfg64; cfg64d; cfg32; cfg32d]))
  done with End_of_file -> ()
E
ocamlfind ocamlopt -O3 -w -a -package zarith -linkpkg model.ml drv.ml -o drv
