#!/bin/sh
# Runs the model, extracted to OCaml, on the large file of the repository and compares
# what it prints with what the program itself printed (the snapshot of the test
# ifc_rs/tests/insta.rs).  Not part of the build: it needs rocq/theories compiled, an
# OCaml compiler and about ten minutes.  Nothing proved depends on it.
#
#   sh validate/replay.sh [scratch directory]
set -e
here=$(cd "$(dirname "$0")/.." && pwd)
work=${1:-/tmp/replay}
mkdir -p "$work" && cd "$work"

cat > Ext.v <<'V'
From Coq Require Import Extraction ExtrOcamlBasic ExtrOcamlNatInt ExtrOcamlString.
From Verif Require Import Base Prims File Replay.
Extraction "ifc.ml" load save hierarchy.
V
coqc -Q "$here/rocq/theories" Verif Ext.v
rm -f ifc.mli

# The fuel of repeat_till is the length of the remaining text, never exhausted
# (repeat_till_fuel in BaseFacts.v).  Computing it for every gap of a text of 2.5 MB
# takes too long, so the largest integer stands for it.
python3 - <<'P'
s = open('ifc.ml').read()
a = 'repeat_till_fuel (Stdlib.Int.succ (length s)) f g s'
assert s.count(a) == 1
open('ifc.ml', 'w').write(s.replace(a, 'repeat_till_fuel max_int f g s'))
P

cat > main.ml <<'M'
open Ifc
let rec pos n = if n = 1 then XH else if n land 1 = 0 then XO (pos (n/2)) else XI (pos (n/2))
let ton n = if n = 0 then N0 else Npos (pos n)
let rec ofp = function XH -> 1 | XO p -> 2 * ofp p | XI p -> 2 * ofp p + 1
let ofn = function N0 -> 0 | Npos p -> ofp p
let tab = Array.init 0x3000 ton
let decode s =
  let l = String.length s in
  let byte i = Char.code s.[i] land 63 in
  let out = ref [] and i = ref 0 in
  while !i < l do
    let c = Char.code s.[!i] in
    let cp, k =
      if c < 0x80 then c, 1
      else if c < 0xE0 then ((c land 31) lsl 6) lor byte (!i+1), 2
      else if c < 0xF0 then ((c land 15) lsl 12) lor (byte (!i+1) lsl 6) lor byte (!i+2), 3
      else failwith "character outside the basic plane" in
    out := (if cp < 0x3000 then tab.(cp) else ton cp) :: !out; i := !i + k
  done; List.rev !out
let encode l = let b = Buffer.create 1000000 in
  List.iter (fun n -> Buffer.add_utf_8_uchar b (Uchar.of_int (ofn n))) l; Buffer.contents b
let z n = if n = 0 then Z0 else Zpos (pos n)
let rfc t =
  try Scanf.sscanf (encode t) "%4d-%2d-%2dT%2d:%2d:%2dZ%!" (fun y m d h mi se ->
    Some { st_year = z y; st_month = ton m; st_day = ton d; st_hour = ton h;
           st_min = ton mi; st_sec = ton se; st_nano = N0 })
  with _ -> None
let env = { uni = (fun n -> let c = ofn n in c >= 192 && c <> 215 && c <> 247); rfc3339 = rfc }
let read f = let ic = open_in_bin f in
  let s = really_input_string ic (in_channel_length ic) in close_in ic; s
let () =
  match load env (decode (read Sys.argv.(1))) with
  | Done x ->
      print_string (encode (save x));
      prerr_endline (if hierarchy x.i_data then "lookups of print_wall_hierarchy: all succeed"
                     else "lookups of print_wall_hierarchy: one fails")
  | Err -> prerr_endline "Err"; exit 1
  | Panic -> prerr_endline "Panic"; exit 2
M
ocamlfind ocamlopt -O3 -w -a ifc.ml main.ml -o replay 2>/dev/null

ulimit -s unlimited
./replay /repo/ifc_rs/resources/AC20-FZK-Haus.ifc > printed
hex='[a-fA-F0-9]'
sed -E "s/$hex{8}-$hex{4}-$hex{4}-$hex{4}-$hex{12}/[redacted uuid]/g" printed > redacted
tail -n +5 /repo/ifc_rs/tests/snapshots/insta__archicad_results.snap > snapshot
cmp redacted snapshot && echo "identical to the snapshot: $(wc -l < snapshot) lines"
