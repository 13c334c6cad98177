#!/usr/bin/env python3
"""Runs the model's decoder (extracted to OCaml in a scratch directory) on all
blocks of /repo/hpack/fixtures, with one decoder per story as hpack/tests/http2jp.rs
does, and compares every header.  Evidence about the model, not part of the proofs."""
import json, glob, os, subprocess, sys
W = sys.argv[1] if len(sys.argv) > 1 else '/tmp/fixtures_run'
T = os.path.join(os.path.dirname(os.path.abspath(__file__)), '..', 'rocq', 'theories')
os.makedirs(W, exist_ok=True)
open(W + '/E.v', 'w').write('''From Coq Require Extraction.
From Coq Require Import ExtrOcamlBasic.
From Verif Require Import Base HuffModel HpackModel.
Extraction Language OCaml.
Extraction "m.ml" hdecode decoder_default.
''')
with open(W + '/cases.txt', 'w') as out:
    for f in sorted(glob.glob('/repo/hpack/fixtures/*/*.json')):
        out.write('S ' + f.split('fixtures/')[1] + '\n')
        for c in json.load(open(f))['cases']:
            out.write('W ' + c['wire'] + '\n')
            for h in c['headers']:
                for k, v in h.items(): out.write('H ' + k.encode().hex() + ' ' + v.encode().hex() + '\n')
            out.write('E\n')
open(W + '/run.ml', 'w').write(r'''open M
let rec pos i = if i = 1 then XH else if i land 1 = 1 then XI (pos (i lsr 1)) else XO (pos (i lsr 1))
let n_of i = if i = 0 then N0 else Npos (pos i)
let tab = Array.init 256 n_of
let rec ip = function XH -> 1 | XO p -> 2 * ip p | XI p -> 2 * ip p + 1
let i_of = function N0 -> 0 | Npos p -> ip p
let unhex s = List.init (String.length s / 2) (fun i -> tab.(int_of_string ("0x" ^ String.sub s (2*i) 2)))
let hex l = String.concat "" (List.map (fun b -> Printf.sprintf "%02x" (i_of b)) l)
let ic = open_in "cases.txt"
let mode = if Array.length Sys.argv > 1 && Sys.argv.(1) = "r" then Release else Debug
let () =
  let d = ref decoder_default and story = ref "" and wire = ref [] and hs = ref [] in
  let ok = ref 0 and bad = ref 0 and skip = ref false in
  try while true do
    let l = input_line ic in
    match l.[0] with
    | 'S' -> d := decoder_default; story := String.sub l 2 (String.length l - 2); skip := false
    | 'W' -> wire := unhex (String.sub l 2 (String.length l - 2)); hs := []
    | 'H' -> (match String.split_on_char ' ' l with [_; a; b] -> hs := (a, b) :: !hs | _ -> failwith l)
    | 'E' -> if not !skip then begin
        let (((d', buf), dst), o) = hdecode mode !d !wire [] in
        let got = List.map (fun ((a, b), _) -> (hex a, hex b)) dst in
        (match o with
         | Ok n when buf = [] && got = List.rev !hs -> incr ok; d := d'
         | Ok _ -> incr bad; Printf.printf "MISMATCH %s\n%!" !story; skip := true
         | Err _ -> incr bad; Printf.printf "ERR %s\n%!" !story; skip := true
         | Panic -> incr bad; Printf.printf "PANIC %s\n%!" !story; skip := true
         | OutOfFuel -> incr bad; Printf.printf "FUEL %s\n%!" !story; skip := true) end
    | _ -> ()
  done with End_of_file -> Printf.printf "ok %d bad %d\n" !ok !bad
''')
subprocess.check_call(['coqc', '-Q', T, 'Verif', 'E.v'], cwd=W)
subprocess.check_call('ocamlfind ocamlopt -w -a m.mli m.ml run.ml -o run', shell=True, cwd=W)
for m in 'dr': subprocess.check_call(['./run', m], cwd=W)
