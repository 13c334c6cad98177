#!/usr/bin/env python3
"""Transcribes the test vectors of /repo's own unit and integration tests into
Coq (Conformance.v), where the model has to reproduce them."""
import re, ast
R = '/repo/'
T = '/verif/rocq/theories/'
nl = lambda xs: '[' + '; '.join(str(x) for x in xs) + ']'

def bstr(s):                       # body of a Rust b"..." literal
    return list(ast.literal_eval('b"' + s + '"'))
def num(s):
    s = s.strip()
    return int(s, 0)
def nums(s):
    s = re.sub(r'//[^\n]*', '', s)
    return [num(x) for x in s.split(',') if x.strip()]

src = open(R + 'huffman/src/decoder/mod.rs').read()
chars = []
for a, b, v in re.findall(r'\(&?(?:\[(\d+)\]|b"((?:\\.|[^"\\])*)"),\s*vec!\[([^\]]*)\]\)', src[src.index('fn valid_characters'):src.index('fn valid_literals')]):
    chars.append(([int(a)] if a else bstr(b), nums(v)))
lits = []
seg = src[src.index('fn valid_literals'):src.index('fn invalid_encodings')]
for b, v in re.findall(r'b"((?:\\.|[^"\\])*)"\.to_vec\(\),\s*vec!\[([^\]]*)\]', seg):
    lits.append((bstr(b), nums(v)))
seg = src[src.index('fn invalid_encodings'):]
seg = seg[:seg.index('fn decodes_characters')]
bad = [nums(v) for v in re.findall(r'vec!\[(\s*[\d][^\]]*)\]', seg)]
assert len(chars) == 256 and len(bad) == 9, (len(chars), len(bad))

enc = open(R + 'huffman/src/encoder/mod.rs').read()
enc = enc[enc.index('fn encodes_bytes'):]
enc1 = [bstr(s) for s in re.findall(r'encode\(b"((?:\\.|[^"\\])*)", &mut dst\)', enc)]
outs = [nums(v) for v in re.findall(r'assert_eq!\(dst, (?:vec!|&)\[([^\]]*)\]\)', enc)]
assert len(outs) == 2 and len(enc1) == 96

sp = open(R + 'hpack/tests/specs.rs').read()
sp = sp[sp.index('let examples'):sp.index('for requests in examples')]
groups = []
for g in re.split(r'vec!\[ // (?:request|response) examples', sp)[1:]:
    blocks = []
    for b in re.split(r'\( // (?:request|response) \d', g)[1:]:
        fields = [(bstr(n), bstr(v), int(f)) for n, v, f in re.findall(r'\(b"([^"]*)"\.to_vec\(\), b"([^"]*)"\.to_vec\(\), (\d+)\)', b)]
        b2 = re.sub(r'//[^\n]*', '', b[b.rindex('vec!['):])
        wire = bytes.fromhex(''.join(re.findall(r'"([0-9a-f]+)"', b2)))
        blocks.append((fields, list(wire)))
    groups.append(blocks)
assert [len(g) for g in groups] == [3, 3, 3, 3]

o = []
w = o.append
w('''(* GENERATED by tools/gen_conformance.py: the test vectors of /repo's own tests, which
   the model reproduces in both build modes.  These are tests of the model (the code
   itself cannot be run here), not proofs about it; no theorem depends on this file. *)
From Coq Require Import String Ascii.
From Verif Require Import Base HuffTables HuffAsset HuffModel HuffSpec HpackStatic HpackModel HpackSpec HpackApi ProtosModel ProtosSpec ProtosApi.
Open Scope list_scope. Open Scope N_scope.

Definition pair_eqb (a b : list N * list N) : bool := list_eqb (fst a) (fst b) && list_eqb (snd a) (snd b).
Definition is_okb {E A} (o : outcome E A) : bool := match o with Ok _ => true | _ => false end.
Definition modes : list mode := [Debug; Release].
Definition hexdigit (c : ascii) : N := let n := N_of_ascii c in if n <? 58 then n - 48 else n - 87.
Fixpoint unhex (s : string) : list N :=
  match s with
  | String a (String b s') => (16 * hexdigit a + hexdigit b) :: unhex s'
  | _ => []
  end.

(* huffman/src/decoder/mod.rs:126-384, valid_characters *)
Definition valid_characters : list (list N * list N) := [''')
w(';\n'.join('  (%s, %s)' % (nl(a), nl(b)) for a, b in chars) + '].')
w('''(* huffman/src/decoder/mod.rs:386-455, valid_literals *)
Definition valid_literals : list (list N * list N) := [''')
w(';\n'.join('  (%s, %s)' % (nl(a), nl(b)) for a, b in lits) + '].')
w('''(* huffman/src/decoder/mod.rs:457-469, invalid_encodings *)
Definition invalid_encodings : list (list N) := [''')
w(';\n'.join('  %s' % nl(b) for b in bad) + '].')
w('''
(* huffman/src/decoder/mod.rs, decodes_characters and decodes_literals *)
Example decodes_valid : forallb (fun m => forallb (fun s => forallb (fun dc =>
    match decode m s (snd dc) [] with (d, Ok _) => list_eqb d (fst dc) | _ => false end)
    (valid_characters ++ valid_literals)) known_speeds) modes = true.
Proof. vm_compute. reflexivity. Qed.
Example decodes_invalid : forallb (fun m => forallb (fun s => forallb (fun c =>
    match decode m s c [] with (_, Err InvalidInput) => true | _ => false end)
    invalid_encodings) known_speeds) modes = true.
Proof. vm_compute. reflexivity. Qed.
(* The same vectors are what encode writes. *)
Example encodes_valid : forallb (fun m => forallb (fun dc =>
    match encode m (fst dc) [] with (d, Ok _) => list_eqb d (snd dc) | _ => false end)
    (valid_characters ++ valid_literals)) modes = true.
Proof. vm_compute. reflexivity. Qed.

(* huffman/src/encoder/mod.rs:154-271, encodes_bytes: one call per character, one buffer *)
Definition encode_all (m : mode) (l : list (list N)) : list N :=
  fold_left (fun dst s => fst (encode m s dst)) l [].
Example encodes_bytes : forall m, encode_all m %s
  = %s.
Proof. intros []; vm_compute; reflexivity. Qed.
Example encodes_hello : forall m, encode m %s [] = (%s, Ok tt).
Proof. intros []; vm_compute; reflexivity. Qed.
''' % (nl(nl(x) for x in enc1[:-1]), nl(outs[0]), nl(enc1[-1]), nl(outs[1])))
w('''(* huffman/src/flattener/mod.rs:240-337 *)
Definition sample_encoding_table : list (N * N) :=
  [(13, 0x1ff8); (23, 0x7fffd8); (28, 0xfffffe2); (28, 0xfffffe3); (28, 0xfffffe4);
   (28, 0xfffffe5); (28, 0xfffffe6); (28, 0xfffffe7); (28, 0xfffffe8)].
Definition flat_is (s : speed) (len row col : nat) (c : cell) : Prop := forall m,
  match flatten m sample_encoding_table s with
  | Ok t => List.length t = len /\\ nth_error (nth row t []) col = Some c
  | _ => False
  end.
Example flattens_1bits : flat_is OneBit 41 2 1 (Some 3, None, 0).
Proof. intros []; vm_compute; split; reflexivity. Qed.
Example flattens_2bits : flat_is TwoBits 20 1 3 (Some 2, None, 0).
Proof. intros []; vm_compute; split; reflexivity. Qed.
Example flattens_3bits : flat_is ThreeBits 16 1 7 (Some 2, None, 0).
Proof. intros []; vm_compute; split; reflexivity. Qed.
Example flattens_4bits : flat_is FourBits 9 1 15 (Some 2, None, 0).
Proof. intros []; vm_compute; split; reflexivity. Qed.
Example flattens_5bits : flat_is FiveBits 8 1 31 (Some 2, None, 0).
Proof. intros []; vm_compute; split; reflexivity. Qed.
Example generates_coding_paths : forall m,
  generate_coding_paths m (14, 12345) 4 = Ok [[12; 0; 14; 4]; [12; 0; 14; 5]; [12; 0; 14; 6]; [12; 0; 14; 7]] /\\
  generate_coding_paths m (13, 2616) 4 = Ok [[5; 1; 12; 0]; [5; 1; 12; 1]; [5; 1; 12; 2]; [5; 1; 12; 3];
    [5; 1; 12; 4]; [5; 1; 12; 5]; [5; 1; 12; 6]; [5; 1; 12; 7]].
Proof. intros []; vm_compute; split; reflexivity. Qed.

(* huffman/src/parser/mod.rs:73-92 *)
Example parses_huffman_table :
  match parse asset_text with
  | Ok t => List.length t = 257%nat /\\ nth_error t 10 = Some (30, 0x3ffffffc) /\\
      nth_error t 32 = Some (6, 0x14) /\\ nth_error t 256 = Some (30, 0x3fffffff)
  | _ => False
  end.
Proof. vm_compute. repeat split. Qed.

(* ------------------------------------------------------------------ *)
(* hpack/src/encoder/primitives.rs:114-162 *)
Example encodes_integer : forallb (fun x => let '(v, f, p, r) := x in
    match encode_integer v f p [] with (d, Ok _) => list_eqb d r | _ => false end)
  [(10, 0, 5, [10]); (1337, 0, 5, [31; 154; 10]); (42, 0, 8, [42]); (127, 0, 7, [127; 0]);
   (255, 0, 8, [255; 0]); (254, 0, 8, [254]); (1, 0, 8, [1]); (0, 0, 8, [0]); (255, 0, 7, [127; 128; 1]);
   (10, 128, 5, [138]); (10, 64, 5, [74]); (10, 16, 5, [10]); (1337, 64, 5, [95; 154; 10])] = true.
Proof. vm_compute. reflexivity. Qed.
Example encodes_string : forall m,
  encode_string m (octets "foo") false [] = ([3; 102; 111; 111], Ok tt) /\\
  encode_string m (octets "foo") true [] = ([130; 148; 231], Ok tt).
Proof. intros []; vm_compute; split; reflexivity. Qed.
(* hpack/src/decoder/primitives.rs:128-175 *)
Example decodes_integer : forallb (fun x => let '(b, p, r, n) := x in
    match decode_integer b p with Ok (v, k) => (v =? r) && (k =? n) | _ => false end)
  [([10], 5, 10, 1); ([31; 154; 10], 5, 1337, 3); ([63; 154; 10], 5, 1337, 3); ([95; 154; 10], 5, 1337, 3);
   ([31; 154; 10; 111; 22], 5, 1337, 3); ([42], 8, 42, 1); ([127; 0], 7, 127, 2); ([255; 0], 7, 127, 2);
   ([254], 8, 254, 1); ([1], 8, 1, 1); ([0], 8, 0, 1); ([127; 128; 1], 7, 255, 3);
   ([255; 255; 255; 255; 127], 8, 268435710, 5)] = true.
Proof. vm_compute. reflexivity. Qed.
Example decodes_string : forall m,
  decode_string m FourBits [3; 102; 111; 111] = Ok (octets "foo", 4) /\\
  decode_string m FourBits [130; 148; 231] = Ok (octets "foo", 3).
Proof. intros []; vm_compute; split; reflexivity. Qed.

(* hpack/src/table/dynamic.rs:110-170, hpack/src/table/mod.rs:197-274 *)
Definition ins (m : mode) (t : table) (n v : string) : table :=
  match @table_insert enc_error m t (octets n) (octets v) with Ok t' => t' | _ => table_with_size 0 end.
Example inserts_new_headers : forall m,
  let t0 := table_default in let t1 := ins m t0 "a0" "b0" in let t2 := ins m t1 "a1" "b1" in
  (table_len t0, table_dynamic_len t0, table_dynamic_size t0) = (61, 0, 0) /\\
  (table_len t1, table_dynamic_len t1, table_dynamic_size t1) = (62, 1, 36) /\\
  (table_len t2, table_dynamic_len t2, table_dynamic_size t2) = (63, 2, 72) /\\
  table_get t2 62 = Some (octets "a1", octets "b1") /\\ table_get t2 63 = Some (octets "a0", octets "b0").
Proof. intros []; vm_compute; repeat split. Qed.
Example evicts_headers_on_insert : forall m,
  let t1 := ins m (table_with_size 36) "a0" "b0" in let t2 := ins m t1 "a1" "b1" in let t3 := ins m t2 "big" "big" in
  (table_dynamic_len t1, table_dynamic_size t1) = (1, 36) /\\ (table_dynamic_len t2, table_dynamic_size t2) = (1, 36) /\\
  (table_dynamic_len t3, table_dynamic_size t3) = (0, 0).
Proof. intros []; vm_compute; repeat split. Qed.
Example evicts_headers_on_size_update : forall m,
  let t := ins m (ins m (ins m (table_with_size 108) "a0" "b0") "a1" "b1") "a2" "b2" in
  (table_dynamic_len t, table_dynamic_size t) = (3, 108) /\\
  @table_update_max enc_error m t 40 = Ok (mkDyn [(octets "a2", octets "b2")] 36 40).
Proof. intros []; vm_compute; repeat split. Qed.
Example iters_through_all_headers : forall m,
  match @table_iter enc_error m (ins m table_default "a0" "b0") with
  | Ok l => List.length l = 62%%nat /\\ last l ([], []) = (octets "a0", octets "b0")
  | _ => False
  end.
Proof. intros []; vm_compute; split; reflexivity. Qed.
Example find_header_by_index : forall m, let t := ins m table_default "a0" "b0" in
  table_get t 0 = None /\\ table_get t 1 = Some (octets ":authority", []) /\\
  table_get t 2 = Some (octets ":method", octets "GET") /\\
  table_get t 61 = Some (octets "www-authenticate", []) /\\ table_get t 62 = Some (octets "a0", octets "b0").
Proof. intros []; vm_compute; repeat split. Qed.
Example find_header_match : forall m, let t := ins m (ins m table_default "a" "b") "a" "c" in
  let find n v := @table_find enc_error m t (octets n) (octets v) in
  find ":method" "POST" = Ok (Some (3, true)) /\\ find "a" "b" = Ok (Some (63, true)) /\\
  find ":method" "DELETE" = Ok (Some (2, false)) /\\ find "a" "x" = Ok (Some (62, false)) /\\
  find "x" "x" = Ok None.
Proof. intros []; vm_compute; repeat split. Qed.

(* hpack/src/encoder/mod.rs:411-583 *)
Example encodes_indexed : forall m, let t := ins m encoder_default "name62" "value62" in
  forallb (fun i => match hencode m t (Indexed i) [] with ((_, d), Ok _) => list_eqb d [128 + i] | _ => false end)
    [2; 3; 14; 62] = true.
Proof. intros []; vm_compute; reflexivity. Qed.
Example encodes_indexed_name_with_indexing : forall m,
  match hencode m encoder_default (IndexedName 2 (octets "PATCH") 6) [] with
  | ((t, d), Ok _) => N.land (nth 0 d 0) 64 = 64 /\\ N.land (nth 1 d 0) 128 = 128 /\\
      skipn 2 d = [215; 14; 251; 216; 255] /\\ table_len t = 62 /\\
      table_get t 62 = Some (octets ":method", octets "PATCH")
  | _ => False
  end.
Proof. intros []; vm_compute; repeat split. Qed.
Example encodes_literal_with_indexing : forall m,
  match hencode m encoder_default (Literal (octets "foo") (octets "bar") 7) [] with
  | ((t, d), Ok _) => d = [64; 130; 148; 231; 131; 140; 118; 127] /\\ table_len t = 62 /\\
      table_get t 62 = Some (octets "foo", octets "bar")
  | _ => False
  end.
Proof. intros []; vm_compute; repeat split. Qed.
Example encodes_other_literals : forall m,
  hencode m encoder_default (IndexedName 13 (octets "PATCH") 0) [] =
    ((encoder_default, [13; 5; 80; 65; 84; 67; 72]), Ok tt) /\\
  hencode m encoder_default (Literal (octets "foo") (octets "bar") 1) [] =
    ((encoder_default, [0; 130; 148; 231; 3; 98; 97; 114]), Ok tt) /\\
  hencode m encoder_default (IndexedName 13 (octets "PATCH") 8) [] =
    ((encoder_default, [29; 5; 80; 65; 84; 67; 72]), Ok tt) /\\
  hencode m encoder_default (Literal (octets "foo") (octets "bar") 8) [] =
    ((encoder_default, [16; 3; 102; 111; 111; 3; 98; 97; 114]), Ok tt).
Proof. intros []; vm_compute; repeat split. Qed.
Example encodes_literal_automatically : forall m,
  let '(t, d, rs) := run_ops m encoder_default [] [Send (Literal (octets ":method") (octets "GET") 16);
    Send (Literal (octets ":method") (octets "DELETE") 20); Send (Literal (octets "a") (octets "b") 17)] in
  d = [130] ++ [66; 6; 68; 69; 76; 69; 84; 69] ++ [0; 129; 31; 1; 98] /\\ table_len t = 62 /\\ rs = [Ok tt; Ok tt; Ok tt].
Proof. intros []; vm_compute; repeat split. Qed.
Example updates_max_dynamic_size : forall m,
  let t := ins m (ins m (encoder_with_dynamic_size 70) "a" "a") "b" "b" in
  match encoder_update_max m t 50 [] with
  | ((t', d), Ok _) => d = [63; 19] /\\ table_dynamic_len t' = 1
  | _ => False
  end.
Proof. intros []; vm_compute; repeat split. Qed.

(* hpack/src/decoder/mod.rs:401-594 *)
Definition decoded (m : mode) (buf : list N) (hs : list (string * string * N)) (len : N) : Prop :=
  match hdecode m decoder_default buf [] with
  | ((d, rest, dst), Ok _) => rest = [] /\\ table_len (dtable d) = len /\\
      dst = map (fun h => (octets (fst (fst h)), octets (snd (fst h)), snd h)) hs
  | _ => False
  end.
Example decodes_representations : forall m,
  decoded m [130; 142] [(":method", "GET", 0); (":status", "500", 0)]%%string 61 /\\
  decoded m [66; 133; 215; 14; 251; 216; 255; 78; 130; 108; 1]
    [(":method", "PATCH", 4); (":status", "501", 4)]%%string 63 /\\
  decoded m [64; 131; 148; 231; 7; 131; 148; 231; 15; 64; 131; 140; 118; 3; 131; 140; 118; 7]
    [("foo0", "foo1", 4); ("bar0", "bar1", 4)]%%string 63 /\\
  decoded m [2; 5; 80; 65; 84; 67; 72; 14; 130; 108; 1]
    [(":method", "PATCH", 0); (":status", "501", 0)]%%string 61 /\\
  decoded m [0; 4; 102; 111; 111; 48; 4; 98; 97; 114; 48; 0; 131; 148; 231; 15; 131; 140; 118; 7]
    [("foo0", "bar0", 0); ("foo1", "bar1", 0)]%%string 61 /\\
  decoded m [18; 5; 80; 65; 84; 67; 72; 30; 130; 108; 1]
    [(":method", "PATCH", 8); (":status", "501", 8)]%%string 61 /\\
  decoded m [16; 4; 102; 111; 111; 48; 4; 98; 97; 114; 48; 16; 4; 102; 111; 111; 49; 4; 98; 97; 114; 49]
    [("foo0", "bar0", 8); ("foo1", "bar1", 8)]%%string 61.
Proof. intros []; vm_compute; repeat split. Qed.
Example decodes_exact : forall m,
  match hdecode_exact m 1 decoder_default [130; 142] [] with
  | ((_, _, dst), Ok _) => List.length dst = 1%%nat
  | _ => False
  end.
Proof. intros []; vm_compute; reflexivity. Qed.
Example decodes_max_dynamic_size : forall m,
  let t := ins m (ins m (table_with_size 70) "a" "a") "b" "b" in
  match hdecode m (set_table (decoder_with_dynamic_size 70) t) [63; 19] [] with
  | ((d, _, dst), Ok _) => dst = [] /\\ decoder_max_dynamic_size d = 50 /\\ table_dynamic_len (dtable d) = 1
  | _ => False
  end.
Proof. intros []; vm_compute; repeat split. Qed.
Example decodes_incomplete_block : forall m,
  match hdecode m decoder_default [16; 4; 102; 111; 111; 48; 4; 98; 97; 114; 48; 16; 4; 102; 111; 111] [] with
  | ((_, rest, dst), Err _) => List.length dst = 1%%nat /\\ rest = [16; 4; 102; 111; 111]
  | _ => False
  end.
Proof. intros []; vm_compute; split; reflexivity. Qed.

(* hpack/tests/specs.rs: RFC 7541 C.3 to C.6.  A session is a list of blocks (fields, wire). *)
Fixpoint session (m : mode) (t : table) (d : decoder) (blocks : list (list (list N * list N * N) * list N)) : bool :=
  match blocks with
  | [] => true
  | (fields, wire) :: more =>
      let '(t', out, rs) := run_ops m t [] (map (fun h => Send (Literal (fst (fst h)) (snd (fst h)) (snd h))) fields) in
      match hdecode m d wire [] with
      | ((d', [], hs), Ok _) =>
          list_eqb out wire && forallb is_okb rs && Nat.eqb (List.length hs) (List.length fields) &&
          forallb (fun x => pair_eqb (fst (fst x)) (fst (snd x))) (combine hs fields) && session m t' d' more
      | _ => false
      end
  end.
'''.replace('%%', '%'))
for i, g in enumerate(groups):
    w('Definition spec%d : list (list (list N * list N * N) * list N) := [' % (i + 3))
    w(';\n'.join('  (%s,\n   %s)' % (nl('(%s, %s, %d)' % (nl(n), nl(v), f) for n, v, f in fs), nl(wi)) for fs, wi in g) + '].')
w('''Example encodes_and_decodes_requests :
  forallb (fun m => forallb (session m encoder_default decoder_default) [spec3; spec4; spec5; spec6]) modes = true.
Proof. vm_compute. reflexivity. Qed.
''')
# http2jp fixtures
import json as _json, glob as _glob, os as _os
w("""(* hpack/tests/http2jp.rs: stories 00 to 02 of every encoder in hpack/fixtures, one decoder
   per story, every header compared.  (tools/run_fixtures.py does the same for all 47142
   blocks, on the extracted model.) *)
Fixpoint story (m : mode) (d : decoder) (blocks : list (string * list (string * string))) : bool :=
  match blocks with
  | [] => true
  | (wire, fields) :: more =>
      match hdecode m d (unhex wire) [] with
      | ((d', [], hs), Ok _) =>
          Nat.eqb (List.length hs) (List.length fields) &&
          forallb (fun x => pair_eqb (fst (fst x)) (unhex (fst (snd x)), unhex (snd (snd x)))) (combine hs fields) && story m d' more
      | _ => false
      end
  end.
""")
names = []
for i, d in enumerate(sorted(_glob.glob('/repo/hpack/fixtures/*/'))):
    for j in range(3):
        f = d + 'story_%02d.json' % j
        if not _os.path.exists(f): continue
        nm = 'story_%d_%d' % (i, j); names.append(nm)
        w('(* %s *)' % f.split('/repo/')[1])
        w('Definition %s : list (string * list (string * string)) := [' % nm)
        w(';\n'.join('  ("%s", [%s])' % (c['wire'], '; '.join('("%s", "%s")' % (k.encode().hex(), v.encode().hex()) for h in c['headers'] for k, v in h.items())) for c in _json.load(open(f))['cases']) + ']%string.')
w('Example decodes_stories : forallb (fun m => forallb (story m decoder_default)\n  [%s]) modes = true.\nProof. vm_compute. reflexivity. Qed.\n' % '; '.join(names))
# protos
pe = open(R + 'protos/src/encoder/mod.rs').read()
pe = pe[pe.index('fn encodes_supported'):]
wire = nums(re.search(r'assert_eq!\(dst, vec!\[([^\]]*)\]\)', pe).group(1))
assert len(wire) == 209
w('''(* ------------------------------------------------------------------ *)
(* protos/src/encoder/mod.rs:676-746, encodes_supported (1.0 and 2.0 as bit patterns) *)
Definition supported : list (N * encoder_lit) :=
  [(1, lit_of_u8_vec (octets "foo")); (2, lit_of_bool true); (3, lit_of_bool_vec [false; true]); (4, lit_of_i32 1);
   (5, lit_of_i32_vec [-100; 100]%%Z); (6, lit_of_i64 1); (7, lit_of_i64_vec [-100; 100]%%Z); (8, lit_of_u32 1);
   (9, lit_of_u32_vec [1; 2]); (10, lit_of_u64 1); (11, lit_of_u64_vec [1; 2]); (12, lit_of_f32 0x3f800000);
   (13, lit_of_f32_vec [0x3f800000; 0x40000000]); (14, lit_of_f64 0x3ff0000000000000);
   (15, lit_of_f64_vec [0x3ff0000000000000; 0x4000000000000000]); (16, lit_of_u8_vec (octets "foo"));
   (17, ESInt32 (-10)); (18, ESInt32Vec [-10; 10]%%Z); (19, ESInt64 (-10)); (20, ESInt64Vec [-10; 10]%%Z);
   (21, EFixed32 10); (22, EFixed32Vec [1; 2]); (23, EFixed64 10); (24, EFixed64Vec [1; 2]);
   (25, ESFixed32 (-10)); (26, ESFixed32Vec [-10; 10]%%Z); (27, ESFixed64 (-10)); (28, ESFixed64Vec [-10; 10]%%Z)].
Definition supported_wire : list N :=
  %s.
Example encodes_supported : encode_message supported (vec_sink []) = (vec_sink supported_wire, Ok 209).
Proof. vm_compute. reflexivity. Qed.

(* protos/src/decoder/mod.rs:288-424, decodes_supported *)
Example decodes_supported : forall m,
  match pdecode m pdecoder_default supported_wire [] with
  | ((d, rest, fs), Ok n) => n = 209 /\\ rest = [] /\\ d = pdecoder_default /\\
      map (fun f => fst (fst f)) fs = map N.of_nat (seq 1 28) /\\
      map (fun f => snd (fst f)) fs =
        [LengthDelimited; Varint; LengthDelimited; Varint; LengthDelimited; Varint; LengthDelimited; Varint;
         LengthDelimited; Varint; LengthDelimited; Bit32; LengthDelimited; Bit64; LengthDelimited; LengthDelimited;
         Varint; LengthDelimited; Varint; LengthDelimited; Bit32; LengthDelimited; Bit64; LengthDelimited;
         Bit32; LengthDelimited; Bit64; LengthDelimited] /\\
      let p i := snd (nth (i - 1) fs (0, Unknown, [])) in
      to_u8_vec (DBytes (p 1%%nat)) = octets "foo" /\\ to_bool m (DBool (p 2%%nat)) = Ok true /\\
      to_bool_vec m (DBoolVec (p 3%%nat)) = Ok [false; true] /\\ to_i32 m (DInt32 (p 4%%nat)) = Ok 1%%Z /\\
      to_i32_vec m (DInt32Vec (p 5%%nat)) = Ok [-100; 100]%%Z /\\ to_i64 m (DInt64 (p 6%%nat)) = Ok 1%%Z /\\
      to_i64_vec m (DInt64Vec (p 7%%nat)) = Ok [-100; 100]%%Z /\\ to_u32 m (DUInt32 (p 8%%nat)) = Ok 1 /\\
      to_u32_vec m (DUInt32Vec (p 9%%nat)) = Ok [1; 2] /\\ to_u64 m (DUInt64 (p 10%%nat)) = Ok 1 /\\
      to_u64_vec m (DUInt64Vec (p 11%%nat)) = Ok [1; 2] /\\ to_f32 m (DFloat (p 12%%nat)) = Ok 0x3f800000 /\\
      to_f32_vec m (DFloatVec (p 13%%nat)) = Ok [0x3f800000; 0x40000000] /\\
      to_f64 m (DDouble (p 14%%nat)) = Ok 0x3ff0000000000000 /\\
      to_f64_vec m (DDoubleVec (p 15%%nat)) = Ok [0x3ff0000000000000; 0x4000000000000000] /\\
      to_string (DBytes (p 16%%nat)) = octets "foo" /\\ to_i32 m (DSInt32 (p 17%%nat)) = Ok (-10)%%Z /\\
      to_i32_vec m (DSInt32Vec (p 18%%nat)) = Ok [-10; 10]%%Z /\\ to_i64 m (DSInt64 (p 19%%nat)) = Ok (-10)%%Z /\\
      to_i64_vec m (DSInt64Vec (p 20%%nat)) = Ok [-10; 10]%%Z /\\ to_u32 m (DFixed32 (p 21%%nat)) = Ok 10 /\\
      to_u32_vec m (DFixed32Vec (p 22%%nat)) = Ok [1; 2] /\\ to_u64 m (DFixed64 (p 23%%nat)) = Ok 10 /\\
      to_u64_vec m (DFixed64Vec (p 24%%nat)) = Ok [1; 2] /\\ to_i32 m (DSFixed32 (p 25%%nat)) = Ok (-10)%%Z /\\
      to_i32_vec m (DSFixed32Vec (p 26%%nat)) = Ok [-10; 10]%%Z /\\ to_i64 m (DSFixed64 (p 27%%nat)) = Ok (-10)%%Z /\\
      to_i64_vec m (DSFixed64Vec (p 28%%nat)) = Ok [-10; 10]%%Z
  | _ => False
  end.
Proof. intros []; vm_compute; repeat split. Qed.
Example decodes_error : forall m, snd (pdecode m pdecoder_default [0] []) = Err PInvalidInput.
Proof. intros []; reflexivity. Qed.

(* protos/src/encoder/primitives.rs:362-585 *)
Definition writes (f : sink -> penc) (bs : list N) : Prop := f (vec_sink []) = (vec_sink bs, Ok (N.of_nat (List.length bs))).
Example encodes_primitives :
  writes (pencode_varint 0) [0] /\\ writes (pencode_varint (2 ^ 64 - 1)) [255; 255; 255; 255; 255; 255; 255; 255; 255; 1] /\\
  writes (pencode_key 123456789 Varint) [168; 209; 249; 214; 3] /\\ writes (pencode_key 1234 Bit32) [149; 77] /\\
  writes (prim_int32 (- 2 ^ 31)) [128; 128; 128; 128; 248; 255; 255; 255; 255; 1] /\\
  writes (prim_int32 (2 ^ 31 - 1)) [255; 255; 255; 255; 7] /\\
  writes (prim_uint32 0) [0] /\\ writes (prim_uint32 (2 ^ 32 - 1)) [255; 255; 255; 255; 15] /\\
  writes (prim_sint32 (- 2 ^ 31)) [255; 255; 255; 255; 15] /\\ writes (prim_sint32 (2 ^ 31 - 1)) [254; 255; 255; 255; 15] /\\
  writes (prim_int64 (- 2 ^ 63)) [128; 128; 128; 128; 128; 128; 128; 128; 128; 1] /\\
  writes (prim_int64 (2 ^ 63 - 1)) [255; 255; 255; 255; 255; 255; 255; 255; 127] /\\
  writes (prim_uint64 0) [0] /\\ writes (prim_uint64 (2 ^ 64 - 1)) [255; 255; 255; 255; 255; 255; 255; 255; 255; 1] /\\
  writes (prim_sint64 (- 2 ^ 63)) [255; 255; 255; 255; 255; 255; 255; 255; 255; 1] /\\
  writes (prim_sint64 (2 ^ 63 - 1)) [254; 255; 255; 255; 255; 255; 255; 255; 255; 1] /\\
  writes (prim_bool true) [1] /\\ writes (prim_bool false) [0] /\\
  writes (prim_fixed64 0) [0; 0; 0; 0; 0; 0; 0; 0] /\\
  writes (prim_fixed64 (2 ^ 64 - 1)) [255; 255; 255; 255; 255; 255; 255; 255] /\\
  writes (prim_sfixed64 (- 2 ^ 63)) [0; 0; 0; 0; 0; 0; 0; 128] /\\
  writes (prim_sfixed64 (2 ^ 63 - 1)) [255; 255; 255; 255; 255; 255; 255; 127] /\\
  writes (prim_double 0xffefffffffffffff) [255; 255; 255; 255; 255; 255; 239; 255] /\\
  writes (prim_double 0x7fefffffffffffff) [255; 255; 255; 255; 255; 255; 239; 127] /\\
  writes (prim_fixed32 0) [0; 0; 0; 0] /\\ writes (prim_fixed32 (2 ^ 32 - 1)) [255; 255; 255; 255] /\\
  writes (prim_sfixed32 (- 2 ^ 31)) [0; 0; 0; 128] /\\ writes (prim_sfixed32 (2 ^ 31 - 1)) [255; 255; 255; 127] /\\
  writes (prim_float 0xff7fffff) [255; 255; 127; 255] /\\ writes (prim_float 0x7f7fffff) [255; 255; 127; 127] /\\
  writes (prim_bytes [1; 2; 3; 4; 5]) [5; 1; 2; 3; 4; 5].
Proof. vm_compute. repeat split. Qed.

(* protos/src/decoder/primitives.rs:684-914 *)
Example decodes_primitives : forall m,
  pdecode_varint m [0xb9] = Err PInputUnderflow /\\ pdecode_varint m [0xb9; 0x60; 0x85] = Ok (12345, 2) /\\
  pdecode_varint m [0x85; 0x35; 0x85] = Ok (6789, 2) /\\
  pdecode_key m [0xcd; 0x83; 0x06; 0xaa] = Ok (12345, Bit32, 3) /\\
  pdecode_key m [0xaa; 0xa8; 0x03; 0x03] = Ok (6789, LengthDelimited, 3) /\\
  get_bool m [0] = Ok (false, 1) /\\ get_bool m [1] = Ok (true, 1) /\\
  get_int32 m [0x80; 0x80; 0x80; 0x80; 0xf8; 0xff; 0xff; 0xff; 0xff; 0x01; 0xff] = Ok ((- 2 ^ 31)%%Z, 10) /\\
  get_int32 m [0xff; 0xff; 0xff; 0xff; 0x07] = Ok ((2 ^ 31 - 1)%%Z, 5) /\\
  get_int64 m [0x80; 0x80; 0x80; 0x80; 0x80; 0x80; 0x80; 0x80; 0x80; 0x01] = Ok ((- 2 ^ 63)%%Z, 10) /\\
  get_int64 m [0xff; 0xff; 0xff; 0xff; 0xff; 0xff; 0xff; 0xff; 0x7f] = Ok ((2 ^ 63 - 1)%%Z, 9) /\\
  get_uint32 m [0] = Ok (0, 1) /\\ get_uint32 m [0xff; 0xff; 0xff; 0xff; 0x0f] = Ok (2 ^ 32 - 1, 5) /\\
  get_uint64 m [0] = Ok (0, 1) /\\
  get_uint64 m [0xff; 0xff; 0xff; 0xff; 0xff; 0xff; 0xff; 0xff; 0xff; 0x01] = Ok (2 ^ 64 - 1, 10) /\\
  get_sint32 m [0xff; 0xff; 0xff; 0xff; 0x0f] = Ok ((- 2 ^ 31)%%Z, 5) /\\
  get_sint32 m [0xfe; 0xff; 0xff; 0xff; 0x0f] = Ok ((2 ^ 31 - 1)%%Z, 5) /\\
  get_sint64 m [0xff; 0xff; 0xff; 0xff; 0xff; 0xff; 0xff; 0xff; 0xff; 0x01] = Ok ((- 2 ^ 63)%%Z, 10) /\\
  get_sint64 m [0xfe; 0xff; 0xff; 0xff; 0xff; 0xff; 0xff; 0xff; 0xff; 0x01] = Ok ((2 ^ 63 - 1)%%Z, 10) /\\
  get_fixed32 m [0] = Err PInputUnderflow /\\ get_fixed32 m [0; 0; 0; 0] = Ok (0, 4) /\\
  get_fixed32 m [0xff; 0xff; 0xff; 0xff] = Ok (2 ^ 32 - 1, 4) /\\
  get_fixed64 m [0] = Err PInputUnderflow /\\ get_fixed64 m [0; 0; 0; 0; 0; 0; 0; 0; 0xff] = Ok (0, 8) /\\
  get_fixed64 m [0xff; 0xff; 0xff; 0xff; 0xff; 0xff; 0xff; 0xff; 0xff] = Ok (2 ^ 64 - 1, 8) /\\
  get_sfixed32 m [0] = Err PInputUnderflow /\\ get_sfixed32 m [0; 0; 0; 0x80] = Ok ((- 2 ^ 31)%%Z, 4) /\\
  get_sfixed32 m [0xff; 0xff; 0xff; 0x7f] = Ok ((2 ^ 31 - 1)%%Z, 4) /\\
  get_sfixed64 m [0] = Err PInputUnderflow /\\ get_sfixed64 m [0; 0; 0; 0; 0; 0; 0; 0x80] = Ok ((- 2 ^ 63)%%Z, 8) /\\
  get_sfixed64 m [0xff; 0xff; 0xff; 0xff; 0xff; 0xff; 0xff; 0x7f] = Ok ((2 ^ 63 - 1)%%Z, 8) /\\
  get_float m [0] = Err PInputUnderflow /\\ get_float m [0xff; 0xff; 0x7f; 0xff] = Ok (0xff7fffff, 4) /\\
  get_float m [0xff; 0xff; 0x7f; 0x7f] = Ok (0x7f7fffff, 4) /\\
  get_double m [0] = Err PInputUnderflow /\\
  get_double m [0xff; 0xff; 0xff; 0xff; 0xff; 0xff; 0xef; 0xff] = Ok (0xffefffffffffffff, 8) /\\
  get_double m [0xff; 0xff; 0xff; 0xff; 0xff; 0xff; 0xef; 0x7f] = Ok (0x7fefffffffffffff, 8).
Proof. intros []; vm_compute; repeat split. Qed.
'''.replace('%%', '%') .replace('%s', nl(wire)))
open(T + 'Conformance.v', 'w').write('\n'.join(o))
