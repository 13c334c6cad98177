(* GENERATED by tools/gen_tables.py: verbatim transcription of the Huffman tables. *)
From Coq Require Import List NArith.
Import ListNotations.
Open Scope N_scope.

(* huffman/src/encoder/table.rs:5-263, ENCODE_TABLE: (length, code), one row per symbol 0..256. *)
Definition ENCODE_TABLE : list (N * N) := [
  (13, 0x1ff8);
  (23, 0x7fffd8);
  (28, 0xfffffe2);
  (28, 0xfffffe3);
  (28, 0xfffffe4);
  (28, 0xfffffe5);
  (28, 0xfffffe6);
  (28, 0xfffffe7);
  (28, 0xfffffe8);
  (24, 0xffffea);
  (30, 0x3ffffffc);
  (28, 0xfffffe9);
  (28, 0xfffffea);
  (30, 0x3ffffffd);
  (28, 0xfffffeb);
  (28, 0xfffffec);
  (28, 0xfffffed);
  (28, 0xfffffee);
  (28, 0xfffffef);
  (28, 0xffffff0);
  (28, 0xffffff1);
  (28, 0xffffff2);
  (30, 0x3ffffffe);
  (28, 0xffffff3);
  (28, 0xffffff4);
  (28, 0xffffff5);
  (28, 0xffffff6);
  (28, 0xffffff7);
  (28, 0xffffff8);
  (28, 0xffffff9);
  (28, 0xffffffa);
  (28, 0xffffffb);
  (6, 0x14);
  (10, 0x3f8);
  (10, 0x3f9);
  (12, 0xffa);
  (13, 0x1ff9);
  (6, 0x15);
  (8, 0xf8);
  (11, 0x7fa);
  (10, 0x3fa);
  (10, 0x3fb);
  (8, 0xf9);
  (11, 0x7fb);
  (8, 0xfa);
  (6, 0x16);
  (6, 0x17);
  (6, 0x18);
  (5, 0x00);
  (5, 0x01);
  (5, 0x02);
  (6, 0x19);
  (6, 0x1a);
  (6, 0x1b);
  (6, 0x1c);
  (6, 0x1d);
  (6, 0x1e);
  (6, 0x1f);
  (7, 0x5c);
  (8, 0xfb);
  (15, 0x7ffc);
  (6, 0x20);
  (12, 0xffb);
  (10, 0x3fc);
  (13, 0x1ffa);
  (6, 0x21);
  (7, 0x5d);
  (7, 0x5e);
  (7, 0x5f);
  (7, 0x60);
  (7, 0x61);
  (7, 0x62);
  (7, 0x63);
  (7, 0x64);
  (7, 0x65);
  (7, 0x66);
  (7, 0x67);
  (7, 0x68);
  (7, 0x69);
  (7, 0x6a);
  (7, 0x6b);
  (7, 0x6c);
  (7, 0x6d);
  (7, 0x6e);
  (7, 0x6f);
  (7, 0x70);
  (7, 0x71);
  (7, 0x72);
  (8, 0xfc);
  (7, 0x73);
  (8, 0xfd);
  (13, 0x1ffb);
  (19, 0x7fff0);
  (13, 0x1ffc);
  (14, 0x3ffc);
  (6, 0x22);
  (15, 0x7ffd);
  (5, 0x03);
  (6, 0x23);
  (5, 0x04);
  (6, 0x24);
  (5, 0x05);
  (6, 0x25);
  (6, 0x26);
  (6, 0x27);
  (5, 0x06);
  (7, 0x74);
  (7, 0x75);
  (6, 0x28);
  (6, 0x29);
  (6, 0x2a);
  (5, 0x07);
  (6, 0x2b);
  (7, 0x76);
  (6, 0x2c);
  (5, 0x08);
  (5, 0x09);
  (6, 0x2d);
  (7, 0x77);
  (7, 0x78);
  (7, 0x79);
  (7, 0x7a);
  (7, 0x7b);
  (15, 0x7ffe);
  (11, 0x7fc);
  (14, 0x3ffd);
  (13, 0x1ffd);
  (28, 0xffffffc);
  (20, 0xfffe6);
  (22, 0x3fffd2);
  (20, 0xfffe7);
  (20, 0xfffe8);
  (22, 0x3fffd3);
  (22, 0x3fffd4);
  (22, 0x3fffd5);
  (23, 0x7fffd9);
  (22, 0x3fffd6);
  (23, 0x7fffda);
  (23, 0x7fffdb);
  (23, 0x7fffdc);
  (23, 0x7fffdd);
  (23, 0x7fffde);
  (24, 0xffffeb);
  (23, 0x7fffdf);
  (24, 0xffffec);
  (24, 0xffffed);
  (22, 0x3fffd7);
  (23, 0x7fffe0);
  (24, 0xffffee);
  (23, 0x7fffe1);
  (23, 0x7fffe2);
  (23, 0x7fffe3);
  (23, 0x7fffe4);
  (21, 0x1fffdc);
  (22, 0x3fffd8);
  (23, 0x7fffe5);
  (22, 0x3fffd9);
  (23, 0x7fffe6);
  (23, 0x7fffe7);
  (24, 0xffffef);
  (22, 0x3fffda);
  (21, 0x1fffdd);
  (20, 0xfffe9);
  (22, 0x3fffdb);
  (22, 0x3fffdc);
  (23, 0x7fffe8);
  (23, 0x7fffe9);
  (21, 0x1fffde);
  (23, 0x7fffea);
  (22, 0x3fffdd);
  (22, 0x3fffde);
  (24, 0xfffff0);
  (21, 0x1fffdf);
  (22, 0x3fffdf);
  (23, 0x7fffeb);
  (23, 0x7fffec);
  (21, 0x1fffe0);
  (21, 0x1fffe1);
  (22, 0x3fffe0);
  (21, 0x1fffe2);
  (23, 0x7fffed);
  (22, 0x3fffe1);
  (23, 0x7fffee);
  (23, 0x7fffef);
  (20, 0xfffea);
  (22, 0x3fffe2);
  (22, 0x3fffe3);
  (22, 0x3fffe4);
  (23, 0x7ffff0);
  (22, 0x3fffe5);
  (22, 0x3fffe6);
  (23, 0x7ffff1);
  (26, 0x3ffffe0);
  (26, 0x3ffffe1);
  (20, 0xfffeb);
  (19, 0x7fff1);
  (22, 0x3fffe7);
  (23, 0x7ffff2);
  (22, 0x3fffe8);
  (25, 0x1ffffec);
  (26, 0x3ffffe2);
  (26, 0x3ffffe3);
  (26, 0x3ffffe4);
  (27, 0x7ffffde);
  (27, 0x7ffffdf);
  (26, 0x3ffffe5);
  (24, 0xfffff1);
  (25, 0x1ffffed);
  (19, 0x7fff2);
  (21, 0x1fffe3);
  (26, 0x3ffffe6);
  (27, 0x7ffffe0);
  (27, 0x7ffffe1);
  (26, 0x3ffffe7);
  (27, 0x7ffffe2);
  (24, 0xfffff2);
  (21, 0x1fffe4);
  (21, 0x1fffe5);
  (26, 0x3ffffe8);
  (26, 0x3ffffe9);
  (28, 0xffffffd);
  (27, 0x7ffffe3);
  (27, 0x7ffffe4);
  (27, 0x7ffffe5);
  (20, 0xfffec);
  (24, 0xfffff3);
  (20, 0xfffed);
  (21, 0x1fffe6);
  (22, 0x3fffe9);
  (21, 0x1fffe7);
  (21, 0x1fffe8);
  (23, 0x7ffff3);
  (22, 0x3fffea);
  (22, 0x3fffeb);
  (25, 0x1ffffee);
  (25, 0x1ffffef);
  (24, 0xfffff4);
  (24, 0xfffff5);
  (26, 0x3ffffea);
  (23, 0x7ffff4);
  (26, 0x3ffffeb);
  (27, 0x7ffffe6);
  (26, 0x3ffffec);
  (26, 0x3ffffed);
  (27, 0x7ffffe7);
  (27, 0x7ffffe8);
  (27, 0x7ffffe9);
  (27, 0x7ffffea);
  (27, 0x7ffffeb);
  (28, 0xffffffe);
  (27, 0x7ffffec);
  (27, 0x7ffffed);
  (27, 0x7ffffee);
  (27, 0x7ffffef);
  (27, 0x7fffff0);
  (26, 0x3ffffee);
  (30, 0x3fffffff)
].

(* A cell of a translation matrix: (next_id, ascii, leftover); huffman/src/decoder/table1.rs:3. *)
Definition cell : Type := (option N * option N * N)%type.
(* huffman/src/decoder/table1.rs:3-1028, DECODE_TABLE. *)
Definition DECODE_TABLE1 : list (list cell) := [
  [(Some 66, None, 0); (Some 1, None, 0)];
  [(Some 93, None, 0); (Some 2, None, 0)];
  [(Some 104, None, 0); (Some 3, None, 0)];
  [(Some 119, None, 0); (Some 4, None, 0)];
  [(Some 144, None, 0); (Some 5, None, 0)];
  [(Some 75, None, 0); (Some 6, None, 0)];
  [(Some 123, None, 0); (Some 7, None, 0)];
  [(Some 71, None, 0); (Some 8, None, 0)];
  [(Some 77, None, 0); (Some 9, None, 0)];
  [(Some 73, None, 0); (Some 10, None, 0)];
  [(Some 11, None, 0); (Some 13, None, 0)];
  [(Some 12, None, 0); (Some 102, None, 0)];
  [(None, Some 0, 0); (None, Some 36, 0)];
  [(Some 127, None, 0); (Some 14, None, 0)];
  [(Some 128, None, 0); (Some 15, None, 0)];
  [(Some 98, None, 0); (Some 16, None, 0)];
  [(None, Some 123, 0); (Some 17, None, 0)];
  [(Some 124, None, 0); (Some 18, None, 0)];
  [(Some 150, None, 0); (Some 19, None, 0)];
  [(Some 20, None, 0); (Some 25, None, 0)];
  [(Some 199, None, 0); (Some 21, None, 0)];
  [(Some 216, None, 0); (Some 22, None, 0)];
  [(Some 23, None, 0); (Some 162, None, 0)];
  [(Some 24, None, 0); (Some 161, None, 0)];
  [(None, Some 1, 0); (None, Some 135, 0)];
  [(Some 167, None, 0); (Some 26, None, 0)];
  [(Some 41, None, 0); (Some 27, None, 0)];
  [(Some 191, None, 0); (Some 28, None, 0)];
  [(Some 211, None, 0); (Some 29, None, 0)];
  [(Some 229, None, 0); (Some 30, None, 0)];
  [(Some 31, None, 0); (Some 45, None, 0)];
  [(Some 32, None, 0); (Some 38, None, 0)];
  [(Some 33, None, 0); (Some 35, None, 0)];
  [(None, Some 254, 0); (Some 34, None, 0)];
  [(None, Some 2, 0); (None, Some 3, 0)];
  [(Some 36, None, 0); (Some 37, None, 0)];
  [(None, Some 4, 0); (None, Some 5, 0)];
  [(None, Some 6, 0); (None, Some 7, 0)];
  [(Some 39, None, 0); (Some 52, None, 0)];
  [(Some 40, None, 0); (Some 51, None, 0)];
  [(None, Some 8, 0); (None, Some 11, 0)];
  [(Some 208, None, 0); (Some 42, None, 0)];
  [(Some 43, None, 0); (Some 165, None, 0)];
  [(None, Some 239, 0); (Some 44, None, 0)];
  [(None, Some 9, 0); (None, Some 142, 0)];
  [(Some 55, None, 0); (Some 46, None, 0)];
  [(Some 63, None, 0); (Some 47, None, 0)];
  [(Some 147, None, 0); (Some 48, None, 0)];
  [(None, Some 249, 0); (Some 49, None, 0)];
  [(Some 50, None, 0); (Some 59, None, 0)];
  [(None, Some 10, 0); (None, Some 13, 0)];
  [(None, Some 12, 0); (None, Some 14, 0)];
  [(Some 53, None, 0); (Some 54, None, 0)];
  [(None, Some 15, 0); (None, Some 16, 0)];
  [(None, Some 17, 0); (None, Some 18, 0)];
  [(Some 56, None, 0); (Some 60, None, 0)];
  [(Some 57, None, 0); (Some 58, None, 0)];
  [(None, Some 19, 0); (None, Some 20, 0)];
  [(None, Some 21, 0); (None, Some 23, 0)];
  [(None, Some 22, 0); (None, Some 256, 0)];
  [(Some 61, None, 0); (Some 62, None, 0)];
  [(None, Some 24, 0); (None, Some 25, 0)];
  [(None, Some 26, 0); (None, Some 27, 0)];
  [(Some 64, None, 0); (Some 65, None, 0)];
  [(None, Some 28, 0); (None, Some 29, 0)];
  [(None, Some 30, 0); (None, Some 31, 0)];
  [(Some 85, None, 0); (Some 67, None, 0)];
  [(Some 68, None, 0); (Some 82, None, 0)];
  [(Some 143, None, 0); (Some 69, None, 0)];
  [(Some 70, None, 0); (Some 81, None, 0)];
  [(None, Some 32, 0); (None, Some 37, 0)];
  [(Some 72, None, 0); (Some 79, None, 0)];
  [(None, Some 33, 0); (None, Some 34, 0)];
  [(None, Some 124, 0); (Some 74, None, 0)];
  [(None, Some 35, 0); (None, Some 62, 0)];
  [(Some 76, None, 0); (Some 80, None, 0)];
  [(None, Some 38, 0); (None, Some 42, 0)];
  [(None, Some 63, 0); (Some 78, None, 0)];
  [(None, Some 39, 0); (None, Some 43, 0)];
  [(None, Some 40, 0); (None, Some 41, 0)];
  [(None, Some 44, 0); (None, Some 59, 0)];
  [(None, Some 45, 0); (None, Some 46, 0)];
  [(Some 83, None, 0); (Some 90, None, 0)];
  [(Some 84, None, 0); (Some 89, None, 0)];
  [(None, Some 47, 0); (None, Some 51, 0)];
  [(Some 86, None, 0); (Some 130, None, 0)];
  [(Some 87, None, 0); (Some 88, None, 0)];
  [(None, Some 48, 0); (None, Some 49, 0)];
  [(None, Some 50, 0); (None, Some 97, 0)];
  [(None, Some 52, 0); (None, Some 53, 0)];
  [(Some 91, None, 0); (Some 92, None, 0)];
  [(None, Some 54, 0); (None, Some 55, 0)];
  [(None, Some 56, 0); (None, Some 57, 0)];
  [(Some 99, None, 0); (Some 94, None, 0)];
  [(Some 138, None, 0); (Some 95, None, 0)];
  [(Some 142, None, 0); (Some 96, None, 0)];
  [(Some 97, None, 0); (Some 103, None, 0)];
  [(None, Some 58, 0); (None, Some 66, 0)];
  [(None, Some 60, 0); (None, Some 96, 0)];
  [(Some 100, None, 0); (Some 132, None, 0)];
  [(Some 101, None, 0); (Some 129, None, 0)];
  [(None, Some 61, 0); (None, Some 65, 0)];
  [(None, Some 64, 0); (None, Some 91, 0)];
  [(None, Some 67, 0); (None, Some 68, 0)];
  [(Some 105, None, 0); (Some 112, None, 0)];
  [(Some 106, None, 0); (Some 109, None, 0)];
  [(Some 107, None, 0); (Some 108, None, 0)];
  [(None, Some 69, 0); (None, Some 70, 0)];
  [(None, Some 71, 0); (None, Some 72, 0)];
  [(Some 110, None, 0); (Some 111, None, 0)];
  [(None, Some 73, 0); (None, Some 74, 0)];
  [(None, Some 75, 0); (None, Some 76, 0)];
  [(Some 113, None, 0); (Some 116, None, 0)];
  [(Some 114, None, 0); (Some 115, None, 0)];
  [(None, Some 77, 0); (None, Some 78, 0)];
  [(None, Some 79, 0); (None, Some 80, 0)];
  [(Some 117, None, 0); (Some 118, None, 0)];
  [(None, Some 81, 0); (None, Some 82, 0)];
  [(None, Some 83, 0); (None, Some 84, 0)];
  [(Some 120, None, 0); (Some 136, None, 0)];
  [(Some 121, None, 0); (Some 122, None, 0)];
  [(None, Some 85, 0); (None, Some 86, 0)];
  [(None, Some 87, 0); (None, Some 89, 0)];
  [(None, Some 88, 0); (None, Some 90, 0)];
  [(Some 125, None, 0); (Some 155, None, 0)];
  [(Some 126, None, 0); (Some 148, None, 0)];
  [(None, Some 92, 0); (None, Some 195, 0)];
  [(None, Some 93, 0); (None, Some 126, 0)];
  [(None, Some 94, 0); (None, Some 125, 0)];
  [(None, Some 95, 0); (None, Some 98, 0)];
  [(Some 131, None, 0); (Some 135, None, 0)];
  [(None, Some 99, 0); (None, Some 101, 0)];
  [(Some 133, None, 0); (Some 134, None, 0)];
  [(None, Some 100, 0); (None, Some 102, 0)];
  [(None, Some 103, 0); (None, Some 104, 0)];
  [(None, Some 105, 0); (None, Some 111, 0)];
  [(Some 137, None, 0); (Some 141, None, 0)];
  [(None, Some 106, 0); (None, Some 107, 0)];
  [(Some 139, None, 0); (Some 140, None, 0)];
  [(None, Some 108, 0); (None, Some 109, 0)];
  [(None, Some 110, 0); (None, Some 112, 0)];
  [(None, Some 113, 0); (None, Some 118, 0)];
  [(None, Some 114, 0); (None, Some 117, 0)];
  [(None, Some 115, 0); (None, Some 116, 0)];
  [(Some 145, None, 0); (Some 146, None, 0)];
  [(None, Some 119, 0); (None, Some 120, 0)];
  [(None, Some 121, 0); (None, Some 122, 0)];
  [(None, Some 127, 0); (None, Some 220, 0)];
  [(None, Some 208, 0); (Some 149, None, 0)];
  [(None, Some 128, 0); (None, Some 130, 0)];
  [(Some 196, None, 0); (Some 151, None, 0)];
  [(Some 152, None, 0); (Some 178, None, 0)];
  [(Some 153, None, 0); (Some 158, None, 0)];
  [(None, Some 230, 0); (Some 154, None, 0)];
  [(None, Some 129, 0); (None, Some 132, 0)];
  [(Some 156, None, 0); (Some 175, None, 0)];
  [(Some 157, None, 0); (Some 204, None, 0)];
  [(None, Some 131, 0); (None, Some 162, 0)];
  [(Some 159, None, 0); (Some 160, None, 0)];
  [(None, Some 133, 0); (None, Some 134, 0)];
  [(None, Some 136, 0); (None, Some 146, 0)];
  [(None, Some 137, 0); (None, Some 138, 0)];
  [(Some 163, None, 0); (Some 164, None, 0)];
  [(None, Some 139, 0); (None, Some 140, 0)];
  [(None, Some 141, 0); (None, Some 143, 0)];
  [(Some 166, None, 0); (Some 171, None, 0)];
  [(None, Some 144, 0); (None, Some 145, 0)];
  [(Some 168, None, 0); (Some 185, None, 0)];
  [(Some 169, None, 0); (Some 173, None, 0)];
  [(Some 170, None, 0); (Some 172, None, 0)];
  [(None, Some 147, 0); (None, Some 149, 0)];
  [(None, Some 148, 0); (None, Some 159, 0)];
  [(None, Some 150, 0); (None, Some 151, 0)];
  [(Some 174, None, 0); (Some 181, None, 0)];
  [(None, Some 152, 0); (None, Some 155, 0)];
  [(Some 241, None, 0); (Some 176, None, 0)];
  [(Some 177, None, 0); (Some 188, None, 0)];
  [(None, Some 153, 0); (None, Some 161, 0)];
  [(Some 179, None, 0); (Some 183, None, 0)];
  [(Some 180, None, 0); (Some 182, None, 0)];
  [(None, Some 154, 0); (None, Some 156, 0)];
  [(None, Some 157, 0); (None, Some 158, 0)];
  [(None, Some 160, 0); (None, Some 163, 0)];
  [(Some 184, None, 0); (Some 190, None, 0)];
  [(None, Some 164, 0); (None, Some 169, 0)];
  [(Some 186, None, 0); (Some 194, None, 0)];
  [(Some 187, None, 0); (Some 189, None, 0)];
  [(None, Some 165, 0); (None, Some 166, 0)];
  [(None, Some 167, 0); (None, Some 172, 0)];
  [(None, Some 168, 0); (None, Some 174, 0)];
  [(None, Some 170, 0); (None, Some 173, 0)];
  [(Some 192, None, 0); (Some 218, None, 0)];
  [(Some 193, None, 0); (Some 234, None, 0)];
  [(None, Some 171, 0); (None, Some 206, 0)];
  [(Some 195, None, 0); (Some 203, None, 0)];
  [(None, Some 175, 0); (None, Some 180, 0)];
  [(Some 197, None, 0); (Some 235, None, 0)];
  [(Some 198, None, 0); (Some 202, None, 0)];
  [(None, Some 176, 0); (None, Some 177, 0)];
  [(Some 200, None, 0); (Some 206, None, 0)];
  [(Some 201, None, 0); (Some 205, None, 0)];
  [(None, Some 178, 0); (None, Some 181, 0)];
  [(None, Some 179, 0); (None, Some 209, 0)];
  [(None, Some 182, 0); (None, Some 183, 0)];
  [(None, Some 184, 0); (None, Some 194, 0)];
  [(None, Some 185, 0); (None, Some 186, 0)];
  [(Some 207, None, 0); (Some 210, None, 0)];
  [(None, Some 187, 0); (None, Some 189, 0)];
  [(Some 209, None, 0); (Some 215, None, 0)];
  [(None, Some 188, 0); (None, Some 191, 0)];
  [(None, Some 190, 0); (None, Some 196, 0)];
  [(Some 212, None, 0); (Some 224, None, 0)];
  [(Some 213, None, 0); (Some 222, None, 0)];
  [(Some 214, None, 0); (Some 221, None, 0)];
  [(None, Some 192, 0); (None, Some 193, 0)];
  [(None, Some 197, 0); (None, Some 231, 0)];
  [(Some 217, None, 0); (Some 243, None, 0)];
  [(None, Some 198, 0); (None, Some 228, 0)];
  [(Some 245, None, 0); (Some 219, None, 0)];
  [(Some 220, None, 0); (Some 244, None, 0)];
  [(None, Some 199, 0); (None, Some 207, 0)];
  [(None, Some 200, 0); (None, Some 201, 0)];
  [(Some 223, None, 0); (Some 228, None, 0)];
  [(None, Some 202, 0); (None, Some 205, 0)];
  [(Some 237, None, 0); (Some 225, None, 0)];
  [(Some 248, None, 0); (Some 226, None, 0)];
  [(None, Some 255, 0); (Some 227, None, 0)];
  [(None, Some 203, 0); (None, Some 204, 0)];
  [(None, Some 210, 0); (None, Some 213, 0)];
  [(Some 230, None, 0); (Some 249, None, 0)];
  [(Some 231, None, 0); (Some 239, None, 0)];
  [(Some 232, None, 0); (Some 233, None, 0)];
  [(None, Some 211, 0); (None, Some 212, 0)];
  [(None, Some 214, 0); (None, Some 221, 0)];
  [(None, Some 215, 0); (None, Some 225, 0)];
  [(Some 236, None, 0); (Some 242, None, 0)];
  [(None, Some 216, 0); (None, Some 217, 0)];
  [(Some 238, None, 0); (Some 246, None, 0)];
  [(None, Some 218, 0); (None, Some 219, 0)];
  [(Some 240, None, 0); (Some 247, None, 0)];
  [(None, Some 222, 0); (None, Some 223, 0)];
  [(None, Some 224, 0); (None, Some 226, 0)];
  [(None, Some 227, 0); (None, Some 229, 0)];
  [(None, Some 232, 0); (None, Some 233, 0)];
  [(None, Some 234, 0); (None, Some 235, 0)];
  [(None, Some 236, 0); (None, Some 237, 0)];
  [(None, Some 238, 0); (None, Some 240, 0)];
  [(None, Some 241, 0); (None, Some 244, 0)];
  [(None, Some 242, 0); (None, Some 243, 0)];
  [(Some 250, None, 0); (Some 253, None, 0)];
  [(Some 251, None, 0); (Some 252, None, 0)];
  [(None, Some 245, 0); (None, Some 246, 0)];
  [(None, Some 247, 0); (None, Some 248, 0)];
  [(Some 254, None, 0); (Some 255, None, 0)];
  [(None, Some 250, 0); (None, Some 251, 0)];
  [(None, Some 252, 0); (None, Some 253, 0)]
].

(* huffman/src/decoder/table2.rs:3-760, DECODE_TABLE. *)
Definition DECODE_TABLE2 : list (list cell) := [
  [(Some 36, None, 0); (Some 29, None, 0); (Some 40, None, 0); (Some 1, None, 0)];
  [(Some 47, None, 0); (Some 52, None, 0); (Some 57, None, 0); (Some 2, None, 0)];
  [(Some 70, None, 0); (Some 71, None, 0); (Some 33, None, 0); (Some 3, None, 0)];
  [(None, Some 88, 0); (None, Some 90, 0); (Some 31, None, 0); (Some 4, None, 0)];
  [(None, Some 63, 0); (Some 34, None, 0); (Some 32, None, 0); (Some 5, None, 0)];
  [(Some 6, None, 0); (Some 45, None, 0); (Some 62, None, 0); (Some 7, None, 0)];
  [(None, Some 0, 1); (None, Some 0, 1); (None, Some 36, 1); (None, Some 36, 1)];
  [(None, Some 94, 0); (None, Some 125, 0); (Some 43, None, 0); (Some 8, None, 0)];
  [(None, Some 123, 1); (None, Some 123, 1); (Some 60, None, 0); (Some 9, None, 0)];
  [(Some 96, None, 0); (Some 73, None, 0); (Some 10, None, 0); (Some 13, None, 0)];
  [(Some 98, None, 0); (Some 101, None, 0); (Some 106, None, 0); (Some 11, None, 0)];
  [(Some 12, None, 0); (Some 77, None, 0); (Some 78, None, 0); (Some 79, None, 0)];
  [(None, Some 1, 1); (None, Some 1, 1); (None, Some 135, 1); (None, Some 135, 1)];
  [(Some 81, None, 0); (Some 90, None, 0); (Some 20, None, 0); (Some 14, None, 0)];
  [(Some 94, None, 0); (Some 107, None, 0); (Some 103, None, 0); (Some 15, None, 0)];
  [(Some 112, None, 0); (Some 121, None, 0); (Some 16, None, 0); (Some 22, None, 0)];
  [(Some 17, None, 0); (Some 18, None, 0); (Some 19, None, 0); (Some 25, None, 0)];
  [(None, Some 254, 1); (None, Some 254, 1); (None, Some 2, 0); (None, Some 3, 0)];
  [(None, Some 4, 0); (None, Some 5, 0); (None, Some 6, 0); (None, Some 7, 0)];
  [(None, Some 8, 0); (None, Some 11, 0); (None, Some 12, 0); (None, Some 14, 0)];
  [(Some 102, None, 0); (Some 105, None, 0); (Some 21, None, 0); (Some 80, None, 0)];
  [(None, Some 239, 1); (None, Some 239, 1); (None, Some 9, 0); (None, Some 142, 0)];
  [(Some 26, None, 0); (Some 27, None, 0); (Some 28, None, 0); (Some 23, None, 0)];
  [(None, Some 127, 0); (None, Some 220, 0); (None, Some 249, 0); (Some 24, None, 0)];
  [(None, Some 10, 0); (None, Some 13, 0); (None, Some 22, 0); (None, Some 256, 0)];
  [(None, Some 15, 0); (None, Some 16, 0); (None, Some 17, 0); (None, Some 18, 0)];
  [(None, Some 19, 0); (None, Some 20, 0); (None, Some 21, 0); (None, Some 23, 0)];
  [(None, Some 24, 0); (None, Some 25, 0); (None, Some 26, 0); (None, Some 27, 0)];
  [(None, Some 28, 0); (None, Some 29, 0); (None, Some 30, 0); (None, Some 31, 0)];
  [(Some 69, None, 0); (Some 30, None, 0); (Some 35, None, 0); (Some 39, None, 0)];
  [(None, Some 32, 0); (None, Some 37, 0); (None, Some 45, 0); (None, Some 46, 0)];
  [(None, Some 33, 0); (None, Some 34, 0); (None, Some 40, 0); (None, Some 41, 0)];
  [(None, Some 124, 1); (None, Some 124, 1); (None, Some 35, 0); (None, Some 62, 0)];
  [(None, Some 38, 0); (None, Some 42, 0); (None, Some 44, 0); (None, Some 59, 0)];
  [(None, Some 39, 1); (None, Some 39, 1); (None, Some 43, 1); (None, Some 43, 1)];
  [(None, Some 47, 0); (None, Some 51, 0); (None, Some 52, 0); (None, Some 53, 0)];
  [(Some 37, None, 0); (Some 38, None, 0); (Some 63, None, 0); (Some 65, None, 0)];
  [(None, Some 48, 1); (None, Some 48, 1); (None, Some 49, 1); (None, Some 49, 1)];
  [(None, Some 50, 1); (None, Some 50, 1); (None, Some 97, 1); (None, Some 97, 1)];
  [(None, Some 54, 0); (None, Some 55, 0); (None, Some 56, 0); (None, Some 57, 0)];
  [(Some 44, None, 0); (Some 64, None, 0); (Some 67, None, 0); (Some 41, None, 0)];
  [(None, Some 114, 0); (None, Some 117, 0); (Some 42, None, 0); (Some 46, None, 0)];
  [(None, Some 58, 1); (None, Some 58, 1); (None, Some 66, 1); (None, Some 66, 1)];
  [(None, Some 60, 1); (None, Some 60, 1); (None, Some 96, 1); (None, Some 96, 1)];
  [(None, Some 61, 0); (None, Some 65, 0); (None, Some 95, 0); (None, Some 98, 0)];
  [(None, Some 64, 1); (None, Some 64, 1); (None, Some 91, 1); (None, Some 91, 1)];
  [(None, Some 67, 1); (None, Some 67, 1); (None, Some 68, 1); (None, Some 68, 1)];
  [(Some 48, None, 0); (Some 49, None, 0); (Some 50, None, 0); (Some 51, None, 0)];
  [(None, Some 69, 1); (None, Some 69, 1); (None, Some 70, 1); (None, Some 70, 1)];
  [(None, Some 71, 1); (None, Some 71, 1); (None, Some 72, 1); (None, Some 72, 1)];
  [(None, Some 73, 1); (None, Some 73, 1); (None, Some 74, 1); (None, Some 74, 1)];
  [(None, Some 75, 1); (None, Some 75, 1); (None, Some 76, 1); (None, Some 76, 1)];
  [(Some 53, None, 0); (Some 54, None, 0); (Some 55, None, 0); (Some 56, None, 0)];
  [(None, Some 77, 1); (None, Some 77, 1); (None, Some 78, 1); (None, Some 78, 1)];
  [(None, Some 79, 1); (None, Some 79, 1); (None, Some 80, 1); (None, Some 80, 1)];
  [(None, Some 81, 1); (None, Some 81, 1); (None, Some 82, 1); (None, Some 82, 1)];
  [(None, Some 83, 1); (None, Some 83, 1); (None, Some 84, 1); (None, Some 84, 1)];
  [(Some 58, None, 0); (Some 59, None, 0); (Some 66, None, 0); (Some 68, None, 0)];
  [(None, Some 85, 1); (None, Some 85, 1); (None, Some 86, 1); (None, Some 86, 1)];
  [(None, Some 87, 1); (None, Some 87, 1); (None, Some 89, 1); (None, Some 89, 1)];
  [(Some 61, None, 0); (Some 72, None, 0); (Some 75, None, 0); (Some 85, None, 0)];
  [(None, Some 92, 1); (None, Some 92, 1); (None, Some 195, 1); (None, Some 195, 1)];
  [(None, Some 93, 1); (None, Some 93, 1); (None, Some 126, 1); (None, Some 126, 1)];
  [(None, Some 99, 1); (None, Some 99, 1); (None, Some 101, 1); (None, Some 101, 1)];
  [(None, Some 100, 0); (None, Some 102, 0); (None, Some 103, 0); (None, Some 104, 0)];
  [(None, Some 105, 1); (None, Some 105, 1); (None, Some 111, 1); (None, Some 111, 1)];
  [(None, Some 106, 1); (None, Some 106, 1); (None, Some 107, 1); (None, Some 107, 1)];
  [(None, Some 108, 0); (None, Some 109, 0); (None, Some 110, 0); (None, Some 112, 0)];
  [(None, Some 113, 1); (None, Some 113, 1); (None, Some 118, 1); (None, Some 118, 1)];
  [(None, Some 115, 1); (None, Some 115, 1); (None, Some 116, 1); (None, Some 116, 1)];
  [(None, Some 119, 1); (None, Some 119, 1); (None, Some 120, 1); (None, Some 120, 1)];
  [(None, Some 121, 1); (None, Some 121, 1); (None, Some 122, 1); (None, Some 122, 1)];
  [(None, Some 208, 1); (None, Some 208, 1); (None, Some 128, 0); (None, Some 130, 0)];
  [(Some 74, None, 0); (Some 76, None, 0); (Some 87, None, 0); (Some 89, None, 0)];
  [(None, Some 230, 1); (None, Some 230, 1); (None, Some 129, 0); (None, Some 132, 0)];
  [(None, Some 131, 0); (None, Some 162, 0); (None, Some 184, 0); (None, Some 194, 0)];
  [(None, Some 133, 0); (None, Some 134, 0); (None, Some 136, 0); (None, Some 146, 0)];
  [(None, Some 137, 1); (None, Some 137, 1); (None, Some 138, 1); (None, Some 138, 1)];
  [(None, Some 139, 1); (None, Some 139, 1); (None, Some 140, 1); (None, Some 140, 1)];
  [(None, Some 141, 1); (None, Some 141, 1); (None, Some 143, 1); (None, Some 143, 1)];
  [(None, Some 144, 0); (None, Some 145, 0); (None, Some 148, 0); (None, Some 159, 0)];
  [(Some 82, None, 0); (Some 83, None, 0); (Some 84, None, 0); (Some 88, None, 0)];
  [(None, Some 147, 1); (None, Some 147, 1); (None, Some 149, 1); (None, Some 149, 1)];
  [(None, Some 150, 1); (None, Some 150, 1); (None, Some 151, 1); (None, Some 151, 1)];
  [(None, Some 152, 1); (None, Some 152, 1); (None, Some 155, 1); (None, Some 155, 1)];
  [(None, Some 224, 0); (None, Some 226, 0); (Some 86, None, 0); (Some 92, None, 0)];
  [(None, Some 153, 1); (None, Some 153, 1); (None, Some 161, 1); (None, Some 161, 1)];
  [(None, Some 154, 0); (None, Some 156, 0); (None, Some 160, 0); (None, Some 163, 0)];
  [(None, Some 157, 1); (None, Some 157, 1); (None, Some 158, 1); (None, Some 158, 1)];
  [(None, Some 164, 0); (None, Some 169, 0); (None, Some 170, 0); (None, Some 173, 0)];
  [(Some 91, None, 0); (Some 93, None, 0); (Some 95, None, 0); (Some 100, None, 0)];
  [(None, Some 165, 1); (None, Some 165, 1); (None, Some 166, 1); (None, Some 166, 1)];
  [(None, Some 167, 1); (None, Some 167, 1); (None, Some 172, 1); (None, Some 172, 1)];
  [(None, Some 168, 1); (None, Some 168, 1); (None, Some 174, 1); (None, Some 174, 1)];
  [(None, Some 171, 0); (None, Some 206, 0); (None, Some 215, 0); (None, Some 225, 0)];
  [(None, Some 175, 1); (None, Some 175, 1); (None, Some 180, 1); (None, Some 180, 1)];
  [(Some 97, None, 0); (Some 99, None, 0); (Some 115, None, 0); (Some 118, None, 0)];
  [(None, Some 176, 1); (None, Some 176, 1); (None, Some 177, 1); (None, Some 177, 1)];
  [(None, Some 178, 0); (None, Some 181, 0); (None, Some 185, 0); (None, Some 186, 0)];
  [(None, Some 179, 1); (None, Some 179, 1); (None, Some 209, 1); (None, Some 209, 1)];
  [(None, Some 182, 1); (None, Some 182, 1); (None, Some 183, 1); (None, Some 183, 1)];
  [(None, Some 187, 0); (None, Some 189, 0); (None, Some 190, 0); (None, Some 196, 0)];
  [(None, Some 188, 1); (None, Some 188, 1); (None, Some 191, 1); (None, Some 191, 1)];
  [(Some 104, None, 0); (Some 109, None, 0); (Some 116, None, 0); (Some 110, None, 0)];
  [(None, Some 192, 0); (None, Some 193, 0); (None, Some 200, 0); (None, Some 201, 0)];
  [(None, Some 197, 1); (None, Some 197, 1); (None, Some 231, 1); (None, Some 231, 1)];
  [(None, Some 198, 0); (None, Some 228, 0); (None, Some 232, 0); (None, Some 233, 0)];
  [(None, Some 236, 0); (None, Some 237, 0); (Some 108, None, 0); (Some 119, None, 0)];
  [(None, Some 199, 1); (None, Some 199, 1); (None, Some 207, 1); (None, Some 207, 1)];
  [(None, Some 202, 0); (None, Some 205, 0); (None, Some 210, 0); (None, Some 213, 0)];
  [(None, Some 242, 0); (None, Some 243, 0); (None, Some 255, 0); (Some 111, None, 0)];
  [(None, Some 203, 1); (None, Some 203, 1); (None, Some 204, 1); (None, Some 204, 1)];
  [(Some 113, None, 0); (Some 114, None, 0); (Some 117, None, 0); (Some 120, None, 0)];
  [(None, Some 211, 1); (None, Some 211, 1); (None, Some 212, 1); (None, Some 212, 1)];
  [(None, Some 214, 1); (None, Some 214, 1); (None, Some 221, 1); (None, Some 221, 1)];
  [(None, Some 216, 1); (None, Some 216, 1); (None, Some 217, 1); (None, Some 217, 1)];
  [(None, Some 218, 0); (None, Some 219, 0); (None, Some 238, 0); (None, Some 240, 0)];
  [(None, Some 222, 1); (None, Some 222, 1); (None, Some 223, 1); (None, Some 223, 1)];
  [(None, Some 227, 1); (None, Some 227, 1); (None, Some 229, 1); (None, Some 229, 1)];
  [(None, Some 234, 1); (None, Some 234, 1); (None, Some 235, 1); (None, Some 235, 1)];
  [(None, Some 241, 1); (None, Some 241, 1); (None, Some 244, 1); (None, Some 244, 1)];
  [(Some 122, None, 0); (Some 123, None, 0); (Some 124, None, 0); (Some 125, None, 0)];
  [(None, Some 245, 1); (None, Some 245, 1); (None, Some 246, 1); (None, Some 246, 1)];
  [(None, Some 247, 1); (None, Some 247, 1); (None, Some 248, 1); (None, Some 248, 1)];
  [(None, Some 250, 1); (None, Some 250, 1); (None, Some 251, 1); (None, Some 251, 1)];
  [(None, Some 252, 1); (None, Some 252, 1); (None, Some 253, 1); (None, Some 253, 1)]
].

(* huffman/src/decoder/table3.rs:3-924, DECODE_TABLE. *)
Definition DECODE_TABLE3 : list (list cell) := [
  [(Some 34, None, 0); (Some 53, None, 0); (Some 28, None, 0); (Some 33, None, 0); (Some 37, None, 0); (Some 35, None, 0); (Some 40, None, 0); (Some 1, None, 0)];
  [(Some 49, None, 0); (Some 50, None, 0); (Some 54, None, 0); (Some 55, None, 0); (Some 56, None, 0); (Some 57, None, 0); (Some 30, None, 0); (Some 2, None, 0)];
  [(None, Some 88, 1); (None, Some 88, 1); (None, Some 90, 1); (None, Some 90, 1); (Some 29, None, 0); (Some 32, None, 0); (Some 31, None, 0); (Some 3, None, 0)];
  [(None, Some 124, 1); (None, Some 124, 1); (None, Some 35, 0); (None, Some 62, 0); (Some 4, None, 0); (Some 38, None, 0); (Some 52, None, 0); (Some 5, None, 0)];
  [(None, Some 0, 2); (None, Some 0, 2); (None, Some 0, 2); (None, Some 0, 2); (None, Some 36, 2); (None, Some 36, 2); (None, Some 36, 2); (None, Some 36, 2)];
  [(None, Some 94, 1); (None, Some 94, 1); (None, Some 125, 1); (None, Some 125, 1); (None, Some 60, 0); (None, Some 96, 0); (None, Some 123, 0); (Some 6, None, 0)];
  [(Some 51, None, 0); (Some 59, None, 0); (Some 62, None, 0); (Some 68, None, 0); (Some 76, None, 0); (Some 60, None, 0); (Some 7, None, 0); (Some 9, None, 0)];
  [(Some 77, None, 0); (Some 78, None, 0); (Some 79, None, 0); (Some 81, None, 0); (Some 83, None, 0); (Some 89, None, 0); (Some 8, None, 0); (Some 65, None, 0)];
  [(None, Some 1, 1); (None, Some 1, 1); (None, Some 135, 1); (None, Some 135, 1); (None, Some 137, 1); (None, Some 137, 1); (None, Some 138, 1); (None, Some 138, 1)];
  [(Some 66, None, 0); (Some 67, None, 0); (Some 72, None, 0); (Some 75, None, 0); (Some 80, None, 0); (Some 16, None, 0); (Some 74, None, 0); (Some 10, None, 0)];
  [(Some 82, None, 0); (Some 85, None, 0); (Some 88, None, 0); (Some 86, None, 0); (Some 87, None, 0); (Some 91, None, 0); (Some 11, None, 0); (Some 17, None, 0)];
  [(None, Some 254, 0); (Some 12, None, 0); (Some 13, None, 0); (Some 14, None, 0); (Some 15, None, 0); (Some 19, None, 0); (Some 20, None, 0); (Some 21, None, 0)];
  [(None, Some 2, 2); (None, Some 2, 2); (None, Some 2, 2); (None, Some 2, 2); (None, Some 3, 2); (None, Some 3, 2); (None, Some 3, 2); (None, Some 3, 2)];
  [(None, Some 4, 2); (None, Some 4, 2); (None, Some 4, 2); (None, Some 4, 2); (None, Some 5, 2); (None, Some 5, 2); (None, Some 5, 2); (None, Some 5, 2)];
  [(None, Some 6, 2); (None, Some 6, 2); (None, Some 6, 2); (None, Some 6, 2); (None, Some 7, 2); (None, Some 7, 2); (None, Some 7, 2); (None, Some 7, 2)];
  [(None, Some 8, 2); (None, Some 8, 2); (None, Some 8, 2); (None, Some 8, 2); (None, Some 11, 2); (None, Some 11, 2); (None, Some 11, 2); (None, Some 11, 2)];
  [(None, Some 239, 1); (None, Some 239, 1); (None, Some 9, 0); (None, Some 142, 0); (None, Some 144, 0); (None, Some 145, 0); (None, Some 148, 0); (None, Some 159, 0)];
  [(Some 22, None, 0); (Some 23, None, 0); (Some 24, None, 0); (Some 25, None, 0); (Some 26, None, 0); (Some 27, None, 0); (Some 58, None, 0); (Some 18, None, 0)];
  [(None, Some 249, 2); (None, Some 249, 2); (None, Some 249, 2); (None, Some 249, 2); (None, Some 10, 0); (None, Some 13, 0); (None, Some 22, 0); (None, Some 256, 0)];
  [(None, Some 12, 2); (None, Some 12, 2); (None, Some 12, 2); (None, Some 12, 2); (None, Some 14, 2); (None, Some 14, 2); (None, Some 14, 2); (None, Some 14, 2)];
  [(None, Some 15, 2); (None, Some 15, 2); (None, Some 15, 2); (None, Some 15, 2); (None, Some 16, 2); (None, Some 16, 2); (None, Some 16, 2); (None, Some 16, 2)];
  [(None, Some 17, 2); (None, Some 17, 2); (None, Some 17, 2); (None, Some 17, 2); (None, Some 18, 2); (None, Some 18, 2); (None, Some 18, 2); (None, Some 18, 2)];
  [(None, Some 19, 2); (None, Some 19, 2); (None, Some 19, 2); (None, Some 19, 2); (None, Some 20, 2); (None, Some 20, 2); (None, Some 20, 2); (None, Some 20, 2)];
  [(None, Some 21, 2); (None, Some 21, 2); (None, Some 21, 2); (None, Some 21, 2); (None, Some 23, 2); (None, Some 23, 2); (None, Some 23, 2); (None, Some 23, 2)];
  [(None, Some 24, 2); (None, Some 24, 2); (None, Some 24, 2); (None, Some 24, 2); (None, Some 25, 2); (None, Some 25, 2); (None, Some 25, 2); (None, Some 25, 2)];
  [(None, Some 26, 2); (None, Some 26, 2); (None, Some 26, 2); (None, Some 26, 2); (None, Some 27, 2); (None, Some 27, 2); (None, Some 27, 2); (None, Some 27, 2)];
  [(None, Some 28, 2); (None, Some 28, 2); (None, Some 28, 2); (None, Some 28, 2); (None, Some 29, 2); (None, Some 29, 2); (None, Some 29, 2); (None, Some 29, 2)];
  [(None, Some 30, 2); (None, Some 30, 2); (None, Some 30, 2); (None, Some 30, 2); (None, Some 31, 2); (None, Some 31, 2); (None, Some 31, 2); (None, Some 31, 2)];
  [(None, Some 115, 1); (None, Some 115, 1); (None, Some 116, 1); (None, Some 116, 1); (None, Some 32, 0); (None, Some 37, 0); (None, Some 45, 0); (None, Some 46, 0)];
  [(None, Some 33, 2); (None, Some 33, 2); (None, Some 33, 2); (None, Some 33, 2); (None, Some 34, 2); (None, Some 34, 2); (None, Some 34, 2); (None, Some 34, 2)];
  [(None, Some 38, 1); (None, Some 38, 1); (None, Some 42, 1); (None, Some 42, 1); (None, Some 44, 1); (None, Some 44, 1); (None, Some 59, 1); (None, Some 59, 1)];
  [(None, Some 63, 2); (None, Some 63, 2); (None, Some 63, 2); (None, Some 63, 2); (None, Some 39, 1); (None, Some 39, 1); (None, Some 43, 1); (None, Some 43, 1)];
  [(None, Some 40, 2); (None, Some 40, 2); (None, Some 40, 2); (None, Some 40, 2); (None, Some 41, 2); (None, Some 41, 2); (None, Some 41, 2); (None, Some 41, 2)];
  [(None, Some 47, 0); (None, Some 51, 0); (None, Some 52, 0); (None, Some 53, 0); (None, Some 54, 0); (None, Some 55, 0); (None, Some 56, 0); (None, Some 57, 0)];
  [(None, Some 48, 1); (None, Some 48, 1); (None, Some 49, 1); (None, Some 49, 1); (None, Some 50, 1); (None, Some 50, 1); (None, Some 97, 1); (None, Some 97, 1)];
  [(None, Some 108, 0); (None, Some 109, 0); (None, Some 110, 0); (None, Some 112, 0); (None, Some 114, 0); (None, Some 117, 0); (Some 36, None, 0); (Some 39, None, 0)];
  [(None, Some 58, 2); (None, Some 58, 2); (None, Some 58, 2); (None, Some 58, 2); (None, Some 66, 2); (None, Some 66, 2); (None, Some 66, 2); (None, Some 66, 2)];
  [(None, Some 61, 0); (None, Some 65, 0); (None, Some 95, 0); (None, Some 98, 0); (None, Some 100, 0); (None, Some 102, 0); (None, Some 103, 0); (None, Some 104, 0)];
  [(None, Some 64, 2); (None, Some 64, 2); (None, Some 64, 2); (None, Some 64, 2); (None, Some 91, 2); (None, Some 91, 2); (None, Some 91, 2); (None, Some 91, 2)];
  [(None, Some 67, 2); (None, Some 67, 2); (None, Some 67, 2); (None, Some 67, 2); (None, Some 68, 2); (None, Some 68, 2); (None, Some 68, 2); (None, Some 68, 2)];
  [(Some 41, None, 0); (Some 42, None, 0); (Some 43, None, 0); (Some 44, None, 0); (Some 45, None, 0); (Some 46, None, 0); (Some 47, None, 0); (Some 48, None, 0)];
  [(None, Some 69, 2); (None, Some 69, 2); (None, Some 69, 2); (None, Some 69, 2); (None, Some 70, 2); (None, Some 70, 2); (None, Some 70, 2); (None, Some 70, 2)];
  [(None, Some 71, 2); (None, Some 71, 2); (None, Some 71, 2); (None, Some 71, 2); (None, Some 72, 2); (None, Some 72, 2); (None, Some 72, 2); (None, Some 72, 2)];
  [(None, Some 73, 2); (None, Some 73, 2); (None, Some 73, 2); (None, Some 73, 2); (None, Some 74, 2); (None, Some 74, 2); (None, Some 74, 2); (None, Some 74, 2)];
  [(None, Some 75, 2); (None, Some 75, 2); (None, Some 75, 2); (None, Some 75, 2); (None, Some 76, 2); (None, Some 76, 2); (None, Some 76, 2); (None, Some 76, 2)];
  [(None, Some 77, 2); (None, Some 77, 2); (None, Some 77, 2); (None, Some 77, 2); (None, Some 78, 2); (None, Some 78, 2); (None, Some 78, 2); (None, Some 78, 2)];
  [(None, Some 79, 2); (None, Some 79, 2); (None, Some 79, 2); (None, Some 79, 2); (None, Some 80, 2); (None, Some 80, 2); (None, Some 80, 2); (None, Some 80, 2)];
  [(None, Some 81, 2); (None, Some 81, 2); (None, Some 81, 2); (None, Some 81, 2); (None, Some 82, 2); (None, Some 82, 2); (None, Some 82, 2); (None, Some 82, 2)];
  [(None, Some 83, 2); (None, Some 83, 2); (None, Some 83, 2); (None, Some 83, 2); (None, Some 84, 2); (None, Some 84, 2); (None, Some 84, 2); (None, Some 84, 2)];
  [(None, Some 85, 2); (None, Some 85, 2); (None, Some 85, 2); (None, Some 85, 2); (None, Some 86, 2); (None, Some 86, 2); (None, Some 86, 2); (None, Some 86, 2)];
  [(None, Some 87, 2); (None, Some 87, 2); (None, Some 87, 2); (None, Some 87, 2); (None, Some 89, 2); (None, Some 89, 2); (None, Some 89, 2); (None, Some 89, 2)];
  [(None, Some 92, 2); (None, Some 92, 2); (None, Some 92, 2); (None, Some 92, 2); (None, Some 195, 2); (None, Some 195, 2); (None, Some 195, 2); (None, Some 195, 2)];
  [(None, Some 93, 2); (None, Some 93, 2); (None, Some 93, 2); (None, Some 93, 2); (None, Some 126, 2); (None, Some 126, 2); (None, Some 126, 2); (None, Some 126, 2)];
  [(None, Some 99, 1); (None, Some 99, 1); (None, Some 101, 1); (None, Some 101, 1); (None, Some 105, 1); (None, Some 105, 1); (None, Some 111, 1); (None, Some 111, 1)];
  [(None, Some 106, 2); (None, Some 106, 2); (None, Some 106, 2); (None, Some 106, 2); (None, Some 107, 2); (None, Some 107, 2); (None, Some 107, 2); (None, Some 107, 2)];
  [(None, Some 113, 2); (None, Some 113, 2); (None, Some 113, 2); (None, Some 113, 2); (None, Some 118, 2); (None, Some 118, 2); (None, Some 118, 2); (None, Some 118, 2)];
  [(None, Some 119, 2); (None, Some 119, 2); (None, Some 119, 2); (None, Some 119, 2); (None, Some 120, 2); (None, Some 120, 2); (None, Some 120, 2); (None, Some 120, 2)];
  [(None, Some 121, 2); (None, Some 121, 2); (None, Some 121, 2); (None, Some 121, 2); (None, Some 122, 2); (None, Some 122, 2); (None, Some 122, 2); (None, Some 122, 2)];
  [(None, Some 127, 2); (None, Some 127, 2); (None, Some 127, 2); (None, Some 127, 2); (None, Some 220, 2); (None, Some 220, 2); (None, Some 220, 2); (None, Some 220, 2)];
  [(None, Some 208, 2); (None, Some 208, 2); (None, Some 208, 2); (None, Some 208, 2); (None, Some 128, 1); (None, Some 128, 1); (None, Some 130, 1); (None, Some 130, 1)];
  [(None, Some 230, 0); (Some 61, None, 0); (Some 63, None, 0); (Some 64, None, 0); (Some 69, None, 0); (Some 70, None, 0); (Some 71, None, 0); (Some 73, None, 0)];
  [(None, Some 129, 2); (None, Some 129, 2); (None, Some 129, 2); (None, Some 129, 2); (None, Some 132, 2); (None, Some 132, 2); (None, Some 132, 2); (None, Some 132, 2)];
  [(None, Some 131, 1); (None, Some 131, 1); (None, Some 162, 1); (None, Some 162, 1); (None, Some 184, 1); (None, Some 184, 1); (None, Some 194, 1); (None, Some 194, 1)];
  [(None, Some 133, 2); (None, Some 133, 2); (None, Some 133, 2); (None, Some 133, 2); (None, Some 134, 2); (None, Some 134, 2); (None, Some 134, 2); (None, Some 134, 2)];
  [(None, Some 136, 2); (None, Some 136, 2); (None, Some 136, 2); (None, Some 136, 2); (None, Some 146, 2); (None, Some 146, 2); (None, Some 146, 2); (None, Some 146, 2)];
  [(None, Some 139, 1); (None, Some 139, 1); (None, Some 140, 1); (None, Some 140, 1); (None, Some 141, 1); (None, Some 141, 1); (None, Some 143, 1); (None, Some 143, 1)];
  [(None, Some 147, 1); (None, Some 147, 1); (None, Some 149, 1); (None, Some 149, 1); (None, Some 150, 1); (None, Some 150, 1); (None, Some 151, 1); (None, Some 151, 1)];
  [(None, Some 152, 1); (None, Some 152, 1); (None, Some 155, 1); (None, Some 155, 1); (None, Some 157, 1); (None, Some 157, 1); (None, Some 158, 1); (None, Some 158, 1)];
  [(None, Some 224, 1); (None, Some 224, 1); (None, Some 226, 1); (None, Some 226, 1); (None, Some 153, 0); (None, Some 161, 0); (None, Some 167, 0); (None, Some 172, 0)];
  [(None, Some 154, 2); (None, Some 154, 2); (None, Some 154, 2); (None, Some 154, 2); (None, Some 156, 2); (None, Some 156, 2); (None, Some 156, 2); (None, Some 156, 2)];
  [(None, Some 160, 2); (None, Some 160, 2); (None, Some 160, 2); (None, Some 160, 2); (None, Some 163, 2); (None, Some 163, 2); (None, Some 163, 2); (None, Some 163, 2)];
  [(None, Some 164, 2); (None, Some 164, 2); (None, Some 164, 2); (None, Some 164, 2); (None, Some 169, 2); (None, Some 169, 2); (None, Some 169, 2); (None, Some 169, 2)];
  [(None, Some 165, 1); (None, Some 165, 1); (None, Some 166, 1); (None, Some 166, 1); (None, Some 168, 1); (None, Some 168, 1); (None, Some 174, 1); (None, Some 174, 1)];
  [(None, Some 170, 2); (None, Some 170, 2); (None, Some 170, 2); (None, Some 170, 2); (None, Some 173, 2); (None, Some 173, 2); (None, Some 173, 2); (None, Some 173, 2)];
  [(None, Some 171, 0); (None, Some 206, 0); (None, Some 215, 0); (None, Some 225, 0); (None, Some 236, 0); (None, Some 237, 0); (Some 84, None, 0); (Some 90, None, 0)];
  [(None, Some 175, 1); (None, Some 175, 1); (None, Some 180, 1); (None, Some 180, 1); (None, Some 182, 1); (None, Some 182, 1); (None, Some 183, 1); (None, Some 183, 1)];
  [(None, Some 176, 0); (None, Some 177, 0); (None, Some 179, 0); (None, Some 209, 0); (None, Some 216, 0); (None, Some 217, 0); (None, Some 227, 0); (None, Some 229, 0)];
  [(None, Some 178, 2); (None, Some 178, 2); (None, Some 178, 2); (None, Some 178, 2); (None, Some 181, 2); (None, Some 181, 2); (None, Some 181, 2); (None, Some 181, 2)];
  [(None, Some 185, 2); (None, Some 185, 2); (None, Some 185, 2); (None, Some 185, 2); (None, Some 186, 2); (None, Some 186, 2); (None, Some 186, 2); (None, Some 186, 2)];
  [(None, Some 187, 2); (None, Some 187, 2); (None, Some 187, 2); (None, Some 187, 2); (None, Some 189, 2); (None, Some 189, 2); (None, Some 189, 2); (None, Some 189, 2)];
  [(None, Some 188, 1); (None, Some 188, 1); (None, Some 191, 1); (None, Some 191, 1); (None, Some 197, 1); (None, Some 197, 1); (None, Some 231, 1); (None, Some 231, 1)];
  [(None, Some 190, 2); (None, Some 190, 2); (None, Some 190, 2); (None, Some 190, 2); (None, Some 196, 2); (None, Some 196, 2); (None, Some 196, 2); (None, Some 196, 2)];
  [(None, Some 192, 1); (None, Some 192, 1); (None, Some 193, 1); (None, Some 193, 1); (None, Some 200, 1); (None, Some 200, 1); (None, Some 201, 1); (None, Some 201, 1)];
  [(None, Some 198, 2); (None, Some 198, 2); (None, Some 198, 2); (None, Some 198, 2); (None, Some 228, 2); (None, Some 228, 2); (None, Some 228, 2); (None, Some 228, 2)];
  [(None, Some 199, 2); (None, Some 199, 2); (None, Some 199, 2); (None, Some 199, 2); (None, Some 207, 2); (None, Some 207, 2); (None, Some 207, 2); (None, Some 207, 2)];
  [(None, Some 202, 1); (None, Some 202, 1); (None, Some 205, 1); (None, Some 205, 1); (None, Some 210, 1); (None, Some 210, 1); (None, Some 213, 1); (None, Some 213, 1)];
  [(None, Some 242, 1); (None, Some 242, 1); (None, Some 243, 1); (None, Some 243, 1); (None, Some 255, 1); (None, Some 255, 1); (None, Some 203, 0); (None, Some 204, 0)];
  [(None, Some 211, 0); (None, Some 212, 0); (None, Some 214, 0); (None, Some 221, 0); (None, Some 222, 0); (None, Some 223, 0); (None, Some 241, 0); (None, Some 244, 0)];
  [(None, Some 218, 1); (None, Some 218, 1); (None, Some 219, 1); (None, Some 219, 1); (None, Some 238, 1); (None, Some 238, 1); (None, Some 240, 1); (None, Some 240, 1)];
  [(None, Some 232, 2); (None, Some 232, 2); (None, Some 232, 2); (None, Some 232, 2); (None, Some 233, 2); (None, Some 233, 2); (None, Some 233, 2); (None, Some 233, 2)];
  [(None, Some 234, 2); (None, Some 234, 2); (None, Some 234, 2); (None, Some 234, 2); (None, Some 235, 2); (None, Some 235, 2); (None, Some 235, 2); (None, Some 235, 2)];
  [(None, Some 245, 0); (None, Some 246, 0); (None, Some 247, 0); (None, Some 248, 0); (None, Some 250, 0); (None, Some 251, 0); (None, Some 252, 0); (None, Some 253, 0)]
].

(* huffman/src/decoder/table4.rs:3-976, DECODE_TABLE. *)
Definition DECODE_TABLE4 : list (list cell) := [
  [(Some 15, None, 0); (Some 16, None, 0); (Some 26, None, 0); (Some 28, None, 0); (Some 30, None, 0); (Some 12, None, 0); (Some 14, None, 0); (Some 17, None, 0); (Some 19, None, 0); (Some 27, None, 0); (Some 29, None, 0); (Some 18, None, 0); (Some 21, None, 0); (Some 22, None, 0); (Some 23, None, 0); (Some 1, None, 0)];
  [(None, Some 119, 1); (None, Some 119, 1); (None, Some 120, 1); (None, Some 120, 1); (None, Some 121, 1); (None, Some 121, 1); (None, Some 122, 1); (None, Some 122, 1); (None, Some 38, 0); (None, Some 42, 0); (None, Some 44, 0); (None, Some 59, 0); (None, Some 88, 0); (None, Some 90, 0); (Some 13, None, 0); (Some 2, None, 0)];
  [(None, Some 63, 2); (None, Some 63, 2); (None, Some 63, 2); (None, Some 63, 2); (None, Some 39, 1); (None, Some 39, 1); (None, Some 43, 1); (None, Some 43, 1); (None, Some 124, 1); (None, Some 124, 1); (None, Some 35, 0); (None, Some 62, 0); (Some 3, None, 0); (Some 20, None, 0); (Some 25, None, 0); (Some 4, None, 0)];
  [(None, Some 0, 3); (None, Some 0, 3); (None, Some 0, 3); (None, Some 0, 3); (None, Some 0, 3); (None, Some 0, 3); (None, Some 0, 3); (None, Some 0, 3); (None, Some 36, 3); (None, Some 36, 3); (None, Some 36, 3); (None, Some 36, 3); (None, Some 36, 3); (None, Some 36, 3); (None, Some 36, 3); (None, Some 36, 3)];
  [(None, Some 94, 2); (None, Some 94, 2); (None, Some 94, 2); (None, Some 94, 2); (None, Some 125, 2); (None, Some 125, 2); (None, Some 125, 2); (None, Some 125, 2); (None, Some 60, 1); (None, Some 60, 1); (None, Some 96, 1); (None, Some 96, 1); (None, Some 123, 1); (None, Some 123, 1); (Some 24, None, 0); (Some 5, None, 0)];
  [(Some 39, None, 0); (Some 41, None, 0); (Some 49, None, 0); (Some 51, None, 0); (Some 31, None, 0); (Some 32, None, 0); (Some 35, None, 0); (Some 36, None, 0); (Some 40, None, 0); (Some 42, None, 0); (Some 44, None, 0); (Some 6, None, 0); (Some 33, None, 0); (Some 37, None, 0); (Some 9, None, 0); (Some 7, None, 0)];
  [(None, Some 1, 1); (None, Some 1, 1); (None, Some 135, 1); (None, Some 135, 1); (None, Some 137, 1); (None, Some 137, 1); (None, Some 138, 1); (None, Some 138, 1); (None, Some 139, 1); (None, Some 139, 1); (None, Some 140, 1); (None, Some 140, 1); (None, Some 141, 1); (None, Some 141, 1); (None, Some 143, 1); (None, Some 143, 1)];
  [(None, Some 171, 0); (None, Some 206, 0); (None, Some 215, 0); (None, Some 225, 0); (None, Some 236, 0); (None, Some 237, 0); (Some 45, None, 0); (Some 52, None, 0); (Some 43, None, 0); (Some 46, None, 0); (Some 50, None, 0); (Some 47, None, 0); (Some 48, None, 0); (Some 53, None, 0); (Some 8, None, 0); (Some 10, None, 0)];
  [(None, Some 254, 1); (None, Some 254, 1); (None, Some 2, 0); (None, Some 3, 0); (None, Some 4, 0); (None, Some 5, 0); (None, Some 6, 0); (None, Some 7, 0); (None, Some 8, 0); (None, Some 11, 0); (None, Some 12, 0); (None, Some 14, 0); (None, Some 15, 0); (None, Some 16, 0); (None, Some 17, 0); (None, Some 18, 0)];
  [(None, Some 188, 1); (None, Some 188, 1); (None, Some 191, 1); (None, Some 191, 1); (None, Some 197, 1); (None, Some 197, 1); (None, Some 231, 1); (None, Some 231, 1); (None, Some 239, 1); (None, Some 239, 1); (None, Some 9, 0); (None, Some 142, 0); (None, Some 144, 0); (None, Some 145, 0); (None, Some 148, 0); (None, Some 159, 0)];
  [(None, Some 19, 0); (None, Some 20, 0); (None, Some 21, 0); (None, Some 23, 0); (None, Some 24, 0); (None, Some 25, 0); (None, Some 26, 0); (None, Some 27, 0); (None, Some 28, 0); (None, Some 29, 0); (None, Some 30, 0); (None, Some 31, 0); (None, Some 127, 0); (None, Some 220, 0); (None, Some 249, 0); (Some 11, None, 0)];
  [(None, Some 10, 2); (None, Some 10, 2); (None, Some 10, 2); (None, Some 10, 2); (None, Some 13, 2); (None, Some 13, 2); (None, Some 13, 2); (None, Some 13, 2); (None, Some 22, 2); (None, Some 22, 2); (None, Some 22, 2); (None, Some 22, 2); (None, Some 256, 2); (None, Some 256, 2); (None, Some 256, 2); (None, Some 256, 2)];
  [(None, Some 32, 2); (None, Some 32, 2); (None, Some 32, 2); (None, Some 32, 2); (None, Some 37, 2); (None, Some 37, 2); (None, Some 37, 2); (None, Some 37, 2); (None, Some 45, 2); (None, Some 45, 2); (None, Some 45, 2); (None, Some 45, 2); (None, Some 46, 2); (None, Some 46, 2); (None, Some 46, 2); (None, Some 46, 2)];
  [(None, Some 33, 2); (None, Some 33, 2); (None, Some 33, 2); (None, Some 33, 2); (None, Some 34, 2); (None, Some 34, 2); (None, Some 34, 2); (None, Some 34, 2); (None, Some 40, 2); (None, Some 40, 2); (None, Some 40, 2); (None, Some 40, 2); (None, Some 41, 2); (None, Some 41, 2); (None, Some 41, 2); (None, Some 41, 2)];
  [(None, Some 47, 2); (None, Some 47, 2); (None, Some 47, 2); (None, Some 47, 2); (None, Some 51, 2); (None, Some 51, 2); (None, Some 51, 2); (None, Some 51, 2); (None, Some 52, 2); (None, Some 52, 2); (None, Some 52, 2); (None, Some 52, 2); (None, Some 53, 2); (None, Some 53, 2); (None, Some 53, 2); (None, Some 53, 2)];
  [(None, Some 48, 3); (None, Some 48, 3); (None, Some 48, 3); (None, Some 48, 3); (None, Some 48, 3); (None, Some 48, 3); (None, Some 48, 3); (None, Some 48, 3); (None, Some 49, 3); (None, Some 49, 3); (None, Some 49, 3); (None, Some 49, 3); (None, Some 49, 3); (None, Some 49, 3); (None, Some 49, 3); (None, Some 49, 3)];
  [(None, Some 50, 3); (None, Some 50, 3); (None, Some 50, 3); (None, Some 50, 3); (None, Some 50, 3); (None, Some 50, 3); (None, Some 50, 3); (None, Some 50, 3); (None, Some 97, 3); (None, Some 97, 3); (None, Some 97, 3); (None, Some 97, 3); (None, Some 97, 3); (None, Some 97, 3); (None, Some 97, 3); (None, Some 97, 3)];
  [(None, Some 54, 2); (None, Some 54, 2); (None, Some 54, 2); (None, Some 54, 2); (None, Some 55, 2); (None, Some 55, 2); (None, Some 55, 2); (None, Some 55, 2); (None, Some 56, 2); (None, Some 56, 2); (None, Some 56, 2); (None, Some 56, 2); (None, Some 57, 2); (None, Some 57, 2); (None, Some 57, 2); (None, Some 57, 2)];
  [(None, Some 114, 2); (None, Some 114, 2); (None, Some 114, 2); (None, Some 114, 2); (None, Some 117, 2); (None, Some 117, 2); (None, Some 117, 2); (None, Some 117, 2); (None, Some 58, 1); (None, Some 58, 1); (None, Some 66, 1); (None, Some 66, 1); (None, Some 67, 1); (None, Some 67, 1); (None, Some 68, 1); (None, Some 68, 1)];
  [(None, Some 61, 2); (None, Some 61, 2); (None, Some 61, 2); (None, Some 61, 2); (None, Some 65, 2); (None, Some 65, 2); (None, Some 65, 2); (None, Some 65, 2); (None, Some 95, 2); (None, Some 95, 2); (None, Some 95, 2); (None, Some 95, 2); (None, Some 98, 2); (None, Some 98, 2); (None, Some 98, 2); (None, Some 98, 2)];
  [(None, Some 64, 3); (None, Some 64, 3); (None, Some 64, 3); (None, Some 64, 3); (None, Some 64, 3); (None, Some 64, 3); (None, Some 64, 3); (None, Some 64, 3); (None, Some 91, 3); (None, Some 91, 3); (None, Some 91, 3); (None, Some 91, 3); (None, Some 91, 3); (None, Some 91, 3); (None, Some 91, 3); (None, Some 91, 3)];
  [(None, Some 69, 1); (None, Some 69, 1); (None, Some 70, 1); (None, Some 70, 1); (None, Some 71, 1); (None, Some 71, 1); (None, Some 72, 1); (None, Some 72, 1); (None, Some 73, 1); (None, Some 73, 1); (None, Some 74, 1); (None, Some 74, 1); (None, Some 75, 1); (None, Some 75, 1); (None, Some 76, 1); (None, Some 76, 1)];
  [(None, Some 77, 1); (None, Some 77, 1); (None, Some 78, 1); (None, Some 78, 1); (None, Some 79, 1); (None, Some 79, 1); (None, Some 80, 1); (None, Some 80, 1); (None, Some 81, 1); (None, Some 81, 1); (None, Some 82, 1); (None, Some 82, 1); (None, Some 83, 1); (None, Some 83, 1); (None, Some 84, 1); (None, Some 84, 1)];
  [(None, Some 85, 1); (None, Some 85, 1); (None, Some 86, 1); (None, Some 86, 1); (None, Some 87, 1); (None, Some 87, 1); (None, Some 89, 1); (None, Some 89, 1); (None, Some 106, 1); (None, Some 106, 1); (None, Some 107, 1); (None, Some 107, 1); (None, Some 113, 1); (None, Some 113, 1); (None, Some 118, 1); (None, Some 118, 1)];
  [(None, Some 92, 1); (None, Some 92, 1); (None, Some 195, 1); (None, Some 195, 1); (None, Some 208, 1); (None, Some 208, 1); (None, Some 128, 0); (None, Some 130, 0); (None, Some 131, 0); (None, Some 162, 0); (None, Some 184, 0); (None, Some 194, 0); (None, Some 224, 0); (None, Some 226, 0); (Some 34, None, 0); (Some 38, None, 0)];
  [(None, Some 93, 3); (None, Some 93, 3); (None, Some 93, 3); (None, Some 93, 3); (None, Some 93, 3); (None, Some 93, 3); (None, Some 93, 3); (None, Some 93, 3); (None, Some 126, 3); (None, Some 126, 3); (None, Some 126, 3); (None, Some 126, 3); (None, Some 126, 3); (None, Some 126, 3); (None, Some 126, 3); (None, Some 126, 3)];
  [(None, Some 99, 3); (None, Some 99, 3); (None, Some 99, 3); (None, Some 99, 3); (None, Some 99, 3); (None, Some 99, 3); (None, Some 99, 3); (None, Some 99, 3); (None, Some 101, 3); (None, Some 101, 3); (None, Some 101, 3); (None, Some 101, 3); (None, Some 101, 3); (None, Some 101, 3); (None, Some 101, 3); (None, Some 101, 3)];
  [(None, Some 100, 2); (None, Some 100, 2); (None, Some 100, 2); (None, Some 100, 2); (None, Some 102, 2); (None, Some 102, 2); (None, Some 102, 2); (None, Some 102, 2); (None, Some 103, 2); (None, Some 103, 2); (None, Some 103, 2); (None, Some 103, 2); (None, Some 104, 2); (None, Some 104, 2); (None, Some 104, 2); (None, Some 104, 2)];
  [(None, Some 105, 3); (None, Some 105, 3); (None, Some 105, 3); (None, Some 105, 3); (None, Some 105, 3); (None, Some 105, 3); (None, Some 105, 3); (None, Some 105, 3); (None, Some 111, 3); (None, Some 111, 3); (None, Some 111, 3); (None, Some 111, 3); (None, Some 111, 3); (None, Some 111, 3); (None, Some 111, 3); (None, Some 111, 3)];
  [(None, Some 108, 2); (None, Some 108, 2); (None, Some 108, 2); (None, Some 108, 2); (None, Some 109, 2); (None, Some 109, 2); (None, Some 109, 2); (None, Some 109, 2); (None, Some 110, 2); (None, Some 110, 2); (None, Some 110, 2); (None, Some 110, 2); (None, Some 112, 2); (None, Some 112, 2); (None, Some 112, 2); (None, Some 112, 2)];
  [(None, Some 115, 3); (None, Some 115, 3); (None, Some 115, 3); (None, Some 115, 3); (None, Some 115, 3); (None, Some 115, 3); (None, Some 115, 3); (None, Some 115, 3); (None, Some 116, 3); (None, Some 116, 3); (None, Some 116, 3); (None, Some 116, 3); (None, Some 116, 3); (None, Some 116, 3); (None, Some 116, 3); (None, Some 116, 3)];
  [(None, Some 230, 3); (None, Some 230, 3); (None, Some 230, 3); (None, Some 230, 3); (None, Some 230, 3); (None, Some 230, 3); (None, Some 230, 3); (None, Some 230, 3); (None, Some 129, 2); (None, Some 129, 2); (None, Some 129, 2); (None, Some 129, 2); (None, Some 132, 2); (None, Some 132, 2); (None, Some 132, 2); (None, Some 132, 2)];
  [(None, Some 133, 2); (None, Some 133, 2); (None, Some 133, 2); (None, Some 133, 2); (None, Some 134, 2); (None, Some 134, 2); (None, Some 134, 2); (None, Some 134, 2); (None, Some 136, 2); (None, Some 136, 2); (None, Some 136, 2); (None, Some 136, 2); (None, Some 146, 2); (None, Some 146, 2); (None, Some 146, 2); (None, Some 146, 2)];
  [(None, Some 147, 1); (None, Some 147, 1); (None, Some 149, 1); (None, Some 149, 1); (None, Some 150, 1); (None, Some 150, 1); (None, Some 151, 1); (None, Some 151, 1); (None, Some 152, 1); (None, Some 152, 1); (None, Some 155, 1); (None, Some 155, 1); (None, Some 157, 1); (None, Some 157, 1); (None, Some 158, 1); (None, Some 158, 1)];
  [(None, Some 153, 3); (None, Some 153, 3); (None, Some 153, 3); (None, Some 153, 3); (None, Some 153, 3); (None, Some 153, 3); (None, Some 153, 3); (None, Some 153, 3); (None, Some 161, 3); (None, Some 161, 3); (None, Some 161, 3); (None, Some 161, 3); (None, Some 161, 3); (None, Some 161, 3); (None, Some 161, 3); (None, Some 161, 3)];
  [(None, Some 154, 2); (None, Some 154, 2); (None, Some 154, 2); (None, Some 154, 2); (None, Some 156, 2); (None, Some 156, 2); (None, Some 156, 2); (None, Some 156, 2); (None, Some 160, 2); (None, Some 160, 2); (None, Some 160, 2); (None, Some 160, 2); (None, Some 163, 2); (None, Some 163, 2); (None, Some 163, 2); (None, Some 163, 2)];
  [(None, Some 164, 2); (None, Some 164, 2); (None, Some 164, 2); (None, Some 164, 2); (None, Some 169, 2); (None, Some 169, 2); (None, Some 169, 2); (None, Some 169, 2); (None, Some 170, 2); (None, Some 170, 2); (None, Some 170, 2); (None, Some 170, 2); (None, Some 173, 2); (None, Some 173, 2); (None, Some 173, 2); (None, Some 173, 2)];
  [(None, Some 165, 1); (None, Some 165, 1); (None, Some 166, 1); (None, Some 166, 1); (None, Some 168, 1); (None, Some 168, 1); (None, Some 174, 1); (None, Some 174, 1); (None, Some 175, 1); (None, Some 175, 1); (None, Some 180, 1); (None, Some 180, 1); (None, Some 182, 1); (None, Some 182, 1); (None, Some 183, 1); (None, Some 183, 1)];
  [(None, Some 167, 3); (None, Some 167, 3); (None, Some 167, 3); (None, Some 167, 3); (None, Some 167, 3); (None, Some 167, 3); (None, Some 167, 3); (None, Some 167, 3); (None, Some 172, 3); (None, Some 172, 3); (None, Some 172, 3); (None, Some 172, 3); (None, Some 172, 3); (None, Some 172, 3); (None, Some 172, 3); (None, Some 172, 3)];
  [(None, Some 176, 3); (None, Some 176, 3); (None, Some 176, 3); (None, Some 176, 3); (None, Some 176, 3); (None, Some 176, 3); (None, Some 176, 3); (None, Some 176, 3); (None, Some 177, 3); (None, Some 177, 3); (None, Some 177, 3); (None, Some 177, 3); (None, Some 177, 3); (None, Some 177, 3); (None, Some 177, 3); (None, Some 177, 3)];
  [(None, Some 178, 2); (None, Some 178, 2); (None, Some 178, 2); (None, Some 178, 2); (None, Some 181, 2); (None, Some 181, 2); (None, Some 181, 2); (None, Some 181, 2); (None, Some 185, 2); (None, Some 185, 2); (None, Some 185, 2); (None, Some 185, 2); (None, Some 186, 2); (None, Some 186, 2); (None, Some 186, 2); (None, Some 186, 2)];
  [(None, Some 179, 3); (None, Some 179, 3); (None, Some 179, 3); (None, Some 179, 3); (None, Some 179, 3); (None, Some 179, 3); (None, Some 179, 3); (None, Some 179, 3); (None, Some 209, 3); (None, Some 209, 3); (None, Some 209, 3); (None, Some 209, 3); (None, Some 209, 3); (None, Some 209, 3); (None, Some 209, 3); (None, Some 209, 3)];
  [(None, Some 187, 2); (None, Some 187, 2); (None, Some 187, 2); (None, Some 187, 2); (None, Some 189, 2); (None, Some 189, 2); (None, Some 189, 2); (None, Some 189, 2); (None, Some 190, 2); (None, Some 190, 2); (None, Some 190, 2); (None, Some 190, 2); (None, Some 196, 2); (None, Some 196, 2); (None, Some 196, 2); (None, Some 196, 2)];
  [(None, Some 192, 2); (None, Some 192, 2); (None, Some 192, 2); (None, Some 192, 2); (None, Some 193, 2); (None, Some 193, 2); (None, Some 193, 2); (None, Some 193, 2); (None, Some 200, 2); (None, Some 200, 2); (None, Some 200, 2); (None, Some 200, 2); (None, Some 201, 2); (None, Some 201, 2); (None, Some 201, 2); (None, Some 201, 2)];
  [(None, Some 198, 2); (None, Some 198, 2); (None, Some 198, 2); (None, Some 198, 2); (None, Some 228, 2); (None, Some 228, 2); (None, Some 228, 2); (None, Some 228, 2); (None, Some 232, 2); (None, Some 232, 2); (None, Some 232, 2); (None, Some 232, 2); (None, Some 233, 2); (None, Some 233, 2); (None, Some 233, 2); (None, Some 233, 2)];
  [(None, Some 199, 3); (None, Some 199, 3); (None, Some 199, 3); (None, Some 199, 3); (None, Some 199, 3); (None, Some 199, 3); (None, Some 199, 3); (None, Some 199, 3); (None, Some 207, 3); (None, Some 207, 3); (None, Some 207, 3); (None, Some 207, 3); (None, Some 207, 3); (None, Some 207, 3); (None, Some 207, 3); (None, Some 207, 3)];
  [(None, Some 202, 2); (None, Some 202, 2); (None, Some 202, 2); (None, Some 202, 2); (None, Some 205, 2); (None, Some 205, 2); (None, Some 205, 2); (None, Some 205, 2); (None, Some 210, 2); (None, Some 210, 2); (None, Some 210, 2); (None, Some 210, 2); (None, Some 213, 2); (None, Some 213, 2); (None, Some 213, 2); (None, Some 213, 2)];
  [(None, Some 242, 2); (None, Some 242, 2); (None, Some 242, 2); (None, Some 242, 2); (None, Some 243, 2); (None, Some 243, 2); (None, Some 243, 2); (None, Some 243, 2); (None, Some 255, 2); (None, Some 255, 2); (None, Some 255, 2); (None, Some 255, 2); (None, Some 203, 1); (None, Some 203, 1); (None, Some 204, 1); (None, Some 204, 1)];
  [(None, Some 211, 1); (None, Some 211, 1); (None, Some 212, 1); (None, Some 212, 1); (None, Some 214, 1); (None, Some 214, 1); (None, Some 221, 1); (None, Some 221, 1); (None, Some 222, 1); (None, Some 222, 1); (None, Some 223, 1); (None, Some 223, 1); (None, Some 241, 1); (None, Some 241, 1); (None, Some 244, 1); (None, Some 244, 1)];
  [(None, Some 216, 3); (None, Some 216, 3); (None, Some 216, 3); (None, Some 216, 3); (None, Some 216, 3); (None, Some 216, 3); (None, Some 216, 3); (None, Some 216, 3); (None, Some 217, 3); (None, Some 217, 3); (None, Some 217, 3); (None, Some 217, 3); (None, Some 217, 3); (None, Some 217, 3); (None, Some 217, 3); (None, Some 217, 3)];
  [(None, Some 218, 2); (None, Some 218, 2); (None, Some 218, 2); (None, Some 218, 2); (None, Some 219, 2); (None, Some 219, 2); (None, Some 219, 2); (None, Some 219, 2); (None, Some 238, 2); (None, Some 238, 2); (None, Some 238, 2); (None, Some 238, 2); (None, Some 240, 2); (None, Some 240, 2); (None, Some 240, 2); (None, Some 240, 2)];
  [(None, Some 227, 3); (None, Some 227, 3); (None, Some 227, 3); (None, Some 227, 3); (None, Some 227, 3); (None, Some 227, 3); (None, Some 227, 3); (None, Some 227, 3); (None, Some 229, 3); (None, Some 229, 3); (None, Some 229, 3); (None, Some 229, 3); (None, Some 229, 3); (None, Some 229, 3); (None, Some 229, 3); (None, Some 229, 3)];
  [(None, Some 234, 3); (None, Some 234, 3); (None, Some 234, 3); (None, Some 234, 3); (None, Some 234, 3); (None, Some 234, 3); (None, Some 234, 3); (None, Some 234, 3); (None, Some 235, 3); (None, Some 235, 3); (None, Some 235, 3); (None, Some 235, 3); (None, Some 235, 3); (None, Some 235, 3); (None, Some 235, 3); (None, Some 235, 3)];
  [(None, Some 245, 1); (None, Some 245, 1); (None, Some 246, 1); (None, Some 246, 1); (None, Some 247, 1); (None, Some 247, 1); (None, Some 248, 1); (None, Some 248, 1); (None, Some 250, 1); (None, Some 250, 1); (None, Some 251, 1); (None, Some 251, 1); (None, Some 252, 1); (None, Some 252, 1); (None, Some 253, 1); (None, Some 253, 1)]
].

(* huffman/src/decoder/table5.rs:3-2078, DECODE_TABLE. *)
Definition DECODE_TABLE5 : list (list cell) := [
  [(None, Some 48, 0); (None, Some 49, 0); (None, Some 50, 0); (None, Some 97, 0); (None, Some 99, 0); (None, Some 101, 0); (None, Some 105, 0); (None, Some 111, 0); (None, Some 115, 0); (None, Some 116, 0); (Some 11, None, 0); (Some 14, None, 0); (Some 15, None, 0); (Some 16, None, 0); (Some 17, None, 0); (Some 18, None, 0); (Some 20, None, 0); (Some 26, None, 0); (Some 27, None, 0); (Some 28, None, 0); (Some 30, None, 0); (Some 31, None, 0); (Some 32, None, 0); (Some 19, None, 0); (Some 21, None, 0); (Some 22, None, 0); (Some 23, None, 0); (Some 24, None, 0); (Some 25, None, 0); (Some 29, None, 0); (Some 33, None, 0); (Some 1, None, 0)];
  [(None, Some 38, 2); (None, Some 38, 2); (None, Some 38, 2); (None, Some 38, 2); (None, Some 42, 2); (None, Some 42, 2); (None, Some 42, 2); (None, Some 42, 2); (None, Some 44, 2); (None, Some 44, 2); (None, Some 44, 2); (None, Some 44, 2); (None, Some 59, 2); (None, Some 59, 2); (None, Some 59, 2); (None, Some 59, 2); (None, Some 88, 2); (None, Some 88, 2); (None, Some 88, 2); (None, Some 88, 2); (None, Some 90, 2); (None, Some 90, 2); (None, Some 90, 2); (None, Some 90, 2); (None, Some 33, 0); (None, Some 34, 0); (None, Some 40, 0); (None, Some 41, 0); (None, Some 63, 0); (Some 13, None, 0); (Some 12, None, 0); (Some 2, None, 0)];
  [(None, Some 0, 2); (None, Some 0, 2); (None, Some 0, 2); (None, Some 0, 2); (None, Some 36, 2); (None, Some 36, 2); (None, Some 36, 2); (None, Some 36, 2); (None, Some 64, 2); (None, Some 64, 2); (None, Some 64, 2); (None, Some 64, 2); (None, Some 91, 2); (None, Some 91, 2); (None, Some 91, 2); (None, Some 91, 2); (None, Some 93, 2); (None, Some 93, 2); (None, Some 93, 2); (None, Some 93, 2); (None, Some 126, 2); (None, Some 126, 2); (None, Some 126, 2); (None, Some 126, 2); (None, Some 94, 1); (None, Some 94, 1); (None, Some 125, 1); (None, Some 125, 1); (None, Some 60, 0); (None, Some 96, 0); (None, Some 123, 0); (Some 3, None, 0)];
  [(None, Some 92, 1); (None, Some 92, 1); (None, Some 195, 1); (None, Some 195, 1); (None, Some 208, 1); (None, Some 208, 1); (None, Some 128, 0); (None, Some 130, 0); (None, Some 131, 0); (None, Some 162, 0); (None, Some 184, 0); (None, Some 194, 0); (None, Some 224, 0); (None, Some 226, 0); (Some 37, None, 0); (Some 41, None, 0); (Some 42, None, 0); (Some 44, None, 0); (Some 53, None, 0); (Some 56, None, 0); (Some 34, None, 0); (Some 35, None, 0); (Some 38, None, 0); (Some 39, None, 0); (Some 43, None, 0); (Some 45, None, 0); (Some 47, None, 0); (Some 4, None, 0); (Some 36, None, 0); (Some 40, None, 0); (Some 8, None, 0); (Some 5, None, 0)];
  [(None, Some 1, 2); (None, Some 1, 2); (None, Some 1, 2); (None, Some 1, 2); (None, Some 135, 2); (None, Some 135, 2); (None, Some 135, 2); (None, Some 135, 2); (None, Some 137, 2); (None, Some 137, 2); (None, Some 137, 2); (None, Some 137, 2); (None, Some 138, 2); (None, Some 138, 2); (None, Some 138, 2); (None, Some 138, 2); (None, Some 139, 2); (None, Some 139, 2); (None, Some 139, 2); (None, Some 139, 2); (None, Some 140, 2); (None, Some 140, 2); (None, Some 140, 2); (None, Some 140, 2); (None, Some 141, 2); (None, Some 141, 2); (None, Some 141, 2); (None, Some 141, 2); (None, Some 143, 2); (None, Some 143, 2); (None, Some 143, 2); (None, Some 143, 2)];
  [(None, Some 171, 1); (None, Some 171, 1); (None, Some 206, 1); (None, Some 206, 1); (None, Some 215, 1); (None, Some 215, 1); (None, Some 225, 1); (None, Some 225, 1); (None, Some 236, 1); (None, Some 236, 1); (None, Some 237, 1); (None, Some 237, 1); (None, Some 199, 0); (None, Some 207, 0); (None, Some 234, 0); (None, Some 235, 0); (Some 46, None, 0); (Some 48, None, 0); (Some 49, None, 0); (Some 51, None, 0); (Some 54, None, 0); (Some 57, None, 0); (Some 58, None, 0); (Some 50, None, 0); (Some 52, None, 0); (Some 55, None, 0); (Some 59, None, 0); (Some 60, None, 0); (Some 6, None, 0); (Some 7, None, 0); (Some 10, None, 0); (Some 9, None, 0)];
  [(None, Some 254, 3); (None, Some 254, 3); (None, Some 254, 3); (None, Some 254, 3); (None, Some 254, 3); (None, Some 254, 3); (None, Some 254, 3); (None, Some 254, 3); (None, Some 2, 2); (None, Some 2, 2); (None, Some 2, 2); (None, Some 2, 2); (None, Some 3, 2); (None, Some 3, 2); (None, Some 3, 2); (None, Some 3, 2); (None, Some 4, 2); (None, Some 4, 2); (None, Some 4, 2); (None, Some 4, 2); (None, Some 5, 2); (None, Some 5, 2); (None, Some 5, 2); (None, Some 5, 2); (None, Some 6, 2); (None, Some 6, 2); (None, Some 6, 2); (None, Some 6, 2); (None, Some 7, 2); (None, Some 7, 2); (None, Some 7, 2); (None, Some 7, 2)];
  [(None, Some 8, 2); (None, Some 8, 2); (None, Some 8, 2); (None, Some 8, 2); (None, Some 11, 2); (None, Some 11, 2); (None, Some 11, 2); (None, Some 11, 2); (None, Some 12, 2); (None, Some 12, 2); (None, Some 12, 2); (None, Some 12, 2); (None, Some 14, 2); (None, Some 14, 2); (None, Some 14, 2); (None, Some 14, 2); (None, Some 15, 2); (None, Some 15, 2); (None, Some 15, 2); (None, Some 15, 2); (None, Some 16, 2); (None, Some 16, 2); (None, Some 16, 2); (None, Some 16, 2); (None, Some 17, 2); (None, Some 17, 2); (None, Some 17, 2); (None, Some 17, 2); (None, Some 18, 2); (None, Some 18, 2); (None, Some 18, 2); (None, Some 18, 2)];
  [(None, Some 188, 2); (None, Some 188, 2); (None, Some 188, 2); (None, Some 188, 2); (None, Some 191, 2); (None, Some 191, 2); (None, Some 191, 2); (None, Some 191, 2); (None, Some 197, 2); (None, Some 197, 2); (None, Some 197, 2); (None, Some 197, 2); (None, Some 231, 2); (None, Some 231, 2); (None, Some 231, 2); (None, Some 231, 2); (None, Some 239, 2); (None, Some 239, 2); (None, Some 239, 2); (None, Some 239, 2); (None, Some 9, 1); (None, Some 9, 1); (None, Some 142, 1); (None, Some 142, 1); (None, Some 144, 1); (None, Some 144, 1); (None, Some 145, 1); (None, Some 145, 1); (None, Some 148, 1); (None, Some 148, 1); (None, Some 159, 1); (None, Some 159, 1)];
  [(None, Some 28, 2); (None, Some 28, 2); (None, Some 28, 2); (None, Some 28, 2); (None, Some 29, 2); (None, Some 29, 2); (None, Some 29, 2); (None, Some 29, 2); (None, Some 30, 2); (None, Some 30, 2); (None, Some 30, 2); (None, Some 30, 2); (None, Some 31, 2); (None, Some 31, 2); (None, Some 31, 2); (None, Some 31, 2); (None, Some 127, 2); (None, Some 127, 2); (None, Some 127, 2); (None, Some 127, 2); (None, Some 220, 2); (None, Some 220, 2); (None, Some 220, 2); (None, Some 220, 2); (None, Some 249, 2); (None, Some 249, 2); (None, Some 249, 2); (None, Some 249, 2); (None, Some 10, 0); (None, Some 13, 0); (None, Some 22, 0); (None, Some 256, 0)];
  [(None, Some 19, 2); (None, Some 19, 2); (None, Some 19, 2); (None, Some 19, 2); (None, Some 20, 2); (None, Some 20, 2); (None, Some 20, 2); (None, Some 20, 2); (None, Some 21, 2); (None, Some 21, 2); (None, Some 21, 2); (None, Some 21, 2); (None, Some 23, 2); (None, Some 23, 2); (None, Some 23, 2); (None, Some 23, 2); (None, Some 24, 2); (None, Some 24, 2); (None, Some 24, 2); (None, Some 24, 2); (None, Some 25, 2); (None, Some 25, 2); (None, Some 25, 2); (None, Some 25, 2); (None, Some 26, 2); (None, Some 26, 2); (None, Some 26, 2); (None, Some 26, 2); (None, Some 27, 2); (None, Some 27, 2); (None, Some 27, 2); (None, Some 27, 2)];
  [(None, Some 32, 4); (None, Some 32, 4); (None, Some 32, 4); (None, Some 32, 4); (None, Some 32, 4); (None, Some 32, 4); (None, Some 32, 4); (None, Some 32, 4); (None, Some 32, 4); (None, Some 32, 4); (None, Some 32, 4); (None, Some 32, 4); (None, Some 32, 4); (None, Some 32, 4); (None, Some 32, 4); (None, Some 32, 4); (None, Some 37, 4); (None, Some 37, 4); (None, Some 37, 4); (None, Some 37, 4); (None, Some 37, 4); (None, Some 37, 4); (None, Some 37, 4); (None, Some 37, 4); (None, Some 37, 4); (None, Some 37, 4); (None, Some 37, 4); (None, Some 37, 4); (None, Some 37, 4); (None, Some 37, 4); (None, Some 37, 4); (None, Some 37, 4)];
  [(None, Some 124, 4); (None, Some 124, 4); (None, Some 124, 4); (None, Some 124, 4); (None, Some 124, 4); (None, Some 124, 4); (None, Some 124, 4); (None, Some 124, 4); (None, Some 124, 4); (None, Some 124, 4); (None, Some 124, 4); (None, Some 124, 4); (None, Some 124, 4); (None, Some 124, 4); (None, Some 124, 4); (None, Some 124, 4); (None, Some 35, 3); (None, Some 35, 3); (None, Some 35, 3); (None, Some 35, 3); (None, Some 35, 3); (None, Some 35, 3); (None, Some 35, 3); (None, Some 35, 3); (None, Some 62, 3); (None, Some 62, 3); (None, Some 62, 3); (None, Some 62, 3); (None, Some 62, 3); (None, Some 62, 3); (None, Some 62, 3); (None, Some 62, 3)];
  [(None, Some 39, 4); (None, Some 39, 4); (None, Some 39, 4); (None, Some 39, 4); (None, Some 39, 4); (None, Some 39, 4); (None, Some 39, 4); (None, Some 39, 4); (None, Some 39, 4); (None, Some 39, 4); (None, Some 39, 4); (None, Some 39, 4); (None, Some 39, 4); (None, Some 39, 4); (None, Some 39, 4); (None, Some 39, 4); (None, Some 43, 4); (None, Some 43, 4); (None, Some 43, 4); (None, Some 43, 4); (None, Some 43, 4); (None, Some 43, 4); (None, Some 43, 4); (None, Some 43, 4); (None, Some 43, 4); (None, Some 43, 4); (None, Some 43, 4); (None, Some 43, 4); (None, Some 43, 4); (None, Some 43, 4); (None, Some 43, 4); (None, Some 43, 4)];
  [(None, Some 45, 4); (None, Some 45, 4); (None, Some 45, 4); (None, Some 45, 4); (None, Some 45, 4); (None, Some 45, 4); (None, Some 45, 4); (None, Some 45, 4); (None, Some 45, 4); (None, Some 45, 4); (None, Some 45, 4); (None, Some 45, 4); (None, Some 45, 4); (None, Some 45, 4); (None, Some 45, 4); (None, Some 45, 4); (None, Some 46, 4); (None, Some 46, 4); (None, Some 46, 4); (None, Some 46, 4); (None, Some 46, 4); (None, Some 46, 4); (None, Some 46, 4); (None, Some 46, 4); (None, Some 46, 4); (None, Some 46, 4); (None, Some 46, 4); (None, Some 46, 4); (None, Some 46, 4); (None, Some 46, 4); (None, Some 46, 4); (None, Some 46, 4)];
  [(None, Some 47, 4); (None, Some 47, 4); (None, Some 47, 4); (None, Some 47, 4); (None, Some 47, 4); (None, Some 47, 4); (None, Some 47, 4); (None, Some 47, 4); (None, Some 47, 4); (None, Some 47, 4); (None, Some 47, 4); (None, Some 47, 4); (None, Some 47, 4); (None, Some 47, 4); (None, Some 47, 4); (None, Some 47, 4); (None, Some 51, 4); (None, Some 51, 4); (None, Some 51, 4); (None, Some 51, 4); (None, Some 51, 4); (None, Some 51, 4); (None, Some 51, 4); (None, Some 51, 4); (None, Some 51, 4); (None, Some 51, 4); (None, Some 51, 4); (None, Some 51, 4); (None, Some 51, 4); (None, Some 51, 4); (None, Some 51, 4); (None, Some 51, 4)];
  [(None, Some 52, 4); (None, Some 52, 4); (None, Some 52, 4); (None, Some 52, 4); (None, Some 52, 4); (None, Some 52, 4); (None, Some 52, 4); (None, Some 52, 4); (None, Some 52, 4); (None, Some 52, 4); (None, Some 52, 4); (None, Some 52, 4); (None, Some 52, 4); (None, Some 52, 4); (None, Some 52, 4); (None, Some 52, 4); (None, Some 53, 4); (None, Some 53, 4); (None, Some 53, 4); (None, Some 53, 4); (None, Some 53, 4); (None, Some 53, 4); (None, Some 53, 4); (None, Some 53, 4); (None, Some 53, 4); (None, Some 53, 4); (None, Some 53, 4); (None, Some 53, 4); (None, Some 53, 4); (None, Some 53, 4); (None, Some 53, 4); (None, Some 53, 4)];
  [(None, Some 54, 4); (None, Some 54, 4); (None, Some 54, 4); (None, Some 54, 4); (None, Some 54, 4); (None, Some 54, 4); (None, Some 54, 4); (None, Some 54, 4); (None, Some 54, 4); (None, Some 54, 4); (None, Some 54, 4); (None, Some 54, 4); (None, Some 54, 4); (None, Some 54, 4); (None, Some 54, 4); (None, Some 54, 4); (None, Some 55, 4); (None, Some 55, 4); (None, Some 55, 4); (None, Some 55, 4); (None, Some 55, 4); (None, Some 55, 4); (None, Some 55, 4); (None, Some 55, 4); (None, Some 55, 4); (None, Some 55, 4); (None, Some 55, 4); (None, Some 55, 4); (None, Some 55, 4); (None, Some 55, 4); (None, Some 55, 4); (None, Some 55, 4)];
  [(None, Some 56, 4); (None, Some 56, 4); (None, Some 56, 4); (None, Some 56, 4); (None, Some 56, 4); (None, Some 56, 4); (None, Some 56, 4); (None, Some 56, 4); (None, Some 56, 4); (None, Some 56, 4); (None, Some 56, 4); (None, Some 56, 4); (None, Some 56, 4); (None, Some 56, 4); (None, Some 56, 4); (None, Some 56, 4); (None, Some 57, 4); (None, Some 57, 4); (None, Some 57, 4); (None, Some 57, 4); (None, Some 57, 4); (None, Some 57, 4); (None, Some 57, 4); (None, Some 57, 4); (None, Some 57, 4); (None, Some 57, 4); (None, Some 57, 4); (None, Some 57, 4); (None, Some 57, 4); (None, Some 57, 4); (None, Some 57, 4); (None, Some 57, 4)];
  [(None, Some 58, 3); (None, Some 58, 3); (None, Some 58, 3); (None, Some 58, 3); (None, Some 58, 3); (None, Some 58, 3); (None, Some 58, 3); (None, Some 58, 3); (None, Some 66, 3); (None, Some 66, 3); (None, Some 66, 3); (None, Some 66, 3); (None, Some 66, 3); (None, Some 66, 3); (None, Some 66, 3); (None, Some 66, 3); (None, Some 67, 3); (None, Some 67, 3); (None, Some 67, 3); (None, Some 67, 3); (None, Some 67, 3); (None, Some 67, 3); (None, Some 67, 3); (None, Some 67, 3); (None, Some 68, 3); (None, Some 68, 3); (None, Some 68, 3); (None, Some 68, 3); (None, Some 68, 3); (None, Some 68, 3); (None, Some 68, 3); (None, Some 68, 3)];
  [(None, Some 61, 4); (None, Some 61, 4); (None, Some 61, 4); (None, Some 61, 4); (None, Some 61, 4); (None, Some 61, 4); (None, Some 61, 4); (None, Some 61, 4); (None, Some 61, 4); (None, Some 61, 4); (None, Some 61, 4); (None, Some 61, 4); (None, Some 61, 4); (None, Some 61, 4); (None, Some 61, 4); (None, Some 61, 4); (None, Some 65, 4); (None, Some 65, 4); (None, Some 65, 4); (None, Some 65, 4); (None, Some 65, 4); (None, Some 65, 4); (None, Some 65, 4); (None, Some 65, 4); (None, Some 65, 4); (None, Some 65, 4); (None, Some 65, 4); (None, Some 65, 4); (None, Some 65, 4); (None, Some 65, 4); (None, Some 65, 4); (None, Some 65, 4)];
  [(None, Some 69, 3); (None, Some 69, 3); (None, Some 69, 3); (None, Some 69, 3); (None, Some 69, 3); (None, Some 69, 3); (None, Some 69, 3); (None, Some 69, 3); (None, Some 70, 3); (None, Some 70, 3); (None, Some 70, 3); (None, Some 70, 3); (None, Some 70, 3); (None, Some 70, 3); (None, Some 70, 3); (None, Some 70, 3); (None, Some 71, 3); (None, Some 71, 3); (None, Some 71, 3); (None, Some 71, 3); (None, Some 71, 3); (None, Some 71, 3); (None, Some 71, 3); (None, Some 71, 3); (None, Some 72, 3); (None, Some 72, 3); (None, Some 72, 3); (None, Some 72, 3); (None, Some 72, 3); (None, Some 72, 3); (None, Some 72, 3); (None, Some 72, 3)];
  [(None, Some 73, 3); (None, Some 73, 3); (None, Some 73, 3); (None, Some 73, 3); (None, Some 73, 3); (None, Some 73, 3); (None, Some 73, 3); (None, Some 73, 3); (None, Some 74, 3); (None, Some 74, 3); (None, Some 74, 3); (None, Some 74, 3); (None, Some 74, 3); (None, Some 74, 3); (None, Some 74, 3); (None, Some 74, 3); (None, Some 75, 3); (None, Some 75, 3); (None, Some 75, 3); (None, Some 75, 3); (None, Some 75, 3); (None, Some 75, 3); (None, Some 75, 3); (None, Some 75, 3); (None, Some 76, 3); (None, Some 76, 3); (None, Some 76, 3); (None, Some 76, 3); (None, Some 76, 3); (None, Some 76, 3); (None, Some 76, 3); (None, Some 76, 3)];
  [(None, Some 77, 3); (None, Some 77, 3); (None, Some 77, 3); (None, Some 77, 3); (None, Some 77, 3); (None, Some 77, 3); (None, Some 77, 3); (None, Some 77, 3); (None, Some 78, 3); (None, Some 78, 3); (None, Some 78, 3); (None, Some 78, 3); (None, Some 78, 3); (None, Some 78, 3); (None, Some 78, 3); (None, Some 78, 3); (None, Some 79, 3); (None, Some 79, 3); (None, Some 79, 3); (None, Some 79, 3); (None, Some 79, 3); (None, Some 79, 3); (None, Some 79, 3); (None, Some 79, 3); (None, Some 80, 3); (None, Some 80, 3); (None, Some 80, 3); (None, Some 80, 3); (None, Some 80, 3); (None, Some 80, 3); (None, Some 80, 3); (None, Some 80, 3)];
  [(None, Some 81, 3); (None, Some 81, 3); (None, Some 81, 3); (None, Some 81, 3); (None, Some 81, 3); (None, Some 81, 3); (None, Some 81, 3); (None, Some 81, 3); (None, Some 82, 3); (None, Some 82, 3); (None, Some 82, 3); (None, Some 82, 3); (None, Some 82, 3); (None, Some 82, 3); (None, Some 82, 3); (None, Some 82, 3); (None, Some 83, 3); (None, Some 83, 3); (None, Some 83, 3); (None, Some 83, 3); (None, Some 83, 3); (None, Some 83, 3); (None, Some 83, 3); (None, Some 83, 3); (None, Some 84, 3); (None, Some 84, 3); (None, Some 84, 3); (None, Some 84, 3); (None, Some 84, 3); (None, Some 84, 3); (None, Some 84, 3); (None, Some 84, 3)];
  [(None, Some 85, 3); (None, Some 85, 3); (None, Some 85, 3); (None, Some 85, 3); (None, Some 85, 3); (None, Some 85, 3); (None, Some 85, 3); (None, Some 85, 3); (None, Some 86, 3); (None, Some 86, 3); (None, Some 86, 3); (None, Some 86, 3); (None, Some 86, 3); (None, Some 86, 3); (None, Some 86, 3); (None, Some 86, 3); (None, Some 87, 3); (None, Some 87, 3); (None, Some 87, 3); (None, Some 87, 3); (None, Some 87, 3); (None, Some 87, 3); (None, Some 87, 3); (None, Some 87, 3); (None, Some 89, 3); (None, Some 89, 3); (None, Some 89, 3); (None, Some 89, 3); (None, Some 89, 3); (None, Some 89, 3); (None, Some 89, 3); (None, Some 89, 3)];
  [(None, Some 95, 4); (None, Some 95, 4); (None, Some 95, 4); (None, Some 95, 4); (None, Some 95, 4); (None, Some 95, 4); (None, Some 95, 4); (None, Some 95, 4); (None, Some 95, 4); (None, Some 95, 4); (None, Some 95, 4); (None, Some 95, 4); (None, Some 95, 4); (None, Some 95, 4); (None, Some 95, 4); (None, Some 95, 4); (None, Some 98, 4); (None, Some 98, 4); (None, Some 98, 4); (None, Some 98, 4); (None, Some 98, 4); (None, Some 98, 4); (None, Some 98, 4); (None, Some 98, 4); (None, Some 98, 4); (None, Some 98, 4); (None, Some 98, 4); (None, Some 98, 4); (None, Some 98, 4); (None, Some 98, 4); (None, Some 98, 4); (None, Some 98, 4)];
  [(None, Some 100, 4); (None, Some 100, 4); (None, Some 100, 4); (None, Some 100, 4); (None, Some 100, 4); (None, Some 100, 4); (None, Some 100, 4); (None, Some 100, 4); (None, Some 100, 4); (None, Some 100, 4); (None, Some 100, 4); (None, Some 100, 4); (None, Some 100, 4); (None, Some 100, 4); (None, Some 100, 4); (None, Some 100, 4); (None, Some 102, 4); (None, Some 102, 4); (None, Some 102, 4); (None, Some 102, 4); (None, Some 102, 4); (None, Some 102, 4); (None, Some 102, 4); (None, Some 102, 4); (None, Some 102, 4); (None, Some 102, 4); (None, Some 102, 4); (None, Some 102, 4); (None, Some 102, 4); (None, Some 102, 4); (None, Some 102, 4); (None, Some 102, 4)];
  [(None, Some 103, 4); (None, Some 103, 4); (None, Some 103, 4); (None, Some 103, 4); (None, Some 103, 4); (None, Some 103, 4); (None, Some 103, 4); (None, Some 103, 4); (None, Some 103, 4); (None, Some 103, 4); (None, Some 103, 4); (None, Some 103, 4); (None, Some 103, 4); (None, Some 103, 4); (None, Some 103, 4); (None, Some 103, 4); (None, Some 104, 4); (None, Some 104, 4); (None, Some 104, 4); (None, Some 104, 4); (None, Some 104, 4); (None, Some 104, 4); (None, Some 104, 4); (None, Some 104, 4); (None, Some 104, 4); (None, Some 104, 4); (None, Some 104, 4); (None, Some 104, 4); (None, Some 104, 4); (None, Some 104, 4); (None, Some 104, 4); (None, Some 104, 4)];
  [(None, Some 106, 3); (None, Some 106, 3); (None, Some 106, 3); (None, Some 106, 3); (None, Some 106, 3); (None, Some 106, 3); (None, Some 106, 3); (None, Some 106, 3); (None, Some 107, 3); (None, Some 107, 3); (None, Some 107, 3); (None, Some 107, 3); (None, Some 107, 3); (None, Some 107, 3); (None, Some 107, 3); (None, Some 107, 3); (None, Some 113, 3); (None, Some 113, 3); (None, Some 113, 3); (None, Some 113, 3); (None, Some 113, 3); (None, Some 113, 3); (None, Some 113, 3); (None, Some 113, 3); (None, Some 118, 3); (None, Some 118, 3); (None, Some 118, 3); (None, Some 118, 3); (None, Some 118, 3); (None, Some 118, 3); (None, Some 118, 3); (None, Some 118, 3)];
  [(None, Some 108, 4); (None, Some 108, 4); (None, Some 108, 4); (None, Some 108, 4); (None, Some 108, 4); (None, Some 108, 4); (None, Some 108, 4); (None, Some 108, 4); (None, Some 108, 4); (None, Some 108, 4); (None, Some 108, 4); (None, Some 108, 4); (None, Some 108, 4); (None, Some 108, 4); (None, Some 108, 4); (None, Some 108, 4); (None, Some 109, 4); (None, Some 109, 4); (None, Some 109, 4); (None, Some 109, 4); (None, Some 109, 4); (None, Some 109, 4); (None, Some 109, 4); (None, Some 109, 4); (None, Some 109, 4); (None, Some 109, 4); (None, Some 109, 4); (None, Some 109, 4); (None, Some 109, 4); (None, Some 109, 4); (None, Some 109, 4); (None, Some 109, 4)];
  [(None, Some 110, 4); (None, Some 110, 4); (None, Some 110, 4); (None, Some 110, 4); (None, Some 110, 4); (None, Some 110, 4); (None, Some 110, 4); (None, Some 110, 4); (None, Some 110, 4); (None, Some 110, 4); (None, Some 110, 4); (None, Some 110, 4); (None, Some 110, 4); (None, Some 110, 4); (None, Some 110, 4); (None, Some 110, 4); (None, Some 112, 4); (None, Some 112, 4); (None, Some 112, 4); (None, Some 112, 4); (None, Some 112, 4); (None, Some 112, 4); (None, Some 112, 4); (None, Some 112, 4); (None, Some 112, 4); (None, Some 112, 4); (None, Some 112, 4); (None, Some 112, 4); (None, Some 112, 4); (None, Some 112, 4); (None, Some 112, 4); (None, Some 112, 4)];
  [(None, Some 114, 4); (None, Some 114, 4); (None, Some 114, 4); (None, Some 114, 4); (None, Some 114, 4); (None, Some 114, 4); (None, Some 114, 4); (None, Some 114, 4); (None, Some 114, 4); (None, Some 114, 4); (None, Some 114, 4); (None, Some 114, 4); (None, Some 114, 4); (None, Some 114, 4); (None, Some 114, 4); (None, Some 114, 4); (None, Some 117, 4); (None, Some 117, 4); (None, Some 117, 4); (None, Some 117, 4); (None, Some 117, 4); (None, Some 117, 4); (None, Some 117, 4); (None, Some 117, 4); (None, Some 117, 4); (None, Some 117, 4); (None, Some 117, 4); (None, Some 117, 4); (None, Some 117, 4); (None, Some 117, 4); (None, Some 117, 4); (None, Some 117, 4)];
  [(None, Some 119, 3); (None, Some 119, 3); (None, Some 119, 3); (None, Some 119, 3); (None, Some 119, 3); (None, Some 119, 3); (None, Some 119, 3); (None, Some 119, 3); (None, Some 120, 3); (None, Some 120, 3); (None, Some 120, 3); (None, Some 120, 3); (None, Some 120, 3); (None, Some 120, 3); (None, Some 120, 3); (None, Some 120, 3); (None, Some 121, 3); (None, Some 121, 3); (None, Some 121, 3); (None, Some 121, 3); (None, Some 121, 3); (None, Some 121, 3); (None, Some 121, 3); (None, Some 121, 3); (None, Some 122, 3); (None, Some 122, 3); (None, Some 122, 3); (None, Some 122, 3); (None, Some 122, 3); (None, Some 122, 3); (None, Some 122, 3); (None, Some 122, 3)];
  [(None, Some 230, 4); (None, Some 230, 4); (None, Some 230, 4); (None, Some 230, 4); (None, Some 230, 4); (None, Some 230, 4); (None, Some 230, 4); (None, Some 230, 4); (None, Some 230, 4); (None, Some 230, 4); (None, Some 230, 4); (None, Some 230, 4); (None, Some 230, 4); (None, Some 230, 4); (None, Some 230, 4); (None, Some 230, 4); (None, Some 129, 3); (None, Some 129, 3); (None, Some 129, 3); (None, Some 129, 3); (None, Some 129, 3); (None, Some 129, 3); (None, Some 129, 3); (None, Some 129, 3); (None, Some 132, 3); (None, Some 132, 3); (None, Some 132, 3); (None, Some 132, 3); (None, Some 132, 3); (None, Some 132, 3); (None, Some 132, 3); (None, Some 132, 3)];
  [(None, Some 133, 3); (None, Some 133, 3); (None, Some 133, 3); (None, Some 133, 3); (None, Some 133, 3); (None, Some 133, 3); (None, Some 133, 3); (None, Some 133, 3); (None, Some 134, 3); (None, Some 134, 3); (None, Some 134, 3); (None, Some 134, 3); (None, Some 134, 3); (None, Some 134, 3); (None, Some 134, 3); (None, Some 134, 3); (None, Some 136, 3); (None, Some 136, 3); (None, Some 136, 3); (None, Some 136, 3); (None, Some 136, 3); (None, Some 136, 3); (None, Some 136, 3); (None, Some 136, 3); (None, Some 146, 3); (None, Some 146, 3); (None, Some 146, 3); (None, Some 146, 3); (None, Some 146, 3); (None, Some 146, 3); (None, Some 146, 3); (None, Some 146, 3)];
  [(None, Some 147, 2); (None, Some 147, 2); (None, Some 147, 2); (None, Some 147, 2); (None, Some 149, 2); (None, Some 149, 2); (None, Some 149, 2); (None, Some 149, 2); (None, Some 150, 2); (None, Some 150, 2); (None, Some 150, 2); (None, Some 150, 2); (None, Some 151, 2); (None, Some 151, 2); (None, Some 151, 2); (None, Some 151, 2); (None, Some 152, 2); (None, Some 152, 2); (None, Some 152, 2); (None, Some 152, 2); (None, Some 155, 2); (None, Some 155, 2); (None, Some 155, 2); (None, Some 155, 2); (None, Some 157, 2); (None, Some 157, 2); (None, Some 157, 2); (None, Some 157, 2); (None, Some 158, 2); (None, Some 158, 2); (None, Some 158, 2); (None, Some 158, 2)];
  [(None, Some 153, 4); (None, Some 153, 4); (None, Some 153, 4); (None, Some 153, 4); (None, Some 153, 4); (None, Some 153, 4); (None, Some 153, 4); (None, Some 153, 4); (None, Some 153, 4); (None, Some 153, 4); (None, Some 153, 4); (None, Some 153, 4); (None, Some 153, 4); (None, Some 153, 4); (None, Some 153, 4); (None, Some 153, 4); (None, Some 161, 4); (None, Some 161, 4); (None, Some 161, 4); (None, Some 161, 4); (None, Some 161, 4); (None, Some 161, 4); (None, Some 161, 4); (None, Some 161, 4); (None, Some 161, 4); (None, Some 161, 4); (None, Some 161, 4); (None, Some 161, 4); (None, Some 161, 4); (None, Some 161, 4); (None, Some 161, 4); (None, Some 161, 4)];
  [(None, Some 154, 3); (None, Some 154, 3); (None, Some 154, 3); (None, Some 154, 3); (None, Some 154, 3); (None, Some 154, 3); (None, Some 154, 3); (None, Some 154, 3); (None, Some 156, 3); (None, Some 156, 3); (None, Some 156, 3); (None, Some 156, 3); (None, Some 156, 3); (None, Some 156, 3); (None, Some 156, 3); (None, Some 156, 3); (None, Some 160, 3); (None, Some 160, 3); (None, Some 160, 3); (None, Some 160, 3); (None, Some 160, 3); (None, Some 160, 3); (None, Some 160, 3); (None, Some 160, 3); (None, Some 163, 3); (None, Some 163, 3); (None, Some 163, 3); (None, Some 163, 3); (None, Some 163, 3); (None, Some 163, 3); (None, Some 163, 3); (None, Some 163, 3)];
  [(None, Some 164, 3); (None, Some 164, 3); (None, Some 164, 3); (None, Some 164, 3); (None, Some 164, 3); (None, Some 164, 3); (None, Some 164, 3); (None, Some 164, 3); (None, Some 169, 3); (None, Some 169, 3); (None, Some 169, 3); (None, Some 169, 3); (None, Some 169, 3); (None, Some 169, 3); (None, Some 169, 3); (None, Some 169, 3); (None, Some 170, 3); (None, Some 170, 3); (None, Some 170, 3); (None, Some 170, 3); (None, Some 170, 3); (None, Some 170, 3); (None, Some 170, 3); (None, Some 170, 3); (None, Some 173, 3); (None, Some 173, 3); (None, Some 173, 3); (None, Some 173, 3); (None, Some 173, 3); (None, Some 173, 3); (None, Some 173, 3); (None, Some 173, 3)];
  [(None, Some 165, 2); (None, Some 165, 2); (None, Some 165, 2); (None, Some 165, 2); (None, Some 166, 2); (None, Some 166, 2); (None, Some 166, 2); (None, Some 166, 2); (None, Some 168, 2); (None, Some 168, 2); (None, Some 168, 2); (None, Some 168, 2); (None, Some 174, 2); (None, Some 174, 2); (None, Some 174, 2); (None, Some 174, 2); (None, Some 175, 2); (None, Some 175, 2); (None, Some 175, 2); (None, Some 175, 2); (None, Some 180, 2); (None, Some 180, 2); (None, Some 180, 2); (None, Some 180, 2); (None, Some 182, 2); (None, Some 182, 2); (None, Some 182, 2); (None, Some 182, 2); (None, Some 183, 2); (None, Some 183, 2); (None, Some 183, 2); (None, Some 183, 2)];
  [(None, Some 167, 4); (None, Some 167, 4); (None, Some 167, 4); (None, Some 167, 4); (None, Some 167, 4); (None, Some 167, 4); (None, Some 167, 4); (None, Some 167, 4); (None, Some 167, 4); (None, Some 167, 4); (None, Some 167, 4); (None, Some 167, 4); (None, Some 167, 4); (None, Some 167, 4); (None, Some 167, 4); (None, Some 167, 4); (None, Some 172, 4); (None, Some 172, 4); (None, Some 172, 4); (None, Some 172, 4); (None, Some 172, 4); (None, Some 172, 4); (None, Some 172, 4); (None, Some 172, 4); (None, Some 172, 4); (None, Some 172, 4); (None, Some 172, 4); (None, Some 172, 4); (None, Some 172, 4); (None, Some 172, 4); (None, Some 172, 4); (None, Some 172, 4)];
  [(None, Some 176, 4); (None, Some 176, 4); (None, Some 176, 4); (None, Some 176, 4); (None, Some 176, 4); (None, Some 176, 4); (None, Some 176, 4); (None, Some 176, 4); (None, Some 176, 4); (None, Some 176, 4); (None, Some 176, 4); (None, Some 176, 4); (None, Some 176, 4); (None, Some 176, 4); (None, Some 176, 4); (None, Some 176, 4); (None, Some 177, 4); (None, Some 177, 4); (None, Some 177, 4); (None, Some 177, 4); (None, Some 177, 4); (None, Some 177, 4); (None, Some 177, 4); (None, Some 177, 4); (None, Some 177, 4); (None, Some 177, 4); (None, Some 177, 4); (None, Some 177, 4); (None, Some 177, 4); (None, Some 177, 4); (None, Some 177, 4); (None, Some 177, 4)];
  [(None, Some 178, 3); (None, Some 178, 3); (None, Some 178, 3); (None, Some 178, 3); (None, Some 178, 3); (None, Some 178, 3); (None, Some 178, 3); (None, Some 178, 3); (None, Some 181, 3); (None, Some 181, 3); (None, Some 181, 3); (None, Some 181, 3); (None, Some 181, 3); (None, Some 181, 3); (None, Some 181, 3); (None, Some 181, 3); (None, Some 185, 3); (None, Some 185, 3); (None, Some 185, 3); (None, Some 185, 3); (None, Some 185, 3); (None, Some 185, 3); (None, Some 185, 3); (None, Some 185, 3); (None, Some 186, 3); (None, Some 186, 3); (None, Some 186, 3); (None, Some 186, 3); (None, Some 186, 3); (None, Some 186, 3); (None, Some 186, 3); (None, Some 186, 3)];
  [(None, Some 179, 4); (None, Some 179, 4); (None, Some 179, 4); (None, Some 179, 4); (None, Some 179, 4); (None, Some 179, 4); (None, Some 179, 4); (None, Some 179, 4); (None, Some 179, 4); (None, Some 179, 4); (None, Some 179, 4); (None, Some 179, 4); (None, Some 179, 4); (None, Some 179, 4); (None, Some 179, 4); (None, Some 179, 4); (None, Some 209, 4); (None, Some 209, 4); (None, Some 209, 4); (None, Some 209, 4); (None, Some 209, 4); (None, Some 209, 4); (None, Some 209, 4); (None, Some 209, 4); (None, Some 209, 4); (None, Some 209, 4); (None, Some 209, 4); (None, Some 209, 4); (None, Some 209, 4); (None, Some 209, 4); (None, Some 209, 4); (None, Some 209, 4)];
  [(None, Some 187, 3); (None, Some 187, 3); (None, Some 187, 3); (None, Some 187, 3); (None, Some 187, 3); (None, Some 187, 3); (None, Some 187, 3); (None, Some 187, 3); (None, Some 189, 3); (None, Some 189, 3); (None, Some 189, 3); (None, Some 189, 3); (None, Some 189, 3); (None, Some 189, 3); (None, Some 189, 3); (None, Some 189, 3); (None, Some 190, 3); (None, Some 190, 3); (None, Some 190, 3); (None, Some 190, 3); (None, Some 190, 3); (None, Some 190, 3); (None, Some 190, 3); (None, Some 190, 3); (None, Some 196, 3); (None, Some 196, 3); (None, Some 196, 3); (None, Some 196, 3); (None, Some 196, 3); (None, Some 196, 3); (None, Some 196, 3); (None, Some 196, 3)];
  [(None, Some 192, 4); (None, Some 192, 4); (None, Some 192, 4); (None, Some 192, 4); (None, Some 192, 4); (None, Some 192, 4); (None, Some 192, 4); (None, Some 192, 4); (None, Some 192, 4); (None, Some 192, 4); (None, Some 192, 4); (None, Some 192, 4); (None, Some 192, 4); (None, Some 192, 4); (None, Some 192, 4); (None, Some 192, 4); (None, Some 193, 4); (None, Some 193, 4); (None, Some 193, 4); (None, Some 193, 4); (None, Some 193, 4); (None, Some 193, 4); (None, Some 193, 4); (None, Some 193, 4); (None, Some 193, 4); (None, Some 193, 4); (None, Some 193, 4); (None, Some 193, 4); (None, Some 193, 4); (None, Some 193, 4); (None, Some 193, 4); (None, Some 193, 4)];
  [(None, Some 198, 3); (None, Some 198, 3); (None, Some 198, 3); (None, Some 198, 3); (None, Some 198, 3); (None, Some 198, 3); (None, Some 198, 3); (None, Some 198, 3); (None, Some 228, 3); (None, Some 228, 3); (None, Some 228, 3); (None, Some 228, 3); (None, Some 228, 3); (None, Some 228, 3); (None, Some 228, 3); (None, Some 228, 3); (None, Some 232, 3); (None, Some 232, 3); (None, Some 232, 3); (None, Some 232, 3); (None, Some 232, 3); (None, Some 232, 3); (None, Some 232, 3); (None, Some 232, 3); (None, Some 233, 3); (None, Some 233, 3); (None, Some 233, 3); (None, Some 233, 3); (None, Some 233, 3); (None, Some 233, 3); (None, Some 233, 3); (None, Some 233, 3)];
  [(None, Some 200, 4); (None, Some 200, 4); (None, Some 200, 4); (None, Some 200, 4); (None, Some 200, 4); (None, Some 200, 4); (None, Some 200, 4); (None, Some 200, 4); (None, Some 200, 4); (None, Some 200, 4); (None, Some 200, 4); (None, Some 200, 4); (None, Some 200, 4); (None, Some 200, 4); (None, Some 200, 4); (None, Some 200, 4); (None, Some 201, 4); (None, Some 201, 4); (None, Some 201, 4); (None, Some 201, 4); (None, Some 201, 4); (None, Some 201, 4); (None, Some 201, 4); (None, Some 201, 4); (None, Some 201, 4); (None, Some 201, 4); (None, Some 201, 4); (None, Some 201, 4); (None, Some 201, 4); (None, Some 201, 4); (None, Some 201, 4); (None, Some 201, 4)];
  [(None, Some 202, 4); (None, Some 202, 4); (None, Some 202, 4); (None, Some 202, 4); (None, Some 202, 4); (None, Some 202, 4); (None, Some 202, 4); (None, Some 202, 4); (None, Some 202, 4); (None, Some 202, 4); (None, Some 202, 4); (None, Some 202, 4); (None, Some 202, 4); (None, Some 202, 4); (None, Some 202, 4); (None, Some 202, 4); (None, Some 205, 4); (None, Some 205, 4); (None, Some 205, 4); (None, Some 205, 4); (None, Some 205, 4); (None, Some 205, 4); (None, Some 205, 4); (None, Some 205, 4); (None, Some 205, 4); (None, Some 205, 4); (None, Some 205, 4); (None, Some 205, 4); (None, Some 205, 4); (None, Some 205, 4); (None, Some 205, 4); (None, Some 205, 4)];
  [(None, Some 255, 4); (None, Some 255, 4); (None, Some 255, 4); (None, Some 255, 4); (None, Some 255, 4); (None, Some 255, 4); (None, Some 255, 4); (None, Some 255, 4); (None, Some 255, 4); (None, Some 255, 4); (None, Some 255, 4); (None, Some 255, 4); (None, Some 255, 4); (None, Some 255, 4); (None, Some 255, 4); (None, Some 255, 4); (None, Some 203, 3); (None, Some 203, 3); (None, Some 203, 3); (None, Some 203, 3); (None, Some 203, 3); (None, Some 203, 3); (None, Some 203, 3); (None, Some 203, 3); (None, Some 204, 3); (None, Some 204, 3); (None, Some 204, 3); (None, Some 204, 3); (None, Some 204, 3); (None, Some 204, 3); (None, Some 204, 3); (None, Some 204, 3)];
  [(None, Some 210, 4); (None, Some 210, 4); (None, Some 210, 4); (None, Some 210, 4); (None, Some 210, 4); (None, Some 210, 4); (None, Some 210, 4); (None, Some 210, 4); (None, Some 210, 4); (None, Some 210, 4); (None, Some 210, 4); (None, Some 210, 4); (None, Some 210, 4); (None, Some 210, 4); (None, Some 210, 4); (None, Some 210, 4); (None, Some 213, 4); (None, Some 213, 4); (None, Some 213, 4); (None, Some 213, 4); (None, Some 213, 4); (None, Some 213, 4); (None, Some 213, 4); (None, Some 213, 4); (None, Some 213, 4); (None, Some 213, 4); (None, Some 213, 4); (None, Some 213, 4); (None, Some 213, 4); (None, Some 213, 4); (None, Some 213, 4); (None, Some 213, 4)];
  [(None, Some 211, 3); (None, Some 211, 3); (None, Some 211, 3); (None, Some 211, 3); (None, Some 211, 3); (None, Some 211, 3); (None, Some 211, 3); (None, Some 211, 3); (None, Some 212, 3); (None, Some 212, 3); (None, Some 212, 3); (None, Some 212, 3); (None, Some 212, 3); (None, Some 212, 3); (None, Some 212, 3); (None, Some 212, 3); (None, Some 214, 3); (None, Some 214, 3); (None, Some 214, 3); (None, Some 214, 3); (None, Some 214, 3); (None, Some 214, 3); (None, Some 214, 3); (None, Some 214, 3); (None, Some 221, 3); (None, Some 221, 3); (None, Some 221, 3); (None, Some 221, 3); (None, Some 221, 3); (None, Some 221, 3); (None, Some 221, 3); (None, Some 221, 3)];
  [(None, Some 216, 4); (None, Some 216, 4); (None, Some 216, 4); (None, Some 216, 4); (None, Some 216, 4); (None, Some 216, 4); (None, Some 216, 4); (None, Some 216, 4); (None, Some 216, 4); (None, Some 216, 4); (None, Some 216, 4); (None, Some 216, 4); (None, Some 216, 4); (None, Some 216, 4); (None, Some 216, 4); (None, Some 216, 4); (None, Some 217, 4); (None, Some 217, 4); (None, Some 217, 4); (None, Some 217, 4); (None, Some 217, 4); (None, Some 217, 4); (None, Some 217, 4); (None, Some 217, 4); (None, Some 217, 4); (None, Some 217, 4); (None, Some 217, 4); (None, Some 217, 4); (None, Some 217, 4); (None, Some 217, 4); (None, Some 217, 4); (None, Some 217, 4)];
  [(None, Some 218, 4); (None, Some 218, 4); (None, Some 218, 4); (None, Some 218, 4); (None, Some 218, 4); (None, Some 218, 4); (None, Some 218, 4); (None, Some 218, 4); (None, Some 218, 4); (None, Some 218, 4); (None, Some 218, 4); (None, Some 218, 4); (None, Some 218, 4); (None, Some 218, 4); (None, Some 218, 4); (None, Some 218, 4); (None, Some 219, 4); (None, Some 219, 4); (None, Some 219, 4); (None, Some 219, 4); (None, Some 219, 4); (None, Some 219, 4); (None, Some 219, 4); (None, Some 219, 4); (None, Some 219, 4); (None, Some 219, 4); (None, Some 219, 4); (None, Some 219, 4); (None, Some 219, 4); (None, Some 219, 4); (None, Some 219, 4); (None, Some 219, 4)];
  [(None, Some 222, 3); (None, Some 222, 3); (None, Some 222, 3); (None, Some 222, 3); (None, Some 222, 3); (None, Some 222, 3); (None, Some 222, 3); (None, Some 222, 3); (None, Some 223, 3); (None, Some 223, 3); (None, Some 223, 3); (None, Some 223, 3); (None, Some 223, 3); (None, Some 223, 3); (None, Some 223, 3); (None, Some 223, 3); (None, Some 241, 3); (None, Some 241, 3); (None, Some 241, 3); (None, Some 241, 3); (None, Some 241, 3); (None, Some 241, 3); (None, Some 241, 3); (None, Some 241, 3); (None, Some 244, 3); (None, Some 244, 3); (None, Some 244, 3); (None, Some 244, 3); (None, Some 244, 3); (None, Some 244, 3); (None, Some 244, 3); (None, Some 244, 3)];
  [(None, Some 227, 4); (None, Some 227, 4); (None, Some 227, 4); (None, Some 227, 4); (None, Some 227, 4); (None, Some 227, 4); (None, Some 227, 4); (None, Some 227, 4); (None, Some 227, 4); (None, Some 227, 4); (None, Some 227, 4); (None, Some 227, 4); (None, Some 227, 4); (None, Some 227, 4); (None, Some 227, 4); (None, Some 227, 4); (None, Some 229, 4); (None, Some 229, 4); (None, Some 229, 4); (None, Some 229, 4); (None, Some 229, 4); (None, Some 229, 4); (None, Some 229, 4); (None, Some 229, 4); (None, Some 229, 4); (None, Some 229, 4); (None, Some 229, 4); (None, Some 229, 4); (None, Some 229, 4); (None, Some 229, 4); (None, Some 229, 4); (None, Some 229, 4)];
  [(None, Some 238, 4); (None, Some 238, 4); (None, Some 238, 4); (None, Some 238, 4); (None, Some 238, 4); (None, Some 238, 4); (None, Some 238, 4); (None, Some 238, 4); (None, Some 238, 4); (None, Some 238, 4); (None, Some 238, 4); (None, Some 238, 4); (None, Some 238, 4); (None, Some 238, 4); (None, Some 238, 4); (None, Some 238, 4); (None, Some 240, 4); (None, Some 240, 4); (None, Some 240, 4); (None, Some 240, 4); (None, Some 240, 4); (None, Some 240, 4); (None, Some 240, 4); (None, Some 240, 4); (None, Some 240, 4); (None, Some 240, 4); (None, Some 240, 4); (None, Some 240, 4); (None, Some 240, 4); (None, Some 240, 4); (None, Some 240, 4); (None, Some 240, 4)];
  [(None, Some 242, 4); (None, Some 242, 4); (None, Some 242, 4); (None, Some 242, 4); (None, Some 242, 4); (None, Some 242, 4); (None, Some 242, 4); (None, Some 242, 4); (None, Some 242, 4); (None, Some 242, 4); (None, Some 242, 4); (None, Some 242, 4); (None, Some 242, 4); (None, Some 242, 4); (None, Some 242, 4); (None, Some 242, 4); (None, Some 243, 4); (None, Some 243, 4); (None, Some 243, 4); (None, Some 243, 4); (None, Some 243, 4); (None, Some 243, 4); (None, Some 243, 4); (None, Some 243, 4); (None, Some 243, 4); (None, Some 243, 4); (None, Some 243, 4); (None, Some 243, 4); (None, Some 243, 4); (None, Some 243, 4); (None, Some 243, 4); (None, Some 243, 4)];
  [(None, Some 245, 3); (None, Some 245, 3); (None, Some 245, 3); (None, Some 245, 3); (None, Some 245, 3); (None, Some 245, 3); (None, Some 245, 3); (None, Some 245, 3); (None, Some 246, 3); (None, Some 246, 3); (None, Some 246, 3); (None, Some 246, 3); (None, Some 246, 3); (None, Some 246, 3); (None, Some 246, 3); (None, Some 246, 3); (None, Some 247, 3); (None, Some 247, 3); (None, Some 247, 3); (None, Some 247, 3); (None, Some 247, 3); (None, Some 247, 3); (None, Some 247, 3); (None, Some 247, 3); (None, Some 248, 3); (None, Some 248, 3); (None, Some 248, 3); (None, Some 248, 3); (None, Some 248, 3); (None, Some 248, 3); (None, Some 248, 3); (None, Some 248, 3)];
  [(None, Some 250, 3); (None, Some 250, 3); (None, Some 250, 3); (None, Some 250, 3); (None, Some 250, 3); (None, Some 250, 3); (None, Some 250, 3); (None, Some 250, 3); (None, Some 251, 3); (None, Some 251, 3); (None, Some 251, 3); (None, Some 251, 3); (None, Some 251, 3); (None, Some 251, 3); (None, Some 251, 3); (None, Some 251, 3); (None, Some 252, 3); (None, Some 252, 3); (None, Some 252, 3); (None, Some 252, 3); (None, Some 252, 3); (None, Some 252, 3); (None, Some 252, 3); (None, Some 252, 3); (None, Some 253, 3); (None, Some 253, 3); (None, Some 253, 3); (None, Some 253, 3); (None, Some 253, 3); (None, Some 253, 3); (None, Some 253, 3); (None, Some 253, 3)]
].

