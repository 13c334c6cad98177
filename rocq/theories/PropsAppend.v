(* Property theorem C93: the functions that take a destination vector only append to it, and
   what they append, the rest of their state and their result do not depend on it. *)
From Verif Require Import Base HuffTables HuffModel HpackStatic HpackModel ProtosModel ProtosApi Appends.
Open Scope list_scope.
Open Scope N_scope.

(* Every statement compares the call with the same call on an empty vector; nothing is
   assumed about states, octets or the outcome, which may be an error or a panic. *)
Theorem C93_huffman_encode : forall m src dst,
  encode m src dst = let (new, o) := encode m src [] in (dst ++ new, o).
Proof. intros. rewrite (encode_appends m src dst). destruct (encode m src []) as [h o]. reflexivity. Qed.
Print Assumptions C93_huffman_encode.

Theorem C93_huffman_decode : forall w m s src dst,
  decode_on w m s src dst = let (new, o) := decode_on w m s src [] in (dst ++ new, o).
Proof. intros. rewrite (decode_on_appends w m s src dst). destruct (decode_on w m s src []) as [h o]. reflexivity. Qed.
Print Assumptions C93_huffman_decode.

Theorem C93_hpack_encode : forall m t field dst,
  hencode m t field dst = let '((t', new), o) := hencode m t field [] in ((t', dst ++ new), o).
Proof. intros. rewrite (hencode_appends m t field dst). destruct (hencode m t field []) as [[t' h] o]. reflexivity. Qed.
Print Assumptions C93_hpack_encode.

Theorem C93_hpack_update : forall m t size dst,
  encoder_update_max m t size dst = let '((t', new), o) := encoder_update_max m t size [] in ((t', dst ++ new), o).
Proof. intros. rewrite (encoder_update_appends m t size dst). destruct (encoder_update_max m t size []) as [[t' h] o]. reflexivity. Qed.
Print Assumptions C93_hpack_update.

Theorem C93_hpack_decode : forall m d buf dst,
  hdecode m d buf dst = let '((d', rest, new), o) := hdecode m d buf [] in ((d', rest, dst ++ new), o).
Proof. intros. rewrite (hdecode_appends m d buf dst). destruct (hdecode m d buf []) as [[[d' rest] h] o]. reflexivity. Qed.
Print Assumptions C93_hpack_decode.

(* decode_exact looks at the capacity of the vector, and at nothing else of it: a vector that
   already holds headers still gets as many as its capacity says. *)
Theorem C93_hpack_exact : forall m cap d buf dst,
  hdecode_exact m cap d buf dst = let '((d', rest, new), o) := hdecode_exact m cap d buf [] in ((d', rest, dst ++ new), o).
Proof. intros. rewrite (hdecode_exact_appends m cap d buf dst). destruct (hdecode_exact m cap d buf []) as [[[d' rest] h] o]. reflexivity. Qed.
Print Assumptions C93_hpack_exact.

Theorem C93_protos_decode : forall m d buf dst,
  pdecode m d buf dst = let '((d', rest, new), o) := pdecode m d buf [] in ((d', rest, dst ++ new), o).
Proof. intros. rewrite (pdecode_appends m d buf dst). destruct (pdecode m d buf []) as [[[d' rest] h] o]. reflexivity. Qed.
Print Assumptions C93_protos_decode.

(* Instances on vectors that are not empty: a Huffman string with the end-of-string code in it, a header block
   whose second reference is dangling, decode_exact with capacity 1 on a vector of length 1,
   and a message cut in its second field. *)
Example C93_holds_of :
  let h := ([1], [2], 3) in
  let get := ([58; 109; 101; 116; 104; 111; 100], [71; 69; 84], 0) in
  decode Release FiveBits [31; 255; 255; 255; 255] [1; 2] = ([1; 2; 97], Err InvalidInput) /\
  hdecode Release decoder_default [130; 255; 0] [h] = ((decoder_default, [255; 0], [h; get]), Err DInvalidIndex) /\
  hdecode_exact Release 1 decoder_default [130; 131] [h] = ((decoder_default, [131], [h; get]), Ok 1) /\
  hencode Release encoder_default (Literal [97] [98] 4) [7] =
    ((mkDyn [([97], [98])] 34 4096, [7; 64; 1; 97; 1; 98]), Ok tt) /\
  pdecode Release pdecoder_default [8; 5; 18; 2; 7] [(9, Bit32, [1; 2; 3; 4])] =
    ((mkP 2 LengthDelimited (Some 2), [7], [(9, Bit32, [1; 2; 3; 4]); (1, Varint, [5])]), Ok 4).
Proof. vm_compute. repeat split; reflexivity. Qed.
