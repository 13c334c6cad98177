(* Model of the Display impls of the six error types.  Source citations are relative to /repo. *)
From Coq Require Import String.
From Verif Require Import Base HuffModel HpackModel ProtosModel.

(* huffman/src/encoder/error.rs:13-19 *)
Definition huff_enc_text (e : huff_error) : string := match e with InvalidInput => "Invalid input character." end.
(* huffman/src/decoder/error.rs:13-19 *)
Definition huff_dec_text (e : huff_error) : string := match e with InvalidInput => "Invalid Huffman sequence." end.

(* hpack/src/encoder/error.rs:36-45 *)
Definition enc_text (e : enc_error) : string :=
  match e with
  | EInvalidInput => "Invalid input character."
  | EInvalidIndex => "Invalid index."
  | EInvalidPrefix => "Invalid prefix."
  | EIntegerOverflow => "Too many bytes."
  end.
(* hpack/src/decoder/error.rs:42-53 *)
Definition dec_text (e : dec_error) : string :=
  match e with
  | DInvalidInput => "Invalid input character."
  | DInvalidIndex => "Invalid index."
  | DInvalidPrefix => "Invalid prefix."
  | DIntegerOverflow => "Too many bytes."
  | DIntegerUnderflow => "Not enough bytes."
  | DInvalidMaxDynamicSize => "New size exceeds hard limit."
  end.
(* protos/src/encoder/error.rs:35-43 *)
Definition penc_text (e : penc_error) : string :=
  match e with
  | PDataOverflow => "Available data type size exceeded."
  | PInterrupted => "Write operation interrupted."
  | PInvalidTag => "Found tag with invalid number."
  end.
(* protos/src/decoder/error.rs:40-49 *)
Definition pdec_text (e : pdec_error) : string :=
  match e with
  | PInvalidInput => "Invalid byte stream."
  | PDecInterrupted => "Read operation interrupted."
  | PInputUnderflow => "Not enough bytes."
  | PDecInvalidTag => "Found tag with invalid number."
  end.
