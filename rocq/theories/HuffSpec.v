(* Specification vocabulary for the Huffman crate, independent of the model:
   the RFC 7541 Appendix B code as bit strings, and what it means for a bit
   string to split into codes. *)
From Coq Require Import String Ascii.
From Verif Require Import Base HuffAsset Utf8.
Open Scope list_scope.
Open Scope N_scope.

(* Text "0101..." as bits. *)
Fixpoint digits (s : string) : list bool :=
  match s with
  | EmptyString => []
  | String c s' => Ascii.eqb c "1" :: digits s'
  end.

(* The 257 codes printed in RFC 7541 Appendix B. *)
Definition rfc_codes : list (list bool) := Eval vm_compute in map digits rfc_code_digits.

(* Code of a symbol (0..255: octets, 256: EOS). *)
Definition code (sym : N) : list bool := nth (N.to_nat sym) rfc_codes [].
Definition EOS : N := 256.

(* Concatenated codes of an octet string. *)
Definition codes (syms : list N) : list bool := flat_map code syms.

(* [bits] consists of the codes of the octets [syms] followed by [rest], and
   [rest] does not start with the code of any octet. *)
Definition splits (bits : list bool) (syms : list N) (rest : list bool) : Prop :=
  bits = codes syms ++ rest /\ bytes syms /\
  forall a, a < 256 -> ~ prefix (code a) rest.

(* What the code under study accepts after the last symbol. *)
Definition tail_accepted (rest : list bool) : bool :=
  existsb (N.eqb (val rest)) [0; 1; 3; 7; 15; 31; 63; 127].

(* RFC 7541 section 5.2: the padding is the most significant bits of EOS and
   strictly shorter than 8 bits. *)
Definition rfc_padding (rest : list bool) : Prop :=
  prefix rest (code EOS) /\ (List.length rest < 8)%nat.

(* RFC 7541 Appendix B text: octets of a Coq string. *)
Fixpoint octets (s : string) : list N :=
  match s with
  | EmptyString => []
  | String c s' => N_of_ascii c :: octets s'
  end.

(* Lines joined by LF. *)
Fixpoint join_lines (ls : list (list N)) : list N :=
  match ls with
  | [] => []
  | [l] => l
  | l :: ls' => l ++ 10 :: join_lines ls'
  end.

Definition asset_text : list N := join_lines (map octets asset_lines).

(* ------------------------------------------------------------------ *)
(* Layout of one line of the RFC 7541 Appendix B listing: 12 octets, 33 octets
   of bit columns, 5 octets, 9 octets of hexadecimal column, anything. *)
Inductive hex_char : N -> N -> Prop :=
| hex_dec c : 48 <= c <= 57 -> hex_char c (c - 48)
| hex_low c : 97 <= c <= 102 -> hex_char c (c - 97 + 10)
| hex_upp c : 65 <= c <= 70 -> hex_char c (c - 65 + 10).

(* Positional value of a digit list, most significant first. *)
Definition base16 (ds : list N) : N := fold_left (fun a d => a * 16 + d) ds 0.

(* The field is a number: white space, optional plus sign, hex digits, white space. *)
Definition hex_field (f : list N) (v : N) : Prop :=
  exists ws1 sign cs ds ws2,
    f = ws1 ++ sign ++ cs ++ ws2 /\ blank ws1 /\ blank ws2 /\
    (sign = [] \/ sign = [43]) /\ cs <> [] /\ Forall2 hex_char cs ds /\
    v = base16 ds /\ v < 2 ^ 32.

Definition bit_column (c : N) : Prop := c = 48 \/ c = 49 \/ c = 124 \/ c = 32.

(* Number of 0/1 digits. *)
Definition count_bits (l : list N) : N :=
  N.of_nat (List.length (filter (fun c => (c =? 48) || (c =? 49)) l)).

Definition rfc_line (line : list N) (len v : N) : Prop :=
  exists pre cols gap hex post,
    line = pre ++ cols ++ gap ++ hex ++ post /\
    List.length pre = 12%nat /\ List.length cols = 33%nat /\
    List.length gap = 5%nat /\ List.length hex = 9%nat /\
    Forall bit_column cols /\ len = count_bits cols /\ hex_field hex v.

(* How a text falls into lines: each ends at LF or CR LF; what follows the last
   LF is a line if there is anything ([old]: whether a CR at its end counts as
   part of a line end). *)
Inductive text_lines (old : bool) : list N -> list (list N) -> Prop :=
| tl_none : text_lines old [] []
| tl_last l : l <> [] -> ~ In 10 l -> (old = true -> last l 0 <> 13) -> text_lines old l [l]
| tl_last_cr l : old = true -> ~ In 10 l -> text_lines old (l ++ [13]) [l]
| tl_lf l text ls : ~ In 10 l -> last l 0 <> 13 -> text_lines old text ls ->
    text_lines old (l ++ 10 :: text) (l :: ls)
| tl_crlf l text ls : ~ In 10 l -> text_lines old text ls ->
    text_lines old (l ++ 13 :: 10 :: text) (l :: ls).
