(* Specification vocabulary for the protobuf wire format, independent of the model.
   Varints are the 7-bit group numbers of Leb.v. *)
From Verif Require Import Base Leb.
From Verif Require Export Utf8.
Open Scope N_scope.

(* The shortest varint of v. *)
Definition shortest (v : N) (bs : list N) : Prop := leb_min bs v.

(* Two's complement of w bits, both ways. *)
Definition twos (w : N) (z : Z) (n : N) : Prop :=
  n < 2 ^ w /\ exists k, z = (Z.of_N n + k * 2 ^ Z.of_N w)%Z.
Definition in_i (w : N) (z : Z) : Prop := (- 2 ^ (Z.of_N w - 1) <= z < 2 ^ (Z.of_N w - 1))%Z.

(* ZigZag: 0, -1, 1, -2, ... are 0, 1, 2, 3, ... *)
Definition zigzag (z : Z) : N :=
  if (z <? 0)%Z then Z.to_N (-2 * z - 1) else Z.to_N (2 * z).

(* Little-endian octets. *)
Fixpoint le_value (l : list N) : N :=
  match l with [] => 0 | b :: l' => b + 256 * le_value l' end.
Definition little (k : nat) (v : N) (bs : list N) : Prop :=
  length bs = k /\ bytes bs /\ le_value bs = v.

(* Packed repeated values: the concatenation of the encoded elements. *)
Definition packed {A} (elem : A -> list N -> Prop) (vs : list A) (bs : list N) : Prop :=
  exists parts, Forall2 elem vs parts /\ bs = concat parts.

(* Octets of the form of a varint of any length. *)
Definition varint_shape (bs : list N) : Prop := exists v, leb128 bs v.

(* What a reader that ORs the 7-bit groups into 64 bits, with shift amounts
   taken modulo 64, makes of a varint. *)
Fixpoint folded (i : N) (bs : list N) : N :=
  match bs with
  | [] => 0
  | b :: bs' => N.lor ((b mod 128 * 2 ^ ((7 * i) mod 64)) mod 2 ^ 64) (folded (i + 1) bs')
  end.
