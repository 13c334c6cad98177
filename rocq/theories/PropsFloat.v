(* Property theorem C91: rounding in the floating-point expressions of the huffman crate
   never matters.  The IEEE versions (HuffFloat.v) are executed by Coq's specification of
   IEEE 754 arithmetic (Coq.Floats.SpecFloat). *)
From Coq Require Import ZArith Floats.SpecFloat.
From Verif Require Import Base HuffTables HuffModel HuffSpec HuffCode HuffDecProofs HuffFloat.
Open Scope list_scope.
Open Scope N_scope.

(* Decoding with `f64`: every speed, every input, every pointer width from 32 bits on. *)
Theorem C91_decode : forall w m s src dst syms rest, 32 <= w -> bytes src -> splits (bits_of_bytes src) syms rest ->
  decode_ieee w m s src dst = (dst ++ syms, if tail_accepted rest then Ok tt else Err InvalidInput).
Proof.
  intros w m s src dst syms rest Hw Hb Hs. rewrite decode_same by assumption.
  rewrite (decode_on_ok w m s src dst syms rest Hw Hb Hs). reflexivity.
Qed.
Print Assumptions C91_decode.

(* Flattening with `f32`: every list of codes whose lengths are u8. *)
Theorem C91_flatten : forall m codings s, Forall (fun c => fst c < 256) codings -> flatten_ieee m codings s = flatten m codings s.
Proof. exact flatten_same. Qed.
Print Assumptions C91_flatten.

(* The expressions themselves are the least integer that is not below the quotient. *)
Theorem C91_ceil : forall w a s, 32 <= w -> a < 256 -> let q := ceil_f32 w a (speed_bits s) in
  ceil_f64 w a (speed_bits s) = q /\ a <= q * speed_bits s /\ (forall k, a <= k * speed_bits s -> q <= k).
Proof.
  intros w a s Hw Ha q. unfold q. rewrite ceil_f32_exact, ceil_f64_exact by assumption.
  pose proof (speed_pos s) as Hs. set (b := speed_bits s) in *. unfold ceil_div.
  pose proof (N.div_mod (a + b - 1) b ltac:(lia)) as E. pose proof (N.mod_lt (a + b - 1) b ltac:(lia)) as R.
  set (d := (a + b - 1) / b) in *. set (r := (a + b - 1) mod b) in *. clearbody d r b.
  split; [reflexivity|]. split; [nia|]. intros k Hk. destruct (N.le_gt_cases d k) as [|Hg]; [assumption|]. exfalso.
  assert (b * (k + 1) <= b * d) by (apply N.mul_le_mono_l; lia). nia.
Qed.
Print Assumptions C91_ceil.

(* A quotient that is not a float, one that is, and operands for which rounding does matter. *)
Example C91_case :
  SFdiv 24 128 (float_of 24 128 7) (float_of 24 128 3) = S754_finite false 9786709 (-22) /\
  ceil_f32 64 7 3 = 3 /\ ceil_f32 64 30 5 = 6 /\ ceil_f64 64 4 5 = 1 /\ ceil_f64 64 0 5 = 0 /\
  ceil_f32 64 16777217 1 = 16777216 /\
  decode_ieee 64 Debug FourBits [156; 223] [] = ([104; 105], Ok tt) /\
  flatten_ieee Debug [(1, 0); (2, 2); (2, 3)] TwoBits = flatten Debug [(1, 0); (2, 2); (2, 3)] TwoBits.
Proof. repeat split. Qed.
