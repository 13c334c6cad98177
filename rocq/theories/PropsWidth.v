(* Property theorems C77: HPACK where usize has w bits.  The [.._on w] functions are
   those of HpackWidth.v, where every usize sum and difference is done on w bits. *)
From Coq Require Import String Ascii.
From Verif Require Import Base HuffModel HuffSpec HpackStatic HpackModel HpackSpec HpackApi HpackTab HpackEnc HpackDerived HpackWidth.
Open Scope list_scope.
Open Scope N_scope.

(* C77: M bounds the table's maximum and the limit. Decoding is the same on w bits as
   long as twice M and the expanded buffer fit. *)
Theorem C77_decode : forall w m M d buf dst, 32 <= w -> wf (dtable d) -> bytes buf ->
  dmax (dtable d) <= M -> dlimit d <= M ->
  5 * (2 * M + 92) + 8 * N.of_nat (List.length buf) < 5 * 2 ^ w ->
  hdecode_on w m d buf dst = hdecode m d buf dst.
Proof. exact hdecode_on_same. Qed.
Print Assumptions C77_decode.

Theorem C77_decode_exact : forall w m M cap d buf dst, 32 <= w -> wf (dtable d) -> bytes buf ->
  dmax (dtable d) <= M -> dlimit d <= M ->
  5 * (2 * M + 92) + 8 * N.of_nat (List.length buf) < 5 * 2 ^ w ->
  hdecode_exact_on w m cap d buf dst = hdecode_exact m cap d buf dst.
Proof. exact hdecode_exact_on_same. Qed.
Print Assumptions C77_decode_exact.

Theorem C77_encode : forall w m M ops t dst, 32 <= w -> wf t -> dmax t <= M ->
  Forall op_typed ops -> Forall (resize_within M) ops -> Forall (fun o => 2 * M + 92 + op_len o < 2 ^ w) ops ->
  run_ops_on w m t dst ops = run_ops m t dst ops.
Proof. intros w m M ops t dst Hw. exact (run_ops_on_same w m M Hw ops t dst). Qed.
Print Assumptions C77_encode.

(* 32 bits: a vector has fewer than 2^31 octets, so with tables of at most 2^28 octets
   (the largest size update the decoder reads is 2^28 + 30) everything is as on 64. *)
Theorem C77_32bit_decode : forall m d buf dst, wf (dtable d) -> bytes buf ->
  dmax (dtable d) <= 2 ^ 28 -> dlimit d <= 2 ^ 28 -> N.of_nat (List.length buf) < 2 ^ 31 ->
  hdecode_on 32 m d buf dst = hdecode m d buf dst.
Proof.
  intros m d buf dst Hw Hb H1 H2 H3. apply (hdecode_on_same 32 m (2 ^ 28)); auto; [discriminate|].
  unfold roomy. change (2 ^ 28) with 268435456. change (2 ^ 31) with 2147483648 in H3. change (2 ^ 32) with 4294967296. lia.
Qed.
Print Assumptions C77_32bit_decode.

Theorem C77_32bit_encode : forall m ops t dst, wf t -> dmax t <= 2 ^ 28 ->
  Forall op_typed ops -> Forall (resize_within (2 ^ 28)) ops -> Forall (fun o => op_len o < 2 ^ 31) ops ->
  run_ops_on 32 m t dst ops = run_ops m t dst ops.
Proof.
  intros m ops t dst Hw H1 H2 H3 H4. apply (run_ops_on_same 32 m (2 ^ 28)); auto; [discriminate|].
  revert H4. apply Forall_impl. intros o Ho. change (2 ^ 31) with 2147483648 in Ho. change (2 ^ 28) with 268435456.
  change (2 ^ 32) with 4294967296. lia.
Qed.
Print Assumptions C77_32bit_encode.

(* 64 bits, with the wrapping written out: the model of HpackModel.v is right to add
   sizes without it, for vectors of less than 2^60 octets. *)
Theorem C77_64bit : forall m d buf dst ops t edst, wf (dtable d) -> bytes buf -> dlimit d < 2 ^ 32 ->
  N.of_nat (List.length buf) < 2 ^ 60 -> wf t -> Forall op_typed ops -> Forall (fun o => op_len o < 2 ^ 60) ops ->
  hdecode_on 64 m d buf dst = hdecode m d buf dst /\ run_ops_on 64 m t edst ops = run_ops m t edst ops.
Proof.
  intros m d buf dst ops t edst Hw Hb H1 H2 Ht Ho Hl. split.
  - apply (hdecode_on_same 64 m (2 ^ 32)); auto; try discriminate.
    + destruct Hw as (_ & _ & H). apply N.lt_le_incl. exact H.
    + apply N.lt_le_incl. exact H1.
    + unfold roomy. change (2 ^ 32) with 4294967296. change (2 ^ 60) with 1152921504606846976 in H2.
      change (2 ^ 64) with 18446744073709551616. lia.
  - apply (run_ops_on_same 64 m (2 ^ 32)); auto; try discriminate.
    + destruct Ht as (_ & _ & H). apply N.lt_le_incl. exact H.
    + revert Ho. apply Forall_impl. intros [f|n] H; cbn in *; [exact I|]. apply N.lt_le_incl. exact H.
    + revert Hl. apply Forall_impl. intros o H. change (2 ^ 60) with 1152921504606846976 in H. change (2 ^ 32) with 4294967296.
      change (2 ^ 64) with 18446744073709551616. lia.
Qed.
Print Assumptions C77_64bit.

(* Beyond: a sum that does not fit panics in debug builds; in release builds nothing is
   evicted and the recorded size is 2^w too small. *)
Theorem C77_overflow : forall w t n v, wf t -> dsize t < 2 ^ w -> line_size (n, v) < 2 ^ w ->
  2 ^ w <= dsize t + line_size (n, v) ->
  table_insert_on (E := enc_error) w Debug t n v = Panic /\
  table_insert_on (E := enc_error) w Release t n v =
    Ok (mkDyn ((n, v) :: inner t) (dsize t + line_size (n, v) - 2 ^ w) (dmax t)).
Proof. intros w t n v Hw Hd Hl Ho. exact (insert_overflow w t n v Hw Hl Ho Hd). Qed.
Print Assumptions C77_overflow.

(* The overflow is reachable on 32 bits with a maximum near 2^32 ... *)
Example C77_overflow_case : let big := repeat 0 (N.to_nat (2 ^ 32 - 65)) in
  let t := mkDyn [([], big)] (2 ^ 32 - 33) (2 ^ 32 - 1) in
  wf t /\ dsize t < 2 ^ 32 /\ line_size ([], [97]) < 2 ^ 32 /\ 2 ^ 32 <= dsize t + line_size ([], [97]).
Proof.
  cbv zeta. set (big := repeat 0 (N.to_nat (2 ^ 32 - 65))).
  assert (Hb : N.of_nat (List.length big) = 2 ^ 32 - 65).
  { unfold big. rewrite repeat_length, N2Nat.id. reflexivity. }
  clearbody big. change (2 ^ 32 - 65) with 4294967231 in Hb. change (2 ^ 32 - 33) with 4294967263.
  change (2 ^ 32 - 1) with 4294967295. change (2 ^ 32) with 4294967296.
  unfold wf, line_size. cbn [inner dsize dmax size fst snd List.length]. unfold line_size. cbn [fst snd List.length].
  change (2 ^ 32) with 4294967296. lia.
Qed.

(* ... and an ordinary case: three fields with an eviction. *)
Example C77_case : forall m,
  hdecode_on 32 m (decoder_with_dynamic_size 40) [130; 64; 1; 97; 1; 98; 64; 1; 99; 129; 7; 190] [] =
    ((mkDec FiveBits 40 (mkDyn [([99], [48])] 34 40), [],
      [(octets ":method", octets "GET", 0); ([97], [98], 4); ([99], [48], 4); ([99], [48], 0)]), Ok 12).
Proof. intros []; vm_compute; reflexivity. Qed.
