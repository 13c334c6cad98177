(* Property theorems C63-C70 about the protobuf crate.  Vocabulary: ProtosSpec.v,
   ProtosApi.v. *)
From Verif Require Import Base Leb ProtosModel ProtosSpec ProtosApi ProtosNum ProtosEnc ProtosConv ProtosUtf8
  ProtosDec ProtosDerived ProtosMore.
Open Scope N_scope.

(* ------------------------------------------------------------------ *)
(* C63: messages nested to any depth. *)
Theorem C63_nested : forall m t ty p, tree_ok t -> lit_wire (as_lit t) ty p -> tree_reads m t p.
Proof. exact tree_round_trip. Qed.
Print Assumptions C63_nested.

(* The whole message: what encode writes for the fields of a tree reads back. *)
Theorem C63_message : forall m fs, tree_ok (Node fs) ->
  exists bs, encode_message (map (fun f => (fst f, as_lit (snd f))) fs) (vec_sink []) =
      (vec_sink bs, Ok (N.of_nat (length bs))) /\ tree_reads m (Node fs) bs.
Proof.
  intros m fs H. inversion H as [|? H1 H2]; subst.
  destruct (message_round_trip_fully m _ (tree_fields_good fs H1)) as (bs & ws & He & _ & _).
  exists bs. split; [exact (He [])|]. apply (tree_round_trip m (Node fs) LengthDelimited); [exact H|].
  cbn [as_lit lit_wire]. rewrite (He []). split; reflexivity.
Qed.
Print Assumptions C63_message.

Example C63_case : let t := Node [(1, Node [(1, Leaf (EBool true)); (7, Node [])]); (2, Leaf (EBytes [9]))] in
  as_lit t = EBytes [10; 4; 8; 1; 58; 0; 18; 1; 9] /\ tree_ok t.
Proof.
  assert (S : forall v : list N, N.of_nat (length v) < 2 ^ 64 -> small_lit (EBytes v)) by (intros v H ty p [_ ->]; exact H).
  split; [reflexivity|].
  repeat (constructor; cbn [fst snd]); try reflexivity; try (cbn; discriminate); try (apply S; reflexivity).
  intros ty p [_ Hp]. rewrite (shortest_unique _ _ _ Hp (shortest_small 1 eq_refl)). reflexivity.
Qed.

(* ------------------------------------------------------------------ *)
(* C64: a payload read with another type of the same wire format. *)
Theorem C64_int : forall m v p, w_int v p ->
  (forall z, truncated 32 v z -> to_i32 m (DInt32 p) = Ok z) /\
  (forall z, truncated 64 v z -> to_i64 m (DInt64 p) = Ok z) /\
  (forall u, twos 32 v u -> to_u32 m (DUInt32 p) = Ok u) /\
  (forall u, twos 64 v u -> to_u64 m (DUInt64 p) = Ok u) /\
  (in_i 64 v -> forall b, (b = true <-> v <> 0%Z) -> to_bool m (DBool p) = Ok b).
Proof. exact cast_int. Qed.
Print Assumptions C64_int.

(* Also for bool, which is written as the number 0 or 1. *)
Theorem C64_uint : forall m v p, u64_ok v -> w_uint v p ->
  (forall z, truncated 32 (Z.of_N v) z -> to_i32 m (DInt32 p) = Ok z) /\
  (forall z, truncated 64 (Z.of_N v) z -> to_i64 m (DInt64 p) = Ok z) /\
  to_u32 m (DUInt32 p) = Ok (v mod 2 ^ 32) /\
  to_u64 m (DUInt64 p) = Ok v /\
  (forall b, (b = true <-> v <> 0) -> to_bool m (DBool p) = Ok b).
Proof. exact cast_uint. Qed.
Print Assumptions C64_uint.

Theorem C64_sint : forall m v p, in_i 64 v -> w_sint v p ->
  (forall z, truncated 32 v z -> to_i32 m (DSInt32 p) = Ok z) /\ to_i64 m (DSInt64 p) = Ok v.
Proof. exact cast_sint. Qed.
Print Assumptions C64_sint.

Theorem C64_fixed : forall m v p,
  (w_fixed 4 v p -> to_u32 m (DFixed32 p) = Ok v /\ to_f32 m (DFloat p) = Ok v /\
     forall z, truncated 32 (Z.of_N v) z -> to_i32 m (DSFixed32 p) = Ok z) /\
  (w_fixed 8 v p -> to_u64 m (DFixed64 p) = Ok v /\ to_f64 m (DDouble p) = Ok v /\
     forall z, truncated 64 (Z.of_N v) z -> to_i64 m (DSFixed64 p) = Ok z).
Proof. exact cast_fixed. Qed.
Print Assumptions C64_fixed.

Theorem C64_sfixed : forall m v n p,
  (w_sfixed 4 32 v p -> twos 32 v n -> to_u32 m (DFixed32 p) = Ok n) /\
  (w_sfixed 8 64 v p -> twos 64 v n -> to_u64 m (DFixed64 p) = Ok n).
Proof. exact cast_sfixed. Qed.
Print Assumptions C64_sfixed.

(* Packed payloads, element by element. *)
Theorem C64_int_vec : forall m vs p, packed w_int vs p ->
  (forall zs, Forall2 (truncated 32) vs zs -> to_i32_vec m (DInt32Vec p) = Ok zs) /\
  (forall zs, Forall2 (truncated 64) vs zs -> to_i64_vec m (DInt64Vec p) = Ok zs) /\
  (forall us, Forall2 (twos 32) vs us -> to_u32_vec m (DUInt32Vec p) = Ok us) /\
  (forall us, Forall2 (twos 64) vs us -> to_u64_vec m (DUInt64Vec p) = Ok us) /\
  (forall bs, Forall2 (fun v b => in_i 64 v /\ (b = true <-> v <> 0%Z)) vs bs -> to_bool_vec m (DBoolVec p) = Ok bs).
Proof. exact cast_int_vec. Qed.
Print Assumptions C64_int_vec.

Theorem C64_uint_vec : forall m vs p, Forall u64_ok vs -> packed w_uint vs p ->
  (forall zs, Forall2 (fun v => truncated 32 (Z.of_N v)) vs zs -> to_i32_vec m (DInt32Vec p) = Ok zs) /\
  (forall zs, Forall2 (fun v => truncated 64 (Z.of_N v)) vs zs -> to_i64_vec m (DInt64Vec p) = Ok zs) /\
  to_u32_vec m (DUInt32Vec p) = Ok (map (fun v => v mod 2 ^ 32) vs) /\
  to_u64_vec m (DUInt64Vec p) = Ok vs /\
  to_bool_vec m (DBoolVec p) = Ok (map (fun v => negb (v =? 0)) vs).
Proof. exact cast_uint_vec. Qed.
Print Assumptions C64_uint_vec.

Theorem C64_sint_vec : forall m vs p, Forall (in_i 64) vs -> packed w_sint vs p ->
  (forall zs, Forall2 (truncated 32) vs zs -> to_i32_vec m (DSInt32Vec p) = Ok zs) /\
  to_i64_vec m (DSInt64Vec p) = Ok vs.
Proof. exact cast_sint_vec. Qed.
Print Assumptions C64_sint_vec.

(* 2^32 + 5 as int64, read as int32: 5; -1 as int32, read as int64, uint32 and bool. *)
Example C64_case : forall m,
  pencode 1 (EInt64 4294967301) (vec_sink []) = (vec_sink [8; 133; 128; 128; 128; 16], Ok 6) /\
  to_i32 m (DInt32 [133; 128; 128; 128; 16]) = Ok 5%Z /\ truncated 32 4294967301 5 /\
  pencode 1 (EInt32 (-1)) (vec_sink []) = (vec_sink [8; 255; 255; 255; 255; 255; 255; 255; 255; 255; 1], Ok 11) /\
  to_i64 m (DInt64 [255; 255; 255; 255; 255; 255; 255; 255; 255; 1]) = Ok (-1)%Z /\
  to_u32 m (DUInt32 [255; 255; 255; 255; 255; 255; 255; 255; 255; 1]) = Ok 4294967295 /\
  to_bool m (DBool [255; 255; 255; 255; 255; 255; 255; 255; 255; 1]) = Ok true.
Proof.
  intros []; refine (conj eq_refl (conj eq_refl (conj _ (conj eq_refl (conj eq_refl (conj eq_refl eq_refl))))));
    (split; [split; reflexivity || discriminate|exists 1%Z; reflexivity]).
Qed.

(* ------------------------------------------------------------------ *)
(* C65: the payloads of two occurrences of a repeated field, packed or not, joined,
   read as the elements of both. *)
Theorem C65_packed_concat : forall m l1 l2 l t1 t2 p q, lit_ok l1 -> lit_ok l2 -> joined l1 l2 l ->
  lit_wire l1 t1 p -> lit_wire l2 t2 q -> reads_back m l (p ++ q).
Proof. exact packed_concat. Qed.
Print Assumptions C65_packed_concat.

Example C65_case : joined (ESInt32 (-2)) (ESInt32Vec [3; -4]%Z) (ESInt32Vec [-2; 3; -4]%Z) /\
  forall m, to_i32_vec m (DSInt32Vec ([3] ++ [6; 7])) = Ok [-2; 3; -4]%Z.
Proof. split; [constructor|intros []; reflexivity]. Qed.

(* C66: encoded messages concatenate to the encoding of the joined field lists. *)
Theorem C66_concat : forall fs1 fs2, Forall good_field fs1 -> Forall good_field fs2 ->
  exists b1 b2 w1 w2,
    encode_message fs1 (vec_sink []) = (vec_sink b1, Ok (N.of_nat (length b1))) /\
    encode_message fs2 (vec_sink []) = (vec_sink b2, Ok (N.of_nat (length b2))) /\
    encode_message (fs1 ++ fs2) (vec_sink []) = (vec_sink (b1 ++ b2), Ok (N.of_nat (length (b1 ++ b2)))) /\
    forall m, decode_fully m pdecoder_default b1 [] = ((pdecoder_default, [], w1), Ok tt) /\
      decode_fully m pdecoder_default b2 [] = ((pdecoder_default, [], w2), Ok tt) /\
      decode_fully m pdecoder_default (b1 ++ b2) [] = ((pdecoder_default, [], w1 ++ w2), Ok tt) /\
      Forall2 (fun f w => carries f w /\ reads_back m (snd f) (snd w)) (fs1 ++ fs2) (w1 ++ w2).
Proof. exact message_concat. Qed.
Print Assumptions C66_concat.

Example C66_case : forall m,
  encode_message ([(1, EUInt32 150)] ++ [(2, EBytes [120]); (1, EUInt32 5)]) (vec_sink []) =
    (vec_sink ([8; 150; 1] ++ [18; 1; 120; 8; 5]), Ok 8) /\
  decode_fully m pdecoder_default [8; 150; 1; 18; 1; 120; 8; 5] [] =
    ((pdecoder_default, [], [(1, Varint, [150; 1]); (2, LengthDelimited, [120]); (1, Varint, [5])]), Ok tt).
Proof. intros []; vm_compute; repeat split. Qed.

(* C67: with a schema (a type per field number), the octets determine the message. *)
Theorem C67_injective : forall schema fs1 fs2 s1 s2 bs n1 n2, Forall good_field fs1 -> Forall good_field fs2 ->
  Forall (fun f => kind_of_lit (snd f) = schema (fst f)) fs1 ->
  Forall (fun f => kind_of_lit (snd f) = schema (fst f)) fs2 ->
  encode_message fs1 (vec_sink s1) = (vec_sink (s1 ++ bs), Ok n1) ->
  encode_message fs2 (vec_sink s2) = (vec_sink (s2 ++ bs), Ok n2) -> fs1 = fs2.
Proof. exact message_injective. Qed.
Print Assumptions C67_injective.

(* Without a schema they do not. *)
Example C67_case :
  encode_message [(1, EUInt32 2); (2, EBool true)] (vec_sink []) = (vec_sink [8; 2; 16; 1], Ok 4) /\
  encode_message [(1, ESInt32 1); (2, EBool true)] (vec_sink []) = (vec_sink [8; 2; 16; 1], Ok 4).
Proof. split; reflexivity. Qed.

(* ------------------------------------------------------------------ *)
(* C68: what decode emits is bounded by what it consumes.  [credit] is what earlier
   calls consumed for the field in progress: nothing, a key or a key and a length
   (counted as one and two octets). *)
Theorem C68_bounded : forall m p b dst, bytes b -> idle p ->
  exists d1 rest hs o used, pdecode m (decoder_of p) b dst = ((d1, rest, dst ++ hs), o) /\ b = used ++ rest /\
    (2 * length hs <= length used + credit p)%nat /\
    (payload_octets hs + length hs <= length used + credit p)%nat.
Proof. exact decode_size. Qed.
Print Assumptions C68_bounded.

(* Both bounds are reached; a huge announced length emits and stores nothing. *)
Example C68_case : forall m,
  pdecode m pdecoder_default [10; 0] [] = ((pdecoder_default, [], [(1, LengthDelimited, [])]), Ok 2) /\
  pdecode m pdecoder_default [8; 5] [] = ((pdecoder_default, [], [(1, Varint, [5])]), Ok 2) /\
  pdecode m pdecoder_default [10; 255; 255; 255; 255; 15; 1; 2] [] =
    ((mkP 1 LengthDelimited (Some 4294967295), [1; 2], []), Ok 6).
Proof. intros []; repeat split. Qed.

(* ------------------------------------------------------------------ *)
(* C69: overflow checks change results only into panics. *)
Theorem C69_decode : forall p b dst st o, bytes b -> idle p -> pdecode Debug (decoder_of p) b dst = (st, o) ->
  o = Panic \/ pdecode Release (decoder_of p) b dst = (st, o).
Proof. exact decode_modes. Qed.
Print Assumptions C69_decode.

Theorem C69_conversions : forall l, bytes (lit_octets l) ->
  same_or_panic (fun m => to_bool m l) /\ same_or_panic (fun m => to_bool_vec m l) /\
  same_or_panic (fun m => to_i32 m l) /\ same_or_panic (fun m => to_i32_vec m l) /\
  same_or_panic (fun m => to_i64 m l) /\ same_or_panic (fun m => to_i64_vec m l) /\
  same_or_panic (fun m => to_u32 m l) /\ same_or_panic (fun m => to_u32_vec m l) /\
  same_or_panic (fun m => to_u64 m l) /\ same_or_panic (fun m => to_u64_vec m l) /\
  same_or_panic (fun m => to_f32 m l) /\ same_or_panic (fun m => to_f32_vec m l) /\
  same_or_panic (fun m => to_f64 m l) /\ same_or_panic (fun m => to_f64_vec m l).
Proof. exact conversions_modes. Qed.
Print Assumptions C69_conversions.

Example C69_case :
  snd (pdecode Debug pdecoder_default [8; 150; 1; 16] []) = Ok 4 /\
  to_u64 Debug (DUInt64 (repeat 128 10 ++ [0])) = Panic /\ to_u64 Release (DUInt64 (repeat 128 10 ++ [0])) = Ok 0.
Proof. repeat split. Qed.

(* ------------------------------------------------------------------ *)
(* C70: sizes the documentation promises. *)
(* A negative int32 or int64 takes ten octets after the key, always. *)
Theorem C70_negative_int : forall tag v l, 1 <= tag < 2 ^ 29 -> (v < 0)%Z ->
  (l = EInt32 v /\ in_i 32 v) \/ (l = EInt64 v /\ in_i 64 v) ->
  exists key, shortest (8 * tag) key /\
    forall dst, snd (pencode tag l (vec_sink dst)) = Ok (N.of_nat (length key) + 10).
Proof. exact negative_int_size. Qed.
Print Assumptions C70_negative_int.

(* A sint of magnitude up to 2^(7k+6) takes at most k + 1 octets, whatever its sign. *)
Theorem C70_sint : forall tag k v l, 1 <= tag < 2 ^ 29 ->
  (- 2 ^ (7 * Z.of_nat k + 6) <= v < 2 ^ (7 * Z.of_nat k + 6))%Z ->
  (l = ESInt32 v /\ in_i 32 v) \/ (l = ESInt64 v /\ in_i 64 v) ->
  exists key n, shortest (8 * tag) key /\ n <= N.of_nat k + 1 /\
    forall dst, snd (pencode tag l (vec_sink dst)) = Ok (N.of_nat (length key) + n).
Proof. exact sint_size. Qed.
Print Assumptions C70_sint.

(* Larger numbers never take fewer octets. *)
Theorem C70_monotone : forall v w a b, shortest v a -> shortest w b -> v <= w -> (length a <= length b)%nat.
Proof. exact shortest_mono. Qed.
Print Assumptions C70_monotone.

Example C70_case : pencode 1 (ESInt32 (-64)) (vec_sink []) = (vec_sink [8; 127], Ok 2) /\
  pencode 1 (ESInt32 64) (vec_sink []) = (vec_sink [8; 128; 1], Ok 3) /\
  snd (pencode 1 (EInt32 (-64)) (vec_sink [])) = Ok 11.
Proof. repeat split. Qed.
