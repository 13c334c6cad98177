(* Theorems about httlib-protos: C35 - C48. *)
From Verif Require Import Base Leb ProtosModel ProtosSpec ProtosApi ProtosNum ProtosEnc ProtosConv ProtosUtf8 ProtosDec ProtosDerived.
Open Scope N_scope.

(* ------------------------------------------------------------------ *)
(* C35: varints. *)
Theorem C35_round_trip : forall v, v < 2 ^ 64 -> exists bs, shortest v bs /\
  (forall s, pencode_varint v s = delivered s bs) /\
  (forall m rest, pdecode_varint m (bs ++ rest) = Ok (v, N.of_nat (length bs))).
Proof.
  intros v Hv. destruct (shortest64 v Hv) as (bs & Hb & _). exists bs. split; [exact Hb|]. split.
  - intros s. now apply pencode_varint_spec.
  - intros m rest. apply pdecode_varint_value. now apply reads_shortest.
Qed.
Print Assumptions C35_round_trip.

Theorem C35_shape : forall v bs, shortest v bs ->
  (v < 2 ^ 64 -> (1 <= length bs <= 10)%nat) /\
  v < 128 ^ N.of_nat (length bs) /\ (length bs = 1%nat \/ 128 ^ N.of_nat (length bs - 1) <= v) /\
  (v <> 0 -> last bs 0 <> 0) /\ (v = 0 -> bs = [0]).
Proof.
  intros v bs H. split; [now apply shortest64_length|]. destruct (shortest_groups v bs H) as [H1 H2].
  split; [exact H1|]. split; [exact H2|]. split; [now apply shortest_last|].
  intros ->. eapply shortest_unique; [exact H|]. now apply shortest_small.
Qed.
Print Assumptions C35_shape.

Theorem C35_unique : forall v a b, shortest v a -> shortest v b -> a = b.
Proof. exact shortest_unique. Qed.
Print Assumptions C35_unique.

(* encoder/primitives.rs documentation, and the largest value. *)
Example C35_case : forall m,
  pencode_varint 150 (vec_sink []) = (vec_sink [150; 1], Ok 2) /\
  pdecode_varint m [150; 1; 77] = Ok (150, 2) /\
  pencode_varint (2 ^ 64 - 1) (vec_sink [9]) =
    (vec_sink [9; 255; 255; 255; 255; 255; 255; 255; 255; 255; 1], Ok 10).
Proof. intros []; repeat split. Qed.

(* ------------------------------------------------------------------ *)
(* C36: decoding arbitrary octets as a varint.  "Never panics, and yields the
   number written" is false: *)
Theorem C36_panic_refuted : exists b, bytes b /\ pdecode_varint Debug b = Panic.
Proof.
  exists (repeat 128 10 ++ [0]). split; [|reflexivity].
  apply bytes_app. split; [apply Forall_forall; intros x Hx; apply repeat_spec in Hx; subst|constructor]; try constructor; reflexivity.
Qed.
Print Assumptions C36_panic_refuted.

(* ... an eleven-octet number 2^70 is read as 64 in release builds, *)
Theorem C36_alias_refuted : exists b, leb128 b (2 ^ 70) /\ pdecode_varint Release b = Ok (64, 11).
Proof.
  exists (repeat 128 10 ++ [1]). split; [|reflexivity].
  cbn [repeat app].
  assert (H : forall bs v, leb128 bs v -> leb128 (128 :: bs) (128 * v)).
  { intros bs v Hb. pose proof (leb_more 0 bs v ltac:(lia) Hb) as X. now rewrite N.add_0_l in X. }
  change (2 ^ 70) with (128 * (128 * (128 * (128 * (128 * (128 * (128 * (128 * (128 * (128 * 1)))))))))).
  do 10 apply H. now constructor.
Qed.
Print Assumptions C36_alias_refuted.

(* ... and this is what happens on every input. *)
Theorem C36_exact_partial : forall m b, bytes b ->
  varint_result m b (pdecode_varint m b) /\ forall o, varint_result m b o -> o = pdecode_varint m b.
Proof. intros m b Hb. split; [now apply pdecode_varint_result | intros o; now apply varint_result_fun]. Qed.
Print Assumptions C36_exact_partial.

(* Up to ten octets the value read is the number denoted, modulo 2^64. *)
Theorem C36_value_partial : forall bs v, leb128 bs v -> (length bs <= 10)%nat -> forall m, reads m bs (v mod 2 ^ 64).
Proof.
  intros bs v H Hn m. split; [now exists v|]. split; [|auto].
  rewrite (folded_value bs v H 0) by lia. now rewrite N.mul_0_r, N.pow_0_r, N.mul_1_r.
Qed.
Print Assumptions C36_value_partial.

Example C36_case : pdecode_varint Debug [128; 128] = Err PInputUnderflow /\
  pdecode_varint Debug [128; 0; 5] = Ok (0, 2).
Proof. split; reflexivity. Qed.

(* ------------------------------------------------------------------ *)
(* C37: field keys. *)
Theorem C37_round_trip : forall tag t n, 1 <= tag < 2 ^ 29 -> wire_number t n ->
  exists key, shortest (8 * tag + n) key /\ (1 <= length key <= 5)%nat /\
  (forall s, pencode_key tag t s = delivered s key) /\
  (forall m rest, pdecode_key m (key ++ rest) = Ok (tag, t, N.of_nat (length key))).
Proof.
  intros tag t n Ht Hn. pose proof (wire_number_num t n Hn) as [_ Hn8].
  assert (Hk : 8 * tag + n < 2 ^ 32) by (change (2 ^ 29) with 536870912 in *; change (2 ^ 32) with 4294967296; lia).
  assert (Hk64 : 8 * tag + n < 2 ^ 64) by (eapply N.lt_trans; [exact Hk|reflexivity]).
  destruct (shortest64 _ Hk64) as (key & Hs & Hl). exists key. split; [exact Hs|]. split; [|split].
  - split; [lia|]. apply (shortest_length _ key 4 Hs). eapply N.lt_trans; [exact Hk|reflexivity].
  - intros s. eapply pencode_key_spec; eauto.
  - intros m rest. eapply pdecode_key_ok; eauto. now apply reads_shortest.
Qed.
Print Assumptions C37_round_trip.

Theorem C37_invalid_tag : forall tag t s, tag = 0 \/ 2 ^ 29 <= tag -> pencode_key tag t s = (s, Err PInvalidTag).
Proof. exact pencode_key_bad. Qed.
Print Assumptions C37_invalid_tag.

Theorem C37_decoding : forall m b, bytes b ->
  key_result m b (pdecode_key m b) /\ forall o, key_result m b o -> o = pdecode_key m b.
Proof. intros m b Hb. split; [now apply pdecode_key_result | intros o; now apply key_result_fun]. Qed.
Print Assumptions C37_decoding.

(* The decoder keeps the input and its state when it refuses a key. *)
Theorem C37_refused : forall m key k rest dst, reads m key k -> bad_key k ->
  pdecode m pdecoder_default (key ++ rest) dst = ((pdecoder_default, key ++ rest, dst), Err PInvalidInput).
Proof.
  intros m key k rest dst Hr Hb.
  pose proof (pdecode_run m Start [] Start [] (key ++ rest) Start [] (Err PInvalidInput) dst (items_nil _ _ _)) as E.
  cbn [app decoder_of with_count] in E. rewrite E; [now rewrite app_nil_r|].
  constructor. now apply halt_bad_key with k.
Qed.
Print Assumptions C37_refused.

(* Typ::try_from takes any number: the four wire types have theirs, all others are Unknown. *)
Theorem C37_try_from : forall n t, typ_of n = t <-> wire_number t n \/ t = Unknown /\ forall t', ~ wire_number t' n.
Proof.
  intros n t. unfold typ_of.
  destruct (N.eqb_spec n 0) as [->|H0]; [|destruct (N.eqb_spec n 1) as [->|H1]; [|destruct (N.eqb_spec n 2) as [->|H2];
    [|destruct (N.eqb_spec n 5) as [->|H5]]]]; (split; [intros <-|]).
  1, 3, 5, 7: left; reflexivity.
  1: intros [H|[_ H]]; [destruct t; cbn in H; try discriminate; reflexivity || contradiction|elim (H Varint); reflexivity].
  1: intros [H|[_ H]]; [destruct t; cbn in H; try discriminate; reflexivity || contradiction|elim (H Bit64); reflexivity].
  1: intros [H|[_ H]]; [destruct t; cbn in H; try discriminate; reflexivity || contradiction|elim (H LengthDelimited); reflexivity].
  1: intros [H|[_ H]]; [destruct t; cbn in H; try discriminate; reflexivity || contradiction|elim (H Bit32); reflexivity].
  - right. split; [reflexivity|]. intros []; cbn; intros H; congruence || contradiction.
  - intros [H|[-> _]]; [destruct t; cbn in H; congruence || contradiction|reflexivity].
Qed.
Print Assumptions C37_try_from.

Example C37_case : forall m,
  pencode_key 12345 Bit64 (vec_sink []) = (vec_sink [201; 131; 6], Ok 3) /\
  pdecode_key m [201; 131; 6] = Ok (12345, Bit64, 3) /\
  pdecode_key m [7] = Err PInvalidInput /\ pdecode_key m [11] = Err PInvalidInput /\
  bad_key 7 /\ bad_key 11 /\ bad_key (2 ^ 32 + 8).
Proof.
  intros []; repeat split; cbv [bad_key].
  - right; left; reflexivity.
  - right; right; left; reflexivity.
  - left. discriminate.
  - right; left; reflexivity.
  - right; right; left; reflexivity.
  - left. discriminate.
Qed.

(* ------------------------------------------------------------------ *)
(* C38: ZigZag. *)
Theorem C38_sint32 : forall v bs, in_i 32 v -> shortest (zigzag v) bs ->
  (forall s, prim_sint32 v s = delivered s bs) /\
  (forall m rest, get_sint32 m (bs ++ rest) = Ok (v, N.of_nat (length bs))).
Proof.
  intros v bs Hi Hs. split; [intros s; now apply prim_sint32_spec|].
  intros m rest. apply (rd_ok _ _ _ _ rd_sint32). apply rw_sint; auto. lia.
Qed.
Print Assumptions C38_sint32.

Theorem C38_sint64 : forall v bs, in_i 64 v -> shortest (zigzag v) bs ->
  (forall s, prim_sint64 v s = delivered s bs) /\
  (forall m rest, get_sint64 m (bs ++ rest) = Ok (v, N.of_nat (length bs))).
Proof.
  intros v bs Hi Hs. split; [intros s; now apply prim_sint64_spec|].
  intros m rest. apply (rd_ok _ _ _ _ rd_sint64). apply rw_sint; auto. lia.
Qed.
Print Assumptions C38_sint64.

Theorem C38_bijection : forall z n, zigzag z = n <-> unzigzag n = z.
Proof.
  intros z n. split; [intros <-; apply unzigzag_zigzag|]. intros <-. unfold zigzag, unzigzag.
  destruct (N.even n) eqn:E.
  - apply N.even_spec in E as (k & ->). rewrite N.mul_comm, N.div_mul by lia.
    replace (Z.of_N k <? 0)%Z with false by lia. lia.
  - assert (O : N.odd n = true) by (rewrite <- N.negb_even, E; reflexivity).
    apply N.odd_spec in O as (k & ->).
    replace ((2 * k + 1) / 2) with k by (rewrite N.mul_comm, N.div_add_l, (N.div_small 1); lia).
    replace (- Z.of_N k - 1 <? 0)%Z with true by lia. lia.
Qed.
Print Assumptions C38_bijection.

Example C38_case : zigzag (-1) = 1 /\ zigzag 1 = 2 /\ zigzag (-2147483648) = 2 ^ 32 - 1 /\ in_i 32 (-2147483648) /\
  prim_sint32 (-2147483648) (vec_sink []) = (vec_sink [255; 255; 255; 255; 15], Ok 5).
Proof. repeat split; discriminate. Qed.

(* ------------------------------------------------------------------ *)
(* C39, C40: every literal kind round-trips through its payload. *)
Theorem C39_round_trip : forall m l t p, lit_ok l -> lit_wire l t p -> reads_back m l p.
Proof. exact reads_back_all. Qed.
Print Assumptions C39_round_trip.

Theorem C39_payload_exists : forall l, lit_ok l -> exists t p, lit_wire l t p.
Proof. exact lit_wire_exists. Qed.
Print Assumptions C39_payload_exists.

(* End to end: encode one field, decode it, convert it. *)
Theorem C39_field : forall m tag l, 1 <= tag < 2 ^ 29 -> lit_ok l -> small_lit l -> nonempty_lit l ->
  exists bs t p, pencode tag l (vec_sink []) = (vec_sink bs, Ok (N.of_nat (length bs))) /\
    pdecode m pdecoder_default bs [] = ((pdecoder_default, [], [(tag, t, p)]), Ok (N.of_nat (length bs))) /\
    reads_back m l p.
Proof.
  intros m tag l Ht Hl Hs Hn.
  destruct (message_round_trip m [(tag, l)]) as (bs & ws & He & Hd & Hc).
  { repeat constructor; tauto. } { repeat constructor; exact Hn. }
  inversion Hc as [|f w fs ws' (Hw & Hr) Hc']; subst. inversion Hc'; subst.
  destruct w as [[tag' t] p]. destruct Hw as [Et Hw]. cbn [fst snd] in *. subst tag'.
  exists bs, t, p. split; [|split; [apply (Hd [])|exact Hr]].
  specialize (He []). cbn [encode_message fst snd app] in He.
  destruct (pencode tag l (vec_sink [])) as [s [n|e| |]]; cbn [binds] in He; try discriminate.
  rewrite N.add_0_r in He. exact He.
Qed.
Print Assumptions C39_field.

Example C39_case : lit_ok (ESInt64 (-3)) /\ small_lit (ESInt64 (-3)) /\ lit_wire (ESInt64 (-3)) Varint [5].
Proof.
  split; [split; reflexivity || discriminate|]. split.
  - intros t p [_ H]. rewrite (shortest_unique _ _ _ H (shortest_small 5 eq_refl)). reflexivity.
  - split; [reflexivity|]. apply shortest_small. reflexivity.
Qed.

(* C40: packed vectors.  [packed w vs p]: p is the concatenation of the encoded
   elements vs. *)
Theorem C40_round_trip : forall m p,
  (forall vs, packed w_bool vs p -> to_bool_vec m (DBoolVec p) = Ok vs) /\
  (forall vs, Forall (in_i 32) vs -> packed w_int vs p -> to_i32_vec m (DInt32Vec p) = Ok vs) /\
  (forall vs, Forall (in_i 64) vs -> packed w_int vs p -> to_i64_vec m (DInt64Vec p) = Ok vs) /\
  (forall vs, Forall u32_ok vs -> packed w_uint vs p -> to_u32_vec m (DUInt32Vec p) = Ok vs) /\
  (forall vs, Forall u64_ok vs -> packed w_uint vs p -> to_u64_vec m (DUInt64Vec p) = Ok vs) /\
  (forall vs, Forall (in_i 32) vs -> packed w_sint vs p -> to_i32_vec m (DSInt32Vec p) = Ok vs) /\
  (forall vs, Forall (in_i 64) vs -> packed w_sint vs p -> to_i64_vec m (DSInt64Vec p) = Ok vs) /\
  (forall vs, Forall u32_ok vs -> packed (w_fixed 4) vs p -> to_u32_vec m (DFixed32Vec p) = Ok vs /\ to_f32_vec m (DFloatVec p) = Ok vs) /\
  (forall vs, Forall u64_ok vs -> packed (w_fixed 8) vs p -> to_u64_vec m (DFixed64Vec p) = Ok vs /\ to_f64_vec m (DDoubleVec p) = Ok vs) /\
  (forall vs, Forall (in_i 32) vs -> packed (w_sfixed 4 32) vs p -> to_i32_vec m (DSFixed32Vec p) = Ok vs) /\
  (forall vs, Forall (in_i 64) vs -> packed (w_sfixed 8 64) vs p -> to_i64_vec m (DSFixed64Vec p) = Ok vs).
Proof.
  intros m p. repeat match goal with |- _ /\ _ => split | |- forall _, _ => intro end.
  - apply (reads_back_all m (EBoolVec vs) LengthDelimited p I (conj eq_refl H)).
  - apply (reads_back_all m (EInt32Vec vs) LengthDelimited p H (conj eq_refl H0)).
  - apply (reads_back_all m (EInt64Vec vs) LengthDelimited p H (conj eq_refl H0)).
  - apply (reads_back_all m (EUInt32Vec vs) LengthDelimited p H (conj eq_refl H0)).
  - apply (reads_back_all m (EUInt64Vec vs) LengthDelimited p H (conj eq_refl H0)).
  - apply (reads_back_all m (ESInt32Vec vs) LengthDelimited p H (conj eq_refl H0)).
  - apply (reads_back_all m (ESInt64Vec vs) LengthDelimited p H (conj eq_refl H0)).
  - apply (reads_back_all m (EFixed32Vec vs) LengthDelimited p H (conj eq_refl H0)).
  - apply (reads_back_all m (EFloatVec vs) LengthDelimited p H (conj eq_refl H0)).
  - apply (reads_back_all m (EFixed64Vec vs) LengthDelimited p H (conj eq_refl H0)).
  - apply (reads_back_all m (EDoubleVec vs) LengthDelimited p H (conj eq_refl H0)).
  - apply (reads_back_all m (ESFixed32Vec vs) LengthDelimited p H (conj eq_refl H0)).
  - apply (reads_back_all m (ESFixed64Vec vs) LengthDelimited p H (conj eq_refl H0)).
Qed.
Print Assumptions C40_round_trip.

(* The encoder writes exactly such a payload, with key and length in front. *)
Theorem C40_encode : forall m tag l, 1 <= tag < 2 ^ 29 -> lit_ok l -> small_lit l ->
  (exists t p, lit_wire l t p /\ t = LengthDelimited) ->
  exists p key len, lit_wire l LengthDelimited p /\ shortest (8 * tag + 2) key /\ shortest (N.of_nat (length p)) len /\
    (forall dst, pencode tag l (vec_sink dst) =
       (vec_sink (dst ++ key ++ len ++ p), Ok (N.of_nat (length (key ++ len ++ p))))) /\ reads_back m l p.
Proof.
  intros m tag l Ht Hl Hs (t & p & Hw & ->).
  destruct (field_wire_exists tag LengthDelimited p 2 Ht eq_refl (Hs _ _ Hw)) as (bs & Hb). pose proof Hb as Hb'.
  destruct Hb' as (n & key & Hn & Hk & len & Hlen & ->). cbn in Hn. subst n.
  exists p, key, len. split; [exact Hw|]. split; [exact Hk|]. split; [exact Hlen|]. split.
  - intros dst. rewrite (pencode_spec tag l _ p _ (vec_sink dst) Ht Hl Hw (Hs _ _ Hw) Hb). apply delivered_vec.
  - eapply reads_back_all; eauto.
Qed.
Print Assumptions C40_encode.

(* A payload that ends inside an element yields the empty vector. *)
Theorem C40_cut : forall m a x, bytes (a ++ x) -> x <> [] ->
  (short_varint m x ->
     (forall vs, packed (r_bool m) vs a -> to_bool_vec m (DBoolVec (a ++ x)) = Ok []) /\
     (forall vs, packed (r_int 32 m) vs a -> to_i32_vec m (DInt32Vec (a ++ x)) = Ok []) /\
     (forall vs, packed (r_int 64 m) vs a -> to_i64_vec m (DInt64Vec (a ++ x)) = Ok []) /\
     (forall vs, packed (r_uint 32 m) vs a -> to_u32_vec m (DUInt32Vec (a ++ x)) = Ok []) /\
     (forall vs, packed (r_uint 64 m) vs a -> to_u64_vec m (DUInt64Vec (a ++ x)) = Ok []) /\
     (forall vs, packed (r_sint 32 m) vs a -> to_i32_vec m (DSInt32Vec (a ++ x)) = Ok []) /\
     (forall vs, packed (r_sint 64 m) vs a -> to_i64_vec m (DSInt64Vec (a ++ x)) = Ok [])) /\
  ((length x < 4)%nat ->
     (forall vs, packed (r_fixed 4 m) vs a -> to_u32_vec m (DFixed32Vec (a ++ x)) = Ok [] /\ to_f32_vec m (DFloatVec (a ++ x)) = Ok []) /\
     (forall vs, packed (r_sfixed 4 32 m) vs a -> to_i32_vec m (DSFixed32Vec (a ++ x)) = Ok [])) /\
  ((length x < 8)%nat ->
     (forall vs, packed (r_fixed 8 m) vs a -> to_u64_vec m (DFixed64Vec (a ++ x)) = Ok [] /\ to_f64_vec m (DDoubleVec (a ++ x)) = Ok []) /\
     (forall vs, packed (r_sfixed 8 64 m) vs a -> to_i64_vec m (DSFixed64Vec (a ++ x)) = Ok [])).
Proof.
  intros m a x Hb Hx. repeat match goal with |- _ /\ _ => split | |- forall _, _ => intro end.
  - destruct (to_bool_vec_spec m (DBoolVec (a ++ x)) Hb) as (_ & X & _). eapply X; eauto.
  - destruct (to_i32_vec_spec m (DInt32Vec (a ++ x)) Hb) as (_ & X & _). eapply X; eauto.
  - destruct (to_i64_vec_spec m (DInt64Vec (a ++ x)) Hb) as (_ & X & _). eapply X; eauto.
  - destruct (to_u32_vec_spec m (DUInt32Vec (a ++ x)) Hb) as (_ & X & _). eapply X; eauto.
  - destruct (to_u64_vec_spec m (DUInt64Vec (a ++ x)) Hb) as (_ & X & _). eapply X; eauto.
  - destruct (to_i32_vec_spec m (DSInt32Vec (a ++ x)) Hb) as (_ & X & _). eapply X; eauto.
  - destruct (to_i64_vec_spec m (DSInt64Vec (a ++ x)) Hb) as (_ & X & _). eapply X; eauto.
  - destruct (to_u32_vec_spec m (DFixed32Vec (a ++ x)) Hb) as (_ & X & _). eapply X; eauto.
  - destruct (to_f32_vec_spec m (DFloatVec (a ++ x)) Hb) as (_ & X & _). eapply X; eauto.
  - destruct (to_i32_vec_spec m (DSFixed32Vec (a ++ x)) Hb) as (_ & X & _). eapply X; eauto.
  - destruct (to_u64_vec_spec m (DFixed64Vec (a ++ x)) Hb) as (_ & X & _). eapply X; eauto.
  - destruct (to_f64_vec_spec m (DDoubleVec (a ++ x)) Hb) as (_ & X & _). eapply X; eauto.
  - destruct (to_i64_vec_spec m (DSFixed64Vec (a ++ x)) Hb) as (_ & X & _). eapply X; eauto.
Qed.
Print Assumptions C40_cut.

Example C40_case : forall m,
  lit_wire (ESInt32Vec [-10; 10]%Z) LengthDelimited [19; 20] /\
  to_i32_vec m (DSInt32Vec [19; 20]) = Ok [-10; 10]%Z /\
  to_i32_vec m (DSInt32Vec [19; 20; 128]) = Ok [] /\ to_i32_vec m (DSInt32Vec []) = Ok [].
Proof.
  intros m. split.
  - split; [reflexivity|]. exists [[19]; [20]]. split; [|reflexivity].
    repeat constructor; cbn; try lia; intros bs' H; destruct H; cbn; lia.
  - destruct m; repeat split.
Qed.

(* ------------------------------------------------------------------ *)
(* C41: one field, any writer. *)
Theorem C41_encode : forall tag l t p bs s, 1 <= tag < 2 ^ 29 -> lit_ok l -> lit_wire l t p ->
  N.of_nat (length p) < 2 ^ 64 -> field_wire (tag, t, p) bs -> pencode tag l s = delivered s bs.
Proof. exact pencode_spec. Qed.
Print Assumptions C41_encode.

Theorem C41_field_exists : forall tag l t p, 1 <= tag < 2 ^ 29 -> lit_wire l t p -> N.of_nat (length p) < 2 ^ 64 ->
  exists bs, field_wire (tag, t, p) bs.
Proof.
  intros tag l t p Ht Hw Hp. destruct (lit_wire_typ l t p Hw) as (n & Hn). eapply field_wire_exists; eauto.
Qed.
Print Assumptions C41_field_exists.

Theorem C41_invalid_tag : forall tag l s, lit_ok l -> tag = 0 \/ 2 ^ 29 <= tag -> pencode tag l s = (s, Err PInvalidTag).
Proof. exact pencode_bad_tag. Qed.
Print Assumptions C41_invalid_tag.

(* The meaning of [delivered]: a Vec takes everything; a writer with room for r
   octets takes the first r and the call fails if that is not all. *)
Theorem C41_vec : forall dst bs, delivered (vec_sink dst) bs = (vec_sink (dst ++ bs), Ok (N.of_nat (length bs))).
Proof. exact delivered_vec. Qed.
Print Assumptions C41_vec.

Theorem C41_interrupted : forall tag l t p bs w r, 1 <= tag < 2 ^ 29 -> lit_ok l -> lit_wire l t p ->
  N.of_nat (length p) < 2 ^ 64 -> field_wire (tag, t, p) bs -> r < N.of_nat (length bs) ->
  exists a x, bs = a ++ x /\ N.of_nat (length a) = r /\
    pencode tag l (mkSink w (Some r)) = (mkSink (w ++ a) (Some 0), Err PInterrupted).
Proof.
  intros tag l t p bs w r Ht Hl Hw Hp Hf Hr. exists (firstn (N.to_nat r) bs), (skipn (N.to_nat r) bs).
  split; [now rewrite firstn_skipn|]. split; [rewrite firstn_length; lia|].
  rewrite (pencode_spec tag l t p bs _ Ht Hl Hw Hp Hf). unfold delivered. cbn [room written].
  now replace (N.of_nat (length bs) <=? r) with false by lia.
Qed.
Print Assumptions C41_interrupted.

(* The From impls choose the literal kinds. *)
Theorem C41_from : forall t p,
  (forall v, lit_wire (lit_of_bool v) t p <-> t = Varint /\ w_bool v p) /\
  (forall v, lit_wire (lit_of_bool_vec v) t p <-> t = LengthDelimited /\ packed w_bool v p) /\
  (forall v, lit_wire (lit_of_i32 v) t p <-> t = Varint /\ w_int v p) /\
  (forall v, lit_wire (lit_of_i32_vec v) t p <-> t = LengthDelimited /\ packed w_int v p) /\
  (forall v, lit_wire (lit_of_i64 v) t p <-> t = Varint /\ w_int v p) /\
  (forall v, lit_wire (lit_of_i64_vec v) t p <-> t = LengthDelimited /\ packed w_int v p) /\
  (forall v, lit_wire (lit_of_u32 v) t p <-> t = Varint /\ w_uint v p) /\
  (forall v, lit_wire (lit_of_u32_vec v) t p <-> t = LengthDelimited /\ packed w_uint v p) /\
  (forall v, lit_wire (lit_of_u64 v) t p <-> t = Varint /\ w_uint v p) /\
  (forall v, lit_wire (lit_of_u64_vec v) t p <-> t = LengthDelimited /\ packed w_uint v p) /\
  (forall v, lit_wire (lit_of_f32 v) t p <-> t = Bit32 /\ w_fixed 4 v p) /\
  (forall v, lit_wire (lit_of_f32_vec v) t p <-> t = LengthDelimited /\ packed (w_fixed 4) v p) /\
  (forall v, lit_wire (lit_of_f64 v) t p <-> t = Bit64 /\ w_fixed 8 v p) /\
  (forall v, lit_wire (lit_of_f64_vec v) t p <-> t = LengthDelimited /\ packed (w_fixed 8) v p) /\
  (forall v, lit_wire (lit_of_u8_vec v) t p <-> t = LengthDelimited /\ p = v).
Proof. intros t p. repeat (split; [intros v; reflexivity|]). intros v; reflexivity. Qed.
Print Assumptions C41_from.

(* … and which variant of EncoderLit each of them is, payload untouched: float
   and fixed-width vectors share an encoding but are different values. *)
Theorem C41_from_variants :
  (forall v, lit_of_bool v = EBool v) /\ (forall v, lit_of_bool_vec v = EBoolVec v) /\
  (forall v, lit_of_i32 v = EInt32 v) /\ (forall v, lit_of_i32_vec v = EInt32Vec v) /\
  (forall v, lit_of_i64 v = EInt64 v) /\ (forall v, lit_of_i64_vec v = EInt64Vec v) /\
  (forall v, lit_of_u32 v = EUInt32 v) /\ (forall v, lit_of_u32_vec v = EUInt32Vec v) /\
  (forall v, lit_of_u64 v = EUInt64 v) /\ (forall v, lit_of_u64_vec v = EUInt64Vec v) /\
  (forall v, lit_of_f32 v = EFloat v) /\ (forall v, lit_of_f32_vec v = EFloatVec v) /\
  (forall v, lit_of_f64 v = EDouble v) /\ (forall v, lit_of_f64_vec v = EDoubleVec v) /\
  (forall v, lit_of_u8_vec v = EBytes v).
Proof. repeat (split; [intros v; reflexivity|]). intros v; reflexivity. Qed.
Print Assumptions C41_from_variants.

(* The message of the unit test encodes_supported, encoder/mod.rs:679-745. *)
Definition sample_message : list (N * encoder_lit) :=
  [(1, lit_of_u8_vec [102; 111; 111]); (2, lit_of_bool true); (3, lit_of_bool_vec [false; true]);
   (4, lit_of_i32 1%Z); (5, lit_of_i32_vec [-100; 100]%Z); (6, lit_of_i64 1%Z); (7, lit_of_i64_vec [-100; 100]%Z);
   (8, lit_of_u32 1); (9, lit_of_u32_vec [1; 2]); (10, lit_of_u64 1); (11, lit_of_u64_vec [1; 2]);
   (12, lit_of_f32 1065353216); (13, lit_of_f32_vec [1065353216; 1073741824]);
   (14, lit_of_f64 4607182418800017408); (15, lit_of_f64_vec [4607182418800017408; 4611686018427387904]);
   (16, lit_of_u8_vec [102; 111; 111]); (17, ESInt32 (-10)); (18, ESInt32Vec [-10; 10]%Z); (19, ESInt64 (-10));
   (20, ESInt64Vec [-10; 10]%Z); (21, EFixed32 10); (22, EFixed32Vec [1; 2]); (23, EFixed64 10); (24, EFixed64Vec [1; 2]);
   (25, ESFixed32 (-10)); (26, ESFixed32Vec [-10; 10]%Z); (27, ESFixed64 (-10)); (28, ESFixed64Vec [-10; 10]%Z)].
Definition sample_bytes : list N :=
  [10; 3; 102; 111; 111; 16; 1; 26; 2; 0; 1; 32; 1; 42; 11; 156; 255; 255; 255; 255; 255; 255; 255; 255; 1; 100;
   48; 1; 58; 11; 156; 255; 255; 255; 255; 255; 255; 255; 255; 1; 100; 64; 1; 74; 2; 1; 2; 80; 1; 90; 2; 1; 2;
   101; 0; 0; 128; 63; 106; 8; 0; 0; 128; 63; 0; 0; 0; 64; 113; 0; 0; 0; 0; 0; 0; 240; 63;
   122; 16; 0; 0; 0; 0; 0; 0; 240; 63; 0; 0; 0; 0; 0; 0; 0; 64; 130; 1; 3; 102; 111; 111; 136; 1; 19;
   146; 1; 2; 19; 20; 152; 1; 19; 162; 1; 2; 19; 20; 173; 1; 10; 0; 0; 0; 178; 1; 8; 1; 0; 0; 0; 2; 0; 0; 0;
   185; 1; 10; 0; 0; 0; 0; 0; 0; 0; 194; 1; 16; 1; 0; 0; 0; 0; 0; 0; 0; 2; 0; 0; 0; 0; 0; 0; 0;
   205; 1; 246; 255; 255; 255; 210; 1; 8; 246; 255; 255; 255; 10; 0; 0; 0;
   217; 1; 246; 255; 255; 255; 255; 255; 255; 255;
   226; 1; 16; 246; 255; 255; 255; 255; 255; 255; 255; 10; 0; 0; 0; 0; 0; 0; 0].
Example C41_case : encode_message sample_message (vec_sink []) = (vec_sink sample_bytes, Ok 209)
  /\ pencode 1 (EBytes [1; 2; 3]) (mkSink [] (Some 3)) = (mkSink [10; 3; 1] (Some 0), Err PInterrupted)
  /\ pencode 0 (EBytes [1]) (vec_sink []) = (vec_sink [], Err PInvalidTag).
Proof. repeat split; vm_compute; reflexivity. Qed.

(* ------------------------------------------------------------------ *)
(* C42: messages without empty payloads. *)
Theorem C42_message : forall m fs, Forall good_field fs -> Forall (fun f => nonempty_lit (snd f)) fs ->
  exists bs ws,
    (forall pre, encode_message fs (vec_sink pre) = (vec_sink (pre ++ bs), Ok (N.of_nat (length bs)))) /\
    (forall dst, pdecode m pdecoder_default bs dst = ((pdecoder_default, [], dst ++ ws), Ok (N.of_nat (length bs)))) /\
    Forall2 (fun f w => carries f w /\ reads_back m (snd f) (snd w)) fs ws.
Proof. exact message_round_trip. Qed.
Print Assumptions C42_message.

(* Also from the wire side, whoever encoded the fields. *)
Theorem C42_wire : forall m fs parts dst, Forall2 field_wire fs parts ->
  Forall (fun f => 1 <= fst (fst f) < 2 ^ 29 /\ payload_ok (snd (fst f)) (snd f) /\ snd f <> []) fs ->
  pdecode m pdecoder_default (concat parts) dst =
  ((pdecoder_default, [], dst ++ fs), Ok (N.of_nat (length (concat parts)))).
Proof. exact decode_message. Qed.
Print Assumptions C42_wire.

Example C42_good : Forall good_field [(1, ESInt64 (-3)); (536870911, EBytes [1; 255])].
Proof.
  repeat constructor; try discriminate.
  - intros t p [_ H]. rewrite (shortest_unique _ _ _ H (shortest_small 5 eq_refl)). reflexivity.
  - intros t p [_ ->]. reflexivity.
Qed.

Example C42_case : forall m,
  Forall (fun f => nonempty_lit (snd f)) sample_message /\
  exists ws, pdecode m pdecoder_default sample_bytes [] = ((pdecoder_default, [], ws), Ok 209) /\
    map (fun w => fst (fst w)) ws = map fst sample_message.
Proof.
  intros m. split; [repeat constructor; cbn; discriminate|].
  destruct m; eexists; split; vm_compute; reflexivity.
Qed.

(* ------------------------------------------------------------------ *)
(* C43: with empty payloads one call is not enough: *)
Theorem C43_one_call_refuted : forall m,
  encode_message [(1, EBytes []); (2, EUInt32 5)] (vec_sink []) = (vec_sink [10; 0; 16; 5], Ok 4) /\
  pdecode m pdecoder_default [10; 0; 16; 5] [] = ((pdecoder_default, [16; 5], [(1, LengthDelimited, [])]), Ok 2).
Proof. intros []; split; reflexivity. Qed.
Print Assumptions C43_one_call_refuted.

(* ... it stops right after the first empty payload, *)
Theorem C43_stops_partial : forall m fs parts tag key more dst, Forall2 field_wire fs parts ->
  Forall (fun f => 1 <= fst (fst f) < 2 ^ 29 /\ payload_ok (snd (fst f)) (snd f) /\ snd f <> []) fs ->
  1 <= tag < 2 ^ 29 -> field_wire (tag, LengthDelimited, []) key ->
  pdecode m pdecoder_default (concat parts ++ key ++ more) dst =
  ((pdecoder_default, more, dst ++ fs ++ [(tag, LengthDelimited, [])]), Ok (N.of_nat (length (concat parts ++ key)))).
Proof. exact decode_message_empty. Qed.
Print Assumptions C43_stops_partial.

(* ... and a caller that repeats the call until it returns 0 gets everything. *)
Theorem C43_repeat_partial : forall m fs, Forall good_field fs ->
  exists bs ws,
    (forall pre, encode_message fs (vec_sink pre) = (vec_sink (pre ++ bs), Ok (N.of_nat (length bs)))) /\
    (forall dst, decode_fully m pdecoder_default bs dst = ((pdecoder_default, [], dst ++ ws), Ok tt)) /\
    Forall2 (fun f w => carries f w /\ reads_back m (snd f) (snd w)) fs ws.
Proof. exact message_round_trip_fully. Qed.
Print Assumptions C43_repeat_partial.

(* An empty payload between two others. *)
Example C43_case : forall m,
  let bs := [8; 1; 18; 0; 26; 1; 9] in
  encode_message [(1, EBool true); (2, EUInt32Vec []); (3, EBytes [9])] (vec_sink []) = (vec_sink bs, Ok 7) /\
  pdecode m pdecoder_default bs [] =
    ((pdecoder_default, [26; 1; 9], [(1, Varint, [1]); (2, LengthDelimited, [])]), Ok 4) /\
  decode_fully m pdecoder_default bs [] =
    ((pdecoder_default, [], [(1, Varint, [1]); (2, LengthDelimited, []); (3, LengthDelimited, [9])]), Ok tt).
Proof. intros []; vm_compute; repeat split. Qed.

(* ------------------------------------------------------------------ *)
(* C44: streams in pieces. *)
Theorem C44_split : forall m p a b dst d1 r1 dst1, bytes (a ++ b) -> idle p ->
  decode_fully m (decoder_of p) a dst = ((d1, r1, dst1), Ok tt) ->
  decode_fully m (decoder_of p) (a ++ b) dst = decode_fully m d1 (r1 ++ b) dst1.
Proof. exact decode_split. Qed.
Print Assumptions C44_split.

Theorem C44_error : forall m p a b dst d1 r1 dst1 o, bytes (a ++ b) -> idle p ->
  decode_fully m (decoder_of p) a dst = ((d1, r1, dst1), o) -> o <> Ok tt ->
  decode_fully m (decoder_of p) (a ++ b) dst = ((d1, r1 ++ b, dst1), o).
Proof. exact decode_split_error. Qed.
Print Assumptions C44_error.

Theorem C44_pieces : forall m p pieces dst, bytes (concat pieces) -> idle p -> pieces <> [] ->
  feed m (decoder_of p) [] pieces dst = decode_fully m (decoder_of p) (concat pieces) dst.
Proof. exact feed_all. Qed.
Print Assumptions C44_pieces.

Example C44_case : forall m,
  feed m pdecoder_default [] [[8]; [150]; [1; 18; 2]; [65; 66; 26]; [0; 8]] [] =
    ((mkP 1 Varint None, [], [(1, Varint, [150; 1]); (2, LengthDelimited, [65; 66]); (3, LengthDelimited, [])]), Ok tt) /\
  idle (GotKey 1 Varint).
Proof. intros []; repeat split; discriminate || reflexivity. Qed.

(* ------------------------------------------------------------------ *)
(* C45: errors. *)
Theorem C45_error : forall m p b dst d1 r1 dst1 e, bytes b -> idle p ->
  pdecode m (decoder_of p) b dst = ((d1, r1, dst1), Err e) ->
  e = PInvalidInput /\ d1 = pdecoder_default /\
  (exists key k x, r1 = key ++ x /\ reads m key k /\ bad_key k) /\
  exists a hs, b = a ++ r1 /\ items m true p a Start hs /\ dst1 = dst ++ hs.
Proof. intros m p b dst d1 r1 dst1 e Hb Hp. apply decode_error; auto. now apply idle_sane. Qed.
Print Assumptions C45_error.

Theorem C45_fields_before : forall m parts fs key k x dst, Forall2 field_wire fs parts ->
  Forall (fun f => 1 <= fst (fst f) < 2 ^ 29 /\ payload_ok (snd (fst f)) (snd f) /\ snd f <> []) fs ->
  reads m key k -> bad_key k ->
  pdecode m pdecoder_default (concat parts ++ key ++ x) dst =
  ((pdecoder_default, key ++ x, dst ++ fs), Err PInvalidInput).
Proof.
  intros m parts fs key k x dst Hf HF Hr Hb. change pdecoder_default with (decoder_of Start).
  rewrite (pdecode_run m Start (concat parts) Start fs (key ++ x) Start [] (Err PInvalidInput)).
  - now rewrite app_nil_r.
  - apply fields_items; [exact Hf|]. eapply Forall_impl; [|exact HF]. cbn. tauto.
  - constructor. now apply halt_bad_key with k.
Qed.
Print Assumptions C45_fields_before.

Example C45_case : forall m,
  pdecode m pdecoder_default [8; 1; 12; 9] [] = ((pdecoder_default, [12; 9], [(1, Varint, [1])]), Err PInvalidInput).
Proof. intros []; reflexivity. Qed.

(* ------------------------------------------------------------------ *)
(* C46: conversions. *)
Theorem C46_bool : forall m l,
  match l with
  | DBool b => bytes b -> converts r_bool short_varint overlong false m b (to_bool m l)
  | _ => to_bool m l = Ok false
  end.
Proof. exact to_bool_spec. Qed.
Print Assumptions C46_bool.
Theorem C46_bool_vec : forall m l,
  match l with
  | DBoolVec b => bytes b -> converts_all r_bool short_varint overlong m b (to_bool_vec m l)
  | _ => to_bool_vec m l = Ok []
  end.
Proof. exact to_bool_vec_spec. Qed.
Print Assumptions C46_bool_vec.
Theorem C46_i32 : forall m l,
  match l with
  | DInt32 b => bytes b -> converts (r_int 32) short_varint overlong 0%Z m b (to_i32 m l)
  | DSInt32 b => bytes b -> converts (r_sint 32) short_varint overlong 0%Z m b (to_i32 m l)
  | DSFixed32 b => bytes b -> converts (r_sfixed 4 32) (short_fixed 4) never 0%Z m b (to_i32 m l)
  | _ => to_i32 m l = Ok 0%Z
  end.
Proof. exact to_i32_spec. Qed.
Print Assumptions C46_i32.
Theorem C46_i32_vec : forall m l,
  match l with
  | DInt32Vec b => bytes b -> converts_all (r_int 32) short_varint overlong m b (to_i32_vec m l)
  | DSInt32Vec b => bytes b -> converts_all (r_sint 32) short_varint overlong m b (to_i32_vec m l)
  | DSFixed32Vec b => bytes b -> converts_all (r_sfixed 4 32) (short_fixed 4) never m b (to_i32_vec m l)
  | _ => to_i32_vec m l = Ok []
  end.
Proof. exact to_i32_vec_spec. Qed.
Print Assumptions C46_i32_vec.
Theorem C46_i64 : forall m l,
  match l with
  | DInt64 b => bytes b -> converts (r_int 64) short_varint overlong 0%Z m b (to_i64 m l)
  | DSInt64 b => bytes b -> converts (r_sint 64) short_varint overlong 0%Z m b (to_i64 m l)
  | DSFixed64 b => bytes b -> converts (r_sfixed 8 64) (short_fixed 8) never 0%Z m b (to_i64 m l)
  | _ => to_i64 m l = Ok 0%Z
  end.
Proof. exact to_i64_spec. Qed.
Print Assumptions C46_i64.
Theorem C46_i64_vec : forall m l,
  match l with
  | DInt64Vec b => bytes b -> converts_all (r_int 64) short_varint overlong m b (to_i64_vec m l)
  | DSInt64Vec b => bytes b -> converts_all (r_sint 64) short_varint overlong m b (to_i64_vec m l)
  | DSFixed64Vec b => bytes b -> converts_all (r_sfixed 8 64) (short_fixed 8) never m b (to_i64_vec m l)
  | _ => to_i64_vec m l = Ok []
  end.
Proof. exact to_i64_vec_spec. Qed.
Print Assumptions C46_i64_vec.
Theorem C46_u32 : forall m l,
  match l with
  | DUInt32 b => bytes b -> converts (r_uint 32) short_varint overlong 0 m b (to_u32 m l)
  | DFixed32 b => bytes b -> converts (r_fixed 4) (short_fixed 4) never 0 m b (to_u32 m l)
  | _ => to_u32 m l = Ok 0
  end.
Proof. exact to_u32_spec. Qed.
Print Assumptions C46_u32.
Theorem C46_u32_vec : forall m l,
  match l with
  | DUInt32Vec b => bytes b -> converts_all (r_uint 32) short_varint overlong m b (to_u32_vec m l)
  | DFixed32Vec b => bytes b -> converts_all (r_fixed 4) (short_fixed 4) never m b (to_u32_vec m l)
  | _ => to_u32_vec m l = Ok []
  end.
Proof. exact to_u32_vec_spec. Qed.
Print Assumptions C46_u32_vec.
Theorem C46_u64 : forall m l,
  match l with
  | DUInt64 b => bytes b -> converts (r_uint 64) short_varint overlong 0 m b (to_u64 m l)
  | DFixed64 b => bytes b -> converts (r_fixed 8) (short_fixed 8) never 0 m b (to_u64 m l)
  | _ => to_u64 m l = Ok 0
  end.
Proof. exact to_u64_spec. Qed.
Print Assumptions C46_u64.
Theorem C46_u64_vec : forall m l,
  match l with
  | DUInt64Vec b => bytes b -> converts_all (r_uint 64) short_varint overlong m b (to_u64_vec m l)
  | DFixed64Vec b => bytes b -> converts_all (r_fixed 8) (short_fixed 8) never m b (to_u64_vec m l)
  | _ => to_u64_vec m l = Ok []
  end.
Proof. exact to_u64_vec_spec. Qed.
Print Assumptions C46_u64_vec.
Theorem C46_f32 : forall m l,
  match l with
  | DFloat b => bytes b -> converts (r_fixed 4) (short_fixed 4) never 0 m b (to_f32 m l)
  | _ => to_f32 m l = Ok 0
  end.
Proof. exact to_f32_spec. Qed.
Print Assumptions C46_f32.
Theorem C46_f32_vec : forall m l,
  match l with
  | DFloatVec b => bytes b -> converts_all (r_fixed 4) (short_fixed 4) never m b (to_f32_vec m l)
  | _ => to_f32_vec m l = Ok []
  end.
Proof. exact to_f32_vec_spec. Qed.
Print Assumptions C46_f32_vec.
Theorem C46_f64 : forall m l,
  match l with
  | DDouble b => bytes b -> converts (r_fixed 8) (short_fixed 8) never 0 m b (to_f64 m l)
  | _ => to_f64 m l = Ok 0
  end.
Proof. exact to_f64_spec. Qed.
Print Assumptions C46_f64.
Theorem C46_f64_vec : forall m l,
  match l with
  | DDoubleVec b => bytes b -> converts_all (r_fixed 8) (short_fixed 8) never m b (to_f64_vec m l)
  | _ => to_f64_vec m l = Ok []
  end.
Proof. exact to_f64_vec_spec. Qed.
Print Assumptions C46_f64_vec.
Theorem C46_bytes : forall l, match l with DBytes b => to_u8_vec l = b | _ => to_u8_vec l = [] end.
Proof. intros []; reflexivity. Qed.
Print Assumptions C46_bytes.
Theorem C46_string : forall l,
  match l with
  | DBytes b => (utf8_text b -> to_string l = b) /\ (~ utf8_text b -> to_string l = [])
  | _ => to_string l = []
  end.
Proof. intros []; try reflexivity. apply to_string_spec. Qed.
Print Assumptions C46_string.

(* "grüß€" and a surrogate. *)
Example C46_case : forall m,
  to_string (DBytes [103; 114; 195; 188; 195; 159; 226; 130; 172]) = [103; 114; 195; 188; 195; 159; 226; 130; 172] /\
  to_string (DBytes [237; 160; 128]) = [] /\
  to_i32 m (DInt32 [255; 255; 255; 255; 255; 255; 255; 255; 255; 1]) = Ok (-1)%Z /\
  to_u32 m (DFixed32 [1; 2; 3]) = Ok 0 /\ to_u32 m (DInt32 [1]) = Ok 0.
Proof. intros []; repeat split. Qed.

(* ------------------------------------------------------------------ *)
(* C47: termination; panics only of debug builds on over-long varints. *)
Theorem C47_terminates : forall m p b dst, bytes b -> idle p ->
  snd (pdecode m (decoder_of p) b dst) <> OutOfFuel /\
  (m = Release -> snd (pdecode m (decoder_of p) b dst) <> Panic).
Proof. intros m p b dst Hb Hp. apply decode_terminates; auto. now apply idle_sane. Qed.
Print Assumptions C47_terminates.

Theorem C47_count : forall m p b dst st n, bytes b -> idle p ->
  pdecode m (decoder_of p) b dst = (st, Ok n) -> exists a, b = a ++ snd (fst st) /\ N.of_nat (length a) = n.
Proof. intros m p b dst st n Hb Hp. apply decode_count; auto. now apply idle_sane. Qed.
Print Assumptions C47_count.

(* One call, exactly: it takes items while they have at least one octet, then
   ends as [call_ends] says. *)
Theorem C47_call : forall m p b dst, bytes b -> idle p ->
  exists a p1 hs rest p2 hs2 o, b = a ++ rest /\ items m true p a p1 hs /\ call_ends m p1 rest p2 hs2 o /\ idle p2 /\
  pdecode m (decoder_of p) b dst = ((decoder_of p2, rest, dst ++ hs ++ hs2), with_count (N.of_nat (length a)) o).
Proof.
  intros m p b dst Hb Hp. destruct (pdecode_total m p b dst Hb (idle_sane p Hp)) as (a & p1 & hs & rest & p2 & hs2 & o & E & Ha & Hc & Hd).
  exists a, p1, hs, rest, p2, hs2, o. repeat split; auto.
  eapply call_ends_idle; eauto. eapply items_sane; eauto. now apply idle_sane.
Qed.
Print Assumptions C47_call.

(* A second call without new input changes nothing, except after an empty payload. *)
Theorem C47_stable : forall m p b dst d1 r1 dst1, bytes b -> idle p ->
  decode_fully m (decoder_of p) b dst = ((d1, r1, dst1), Ok tt) ->
  pdecode m d1 r1 dst1 = ((d1, r1, dst1), Ok 0).
Proof.
  intros m p b dst d1 r1 dst1 Hb Hp E.
  destruct (decode_fully_total m p b dst Hb Hp) as (a & p1 & hs & rest & o & -> & Ha & Ho & Hp1 & E').
  rewrite E in E'. injection E'. intros <- -> -> ->.
  pose proof (pdecode_run m p1 [] p1 [] rest p1 [] (Ok tt) (dst ++ hs) (items_nil _ _ _)) as X.
  cbn [app length with_count] in X. rewrite X; [now rewrite app_nil_r|]. now constructor.
Qed.
Print Assumptions C47_stable.

(* A call that stops in the middle of a payload; the next one goes on and stops
   after a key. *)
Example C47_case : forall m,
  let '(st, r) := pdecode m pdecoder_default [18; 3; 120; 121] [] in
  r = Ok 2 /\ snd (fst st) = [120; 121] /\ snd st = [] /\
  pdecode m (fst (fst st)) [120; 121; 122; 8] [] =
    ((mkP 1 Varint None, [], [(2, LengthDelimited, [120; 121; 122])]), Ok 4).
Proof. intros []; vm_compute; repeat split. Qed.

(* ------------------------------------------------------------------ *)
(* C48: what is emitted was in the input. *)
Theorem C48_emitted : forall m p b dst d1 r1 dst1 o bs0, bytes b -> idle p -> pending_read m p bs0 ->
  pdecode m (decoder_of p) b dst = ((d1, r1, dst1), o) ->
  exists a p1 hs parts tail, b = a ++ r1 /\ d1 = decoder_of p1 /\ idle p1 /\ dst1 = dst ++ hs /\
    Forall2 (field_read m) hs parts /\ pending_read m p1 tail /\ bs0 ++ a = concat parts ++ tail.
Proof. exact decode_emits. Qed.
Print Assumptions C48_emitted.

Theorem C48_valid : forall m tag t p bs, field_read m (tag, t, p) bs -> 1 <= tag < 2 ^ 29 /\ t <> Unknown.
Proof. exact field_read_valid. Qed.
Print Assumptions C48_valid.

Example C48_case : forall m, pending_read m Start [] /\ pending_read m (GotKey 1 Varint) [8].
Proof.
  intros m. split; [reflexivity|]. exists 0. split; [|split; [reflexivity|lia]].
  apply reads_shortest; [apply shortest_small; lia|reflexivity].
Qed.
