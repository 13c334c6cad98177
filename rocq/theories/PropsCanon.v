(* C100: Encoder writes the shortest encoding.  Vocabulary: the first parts of ProtosCanon.v
   (plain_lit, plain_payload, plain_field, no_longer) and of ProtosForeign.v (any_varint,
   any_record). *)
From Verif Require Import Base Leb ProtosModel ProtosSpec ProtosApi ProtosNum ProtosEnc ProtosConv
  ProtosDec ProtosDerived ProtosMore ProtosForeign ProtosCanon.
Open Scope N_scope.

(* Among all encodings of a message (its fields in order, nested to any depth) the one that
   Encoder writes is the only shortest one. *)
Theorem C100_shortest : forall fs, tree_ok (Node fs) ->
  exists bs, encode_message (map (fun f => (fst f, as_lit (snd f))) fs) (vec_sink []) =
      (vec_sink bs, Ok (N.of_nat (length bs))) /\
    (exists ps, Forall2 plain_field fs ps /\ bs = concat ps) /\
    forall parts, Forall2 plain_field fs parts ->
      (length bs <= length (concat parts))%nat /\ (length bs = length (concat parts) -> bs = concat parts).
Proof. exact message_shortest. Qed.
Print Assumptions C100_shortest.

(* All of these encodings mean the same to a reader. *)
Theorem C100_same_meaning : forall m fs parts, tree_ok (Node fs) -> Forall2 plain_field fs parts ->
  tree_reads m (Node fs) (concat parts).
Proof.
  intros m fs parts Ho H. apply tree_understood with LengthDelimited. apply plain_any; [|exact Ho].
  exact (plain_node fs parts H).
Qed.
Print Assumptions C100_same_meaning.

(* So a message that was received in any of these encodings does not grow when its values are
   encoded again, and encoding again what Encoder wrote changes nothing. *)
Theorem C100_reencoded : forall m fs parts ws, tree_ok (Node fs) -> Forall2 plain_field fs parts ->
  decode_fully m pdecoder_default (concat parts) [] = ((pdecoder_default, [], ws), Ok tt) ->
  Forall2 (fun f w => fst f = fst (fst w) /\ tree_reads m (snd f) (snd w)) fs ws /\
  exists bs, encode_message (map (fun f => (fst f, as_lit (snd f))) fs) (vec_sink []) =
      (vec_sink bs, Ok (N.of_nat (length bs))) /\ (length bs <= length (concat parts))%nat.
Proof.
  intros m fs parts ws Ho H Hd. split.
  - pose proof (C100_same_meaning m fs parts Ho H) as Hr. inversion Hr as [|? ? ws' Hd' HF]; subst.
    rewrite Hd in Hd'. injection Hd' as ->. exact HF.
  - destruct (message_shortest fs Ho) as (bs & He & _ & Hs). exists bs. split; [exact He|]. now apply Hs.
Qed.
Print Assumptions C100_reencoded.

(* A nested message in 14 octets with padded varints, and in the 9 octets of Encoder. *)
Example C100_case :
  let fs := [(1, Leaf (EUInt32 300)); (2, Node [(1, Leaf (EBool true)); (3, Leaf (EBytes []))])] in
  let parts := [[136; 0; 172; 130; 0]; [18; 134; 0; 8; 129; 0; 154; 0; 0]] in
  tree_ok (Node fs) /\ Forall2 plain_field fs parts /\
  encode_message (map (fun f => (fst f, as_lit (snd f))) fs) (vec_sink []) =
    (vec_sink [8; 172; 2; 18; 4; 8; 1; 26; 0], Ok 9) /\ length (concat parts) = 14%nat.
Proof.
  intros fs parts.
  assert (V1 : forall b, b < 128 -> any_varint b [b]).
  { intros b Hb. refine (conj _ (conj _ _)); [now constructor| |simpl; lia]. apply N.lt_trans with 128; [exact Hb|reflexivity]. }
  assert (V2 : forall b c v, b < 128 -> c < 128 -> v = b + 128 * c -> v < 2 ^ 64 -> any_varint v [128 + b; c]).
  { intros b c v Hb Hc -> Hv. refine (conj _ (conj Hv _)); [constructor; [exact Hb|now constructor]|simpl; lia]. }
  assert (V3 : any_varint 300 [172; 130; 0]).
  { refine (conj _ (conj eq_refl _)); [|simpl; lia]. change 300 with (44 + 128 * (2 + 128 * 0)).
    change [172; 130; 0] with [128 + 44; 128 + 2; 0]. constructor; [reflexivity|]. constructor; [reflexivity|]. now constructor. }
  assert (S : forall v : list N, N.of_nat (length v) < 2 ^ 64 -> small_lit (EBytes v)) by (intros v H ty p [_ ->]; exact H).
  assert (T : forall n, n = 1 \/ n = 2 \/ n = 3 -> 1 <= n < 2 ^ 29).
  { intros n H. change (2 ^ 29) with 536870912. lia. }
  refine (conj _ (conj _ (conj eq_refl eq_refl))).
  - assert (O1 : tree_ok (Leaf (EUInt32 300))).
    { constructor; [reflexivity|]. intros ty p [_ Hp]. apply shortest64_length in Hp; [|reflexivity].
      change (2 ^ 64) with 18446744073709551616. lia. }
    assert (O2 : tree_ok (Leaf (EBool true))).
    { constructor; [exact I|]. intros ty p [_ Hp]. apply shortest64_length in Hp; [|reflexivity].
      change (2 ^ 64) with 18446744073709551616. lia. }
    assert (O3 : tree_ok (Leaf (EBytes []))) by (constructor; [constructor|apply S; reflexivity]).
    constructor; [|apply S; reflexivity].
    constructor; [split; [apply T; auto|exact O1]|]. constructor; [|constructor]. split; [apply T; auto|].
    constructor; [|apply S; reflexivity].
    constructor; [split; [apply T; auto|exact O2]|]. constructor; [split; [apply T; auto|exact O3]|constructor].
  - constructor; [|constructor; [|constructor]].
    + exists Varint, [172; 130; 0]. split; [apply plain_leaf; split; [reflexivity|exact V3]|].
      split; [apply T; auto|]. exists 0, [136; 0]. refine (conj eq_refl (conj _ eq_refl)).
      apply (V2 8 0); reflexivity.
    + exists LengthDelimited, [8; 129; 0; 154; 0; 0]. split.
      * change [8; 129; 0; 154; 0; 0] with (concat [[8; 129; 0]; [154; 0; 0]]). apply plain_node.
        constructor; [|constructor; [|constructor]].
        -- exists Varint, [129; 0]. split; [apply plain_leaf; split; [reflexivity|]; apply (V2 1 0); reflexivity|].
           split; [apply T; auto|]. exists 0, [8]. refine (conj eq_refl (conj _ eq_refl)). now apply V1.
        -- exists LengthDelimited, []. split; [apply plain_leaf; split; reflexivity|].
           split; [apply T; auto|]. exists 2, [154; 0]. refine (conj eq_refl (conj _ _)); [apply (V2 26 0); reflexivity|].
           exists [0]. split; [now apply V1|reflexivity].
      * split; [apply T; auto|]. exists 2, [18]. refine (conj eq_refl (conj _ _)); [now apply V1|].
        exists [134; 0]. split; [apply (V2 6 0); reflexivity|reflexivity].
Qed.

(* Why plain_lit fixes the number of a negative int32: a reader also takes -1 in five octets
   (C99), and Encoder writes ten. *)
Example C100_int32 : forall m,
  a_int 32 (-1) [255; 255; 255; 255; 15] /\ to_i32 m (DInt32 [255; 255; 255; 255; 15]) = Ok (-1)%Z /\
  pencode 1 (EInt32 (-1)) (vec_sink []) = (vec_sink [8; 255; 255; 255; 255; 255; 255; 255; 255; 255; 1], Ok 11).
Proof.
  intros m. refine (conj _ (conj _ eq_refl)); [|destruct m; reflexivity].
  exists 4294967295. split.
  - refine (conj _ (conj eq_refl _)); [|simpl; lia].
    change 4294967295 with (127 + 128 * (127 + 128 * (127 + 128 * (127 + 128 * 15)))).
    change [255; 255; 255; 255; 15] with [128 + 127; 128 + 127; 128 + 127; 128 + 127; 15].
    repeat (constructor; [reflexivity|]). now constructor.
  - exists 1%Z. reflexivity.
Qed.
