(* C99: messages of any protobuf writer.  Vocabulary: the first part of ProtosForeign.v
   (any_varint, any_lit, any_record, any_payload, field_as, got) and ProtosApi.v (tree,
   tree_reads, reads_back). *)
From Verif Require Import Base Leb ProtosModel ProtosSpec ProtosApi ProtosNum ProtosEnc ProtosConv
  ProtosDec ProtosDerived ProtosMore ProtosForeign.
Open Scope N_scope.

(* Every field arrives, in order, and its payload gives back the value, to any depth. *)
Theorem C99_understood : forall m fs parts dst, Forall2 field_as fs parts ->
  exists ws, decode_fully m pdecoder_default (concat parts) dst = ((pdecoder_default, [], dst ++ ws), Ok tt) /\
    Forall2 (got m) fs ws.
Proof. exact foreign_understood. Qed.
Print Assumptions C99_understood.

(* One call is enough if no payload is empty. *)
Theorem C99_one_call : forall m fs parts dst,
  Forall2 (fun f bs => exists t p, p <> [] /\ any_payload (snd f) t p /\ any_record (fst f) t p bs) fs parts ->
  exists ws, pdecode m pdecoder_default (concat parts) dst =
      ((pdecoder_default, [], dst ++ ws), Ok (N.of_nat (length (concat parts)))) /\
    Forall2 (got m) fs ws.
Proof. exact foreign_call. Qed.
Print Assumptions C99_one_call.

(* Arriving in pieces, cut anywhere. *)
Theorem C99_pieces : forall m fs parts pieces dst, Forall2 field_as fs parts ->
  bytes (concat pieces) -> pieces <> [] -> concat pieces = concat parts ->
  exists ws, feed m pdecoder_default [] pieces dst = ((pdecoder_default, [], dst ++ ws), Ok tt) /\
    Forall2 (got m) fs ws.
Proof.
  intros m fs parts pieces dst H Hb Hne E.
  change pdecoder_default with (decoder_of Start). rewrite (feed_all m Start pieces dst Hb I Hne), E.
  exact (foreign_understood m fs parts dst H).
Qed.
Print Assumptions C99_pieces.

(* A group, wire types 3 and 4, is the exception: it is refused, with the key of the group
   and all that follows left in place, after every field before it was delivered. *)
Theorem C99_group : forall m fs parts tag n key x dst, Forall2 field_as fs parts ->
  n = 3 \/ n = 4 -> any_varint (8 * tag + n) key ->
  exists ws, decode_fully m pdecoder_default (concat parts ++ key ++ x) dst =
      ((pdecoder_default, key ++ x, dst ++ ws), Err PInvalidInput) /\
    Forall2 (got m) fs ws.
Proof.
  intros m fs parts tag n key x dst H Hn Hk. apply foreign_stopped with (8 * tag + n); [exact H|exact Hk|].
  right. right.
  assert (E : (8 * tag + n) mod 8 = n).
  { rewrite N.add_comm, N.mul_comm, N.mod_add by lia. apply N.mod_small. lia. }
  rewrite E. tauto.
Qed.
Print Assumptions C99_group.

(* Encoder is one of these writers. *)
Theorem C99_encoder : forall fs ws parts, Forall good_field fs -> Forall2 carries fs ws ->
  Forall2 field_wire ws parts ->
  Forall2 field_as (map (fun f => (fst f, Leaf (snd f))) fs) parts.
Proof.
  intros fs ws parts Hg Hc. revert parts.
  induction Hc as [|[tag l] [[tag' t] p] fs ws (E & Hw) Hc IH]; intros parts Hf; inversion Hf; subst; cbn [map].
  - constructor.
  - inversion Hg as [|? ? (Ht & Hl & Hs) Hg']; subst. cbn [fst snd] in *. subst tag'.
    constructor; [|now apply IH].
    apply (field_wire_any tag l t p); auto. exact (Hs t p Hw).
Qed.
Print Assumptions C99_encoder.

(* A message no Encoder writes: key, length and value padded with zero groups, a 32-bit -1
   in five octets, and a message inside. *)
Example C99_case : forall m,
  let parts := [[136; 128; 0; 255; 255; 255; 255; 15]; [146; 0; 131; 0; 8; 129; 0]; [26; 0]] in
  let fs := [(1, Leaf (EInt32 (-1))); (2, Node [(1, Leaf (EBool true))]); (3, Leaf (EUInt64Vec []))] in
  Forall2 field_as fs parts /\
  decode_fully m pdecoder_default (concat parts) [] =
    ((pdecoder_default, [], [(1, Varint, [255; 255; 255; 255; 15]); (2, LengthDelimited, [8; 129; 0]);
                             (3, LengthDelimited, [])]), Ok tt).
Proof.
  intros m parts fs. split; [|destruct m; reflexivity].
  assert (V1 : forall b, b < 128 -> leb128 [b] b) by (intros; now constructor).
  assert (V2 : forall b c, b < 128 -> c < 128 -> leb128 [128 + b; c] (b + 128 * c))
    by (intros; constructor; [assumption|now constructor]).
  assert (A : forall v bs, leb128 bs v -> v < 2 ^ 64 -> (length bs <= 10)%nat -> any_varint v bs) by (intros; now split).
  constructor; [|constructor; [|constructor; [|constructor]]].
  - exists Varint, [255; 255; 255; 255; 15]. split.
    + apply any_leaf; [cbn [lit_ok in_i]; split; [apply Z.leb_le; reflexivity|reflexivity]|].
      split; [reflexivity|]. exists 4294967295. split.
      * apply A; [|reflexivity|simpl; lia].
        change 4294967295 with (127 + 128 * (127 + 128 * (127 + 128 * (127 + 128 * 15)))).
        change [255; 255; 255; 255; 15] with [128 + 127; 128 + 127; 128 + 127; 128 + 127; 15].
        repeat (constructor; [reflexivity|]). now constructor.
      * exists 1%Z. reflexivity.
    + split; [split; [discriminate|reflexivity]|]. exists 0, [136; 128; 0]. refine (conj eq_refl (conj _ eq_refl)).
      apply A; [|reflexivity|simpl; lia]. change (8 * fst (1, Leaf (EInt32 (-1))) + 0) with (8 + 128 * (0 + 128 * 0)).
      change [136; 128; 0] with [128 + 8; 128 + 0; 0]. repeat (constructor; [reflexivity|]). now constructor.
  - exists LengthDelimited, [8; 129; 0]. split.
    + change [8; 129; 0] with (concat [[8; 129; 0]]). apply any_node. constructor; [|constructor].
      exists Varint, [129; 0]. split.
      * apply any_leaf; [exact I|]. split; [reflexivity|]. exists 1. split; [|now split].
        apply A; [exact (V2 1 0 eq_refl eq_refl)|reflexivity|simpl; lia].
      * split; [split; [discriminate|reflexivity]|]. exists 0, [8]. refine (conj eq_refl (conj _ eq_refl)).
        apply A; [exact (V1 8 eq_refl)|reflexivity|simpl; lia].
    + split; [split; [discriminate|reflexivity]|]. exists 2, [146; 0]. refine (conj eq_refl (conj _ _)).
      * apply A; [exact (V2 18 0 eq_refl eq_refl)|reflexivity|simpl; lia].
      * exists [131; 0]. split; [|reflexivity]. apply A; [exact (V2 3 0 eq_refl eq_refl)|reflexivity|simpl; lia].
  - exists LengthDelimited, []. split.
    + apply any_leaf; [constructor|]. split; [reflexivity|]. exists []. split; [constructor|reflexivity].
    + split; [split; [discriminate|reflexivity]|]. exists 2, [26]. refine (conj eq_refl (conj _ _)).
      * apply A; [exact (V1 26 eq_refl)|reflexivity|simpl; lia].
      * exists [0]. split; [|reflexivity]. apply A; [exact (V1 0 eq_refl)|reflexivity|simpl; lia].
Qed.

Example C99_group_case : forall m,
  decode_fully m pdecoder_default [8; 1; 139; 0; 8; 1; 140; 0] [] =
    ((pdecoder_default, [139; 0; 8; 1; 140; 0], [(1, Varint, [1])]), Err PInvalidInput) /\
  any_varint (8 * 1 + 3) [139; 0].
Proof.
  intros m. split; [destruct m; reflexivity|]. refine (conj _ (conj eq_refl _)); [|simpl; lia].
  change (8 * 1 + 3) with (11 + 128 * 0). change [139; 0] with [128 + 11; 0]. constructor; [reflexivity|]. now constructor.
Qed.
