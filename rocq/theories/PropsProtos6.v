(* Property theorem C82: forwarding messages without a schema.  The vocabulary
   (forward_lit, forward_all, same_field) is at the head of ProtosForward.v. *)
From Verif Require Import Base Leb ProtosModel ProtosSpec ProtosApi ProtosNum ProtosEnc ProtosConv ProtosDec ProtosDerived ProtosMore
  ProtosIo ProtosForward.
Open Scope N_scope.

(* C82: take any octets, decode them, and encode each field again by its wire type: the
   result is not longer, it decodes completely, to the same field numbers, wire types and
   values (for every reading of the value a schema may ask for), and forwarding it
   again changes nothing. *)
Theorem C82_forward : forall m b d rest fs o gs, bytes b -> N.of_nat (length b) < 2 ^ 64 ->
  decode_fully m pdecoder_default b [] = ((d, rest, fs), o) -> forward_all m fs = Ok gs ->
  exists bs fs',
    (forall pre, encode_message gs (vec_sink pre) = (vec_sink (pre ++ bs), Ok (N.of_nat (length bs)))) /\
    (length bs <= length b)%nat /\
    forall m', (forall dst, decode_fully m' pdecoder_default bs dst = ((pdecoder_default, [], dst ++ fs'), Ok tt)) /\
      Forall2 (same_field m m') fs fs' /\ forward_all m' fs' = Ok gs.
Proof. exact forward_message. Qed.
Print Assumptions C82_forward.

(* The only obstacle: a varint of more than ten octets, in debug builds. *)
Theorem C82_obstacle : forall m b d rest fs o, bytes b -> decode_fully m pdecoder_default b [] = ((d, rest, fs), o) ->
  (exists gs, forward_all m fs = Ok gs /\ length gs = length fs) \/
  (forward_all m fs = Panic /\ m = Debug /\ Exists (fun f => snd (fst f) = Varint /\ (10 < length (snd f))%nat) fs).
Proof. exact forward_verdict. Qed.
Print Assumptions C82_obstacle.

(* What an encoder of this crate wrote is forwarded unchanged, octet by octet. *)
Theorem C82_identity : forall m fs ws parts, Forall good_field fs -> Forall2 carries fs ws -> Forall2 field_wire ws parts ->
  N.of_nat (length (concat parts)) < 2 ^ 64 ->
  exists gs, forward_all m ws = Ok gs /\
    encode_message gs (vec_sink []) = (vec_sink (concat parts), Ok (N.of_nat (length (concat parts)))).
Proof. exact forward_identity. Qed.
Print Assumptions C82_identity.

(* An overlong key and an overlong varint become short; the rest, and a field cut off at
   the end, stay or are dropped. *)
Example C82_case : forall m,
  let b := [136; 0; 129; 128; 0; 18; 1; 5; 29; 1; 2; 3; 4; 16] in
  let fs := [(1, Varint, [129; 128; 0]); (2, LengthDelimited, [5]); (3, Bit32, [1; 2; 3; 4])] in
  bytes b /\
  decode_fully m pdecoder_default b [] = ((mkP 2 Varint None, [], fs), Ok tt) /\
  forward_all m fs = Ok [(1, EUInt64 1); (2, EBytes [5]); (3, EFixed32 67305985)] /\
  encode_message [(1, EUInt64 1); (2, EBytes [5]); (3, EFixed32 67305985)] (vec_sink []) =
    (vec_sink [8; 1; 18; 1; 5; 29; 1; 2; 3; 4], Ok 10) /\
  forward_all Debug [(1, Varint, repeat 128 10 ++ [0])] = Panic.
Proof.
  intros m. refine (conj _ _); [repeat constructor|].
  destruct m; vm_compute; repeat split.
Qed.
