(* Property theorem C73 about the protobuf decoder on targets with another pointer
   width.  Vocabulary: ProtosApi.v and the specification part of ProtosWidth.v. *)
From Verif Require Import Base Leb ProtosModel ProtosSpec ProtosApi ProtosNum ProtosEnc ProtosDec ProtosWidth.
Open Scope N_scope.

(* ------------------------------------------------------------------ *)
(* C73: what one call does where usize has w bits: as C47_call, except that a payload
   is taken to have n mod 2^w octets where n is announced. *)
Theorem C73_call : forall w m p d b dst, bytes b -> idle p -> holds w d p ->
  exists a p1 hs rest p2 hs2 o d2, b = a ++ rest /\ items_on w m p a p1 hs /\ call_ends m p1 rest p2 hs2 o /\
  idle p2 /\ holds w d2 p2 /\
  pdecode_on w m d b dst = ((d2, rest, dst ++ hs ++ hs2), with_count (N.of_nat (length a)) o).
Proof. exact pdecode_on_total. Qed.
Print Assumptions C73_call.

(* So targets agree on every input that announces no length of 2^w or more ... *)
Theorem C73_same : forall w m p b dst, bytes b -> idle p -> (forall n, announces m p b n -> n < 2 ^ w) ->
  pdecode_on w m (decoder_of p) b dst = pdecode m (decoder_of p) b dst.
Proof. exact pdecode_on_same. Qed.
Print Assumptions C73_same.

(* ... on every input if w = 64, *)
Theorem C73_64 : forall m p b dst, bytes b -> idle p ->
  pdecode_on 64 m (decoder_of p) b dst = pdecode m (decoder_of p) b dst.
Proof. intros m p b dst Hb Hp. apply C73_same; auto. intros n. now apply announces_bound. Qed.
Print Assumptions C73_64.

(* ... and every message with payloads shorter than 2^w arrives. *)
Theorem C73_message : forall w m fs parts dst, Forall2 field_wire fs parts ->
  Forall (fun f => 1 <= fst (fst f) < 2 ^ 29 /\ payload_ok (snd (fst f)) (snd f) /\ snd f <> []) fs ->
  Forall (fun f => N.of_nat (length (snd f)) < 2 ^ w) fs ->
  pdecode_on w m pdecoder_default (concat parts) dst =
  ((pdecoder_default, [], dst ++ fs), Ok (N.of_nat (length (concat parts)))).
Proof. intros w m fs parts dst. exact (decode_message_on w m fs parts dst). Qed.
Print Assumptions C73_message.

(* 32-bit and 64-bit targets read the same stream differently: the length 2^32 + 2 is
   2 on the former, which goes on with what follows as if it were fields. *)
Theorem C73_parsing_differs : forall m, let stream := [10; 130; 128; 128; 128; 16; 65; 66; 16; 5] in
  pdecode_on 32 m pdecoder_default stream [] =
    ((pdecoder_default, [], [(1, LengthDelimited, [65; 66]); (2, Varint, [5])]), Ok 10) /\
  pdecode_on 64 m pdecoder_default stream [] =
    ((mkP 1 LengthDelimited (Some (2 ^ 32 + 2)), [65; 66; 16; 5], []), Ok 6) /\
  announces m Start stream (2 ^ 32 + 2).
Proof.
  intros m stream. split; [destruct m; reflexivity|]. split; [destruct m; reflexivity|].
  exists [10; 130; 128; 128; 128; 16], [65; 66; 16; 5], 1, []. split; [reflexivity|].
  change [10; 130; 128; 128; 128; 16] with ([10] ++ [130; 128; 128; 128; 16] ++ []).
  apply (items_cons m false Start [10] (GotKey 1 LengthDelimited) [] _ _ []).
  - apply (item_key m [10] 1 LengthDelimited 2); [|reflexivity|lia].
    apply reads_shortest; [apply shortest_small; lia|reflexivity].
  - discriminate.
  - apply (items_cons m false _ [130; 128; 128; 128; 16] (GotLen 1 (2 ^ 32 + 2)) [] _ _ []); [|discriminate|constructor].
    constructor. split; [|split; [reflexivity|intros _; cbn; lia]].
    exists (2 + 128 * (0 + 128 * (0 + 128 * (0 + 128 * 16)))).
    apply (leb_more 2); [reflexivity|]. apply (leb_more 0); [reflexivity|]. apply (leb_more 0); [reflexivity|].
    apply (leb_more 0); [reflexivity|]. apply leb_last. reflexivity.
Qed.
Print Assumptions C73_parsing_differs.

Example C73_case : forall m,
  holds 32 (mkP 1 LengthDelimited (Some (2 ^ 32 + 2))) (GotLen 1 2) /\ idle (GotLen 1 2) /\
  pdecode_on 32 m (mkP 1 LengthDelimited (Some (2 ^ 32 + 2))) [65; 66; 16] [] =
    ((mkP 2 Varint None, [], [(1, LengthDelimited, [65; 66])]), Ok 3).
Proof.
  intros m. split; [exists (2 ^ 32 + 2); split; reflexivity|]. split; [cbn; split; split; reflexivity || discriminate|].
  destruct m; reflexivity.
Qed.
