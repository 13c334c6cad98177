(* Property theorem C88: readers that know only some fields, and fields in another order.
   The vocabulary (wanted, seen, message_reads) is at the head of ProtosEvolve.v. *)
From Coq Require Import Permutation.
From Verif Require Import Base Leb ProtosModel ProtosSpec ProtosApi ProtosNum ProtosEnc ProtosConv ProtosDec ProtosDerived ProtosMore
  ProtosLength ProtosEvolve.
Open Scope N_scope.

(* C88: every message that can be encoded can be read (so the hypotheses below are met). *)
Theorem C88_reads : forall m fs, Forall good_field fs -> exists bs ws, message_reads m fs bs ws.
Proof. exact reads_exists. Qed.
Print Assumptions C88_reads.

(* A reader that skips the tags it does not know sees what it would see if those fields had
   never been written. *)
Theorem C88_unknown : forall m known fs bs ws bs' ws', Forall good_field fs ->
  message_reads m fs bs ws -> message_reads m (wanted known fs) bs' ws' -> seen known ws = ws'.
Proof. exact unknown_fields. Qed.
Print Assumptions C88_unknown.

(* For every tag it sees the values in the order they were encoded (so "the last one wins"
   and repeated fields are well defined). *)
Theorem C88_by_tag : forall m fs bs ws, Forall good_field fs -> message_reads m fs bs ws ->
  forall tag, Forall2 (fun f w => carries f w /\ reads_back m (snd f) (snd w)) (wanted (N.eqb tag) fs) (seen (N.eqb tag) ws).
Proof. exact by_tag. Qed.
Print Assumptions C88_by_tag.

(* How fields of different tags are interleaved makes no difference. *)
Theorem C88_order : forall m fs bs ws fs' bs' ws', Forall good_field fs -> Forall good_field fs' ->
  (forall tag, wanted (N.eqb tag) fs = wanted (N.eqb tag) fs') ->
  message_reads m fs bs ws -> message_reads m fs' bs' ws' ->
  forall tag, seen (N.eqb tag) ws = seen (N.eqb tag) ws'.
Proof. exact any_order. Qed.
Print Assumptions C88_order.

(* A permuted message has the same length and decodes to the permuted fields. *)
Theorem C88_permuted : forall m fs bs ws fs' bs' ws', Forall good_field fs -> Permutation fs fs' ->
  message_reads m fs bs ws -> message_reads m fs' bs' ws' -> length bs = length bs' /\ Permutation ws ws'.
Proof. exact reordered_size. Qed.
Print Assumptions C88_permuted.

(* A message of version 2 with the new fields 3 and 4 (one of them empty), read by version 1. *)
Example C88_case : forall m,
  let v2 := [(1, EUInt32 5); (3, EBytes []); (2, EBool true); (4, ESInt32Vec [-1]%Z); (1, EUInt32 6)] in
  let known tag := tag <=? 2 in
  Forall good_field v2 /\
  wanted known v2 = [(1, EUInt32 5); (2, EBool true); (1, EUInt32 6)] /\
  fst (encode_message v2 (vec_sink [])) = vec_sink [8; 5; 26; 0; 16; 1; 34; 1; 1; 8; 6] /\
  (let ws := snd (fst (decode_fully m pdecoder_default [8; 5; 26; 0; 16; 1; 34; 1; 1; 8; 6] [])) in
   seen known ws = [(1, Varint, [5]); (2, Varint, [1]); (1, Varint, [6])] /\ seen (N.eqb 1) ws = [(1, Varint, [5]); (1, Varint, [6])]) /\
  snd (fst (decode_fully m pdecoder_default [8; 5; 16; 1; 8; 6] [])) = [(1, Varint, [5]); (2, Varint, [1]); (1, Varint, [6])].
Proof.
  intros m. cbv zeta. refine (conj _ _).
  - assert (I : in_i 32 (-1)) by (split; vm_compute; congruence).
    assert (G : forall tag l, 1 <= tag < 2 ^ 29 -> lit_ok l -> payload_octets l < 2 ^ 64 -> good_field (tag, l)).
    { intros tag l A B C. apply sizable_good. exact (conj A (conj B C)). }
    repeat (apply Forall_cons; [apply G; [split; vm_compute; congruence | | vm_compute; reflexivity]|]); try apply Forall_nil;
      cbn [lit_ok]; try exact I; try reflexivity; try apply Forall_nil; try (apply Forall_cons; [exact I|apply Forall_nil]).
  - destruct m; vm_compute; repeat split.
Qed.
