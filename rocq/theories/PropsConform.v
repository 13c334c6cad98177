(* Property theorem C96: header blocks of any conforming encoder. *)
From Coq Require Import String Ascii.
From Verif Require Import Base HuffTables HuffModel HuffSpec Leb HpackStatic HpackModel
  HpackSpec HpackApi HpackInt HpackTab HpackDec HpackDerived HpackConform.
Open Scope list_scope.
Open Scope N_scope.

(* The full claim: whatever block RFC 7541 lets an encoder produce (integers of any
   number L of octets, Huffman or plain strings, EOS padding), the decoder delivers
   what it means. *)
Definition understands_rfc : Prop :=
  forall L m d prs d' hs dst, wf (dtable d) -> bytes (wire_octets prs) ->
    wires L rfc_padding prs -> interp_all (dlimit d) (abs (dtable d)) (reprs prs) = Some (d', hs) ->
    exists n, hdecode m d (wire_octets prs) dst = ((set_table d (conc d'), [], dst ++ hs), Ok n).

(* What is true: it delivers exactly that if every integer takes at most five octets;
   otherwise it stops with IntegerOverflow in front of the first representation with a longer
   one, having delivered and stored what comes before. It never reads such a block as
   something else. *)
Theorem C96_understood_or_stopped_partial : forall L m d prs d' hs dst, wf (dtable d) -> bytes (wire_octets prs) ->
  wires L rfc_padding prs -> interp_all (dlimit d) (abs (dtable d)) (reprs prs) = Some (d', hs) ->
  (wires 5 rfc_padding prs /\ exists n,
     hdecode m d (wire_octets prs) dst = ((set_table d (conc d'), [], dst ++ hs), Ok n)) \/
  (exists prs1 b r prs2 d1 hs1, prs = prs1 ++ (b, r) :: prs2 /\ wires 5 rfc_padding prs1 /\
     ~ repr_wire 5 rfc_padding b r /\
     interp_all (dlimit d) (abs (dtable d)) (reprs prs1) = Some (d1, hs1) /\
     hdecode m d (wire_octets prs) dst =
       ((set_table d (conc d1), wire_octets ((b, r) :: prs2), dst ++ hs1), Err DIntegerOverflow)).
Proof. exact any_rfc_block. Qed.
Print Assumptions C96_understood_or_stopped_partial.

(* An encoder that writes shortest integers needs more than five octets only for numbers of
   2^28 + 2^p - 1 and above. *)
Theorem C96_shortest_integers : forall L p f bs v, 1 <= p <= 8 -> f < 256 -> v < 2 ^ p - 1 + 2 ^ 28 ->
  int_wire L p (f / 2 ^ p) bs v ->
  (forall lim bs', int_wire lim p (f / 2 ^ p) bs' v -> (List.length bs <= List.length bs')%nat) ->
  int_wire 5 p (f / 2 ^ p) bs v.
Proof. exact shortest_five. Qed.
Print Assumptions C96_shortest_integers.

(* The block of a conforming encoder that pads its integers: "table size 4096" in six octets. *)
Definition padded_block : list (list N * repr) :=
  [([130], RIndexed 2); ([63; 225; 159; 128; 128; 0], RSize 4096); ([132], RIndexed 4)].

Lemma padded_block_wires : wires 6 rfc_padding padded_block.
Proof.
  assert (I : forall i, i < 127 -> repr_wire 6 rfc_padding [1 * 2 ^ 7 + i] (RIndexed i)).
  { intros i Hi. constructor. apply int_short; [exact Hi|lia]. }
  apply Forall_cons; [exact (I 2 ltac:(lia))|]. apply Forall_cons; [|apply Forall_cons; [exact (I 4 ltac:(lia))|constructor]].
  cbn [fst snd]. constructor.
  assert (T : leb128 [225; 159; 128; 128; 0] 4065).
  { apply (leb_more 97 [159; 128; 128; 0] 31); [lia|].
    apply (leb_more 31 [128; 128; 0] 0); [lia|]. apply (leb_more 0 [128; 0] 0); [lia|].
    apply (leb_more 0 [0] 0); [lia|]. apply leb_last. lia. }
  apply (int_long 6 5 1 _ 4065 T). cbn. lia.
Qed.

Theorem C96_every_block_refuted : ~ understands_rfc.
Proof.
  intros H. destruct (H 6%nat Debug decoder_default padded_block (mkdyn [] 4096)
    [(octets ":method", octets "GET", 0); (octets ":path", octets "/", 0)] []) as (n & E).
  - vm_compute. repeat split; discriminate.
  - unfold bytes, wire_octets, padded_block. cbn. repeat constructor; lia.
  - exact padded_block_wires.
  - vm_compute. reflexivity.
  - vm_compute in E. discriminate E.
Qed.
Print Assumptions C96_every_block_refuted.

(* Instances: the padded block stops in front of the update with the first header delivered;
   with the update in five octets, from the same kind of encoder, everything is read. *)
Example C96_holds_of :
  hdecode Debug decoder_default (wire_octets padded_block) [] =
    ((decoder_default, [63; 225; 159; 128; 128; 0; 132], [(octets ":method", octets "GET", 0)]), Err DIntegerOverflow) /\
  hdecode Debug decoder_default [130; 63; 225; 159; 128; 0; 132] [] =
    ((decoder_default, [], [(octets ":method", octets "GET", 0); (octets ":path", octets "/", 0)]), Ok 2).
Proof. split; vm_compute; reflexivity. Qed.
