(* Property theorem C86: the size of a protobuf field and of a message, from the values.
   The vocabulary (field_octets, message_octets, tree_octets) is at the head of ProtosLength.v. *)
From Verif Require Import Base Leb ProtosModel ProtosSpec ProtosApi ProtosNum ProtosEnc ProtosConv ProtosDec ProtosDerived ProtosMore
  ProtosLength.
Open Scope N_scope.

(* C86: encoding a field appends and reports exactly field_octets octets, whatever the
   Vec held before. *)
Theorem C86_field : forall tag l, 1 <= tag < 2 ^ 29 -> lit_ok l -> payload_octets l < 2 ^ 64 ->
  exists bs, N.of_nat (length bs) = field_octets (tag, l) /\
    forall dst, pencode tag l (vec_sink dst) = (vec_sink (dst ++ bs), Ok (field_octets (tag, l))).
Proof. exact field_size. Qed.
Print Assumptions C86_field.

(* Encoding a message appends the sum of its fields; and a buffer with room for r octets
   is enough exactly if that sum is at most r. *)
Theorem C86_message : forall fs,
  Forall (fun f => 1 <= fst f < 2 ^ 29 /\ lit_ok (snd f) /\ payload_octets (snd f) < 2 ^ 64) fs ->
  exists bs, N.of_nat (length bs) = message_octets fs /\
    (forall dst, encode_message fs (vec_sink dst) = (vec_sink (dst ++ bs), Ok (message_octets fs))) /\
    forall done r, encode_message fs (mkSink done (Some r)) =
      if message_octets fs <=? r then (mkSink (done ++ bs) (Some (r - message_octets fs)), Ok (message_octets fs))
      else (mkSink (done ++ firstn (N.to_nat r) bs) (Some 0), Err PInterrupted).
Proof. exact message_size. Qed.
Print Assumptions C86_message.

(* The payload of a message in a message, at any depth, is as long as the sum of its
   fields (so sizes can be computed from the leaves up, before anything is encoded). *)
Theorem C86_nested : forall t, tree_ok t -> payload_octets (as_lit t) = tree_octets t.
Proof. exact tree_size. Qed.
Print Assumptions C86_nested.

(* A scalar field takes 2 to 15 octets; any other 2 to 15 octets more than its payload. *)
Theorem C86_bound : forall tag l, 1 <= tag < 2 ^ 29 -> lit_ok l -> payload_octets l < 2 ^ 64 ->
  if delimited l then payload_octets l + 2 <= field_octets (tag, l) <= payload_octets l + 15
  else 2 <= field_octets (tag, l) <= 15.
Proof.
  intros tag l Ht Hl Hs. destruct (delimited l) eqn:E; [now apply delimited_bound | now apply scalar_bound].
Qed.
Print Assumptions C86_bound.

(* The side condition small_lit of the other theorems is a matter of this number. *)
Theorem C86_small : forall l, lit_ok l -> (small_lit l <-> payload_octets l < 2 ^ 64).
Proof. exact small_payload. Qed.
Print Assumptions C86_small.

(* A negative int32 takes ten octets and a negative sint32 few; the key grows at field
   number 16; the largest scalar field has 15 octets; an empty vector has two; a nested message. *)
Example C86_case :
  Forall (fun f => 1 <= fst f < 2 ^ 29 /\ lit_ok (snd f) /\ payload_octets (snd f) < 2 ^ 64)
    [(1, EInt32 (-1)); (16, ESInt32 (-1)); (536870911, EUInt64 18446744073709551615); (2, EFloatVec [])] /\
  map field_octets [(15, EInt32 (-1)); (16, ESInt32 (-1)); (536870911, EUInt64 18446744073709551615); (2, EFloatVec [])]
    = [11; 3; 15; 2] /\
  map varint_octets [0; 127; 128; 16383; 16384; 18446744073709551615] = [1; 1; 2; 2; 3; 10] /\
  message_octets [(1, EBool true); (2, EBytes [104; 105]); (3, ESInt64Vec [-64; 64; 0]%Z)] = 2 + 4 + 6 /\
  fst (encode_message [(1, EBool true); (2, EBytes [104; 105]); (3, ESInt64Vec [-64; 64; 0]%Z)] (vec_sink []))
    = vec_sink [8; 1; 18; 2; 104; 105; 26; 4; 127; 128; 1; 0] /\
  let t := Node [(1, Leaf (EUInt32 300)); (20, Node [(1, Leaf (EDouble 0)); (2, Node [])])] in
  tree_ok t /\ tree_octets t = 3 + (2 + 1 + (9 + 2)) /\ as_lit t = EBytes [8; 172; 2; 162; 1; 11; 9; 0; 0; 0; 0; 0; 0; 0; 0; 18; 0].
Proof.
  assert (I : in_i 32 (-1)) by (split; vm_compute; congruence).
  refine (conj _ (conj _ (conj _ (conj _ (conj _ _))))); [|vm_compute; reflexivity ..|].
  - repeat (apply Forall_cons; [cbn [fst snd]; refine (conj _ (conj _ _)); [split; vm_compute; congruence | | vm_compute; reflexivity]|]);
      try apply Forall_nil; cbn [lit_ok]; auto. reflexivity.
  - cbv zeta. refine (conj _ (conj _ _)); [|vm_compute; reflexivity ..].
    assert (N0 : tree_ok (Node [])).
    { constructor; [constructor|]. apply small_payload; [apply Forall_nil | vm_compute; reflexivity]. }
    assert (D : tree_ok (Leaf (EDouble 0))).
    { constructor; [reflexivity|]. apply small_payload; vm_compute; reflexivity. }
    assert (U : tree_ok (Leaf (EUInt32 300))).
    { constructor; [reflexivity|]. apply small_payload; vm_compute; reflexivity. }
    assert (N1 : tree_ok (Node [(1, Leaf (EDouble 0)); (2, Node [])])).
    { constructor.
      - repeat (apply Forall_cons; [split; [split; vm_compute; congruence|assumption]|]). apply Forall_nil.
      - assert (E : as_lit (Node [(1, Leaf (EDouble 0)); (2, Node [])]) = EBytes [9; 0; 0; 0; 0; 0; 0; 0; 0; 18; 0])
          by (vm_compute; reflexivity).
        rewrite E. apply small_payload; [|vm_compute; reflexivity]. cbn [lit_ok]. repeat (apply Forall_cons; [reflexivity|]); apply Forall_nil. }
    constructor.
    + repeat (apply Forall_cons; [split; [split; vm_compute; congruence|assumption]|]). apply Forall_nil.
    + assert (E : as_lit (Node [(1, Leaf (EUInt32 300)); (20, Node [(1, Leaf (EDouble 0)); (2, Node [])])])
        = EBytes [8; 172; 2; 162; 1; 11; 9; 0; 0; 0; 0; 0; 0; 0; 0; 18; 0]) by (vm_compute; reflexivity).
      rewrite E. apply small_payload; [|vm_compute; reflexivity]. cbn [lit_ok]. repeat (apply Forall_cons; [reflexivity|]); apply Forall_nil.
Qed.
