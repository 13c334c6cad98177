(* Property theorem C87: how long a header field stays available.  The vocabulary
   (stored, timeline, retains) is at the head of HpackRetain.v. *)
From Verif Require Import Base HuffTables HuffModel HuffSpec Leb HpackStatic HpackModel
  HpackSpec HpackApi HpackInt HpackStr HpackTab HpackDec HpackEnc HpackDerived HpackMore HpackLength HpackRetain.
Open Scope list_scope.
Open Scope N_scope.

(* C87: after any sequence of encode calls, of all fields ever stored the k-th newest is at
   index 62 + k exactly if it and the newer ones fit the table (RFC 7541 section 4.4), and
   that index is invalid otherwise. *)
Theorem C87_encoder : forall m ops t dst t' dst' rs, wf t -> Forall op_typed ops -> Forall is_send ops ->
  run_ops m t dst ops = (t', dst', rs) -> no_overflow rs ->
  retains (dmax t) t' (timeline (inner t) (snd (fst (meaning (abs t) ops)))).
Proof. exact encoder_retains. Qed.
Print Assumptions C87_encoder.

(* The same for a decoder, by the headers it emitted, whatever it read (even if it stopped
   at an error), as long as no table size update was among it. *)
Theorem C87_decoder : forall m d prs rest d' hs s dst, wf (dtable d) ->
  bytes (wire_octets prs ++ rest) -> wires 5 code_padding prs -> Forall (fun p => is_size (snd p) = false) prs ->
  interp_all (dlimit d) (abs (dtable d)) (reprs prs) = Some (d', hs) -> ends (dlimit d) d' rest s ->
  exists d1 o, hdecode m d (wire_octets prs ++ rest) dst = ((d1, rest, dst ++ hs), o) /\
    retains (dmax (dtable d)) (dtable d1) (timeline (inner (dtable d)) hs).
Proof. exact decoder_retains. Qed.
Print Assumptions C87_decoder.

(* A field sent with indexing and sent again with the best-format flag, with any calls in
   between that store no more than the table has room for beside it, is sent as an index,
   in the octets of that index (one, if fewer than 65 fields were stored in between). *)
Theorem C87_repeat : forall m t n v fl1 fl2 ops dst t1 dst1 t2 dst2 rs dst3,
  wf t -> input_ok (Literal n v fl1) -> N.testbit fl1 4 = false -> kind_of fl1 = WithIndexing ->
  Forall op_typed ops -> Forall is_send ops ->
  hencode m t (Literal n v fl1) dst = ((t1, dst1), Ok tt) -> run_ops m t1 dst1 ops = (t2, dst2, rs) -> no_overflow rs ->
  let after := stored (snd (fst (meaning (abs t1) ops))) in
  line_size (n, v) + size after <= dmax t ->
  fl2 < 256 -> N.testbit fl2 4 = true ->
  exists i bs, hencode m t2 (Literal n v fl2) dst3 = ((t2, dst3 ++ bs), Ok tt) /\
    table_get t2 i = Some (n, v) /\ i <= 62 + N.of_nat (List.length after) /\
    repr_wire 6 rfc_padding bs (RIndexed i) /\
    N.of_nat (List.length bs) <= int_octets 7 (62 + N.of_nat (List.length after)).
Proof. exact repeat_field. Qed.
Print Assumptions C87_repeat.

Example C87_one_octet : forall k, k < 65 -> int_octets 7 (62 + k) = 1.
Proof. intros k H. unfold int_octets. change (2 ^ 7 - 1) with 127. now replace (62 + k <? 127) with true by (symmetry; apply N.ltb_lt; lia). Qed.

(* A table for 102 octets: after a: b (34), c: d (34), e: f (34) all three are there; one
   more, and the oldest is gone; then the best format sends c: d as index 64 and a: b in full. *)
Example C87_case : forall m,
  let t0 := table_with_size 102 in
  let send n v fl := Send (Literal [n] [v] fl) in
  let three := [send 97 98 4; send 9 9 0; send 99 100 4; Send (Indexed 2); send 101 102 4] in
  let four := three ++ [send 103 104 4] in
  let h := snd (fst (meaning (abs t0) four)) in
  let t' := fst (fst (run_ops m t0 [] four)) in
  wf t0 /\ Forall op_typed four /\ Forall is_send four /\ snd (run_ops m t0 [] four) = repeat (Ok tt) 6 /\
  timeline (inner t0) h = [([103], [104]); ([101], [102]); ([99], [100]); ([97], [98])] /\
  inner (fst (fst (run_ops m t0 [] three))) = [([101], [102]); ([99], [100]); ([97], [98])] /\
  map (fun k => table_get t' (62 + k)) [0; 1; 2; 3] = [Some ([103], [104]); Some ([101], [102]); Some ([99], [100]); None] /\
  hencode m t' (Literal [99] [100] 20) [] = ((t', [192]), Ok tt) /\
  snd (fst (hencode m t' (Literal [97] [98] 20) [])) = [64; 1; 97; 1; 98].
Proof.
  intros m. cbv zeta. refine (conj _ (conj _ (conj _ _))).
  - repeat split; discriminate.
  - cbn [app]. repeat (apply Forall_cons; [cbn; repeat split; repeat constructor|]). apply Forall_nil.
  - repeat constructor.
  - destruct m; vm_compute; repeat split.
Qed.
