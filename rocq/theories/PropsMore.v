(* Property theorems C52-C62: sizes and interoperability.  Vocabulary as in
   PropsHuff.v and PropsHpack.v. *)
From Coq Require Import String Ascii.
From Verif Require Import Base HuffTables HuffModel HuffSpec HuffMore Leb HpackStatic HpackModel HpackSpec
  HpackApi HpackInt HpackStr HpackTab HpackDec HpackEnc HpackDerived HpackMore HpackMore2 HpackUnique HpackCap.
Open Scope list_scope.
Open Scope N_scope.

(* ------------------------------------------------------------------ *)
(* C52: the output of Huffman decoding is at most 8/5 of the input, whether
   decoding succeeds or fails. *)
Theorem C52_huffman_expansion : forall m sp src dst, bytes src ->
  exists syms o, decode m sp src dst = (dst ++ syms, o) /\
    (5 * List.length syms <= 8 * List.length src)%nat.
Proof.
  intros m sp src dst Hb. destruct (HuffCode.splits_total (bits_of_bytes src)) as (syms & rest & Hs).
  pose proof (HuffDecProofs.decode_ok m sp src dst syms rest Hb Hs) as E.
  eexists syms, _. split; [exact E|]. exact (decode_expansion m sp src dst syms _ Hb E).
Qed.
Print Assumptions C52_huffman_expansion.

(* The bound is reached: 5 octets of zero bits are eight '0' (48). *)
Example C52_case : forall m, decode m FiveBits [0; 0; 0; 0; 0] [] = ([48; 48; 48; 48; 48; 48; 48; 48], Ok tt).
Proof. intros []; reflexivity. Qed.

(* C53: more input only adds output. *)
Theorem C53_huffman_prefix : forall m m' sp sp' a b dst dst1 dst2 o1 o2, bytes (a ++ b) ->
  decode m sp a dst = (dst1, o1) -> decode m' sp' (a ++ b) dst = (dst2, o2) ->
  exists more, dst2 = dst1 ++ more.
Proof. exact decode_prefix. Qed.
Print Assumptions C53_huffman_prefix.

Example C53_case : forall m,
  decode m FourBits [63] [] = ([111], Ok tt) /\ decode m FourBits [63; 0; 7] [] = ([111; 85; 48; 49], Ok tt)
  /\ decode m FourBits [63; 255] [] = ([111], Err InvalidInput).
Proof. intros []; repeat split; reflexivity. Qed.

(* C54: accepted input is exactly what encode would have written if and only if its
   padding is that of the RFC; so the only non-canonical inputs accepted are those
   of C05_padding_refuted. *)
Theorem C54_huffman_canonical : forall m m' sp src dst dst2 syms rest, bytes src ->
  splits (bits_of_bytes src) syms rest -> decode m sp src dst = (dst ++ syms, Ok tt) ->
  (encode m' syms dst2 = (dst2 ++ src, Ok tt) <-> rfc_padding rest).
Proof. exact decode_canonical. Qed.
Print Assumptions C54_huffman_canonical.

Theorem C54_one_canonical_form : forall m sp s1 s2 d1 d2 syms r1 r2, bytes s1 -> bytes s2 ->
  splits (bits_of_bytes s1) syms r1 -> splits (bits_of_bytes s2) syms r2 ->
  decode m sp s1 d1 = (d1 ++ syms, Ok tt) -> decode m sp s2 d2 = (d2 ++ syms, Ok tt) ->
  rfc_padding r1 -> rfc_padding r2 -> s1 = s2.
Proof.
  intros m sp s1 s2 d1 d2 syms r1 r2 B1 B2 S1 S2 E1 E2 P1 P2.
  pose proof (proj2 (decode_canonical m Debug sp s1 d1 [] syms r1 B1 S1 E1) P1) as H1.
  pose proof (proj2 (decode_canonical m Debug sp s2 d2 [] syms r2 B2 S2 E2) P2) as H2.
  cbn [app] in *. congruence.
Qed.
Print Assumptions C54_one_canonical_form.

(* 'o' is 00111: [0x3f] is canonical, [0x38] (zero padding) decodes the same. *)
Example C54_case : forall m, decode m OneBit [63] [] = ([111], Ok tt) /\ encode m [111] [] = ([63], Ok tt)
  /\ decode m OneBit [56] [] = ([111], Ok tt).
Proof. intros []; repeat split; reflexivity. Qed.

(* ------------------------------------------------------------------ *)
(* C55: whatever calls are made on an encoder, as long as none returns
   IntegerOverflow, the octets written are a sequence of RFC 7541 representations
   (integers of at most 6 octets, RFC padding) which any RFC 7541 decoder with the
   same table and limit turns into the headers the calls stand for. *)
Theorem C55_interoperable_session : forall m limit ops t dst, wf t ->
  Forall op_typed ops -> Forall (resize_within limit) ops -> no_overflow (snd (run_ops m t dst ops)) ->
  exists out prs d' hs,
    run_ops m t dst ops = (conc d', dst ++ out, snd (meaning (abs t) ops)) /\
    fst (meaning (abs t) ops) = (d', hs) /\
    out = wire_octets prs /\ wires 6 rfc_padding prs /\ bytes out /\
    interp_all limit (abs t) (reprs prs) = Some (d', hs).
Proof. intros m limit ops t dst. exact (session_wide m limit ops t dst). Qed.
Print Assumptions C55_interoperable_session.

(* An update of 2^31 needs 6 octets: this crate's own decoder refuses it, the RFC does not. *)
Example C55_case : forall m, let ops := [Resize (2 ^ 31); Send (Literal [97] [98] 4); Send (Indexed 62)] in
  run_ops m encoder_default [] ops =
    (mkDyn [([97], [98])] 34 (2 ^ 31), [63; 225; 255; 255; 255; 7; 64; 1; 97; 1; 98; 190], [Ok tt; Ok tt; Ok tt]).
Proof. intros []; reflexivity. Qed.

(* C56: an encoder and a decoder of this crate never get out of step silently. *)
Theorem C56_no_silent_desync : forall m m' ops d t dst0, wf t -> dtable d = t -> Forall op_typed ops ->
  no_overflow (snd (run_ops m t [] ops)) ->
  exists t' out, run_ops m t [] ops = (t', out, snd (meaning (abs t) ops)) /\
    wf t' /\ bytes out /\ delivers_or_stops m d t ops t' out dst0 (hdecode m' d out dst0).
Proof. intros m m' ops d t dst0. exact (no_silent_desync m m' ops d t dst0). Qed.
Print Assumptions C56_no_silent_desync.

(* The second alternative happens: the update above is where the decoder stops. *)
Example C56_case : forall m, hdecode m (decoder_set_max decoder_default (2 ^ 32 - 1))
    [130; 63; 225; 255; 255; 255; 7; 190] [] =
  ((decoder_set_max decoder_default (2 ^ 32 - 1), [63; 225; 255; 255; 255; 7; 190],
    [(octets ":method", octets "GET", 0)]), Err DIntegerOverflow).
Proof. intros []; reflexivity. Qed.

(* C57: encoding only appends; what is appended, the result and the new table do not
   depend on what dst holds, nor on the build mode. *)
Theorem C57_encode_appends : forall m m' t f dst dst', wf t -> input_ok f ->
  exists t1 bs o, hencode m t f dst = ((t1, dst ++ bs), o) /\ hencode m' t f dst' = ((t1, dst' ++ bs), o).
Proof. exact hencode_same. Qed.
Print Assumptions C57_encode_appends.

Theorem C57_update_appends : forall m m' t n dst dst', wf t -> n < 2 ^ 32 ->
  exists t1 bs o, encoder_update_max m t n dst = ((t1, dst ++ bs), o) /\
                  encoder_update_max m' t n dst' = ((t1, dst' ++ bs), o).
Proof. exact update_same. Qed.
Print Assumptions C57_update_appends.

Theorem C57_session_appends : forall m m' ops t dst dst', wf t -> Forall op_typed ops ->
  exists t' out rs, run_ops m t dst ops = (t', dst ++ out, rs) /\ run_ops m' t dst' ops = (t', dst' ++ out, rs).
Proof. intros m m' ops. exact (run_ops_same m m' ops). Qed.
Print Assumptions C57_session_appends.

Example C57_case :
  hencode Debug encoder_default (Literal (octets "a") (octets "b") 31) [7; 7] =
    ((mkDyn [(octets "a", octets "b")] 34 4096, [7; 7; 64; 129; 31; 129; 143]), Ok tt)
  /\ hencode Release encoder_default (Literal (octets "a") (octets "b") 31) [] =
    ((mkDyn [(octets "a", octets "b")] 34 4096, [64; 129; 31; 129; 143]), Ok tt).
Proof. split; reflexivity. Qed.

(* ------------------------------------------------------------------ *)
(* C58: the octets of a field are a shortest encoding of its representation. *)
Theorem C58_shortest : forall m t f dst r bs t', wf t -> input_ok f -> chosen (inner t) f r ->
  strings_within U32_MAX r -> hencode m t f dst = ((t', dst ++ bs), Ok tt) ->
  repr_wire 6 rfc_padding bs r /\
  forall lim bs', repr_wire lim rfc_padding bs' r -> (List.length bs <= List.length bs')%nat.
Proof.
  intros m t f dst r bs t' Hw Hf Hc Hs E. split; [|exact (hencode_min m t f dst r bs t' Hw Hf Hc Hs E)].
  destruct (hencode_ok m t f dst r Hw Hf Hc Hs) as (b & d2 & h2 & E2 & _ & _ & W & _).
  rewrite E in E2. injection E2 as _ E2 . apply app_inv_head in E2. subst b. exact W.
Qed.
Print Assumptions C58_shortest.

(* It is the only one of that length. *)
Theorem C58_unique : forall m t f dst r bs t', wf t -> input_ok f -> chosen (inner t) f r ->
  strings_within U32_MAX r -> hencode m t f dst = ((t', dst ++ bs), Ok tt) ->
  forall lim bs', repr_wire lim rfc_padding bs' r -> (List.length bs' <= List.length bs)%nat -> bs' = bs.
Proof. exact hencode_unique. Qed.
Print Assumptions C58_unique.

Example C58_case : chosen (inner encoder_default) (IndexedName 20 (octets "x") 0)
    (RLiteral WithoutIndexing (NameIndex 20) false (octets "x"))
  /\ (forall m, hencode m encoder_default (IndexedName 20 (octets "x") 0) [] =
       ((encoder_default, [15; 5; 1; 120]), Ok tt))
  /\ repr_wire 6 rfc_padding [15; 133; 0; 1; 120] (RLiteral WithoutIndexing (NameIndex 20) false (octets "x")).
Proof.
  split; [|split].
  - apply (ch_indexed_name (inner encoder_default) 20 (octets "x") 0 (octets "access-control-allow-origin", [])). reflexivity.
  - intros []; reflexivity.
  - apply (wire_indexed_name 6 rfc_padding WithoutIndexing [15; 133; 0] 20 false [1; 120]); [|discriminate|].
    + apply (int_long 6 4 0 [133; 0] 5); [|cbn; repeat constructor].
      apply (leb_more 5 [0] 0); [reflexivity|]. apply leb_last. reflexivity.
    + apply (string_plain 6 rfc_padding [1] [120]). apply (int_short 6 7 0 1); [reflexivity|repeat constructor].
Qed.

(* C59: asking for the best format (0x10) never makes a field longer, and makes it
   shorter if the header is in a table; for table sizes up to 2^18 and names that are
   not empty. *)
Theorem C59_best_not_longer : forall m t n v fl dst, wf t -> input_ok (Literal n v fl) ->
  N.testbit fl 4 = false -> n <> [] -> dmax t <= 2 ^ 18 ->
  coded_length (N.testbit fl 0) n <= 2 ^ 32 - 1 -> coded_length (N.testbit fl 1) v <= 2 ^ 32 - 1 ->
  exists b1 b2 t1 t2, hencode m t (Literal n v (fl + 16)) dst = ((t1, dst ++ b1), Ok tt) /\
    hencode m t (Literal n v fl) dst = ((t2, dst ++ b2), Ok tt) /\
    (List.length b1 <= List.length b2)%nat /\
    (has_line (inner t) (n, v) = true -> (List.length b1 < List.length b2)%nat).
Proof. exact best_not_longer. Qed.
Print Assumptions C59_best_not_longer.

(* Why the name must not be empty: the empty name is found at index 143, which takes
   three octets, where an empty literal name takes two. *)
Definition crowded : list op :=
  Send (Literal [] [98] 4) :: repeat (Send (Literal [97] [] 4)) 81.
Example C59_case : let t := fst (fst (run_ops Debug encoder_default [] crowded)) in
  lookup (inner t) 143 = Some ([], [98]) /\ List.length (inner t) = 82%nat /\
  hencode Debug t (Literal [] [99] 0) [] = ((t, [0; 0; 1; 99]), Ok tt) /\
  hencode Debug t (Literal [] [99] 16) [] = ((t, [15; 128; 1; 1; 99]), Ok tt) /\
  hencode Debug t (Literal [97] [99] 16) [] = ((t, [15; 47; 1; 99]), Ok tt) /\
  hencode Debug t (Literal [97] [99] 0) [] = ((t, [0; 1; 97; 1; 99]), Ok tt).
Proof. vm_compute. repeat split. Qed.

(* ------------------------------------------------------------------ *)
(* C60: decompression bound.  Per octet of input consumed at most one header, and the
   octets of all names and values appended are at most max(60, table size, limit) - 32 + 8/5
   per octet consumed; for good and for bad input. *)
Theorem C60_decompression_bound : forall m d buf dst, wf (dtable d) -> bytes buf ->
  exists d1 rest hs used o, hdecode m d buf dst = ((d1, rest, dst ++ hs), o) /\ buf = used ++ rest /\
  (List.length hs <= List.length used)%nat /\
  5 * total_size hs <=
      (5 * (N.max 60 (N.max (decoder_max_dynamic_size d) (dlimit d)) - 32) + 8) * N.of_nat (List.length used).
Proof.
  intros m d buf dst Hw Hb. destruct (hdecode m d buf dst) as [[[d1 rest] dst1] o] eqn:E.
  destruct (hdecode_bound m d buf dst d1 rest dst1 o Hw Hb E) as (hs & used & -> & H1 & H2 & H3).
  exists d1, rest, hs, used, o. auto.
Qed.
Print Assumptions C60_decompression_bound.

(* One octet can stand for a whole table: entry of 4064 octets, referred to 3 times. *)
Example C60_case : let v := repeat 120 4063 in
  let t := fst (fst (run_ops Debug encoder_default [] [Send (Literal [97] v 4)])) in
  match hdecode Release (set_table decoder_default t) [190; 190; 190] [] with
  | ((_, rest, hs), o) => rest = [] /\ o = Ok 3 /\ total_size hs = 3 * 4064
  end.
Proof. vm_compute. repeat split. Qed.

(* C61: a table never holds more than maximum / 32 dynamic entries. *)
Theorem C61_entry_count : forall m max cs, max < 2 ^ 32 -> Forall call_ok cs ->
  let d := fold_left (do_call m) cs (decoder_with_dynamic_size max) in
  32 * N.of_nat (List.length (inner (dtable d))) <= decoder_max_dynamic_size d <= largest max cs.
Proof.
  intros m max cs Hm Hc.
  destruct (calls_bounded m cs (decoder_with_dynamic_size max) max Hc (wf_new max Hm) (N.le_refl _) (N.le_refl _))
    as (H1 & H2 & H3).
  split; [exact (entries_count _ H1)|exact H3].
Qed.
Print Assumptions C61_entry_count.

Theorem C61_entry_count_encoder : forall m max ops, max < 2 ^ 32 -> Forall op_typed ops ->
  let t := fst (fst (run_ops m (encoder_with_dynamic_size max) [] ops)) in
  32 * N.of_nat (List.length (inner t)) <= table_max_dynamic_size t.
Proof.
  intros m max ops Hm Ho. pose proof (run_ops_wf m ops _ [] (wf_new max Hm) Ho) as H.
  unfold encoder_with_dynamic_size. destruct (run_ops m (table_with_size max) [] ops) as [[t dst] rs].
  exact (entries_count t (proj1 H)).
Qed.
Print Assumptions C61_entry_count_encoder.

(* Three empty headers in a table of 96 octets: the bound is reached. *)
Example C61_case : forall m,
  inner (fst (fst (run_ops m (encoder_with_dynamic_size 96) [] (repeat (Send (Literal [] [] 4)) 5)))) =
  [([], []); ([], []); ([], [])].
Proof. intros []; reflexivity. Qed.

(* ------------------------------------------------------------------ *)
(* C62: an intermediary that passes decoded headers on with their flags keeps names,
   values and flags: never-indexed fields stay never-indexed. *)
Theorem C62_forwarding : forall m m' hs t d dst0, wf t -> dtable d = t -> dlimit d < 2 ^ 32 ->
  Forall forwardable hs ->
  exists t' out n,
    run_ops m t [] (map (fun h => Send (as_literal h)) hs) = (t', out, map (fun _ => Ok tt) hs) /\
  hdecode m' d out dst0 = ((set_table d t', [], dst0 ++ hs), Ok n).
Proof. exact forwarding. Qed.
Print Assumptions C62_forwarding.

(* Decoded headers are forwardable, apart from the length. *)
Theorem C62_decoded_flags : forall m d buf dst d1 rest hs o, wf (dtable d) -> bytes buf ->
  hdecode m d buf dst = ((d1, rest, dst ++ hs), o) ->
  Forall (fun x => snd x = 0 \/ snd x = 4 \/ snd x = 8) hs.
Proof. exact hdecode_flags. Qed.
Print Assumptions C62_decoded_flags.

Example C62_case : forall m,
  hdecode m decoder_default [16; 1; 97; 1; 98; 64; 1; 99; 0; 130] [] =
    ((set_table decoder_default (mkDyn [([99], [])] 33 4096), [],
      [([97], [98], 8); ([99], [], 4); (octets ":method", octets "GET", 0)]), Ok 10) /\
  run_ops m encoder_default [] (map (fun h => Send (as_literal h))
      [([97], [98], 8); ([99], [], 4); (octets ":method", octets "GET", 0)]) =
    (mkDyn [([99], [])] 33 4096,
     [16; 1; 97; 1; 98; 64; 1; 99; 0; 0; 7] ++ octets ":method" ++ [3] ++ octets "GET", [Ok tt; Ok tt; Ok tt]).
Proof. intros []; split; reflexivity. Qed.

(* ------------------------------------------------------------------ *)
(* C74: the Huffman decoder does not depend on the width w of usize, from 32 bits on
   (its bit buffers are usize; the longest partial code it keeps has 29 bits, and with
   the next chunk it can have more than 32). *)
Theorem C74_word_size : forall w w' m m' s src dst, 32 <= w -> 32 <= w' -> bytes src ->
  decode_on w m s src dst = decode_on w' m' s src dst.
Proof.
  intros w w' m m' s src dst Hw Hw' Hb. destruct (HuffCode.splits_total (bits_of_bytes src)) as (syms & rest & Hs).
  rewrite (HuffDecProofs.decode_on_ok w m s src dst syms rest Hw Hb Hs).
  now rewrite (HuffDecProofs.decode_on_ok w' m' s src dst syms rest Hw' Hb Hs).
Qed.
Print Assumptions C74_word_size.

(* The result is the one C04 describes. *)
Theorem C74_decode : forall w m m' s src dst, 32 <= w -> bytes src -> decode_on w m s src dst = decode m' s src dst.
Proof. intros w m m' s src dst Hw Hb. apply C74_word_size; auto. discriminate. Qed.
Print Assumptions C74_decode.

(* The 30-bit code of 10 after a 5-bit code, read in 5-bit chunks. *)
Example C74_case : forall m, decode_on 32 m FiveBits [31; 255; 255; 255; 159] [] = decode_on 64 m FourBits [31; 255; 255; 255; 159] []
  /\ decode_on 32 m FiveBits [31; 255; 255; 255; 159] [] = ([97; 10], Ok tt).
Proof. intros []; split; reflexivity. Qed.

(* ------------------------------------------------------------------ *)
(* C75: `decode` asks for vectors of capacity one and reads their capacity as a limit;
   std may give it more.  [caps i] is what the i-th vector gets.  Whatever it is, table,
   rest of the buffer and verdict are those of capacity one (the decoder of C24), and so
   are the headers when decoding succeeds; when it does not, the headers decoded into
   the vector in use are dropped, always fewer than its capacity. *)
Theorem C75_capacities : forall m m' caps d buf dst, wf (dtable d) -> bytes buf ->
  (forall i, 1 <= caps i)%nat ->
  exists d1 rest kept lost o,
    hdecode m d buf dst = ((d1, rest, dst ++ kept ++ lost), o) /\
    hdecode_caps m' caps d buf dst = ((d1, rest, dst ++ kept), o) /\
    (forall n, o = Ok n -> lost = []) /\
    (lost = [] \/ exists i, (List.length lost < caps i)%nat).
Proof. exact caps_irrelevant. Qed.
Print Assumptions C75_capacities.

(* On success nothing at all changes. *)
Theorem C75_success : forall m m' caps d buf dst st n, wf (dtable d) -> bytes buf ->
  (forall i, 1 <= caps i)%nat ->
  (hdecode m d buf dst = (st, Ok n) <-> hdecode_caps m' caps d buf dst = (st, Ok n)).
Proof.
  intros m m' caps d buf dst st n Hw Hb Hc.
  destruct (caps_irrelevant m m' caps d buf dst Hw Hb Hc) as (d1 & rest & kept & lost & o & E1 & E2 & H & _).
  rewrite E1, E2. split; intros E; injection E as <- ->; rewrite (H n eq_refl), app_nil_r; reflexivity.
Qed.
Print Assumptions C75_success.

(* With capacity exactly one, which is what std allocates today, the two are equal. *)
Theorem C75_one : forall m d buf dst, hdecode_caps m (fun _ => 1%nat) d buf dst = hdecode m d buf dst.
Proof. exact hdecode_caps_one. Qed.
Print Assumptions C75_one.

(* :method GET, then the invalid index 0; and a good block of three headers. *)
Example C75_case : forall m,
  hdecode_caps m (fun _ => 2%nat) decoder_default [130; 128] [] = ((decoder_default, [128], []), Err DInvalidIndex) /\
  hdecode m decoder_default [130; 128] [] =
    ((decoder_default, [128], [(octets ":method", octets "GET", 0)]), Err DInvalidIndex) /\
  hdecode_caps m (fun _ => 2%nat) decoder_default [130; 64; 1; 97; 1; 98; 190] [] =
  hdecode m decoder_default [130; 64; 1; 97; 1; 98; 190] [] /\
  snd (hdecode m decoder_default [130; 64; 1; 97; 1; 98; 190] []) = Ok 7.
Proof. intros []; repeat split; reflexivity. Qed.
