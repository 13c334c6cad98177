(* Property theorems about the HPACK crate (C13-C34, C49).
   Vocabulary: HpackSpec.v (RFC 7541 wire format, tables, meaning of a block),
   Leb.v (7-bit groups), HuffSpec.v (Huffman code) and HpackApi.v (what an API
   value stands for: [abs] is the list of dynamic entries, newest first, with the
   maximum; [wf] is the table invariant: stored size = sum of entry sizes <=
   maximum < 2^32).  Every table, encoder and decoder made by the API is [wf]
   (C17_sessions, C17_encoder_reachable, C26_decoder_reachable). *)
From Coq Require Import String Ascii.
From Verif Require Import Base HuffTables HuffModel HuffSpec Leb HpackStatic HpackModel HpackSpec
  HpackApi HpackInt HpackStr HpackTab HpackDec HpackEnc HpackDerived.
Open Scope list_scope.
Open Scope N_scope.

(* ------------------------------------------------------------------ *)
(* C13: integers read back, up to 2^p - 1 + 2^28; beyond that, IntegerOverflow. *)
Theorem C13_integer_round_trip : forall v f p dst rest, 1 <= p <= 8 -> f < 256 -> v < 2 ^ 32 ->
  exists bs, encode_integer v f p dst = (dst ++ bs, Ok tt) /\
    (v < 2 ^ p - 1 + 2 ^ 28 -> decode_integer (bs ++ rest) p = Ok (v, N.of_nat (List.length bs))) /\
    (2 ^ p - 1 + 2 ^ 28 <= v -> decode_integer (bs ++ rest) p = Err DIntegerOverflow).
Proof. exact integer_round_trip. Qed.
Print Assumptions C13_integer_round_trip.

(* The decoder alone: what it accepts, when it fails and how. *)
Theorem C13_decode_integer_accepts : forall p buf v n, 1 <= p <= 8 -> bytes buf ->
  (decode_integer buf p = Ok (v, n) <->
   exists hi bs rest, buf = bs ++ rest /\ int_wire 5 p hi bs v /\ n = N.of_nat (List.length bs)).
Proof. exact decode_integer_iff. Qed.
Print Assumptions C13_decode_integer_accepts.

Theorem C13_decode_integer_errors : forall p buf e, 1 <= p <= 8 -> bytes buf ->
  (decode_integer buf p = Err e <->
   (buf = [] /\ e = DIntegerUnderflow) \/ ((exists hi, long_int p hi buf) /\ e = DIntegerOverflow)).
Proof. exact decode_integer_err_iff. Qed.
Print Assumptions C13_decode_integer_errors.

Theorem C13_decode_integer_fits_u32 : forall p buf v n, 1 <= p <= 8 -> bytes buf ->
  decode_integer buf p = Ok (v, n) ->
  v < 2 ^ p - 1 + 2 ^ 28 /\ 1 <= n <= 5 /\ n <= N.of_nat (List.length buf).
Proof. exact decode_integer_u32. Qed.
Print Assumptions C13_decode_integer_fits_u32.

Theorem C13_decode_integer_bad_prefix : forall buf p, ~ (1 <= p <= 8) ->
  decode_integer buf p = Err DInvalidPrefix.
Proof. exact decode_integer_bad_prefix. Qed.
Print Assumptions C13_decode_integer_bad_prefix.

(* RFC 7541 C.1.2 (1337, 5-bit prefix); a value the decoder cannot read back. *)
Example C13_case : encode_integer 1337 32 5 [] = ([63; 154; 10], Ok tt)
  /\ decode_integer [63; 154; 10; 99] 5 = Ok (1337, 3)
  /\ encode_integer (2 ^ 32 - 1) 0 8 [] = ([255; 128; 254; 255; 255; 15], Ok tt)
  /\ decode_integer [255; 128; 254; 255; 255; 15] 8 = Err DIntegerOverflow.
Proof. repeat split. Qed.

(* C14: wire format, minimality, bad prefixes. *)
Theorem C14_encode_integer_wire : forall v f p dst, 1 <= p <= 8 -> f < 256 -> v < 2 ^ 32 ->
  exists bs, encode_integer v f p dst = (dst ++ bs, Ok tt) /\
    int_wire 6 p (f / 2 ^ p) bs v /\
    (v < 2 ^ p - 1 + 2 ^ 28 -> (List.length bs <= 5)%nat) /\
    (2 ^ p - 1 + 2 ^ 28 <= v -> List.length bs = 6%nat) /\
    (forall lim bs', int_wire lim p (f / 2 ^ p) bs' v -> (List.length bs <= List.length bs')%nat).
Proof. exact encode_integer_ok. Qed.
Print Assumptions C14_encode_integer_wire.

Theorem C14_bad_prefix : forall v f p dst, ~ (1 <= p <= 8) ->
  encode_integer v f p dst = (dst, Err EInvalidPrefix).
Proof. exact encode_integer_bad_prefix. Qed.
Print Assumptions C14_bad_prefix.

Example C14_case : encode_integer 1337 64 5 [9] = ([9; 95; 154; 10], Ok tt) /\
  encode_integer (2 ^ 32 - 1) 128 7 [] = ([255; 128; 255; 255; 255; 15], Ok tt) /\
  encode_integer 31 32 5 [] = ([63; 0], Ok tt).
Proof. vm_compute. repeat split. Qed.

(* ------------------------------------------------------------------ *)
(* C15: false: input that stops inside a representation can panic. *)
Theorem C15_truncated_panics_refuted :
  forall m, hdecode m decoder_default [255] [] = ((decoder_default, [255], []), Panic) /\
            hdecode m decoder_default [64] [] = ((decoder_default, [64], []), Panic) /\
            hdecode m decoder_default [130; 65] [] =
              ((decoder_default, [65], [(octets ":method", octets "GET", 0)]), Panic).
Proof. intros []; repeat split. Qed.
Print Assumptions C15_truncated_panics_refuted.

(* Exactly when: after representations that are processed normally, the input
   stops inside an integer or in front of a string. *)
Theorem C15_panic_set_partial : forall m d buf dst, wf (dtable d) -> bytes buf ->
  (snd (hdecode m d buf dst) = Panic <->
   exists prs rest d' hs, buf = wire_octets prs ++ rest /\ wires 5 code_padding prs /\
    interp_all (dlimit d) (abs (dtable d)) (reprs prs) = Some (d', hs) /\
    repr_fault (entries d') rest Cut).
Proof. exact hdecode_panic_iff. Qed.
Print Assumptions C15_panic_set_partial.

Theorem C15_integer_panic_set_partial : forall p buf, 1 <= p <= 8 -> bytes buf ->
  (decode_integer buf p = Panic <-> exists hi, cut_int p hi buf).
Proof. exact decode_integer_panic_iff. Qed.
Print Assumptions C15_integer_panic_set_partial.

(* Every proper cut of a good block is a panic or IntegerUnderflow; the part
   before the cut representation has been processed. *)
Theorem C15_truncated_partial : forall m d prs a b r d' hs dst x, wf (dtable d) ->
  bytes (wire_octets prs ++ a ++ b) -> wires 5 code_padding prs ->
  interp_all (dlimit d) (abs (dtable d)) (reprs prs) = Some (d', hs) ->
  a <> [] -> b <> [] -> repr_wire 5 code_padding (a ++ b) r -> interp (dlimit d) d' r = inl x ->
  hdecode m d (wire_octets prs ++ a) dst = ((set_table d (conc d'), a, dst ++ hs), Panic) \/
  hdecode m d (wire_octets prs ++ a) dst = ((set_table d (conc d'), a, dst ++ hs), Err DIntegerUnderflow).
Proof. exact hdecode_truncated. Qed.
Print Assumptions C15_truncated_partial.

Example C15_case : forall m,
  hdecode m decoder_default [130; 0; 1; 97; 2; 98] [] =
    ((decoder_default, [0; 1; 97; 2; 98], [(octets ":method", octets "GET", 0)]), Err DIntegerUnderflow).
Proof. intros []; reflexivity. Qed.

(* ------------------------------------------------------------------ *)
(* C16: strings. *)
Theorem C16_string_round_trip : forall m m' sp data h dst rest, bytes data ->
  coded_length h data <= 126 + 2 ^ 28 ->
  exists bs, encode_string m data h dst = (dst ++ bs, Ok tt) /\
    decode_string m' sp (bs ++ rest) = Ok (data, N.of_nat (List.length bs)).
Proof. exact string_round_trip. Qed.
Print Assumptions C16_string_round_trip.

Theorem C16_encode_string_wire : forall m data h dst, bytes data ->
  (coded_length h data <= U32_MAX ->
   exists bs, encode_string m data h dst = (dst ++ bs, Ok tt) /\
     string_wire 6 rfc_padding h bs data /\
     (coded_length h data < 127 + 2 ^ 28 -> string_wire 5 rfc_padding h bs data) /\
     (forall lim bs', string_wire lim rfc_padding h bs' data -> (List.length bs <= List.length bs')%nat)) /\
  (U32_MAX < coded_length h data -> encode_string m data h dst = (dst, Err EIntegerOverflow)).
Proof. exact encode_string_ok. Qed.
Print Assumptions C16_encode_string_wire.

Theorem C16_decode_string_accepts : forall m sp buf s n, bytes buf ->
  (decode_string m sp buf = Ok (s, n) <->
   exists h bs rest, buf = bs ++ rest /\ string_wire 5 code_padding h bs s /\ n = N.of_nat (List.length bs)).
Proof. exact decode_string_iff. Qed.
Print Assumptions C16_decode_string_accepts.

Theorem C16_decode_string_fails : forall m sp bs f, bytes bs -> string_fault bs f ->
  decode_string m sp bs = fault_outcome f.
Proof. exact decode_string_fault. Qed.
Print Assumptions C16_decode_string_fails.

(* RFC 7541 C.4.1: "www.example.com" *)
Example C16_case : forall m sp,
  encode_string m (octets "www.example.com") true [] =
    ([140; 241; 227; 194; 229; 242; 58; 107; 160; 171; 144; 244; 255], Ok tt) /\
  decode_string m sp [140; 241; 227; 194; 229; 242; 58; 107; 160; 171; 144; 244; 255; 1] =
    Ok (octets "www.example.com", 13).
Proof. intros [] []; split; reflexivity. Qed.

(* ------------------------------------------------------------------ *)
(* C17: accounting and bound, over any history of a new table. *)
Theorem C17_sessions : forall m max ops, max < 2 ^ 32 -> Forall table_op_ok ops ->
  exists t, run_table m (table_with_size max) ops = Ok t (E := enc_error) /\ wf t /\
    abs t = table_meaning (mkdyn [] max) ops /\
    table_dynamic_size t = size (inner t) /\
    table_dynamic_size t <= table_max_dynamic_size t.
Proof.
  intros m max ops Hm Ho. destruct (@run_table_ok enc_error m ops _ (wf_new max Hm) Ho) as [H1 H2].
  exists (conc (table_meaning (abs (table_with_size max)) ops)). rewrite (wf_dynamic_size _ H2).
  split; [exact H1|]. split; [exact H2|]. split; [apply abs_conc|]. split; [reflexivity|].
  destruct H2 as (_ & H2 & _). exact H2.
Qed.
Print Assumptions C17_sessions.

(* Encoders: any sequence of calls with arguments of the right types, whether
   they succeed or not. *)
Theorem C17_encoder_reachable : forall m max ops, max < 2 ^ 32 -> Forall op_typed ops ->
  let '(t, dst, rs) := run_ops m (encoder_with_dynamic_size max) [] ops in
  wf t /\ Forall (fun r => r = Ok tt \/ r = Err EInvalidIndex \/ r = Err EIntegerOverflow) rs.
Proof.
  intros m max ops Hm Ho. pose proof (run_ops_wf m ops _ [] (wf_new max Hm) Ho) as H.
  unfold encoder_with_dynamic_size. destruct (run_ops m (table_with_size max) [] ops) as [[t dst] rs]. exact H.
Qed.
Print Assumptions C17_encoder_reachable.

(* Two entries of 35 and 34 octets in a table of 69, then a third: the oldest goes. *)
Example C17_case :
  run_table Debug (table_with_size 69)
    [TInsert [97] [98; 99]; TInsert [100] [101]; TInsert [102] []] =
  Ok (E := enc_error) (mkDyn [([102], []); ([100], [101])] 67 69).
Proof. reflexivity. Qed.

(* C18: eviction. [fits max l k]: k is the longest initial run of l of size <= max. *)
Theorem C18_insert : forall m t n v, wf t ->
  exists k, table_insert m t n v = Ok (E := enc_error) (mkDyn k (size k) (dmax t)) /\
    fits (dmax t) ((n, v) :: inner t) k /\
    (line_size (n, v) <= dmax t -> hd_error k = Some (n, v)) /\
    (dmax t < line_size (n, v) -> k = []).
Proof.
  intros m t n v Hw. destruct (@table_insert_ok enc_error m t n v Hw) as [E _].
  exists (fit (dmax t) ((n, v) :: inner t)). split; [exact E|]. split; [apply fit_fits|].
  split; intros H.
  - cbn [fit]. apply N.leb_le in H. rewrite H. reflexivity.
  - apply fit_insert_big. exact H.
Qed.
Print Assumptions C18_insert.

Theorem C18_resize : forall m t n, wf t -> n < 2 ^ 32 ->
  exists k, table_update_max m t n = Ok (E := enc_error) (mkDyn k (size k) n) /\ fits n (inner t) k.
Proof.
  intros m t n Hw Hn. destruct (@table_update_ok enc_error m t n Hw Hn) as [E _].
  exists (fit n (inner t)). split; [exact E|]. apply fit_fits.
Qed.
Print Assumptions C18_resize.

(* There is only one such run. *)
Theorem C18_run_unique : forall max l k1 k2, fits max l k1 -> fits max l k2 -> k1 = k2.
Proof. exact fits_unique. Qed.
Print Assumptions C18_run_unique.

Definition two_entries : table := mkDyn [([97], [98]); ([99], [100])] 68 70.
Example C18_case : wf two_entries /\
  table_insert Debug two_entries [101] [102] = Ok (E := enc_error) (mkDyn [([101], [102]); ([97], [98])] 68 70) /\
  table_insert Debug two_entries [101] (repeat 1 60) = Ok (E := enc_error) (mkDyn [] 0 70) /\
  table_update_max Debug two_entries 40 = Ok (E := enc_error) (mkDyn [([97], [98])] 34 40).
Proof. split; [repeat split; discriminate|]. vm_compute. repeat split. Qed.
Example C19_case : table_get two_entries 63 = Some ([99], [100]) /\ table_get two_entries 64 = None /\
  table_get two_entries 0 = None /\ table_get two_entries 61 = Some (octets "www-authenticate", []).
Proof. vm_compute. repeat split. Qed.

(* ------------------------------------------------------------------ *)
(* C19: index address space. *)
Theorem C19_none : forall t i,
  table_get t i = None <-> i = 0 \/ table_len t < i.
Proof.
  intros t i. rewrite get_lookup, lookup_None. unfold table_len. rewrite static_length. reflexivity.
Qed.
Print Assumptions C19_none.

Theorem C19_static : forall t i, 1 <= i <= 61 -> table_get t i = nth_error rfc_static (N.to_nat (i - 1)).
Proof. intros t i H. rewrite get_lookup. apply lookup_static. exact H. Qed.
Print Assumptions C19_static.

Theorem C19_dynamic : forall t k, table_get t (62 + k) = nth_error (inner t) (N.to_nat k).
Proof. intros t k. rewrite get_lookup. apply lookup_dynamic. Qed.
Print Assumptions C19_dynamic.

Theorem C19_static_length : List.length rfc_static = 61%nat /\
  forall t, table_len t = 61 + N.of_nat (List.length (inner t)) /\ table_dynamic_len t = N.of_nat (List.length (inner t)).
Proof.
  split; [reflexivity|]. intros t. split; [|reflexivity]. unfold table_len. rewrite static_length. reflexivity.
Qed.
Print Assumptions C19_static_length.

(* "the k-th most recently inserted live entry": over a history without size
   changes, the dynamic entries are the latest inserted ones, latest first. *)
Theorem C19_history : forall m max es, max < 2 ^ 32 ->
  exists k, run_table m (table_with_size max) (map (fun e => TInsert (fst e) (snd e)) es) =
    Ok (E := enc_error) (mkDyn k (size k) max) /\ prefix k (rev es).
Proof. exact insert_history. Qed.
Print Assumptions C19_history.

Theorem C19_iter : forall m t, wf t -> table_iter m t = Ok (E := enc_error) (rfc_static ++ inner t).
Proof. intros m t. apply table_iter_ok. Qed.
Print Assumptions C19_iter.

(* C20: find. *)
Theorem C20_find : forall m t name value, wf t ->
  exists r, table_find m t name value = Ok (E := enc_error) r /\ find_spec (table_get t) name value r.
Proof.
  intros m t name value Hw. destruct (@table_find_ok enc_error m t name value Hw) as (r & E & H).
  exists r. split; [exact E|]. eapply find_spec_ext; [|exact H]. intros i. symmetry. apply get_lookup.
Qed.
Print Assumptions C20_find.

Theorem C20_find_determined : forall t name value r1 r2,
  find_spec (table_get t) name value r1 -> find_spec (table_get t) name value r2 -> r1 = r2.
Proof. intros t name value r1 r2. apply find_spec_unique. reflexivity. Qed.
Print Assumptions C20_find_determined.

Example C20_case : let t := mkDyn [(octets "age", octets "7"); (octets ":path", octets "/")] 78 4096 in
  table_find Debug t (octets "age") (octets "7") = Ok (E := enc_error) (Some (62, true)) /\
  table_find Debug t (octets "age") (octets "8") = Ok (E := enc_error) (Some (21, false)) /\
  table_find Debug t (octets ":path") (octets "/") = Ok (E := enc_error) (Some (4, true)) /\
  table_find Debug t (octets "none") [] = Ok (E := enc_error) None.
Proof. repeat split. Qed.

(* ------------------------------------------------------------------ *)
(* C21: whole sessions.  [meaning] says what the operations should transmit.
   Partial: strings are limited to 2^28 + 126 coded octets and size updates to
   2^28 + 30, see C21_large_update_refuted. *)
Theorem C21_session_partial : forall m m' max ops, max < 2 ^ 32 -> Forall (op_ok max) ops ->
  exists t out n,
    run_ops m (encoder_with_dynamic_size max) [] ops = (t, out, snd (meaning (mkdyn [] max) ops)) /\
    abs t = fst (fst (meaning (mkdyn [] max) ops)) /\
    hdecode m' (decoder_with_dynamic_size max) out [] =
      ((mkDec FiveBits max t, [], snd (fst (meaning (mkdyn [] max) ops))), Ok n).
Proof.
  intros m m' max ops Hm Ho.
  exact (session_sync m m' ops (decoder_with_dynamic_size max) (table_with_size max) [] (wf_new max Hm) eq_refl Hm Ho).
Qed.
Print Assumptions C21_session_partial.

(* The same from any pair of equal tables, any limit, speed and destination. *)
Theorem C21_session_from_partial : forall m m' ops d t dst0, wf t -> dtable d = t -> dlimit d < 2 ^ 32 ->
  Forall (op_ok (dlimit d)) ops ->
  exists t' out n,
    run_ops m t [] ops = (t', out, snd (meaning (abs t) ops)) /\
    abs t' = fst (fst (meaning (abs t) ops)) /\
    hdecode m' d out dst0 = ((set_table d t', [], dst0 ++ snd (fst (meaning (abs t) ops))), Ok n).
Proof. exact session_sync. Qed.
Print Assumptions C21_session_from_partial.

Theorem C21_large_update_refuted : forall m m' t d n dst dst2 rest, wf t -> wf (dtable d) ->
  30 + 2 ^ 28 < n -> n < 2 ^ 32 -> bytes rest ->
  exists bs, encoder_update_max m t n dst = ((conc (resize (abs t) n), dst ++ bs), Ok tt) /\
    hdecode m' d (bs ++ rest) dst2 = ((d, bs ++ rest, dst2), Err DIntegerOverflow).
Proof. exact large_update. Qed.
Print Assumptions C21_large_update_refuted.

(* A session with every kind of operation, incl. a refused one and an eviction. *)
Definition demo_ops : list op :=
  [Send (Literal (octets "name") (octets "value") 7); Send (Indexed 62); Send (Indexed 99);
   Send (IndexedName 4 (octets "/sample") 10); Resize 45;
   Send (Literal (octets "name") (octets "value") 20); Send (Literal (octets ":path") (octets "/x") 22);
   Resize 0].
Example C21_case : Forall (op_ok 4096) demo_ops /\
  meaning (mkdyn [] 4096) demo_ops =
    (mkdyn [] 0,
     [(octets "name", octets "value", 4); (octets "name", octets "value", 0); (octets ":path", octets "/sample", 8);
      (octets "name", octets "value", 0); (octets ":path", octets "/x", 4)],
     [Ok tt; Ok tt; Err EInvalidIndex; Ok tt; Ok tt; Ok tt; Ok tt; Ok tt]) /\
  hdecode Release (decoder_with_dynamic_size 4096) (snd (fst (run_ops Debug (table_with_size 4096) [] demo_ops))) [] =
    ((mkDec FiveBits 4096 (mkDyn [] 0 0), [],
      [(octets "name", octets "value", 4); (octets "name", octets "value", 0); (octets ":path", octets "/sample", 8);
       (octets "name", octets "value", 0); (octets ":path", octets "/x", 4)]), Ok 23).
Proof.
  split; [|split; vm_compute; reflexivity].
  assert (B : forall s, bytes (octets s)) by exact octets_bytes.
  repeat (apply Forall_cons; [|]); try apply Forall_nil; cbn [op_ok input_ok sendable]; repeat split; try apply B;
    try (vm_compute; reflexivity); try (vm_compute; discriminate).
Qed.

(* C22: one field. *)
Theorem C22_one_field : forall m m' t f dst d rest dst2 n v, wf t -> dtable d = t -> input_ok f -> sendable f ->
  field_of (inner t) f = Some (n, v) -> bytes rest ->
  exists bs t', hencode m t f dst = ((t', dst ++ bs), Ok tt) /\ bytes bs /\
    abs t' = (if flag_used (inner t) f =? 4 then insert (abs t) (n, v) else abs t) /\ wf t' /\
    hdecode_exact m' 1 d (bs ++ rest) dst2 =
      ((set_table d t', rest, dst2 ++ [(n, v, flag_used (inner t) f)]), Ok (N.of_nat (List.length bs))).
Proof.
  intros m m' t f dst d rest dst2 n v Hw Hd Hf Hs Hn Hr.
  destruct (one_field m m' t f dst d rest dst2 n v Hw Hd Hf Hs Hn Hr) as (bs & E1 & E2 & E3).
  eexists bs, _. split; [exact E1|]. split; [exact E2|]. split; [apply abs_conc|]. split; [|exact E3].
  pose proof (hencode_wf m t f dst Hw Hf) as H. rewrite E1 in H. exact H.
Qed.
Print Assumptions C22_one_field.

(* Fields given as tuples: Into<EncoderInput>. *)
Theorem C22_tuple_inputs : forall i n v fl,
  input_of_u32 i = Indexed i /\ input_of_indexed_name (i, v, fl) = IndexedName i v fl /\
  input_of_literal (n, v, fl) = Literal n v fl.
Proof. repeat split. Qed.
Print Assumptions C22_tuple_inputs.

(* A dynamic name with a Huffman-coded value, inserted: then read back, with the
   next representation left alone. *)
Example C22_case : let t := mkDyn [([97], [98])] 34 100 in
  let t' := mkDyn [([97], [120; 121]); ([97], [98])] 69 100 in
  wf t /\ input_ok (IndexedName 62 [120; 121] 6) /\ sendable (IndexedName 62 [120; 121] 6) /\
  field_of (inner t) (IndexedName 62 [120; 121] 6) = Some ([97], [120; 121]) /\
  hencode Debug t (IndexedName 62 [120; 121] 6) [1] = ((t', [1; 126; 130; 243; 235]), Ok tt) /\
  hdecode_exact Release 1 (mkDec OneBit 100 t) [126; 130; 243; 235; 5] [] =
    ((mkDec OneBit 100 t', [5], [([97], [120; 121], 4)]), Ok 4).
Proof.
  cbv zeta. split; [repeat split; discriminate|]. split; [repeat constructor|].
  split; [vm_compute; intuition discriminate|]. vm_compute. repeat split.
Qed.

(* C23: an InvalidIndex failure changes nothing, and happens exactly for fields
   that do not exist ... *)
Theorem C23_invalid_index_partial : forall m t f dst, wf t -> input_ok f ->
  (snd (hencode m t f dst) = Err EInvalidIndex <-> field_of (inner t) f = None) /\
  (field_of (inner t) f = None -> hencode m t f dst = ((t, dst), Err EInvalidIndex)).
Proof.
  intros m t f dst Hw Hf. split; [|apply hencode_refused]. split.
  - intros H. destruct (hencode_cases m t f dst Hw Hf) as [[H1 _]|(r & _ & [(_ & bs & d' & hs & E & _)|(_ & d' & hs & j & E & _)])];
      [exact H1| |]; rewrite E in H; discriminate H.
  - intros H. rewrite (hencode_refused m t f dst H). reflexivity.
Qed.
Print Assumptions C23_invalid_index_partial.

(* ... no call panics, and IntegerOverflow is only returned for a coded string of
   2^32 octets or more ... *)
Theorem C23_overflow_only_partial : forall m t f dst, wf t -> input_ok f ->
  (snd (hencode m t f dst) = Ok tt \/ snd (hencode m t f dst) = Err EInvalidIndex \/
   snd (hencode m t f dst) = Err EIntegerOverflow) /\
  (snd (hencode m t f dst) = Err EIntegerOverflow <->
   exists r, chosen (inner t) f r /\ ~ strings_within (2 ^ 32 - 1) r).
Proof. exact overflow_only. Qed.
Print Assumptions C23_overflow_only_partial.

(* ... but then both output and table have been changed. *)
Theorem C23_failed_encode_refuted : forall m t dst v, wf t -> bytes v -> 2 ^ 32 <= N.of_nat (List.length v) ->
  exists junk, junk <> [] /\
    hencode m t (Literal [] v 4) dst = ((mkDyn [] 0 (dmax t), dst ++ junk), Err EIntegerOverflow).
Proof. exact oversized_literal. Qed.
Print Assumptions C23_failed_encode_refuted.

(* On every overflow: something has been appended, and the table is what it
   would be had the call succeeded. *)
Theorem C23_overflow_effect_partial : forall m t f dst, wf t -> input_ok f ->
  snd (hencode m t f dst) = Err EIntegerOverflow ->
  exists r d' hs junk, chosen (inner t) f r /\ (forall limit, interp limit (abs t) r = inl (d', hs)) /\
    junk <> [] /\ fst (hencode m t f dst) = (conc d', dst ++ junk).
Proof. exact overflow_effect. Qed.
Print Assumptions C23_overflow_effect_partial.

Example C23_case : bytes (repeat 97 (N.to_nat (2 ^ 32))) /\
  2 ^ 32 <= N.of_nat (List.length (repeat 97 (N.to_nat (2 ^ 32)))) /\
  wf (mkDyn [([97], [98])] 34 100).
Proof.
  split; [|split].
  - apply Forall_forall. intros x Hx. apply repeat_spec in Hx. subst. reflexivity.
  - rewrite repeat_length. lia.
  - repeat split; discriminate.
Qed.

(* ------------------------------------------------------------------ *)
(* C24: decode of any input: some representations are processed, then it stops
   at the end, at a malformed or at a refused representation; everything about
   the result is determined by that. *)
Theorem C24_decode_result : forall m d buf dst, wf (dtable d) -> bytes buf ->
  exists prs rest d' hs s,
    buf = wire_octets prs ++ rest /\ wires 5 code_padding prs /\
    interp_all (dlimit d) (abs (dtable d)) (reprs prs) = Some (d', hs) /\
    ends (dlimit d) d' rest s /\ wf (conc d') /\
    hdecode m d buf dst = ((set_table d (conc d'), rest, dst ++ hs), stop_outcome s (counted prs)).
Proof. exact hdecode_total. Qed.
Print Assumptions C24_decode_result.

Theorem C24_decode_determined : forall m d prs rest d' hs s dst, wf (dtable d) ->
  bytes (wire_octets prs ++ rest) -> wires 5 code_padding prs ->
  interp_all (dlimit d) (abs (dtable d)) (reprs prs) = Some (d', hs) ->
  ends (dlimit d) d' rest s ->
  hdecode m d (wire_octets prs ++ rest) dst =
    ((set_table d (conc d'), rest, dst ++ hs), stop_outcome s (counted prs)).
Proof. exact hdecode_ok. Qed.
Print Assumptions C24_decode_determined.

Example C24_case : forall m,   (* :method GET, then index 70 *)
  hdecode m decoder_default [130; 198; 130] [] =
    ((decoder_default, [198; 130], [(octets ":method", octets "GET", 0)]), Err DInvalidIndex).
Proof. intros []; reflexivity. Qed.

(* C25: splitting.  Stopping for lack of input (success, IntegerUnderflow or a
   panic whose effects are kept) and going on equals decoding the whole ... *)
Theorem C25_split : forall m m' m'' d a b dst, wf (dtable d) -> bytes (a ++ b) ->
  exists d1 rest1 hs1 o1 k d2 rest2 dst2 o2,
    hdecode m d a dst = ((d1, rest1, dst ++ hs1), o1) /\
    hdecode m' d1 (rest1 ++ b) (dst ++ hs1) = ((d2, rest2, dst2), o2) /\
    hdecode m'' d (a ++ b) dst = ((d2, rest2, dst2), add_count k o2) /\
    (forall n, o1 = Ok n -> n = k).
Proof. exact hdecode_split. Qed.
Print Assumptions C25_split.

(* ... and any other error is final: more input does not change it. *)
Theorem C25_errors_final : forall m m' d a b dst st e, wf (dtable d) -> bytes (a ++ b) ->
  hdecode m d a dst = (st, Err e) -> e <> DIntegerUnderflow ->
  exists d1 rest hs, st = (d1, rest, dst ++ hs) /\
    hdecode m' d (a ++ b) dst = ((d1, rest ++ b, dst ++ hs), Err e).
Proof. exact hdecode_final. Qed.
Print Assumptions C25_errors_final.

(* Cut inside the value of the second field; an error in the first part. *)
Example C25_case : forall m,
  hdecode m decoder_default [130; 0; 1; 97; 2; 98] [] =
    ((decoder_default, [0; 1; 97; 2; 98], [(octets ":method", octets "GET", 0)]), Err DIntegerUnderflow) /\
  hdecode m decoder_default ([0; 1; 97; 2; 98] ++ [99; 132]) [(octets ":method", octets "GET", 0)] =
    ((decoder_default, [], [(octets ":method", octets "GET", 0); ([97], [98; 99], 0); (octets ":path", octets "/", 0)]), Ok 7) /\
  hdecode m decoder_default [130; 0; 1; 97; 2; 98; 99; 132] [] =
    ((decoder_default, [], [(octets ":method", octets "GET", 0); ([97], [98; 99], 0); (octets ":path", octets "/", 0)]), Ok 8) /\
  hdecode m decoder_default ([128] ++ [130]) [] = ((decoder_default, [128; 130], []), Err DInvalidIndex).
Proof. intros []; vm_compute; repeat split. Qed.

(* C26: size updates. *)
Theorem C26_update_rejected : forall m d bs n rest dst, wf (dtable d) -> bytes (bs ++ rest) ->
  int_wire 5 5 1 bs n -> dlimit d < n ->
  hdecode m d (bs ++ rest) dst = ((d, bs ++ rest, dst), Err DInvalidMaxDynamicSize).
Proof.
  intros m d bs n rest dst Hw Hb Hi Hn.
  apply (hdecode_refuses m d bs (RSize n) BadSize rest dst Hw Hb); [constructor; exact Hi|].
  unfold interp. apply N.leb_gt in Hn. rewrite Hn. reflexivity.
Qed.
Print Assumptions C26_update_rejected.

Theorem C26_decoder_reachable : forall m max cs, max < 2 ^ 32 -> Forall call_ok cs ->
  let d := fold_left (do_call m) cs (decoder_with_dynamic_size max) in
  wf (dtable d) /\ dlimit d <= largest max cs /\ decoder_max_dynamic_size d <= largest max cs /\
  table_dynamic_size (dtable d) <= largest max cs.
Proof.
  intros m max cs Hm Hc.
  destruct (calls_bounded m cs (decoder_with_dynamic_size max) max Hc (wf_new max Hm) (N.le_refl _) (N.le_refl _))
    as (H1 & H2 & H3).
  split; [exact H1|]. split; [exact H2|]. split; [exact H3|].
  rewrite (wf_dynamic_size _ H1). destruct H1 as (_ & H1 & _). eapply N.le_trans; [exact H1|exact H3].
Qed.
Print Assumptions C26_decoder_reachable.

Example C26_case : forall m,   (* limit 100: update to 100 accepted, to 101 refused *)
  hdecode m (decoder_with_dynamic_size 100) [63; 69] [] = ((decoder_with_dynamic_size 100, [], []), Ok 0) /\
  hdecode m (decoder_with_dynamic_size 100) [63; 70] [] =
    ((decoder_with_dynamic_size 100, [63; 70], []), Err DInvalidMaxDynamicSize).
Proof. intros []; split; reflexivity. Qed.

(* ------------------------------------------------------------------ *)
(* C27: never indexed, if bits 0x4 and 0x10 are clear. *)
Theorem C27_never_indexed_partial : forall m m' t n v fl dst d rest dst2, wf t -> dtable d = t ->
  input_ok (Literal n v fl) -> sendable (Literal n v fl) -> bytes rest ->
  N.testbit fl 3 = true -> N.testbit fl 2 = false -> N.testbit fl 4 = false ->
  exists bs, hencode m t (Literal n v fl) dst = ((t, dst ++ bs), Ok tt) /\
    hdecode_exact m' 1 d (bs ++ rest) dst2 = ((d, rest, dst2 ++ [(n, v, 8)]), Ok (N.of_nat (List.length bs))).
Proof.
  intros m m' t n v fl dst d rest dst2 Hw Hd Hf Hs Hr F3 F2 F4.
  destruct (one_field m m' t _ dst d rest dst2 n v Hw Hd Hf Hs eq_refl Hr) as (bs & E1 & _ & E3).
  assert (F : flag_used (inner t) (Literal n v fl) = 8).
  { apply flag_used_never. split; [exact F3|]. split; [exact F2|]. rewrite F4. intros [H _]. discriminate H. }
  rewrite F in E1, E3. change (8 =? 4) with false in E1, E3. cbv iota in E1, E3.
  exists bs. rewrite conc_abs in E1 by exact Hw. split; [exact E1|].
  rewrite conc_abs in E3 by exact Hw. rewrite E3, <- Hd. destruct d; reflexivity.
Qed.
Print Assumptions C27_never_indexed_partial.

Theorem C27_never_indexed_name_partial : forall m m' t i n v fl dst d rest dst2, wf t -> dtable d = t ->
  input_ok (IndexedName i v fl) -> sendable (IndexedName i v fl) -> bytes rest ->
  option_map fst (table_get t i) = Some n ->
  N.testbit fl 3 = true -> N.testbit fl 2 = false ->
  exists bs, hencode m t (IndexedName i v fl) dst = ((t, dst ++ bs), Ok tt) /\
    hdecode_exact m' 1 d (bs ++ rest) dst2 = ((d, rest, dst2 ++ [(n, v, 8)]), Ok (N.of_nat (List.length bs))).
Proof.
  intros m m' t i n v fl dst d rest dst2 Hw Hd Hf Hs Hr Hi F3 F2.
  assert (Hn : field_of (inner t) (IndexedName i v fl) = Some (n, v)).
  { rewrite get_lookup in Hi. unfold field_of. destruct (lookup (inner t) i); [|discriminate].
    injection Hi as <-. reflexivity. }
  destruct (one_field m m' t _ dst d rest dst2 n v Hw Hd Hf Hs Hn Hr) as (bs & E1 & _ & E3).
  assert (F : flag_used (inner t) (IndexedName i v fl) = 8).
  { unfold flag_used, kind_of. rewrite F2, F3. reflexivity. }
  rewrite F in E1, E3. change (8 =? 4) with false in E1, E3. cbv iota in E1, E3.
  exists bs. rewrite conc_abs in E1 by exact Hw. split; [exact E1|].
  rewrite conc_abs in E3 by exact Hw. rewrite E3, <- Hd. destruct d; reflexivity.
Qed.
Print Assumptions C27_never_indexed_name_partial.

(* Exactly when a literal is marked never indexed. *)
Theorem C27_marked_iff_partial : forall l n v fl,
  flag_used l (Literal n v fl) = 8 <->
  N.testbit fl 3 = true /\ N.testbit fl 2 = false /\ ~ (N.testbit fl 4 = true /\ has_line l (n, v) = true).
Proof. exact flag_used_never. Qed.
Print Assumptions C27_marked_iff_partial.

(* The same in terms of the calls: the decoder reports NEVER_INDEXED exactly
   under this condition, and then neither table changes. *)
Theorem C27_reported_iff_partial : forall m m' t n v fl dst d rest dst2, wf t -> dtable d = t ->
  input_ok (Literal n v fl) -> sendable (Literal n v fl) -> bytes rest ->
  exists t' bs flags,
    hencode m t (Literal n v fl) dst = ((t', dst ++ bs), Ok tt) /\
    hdecode_exact m' 1 d (bs ++ rest) dst2 =
      ((set_table d t', rest, dst2 ++ [(n, v, flags)]), Ok (N.of_nat (List.length bs))) /\
    (flags = 8 <-> N.testbit fl 3 = true /\ N.testbit fl 2 = false /\
                   ~ (N.testbit fl 4 = true /\ exists i, table_get t i = Some (n, v))) /\
    (flags = 8 -> t' = t).
Proof. exact never_reported. Qed.
Print Assumptions C27_reported_iff_partial.

(* 0x8 with 0x4 is inserted and sent "with indexing"; 0x8 with 0x10 and a table
   match is sent as an index. *)
Theorem C27_never_indexed_refuted : forall m,
  hencode m encoder_default (Literal [97] [98] 12) [] =
    ((mkDyn [([97], [98])] 34 4096, [64; 1; 97; 1; 98]), Ok tt) /\
  hdecode m decoder_default [64; 1; 97; 1; 98] [] =
    ((mkDec FiveBits 4096 (mkDyn [([97], [98])] 34 4096), [], [([97], [98], 4)]), Ok 5) /\
  hencode m encoder_default (Literal (octets ":method") (octets "GET") 24) [] =
    ((encoder_default, [130]), Ok tt) /\
  hdecode m decoder_default [130] [] = ((decoder_default, [], [(octets ":method", octets "GET", 0)]), Ok 1).
Proof. intros []; repeat split. Qed.
Print Assumptions C27_never_indexed_refuted.

(* A password, marked never indexed, with Huffman coding of the value; and by the index of
   its name. *)
Example C27_case : forall m,
  let t := mkDyn [([97], [98])] 34 100 in
  wf t /\ input_ok (Literal [97] [98] 10) /\ sendable (Literal [97] [98] 10) /\
  N.testbit 10 3 = true /\ N.testbit 10 2 = false /\ N.testbit 10 4 = false /\
  hencode m t (Literal [97] [98] 10) [1] = ((t, [1; 16; 1; 97; 129; 143]), Ok tt) /\
  hdecode_exact m 1 (mkDec OneBit 100 t) [16; 1; 97; 129; 143; 5] [] = ((mkDec OneBit 100 t, [5], [([97], [98], 8)]), Ok 5) /\
  hencode m t (IndexedName 62 [98] 8) [] = ((t, [31; 47; 1; 98]), Ok tt) /\
  hdecode_exact m 1 (mkDec OneBit 100 t) [31; 47; 1; 98] [] = ((mkDec OneBit 100 t, [], [([97], [98], 8)]), Ok 4).
Proof.
  intros m. cbv zeta. split; [repeat split; discriminate|]. split; [repeat constructor|].
  split; [vm_compute; intuition discriminate|]. destruct m; vm_compute; repeat split.
Qed.

(* C28: the count. [counted] adds the octets of everything but size updates. *)
Theorem C28_count_partial : forall m d buf dst d1 rest dst1 n, wf (dtable d) -> bytes buf ->
  hdecode m d buf dst = ((d1, rest, dst1), Ok n) ->
  exists prs, buf = wire_octets prs /\ rest = [] /\ wires 5 code_padding prs /\ n = counted prs /\
    (n = N.of_nat (List.length buf) <-> forallb (fun r => negb (is_size r)) (reprs prs) = true).
Proof. exact hdecode_count. Qed.
Print Assumptions C28_count_partial.

Theorem C28_count_refuted : forall m,
  hdecode m decoder_default [32; 130] [] =
    ((mkDec FiveBits 4096 (mkDyn [] 0 0), [], [(octets ":method", octets "GET", 0)]), Ok 1).
Proof. intros []; reflexivity. Qed.
Print Assumptions C28_count_refuted.

Example C28_case : forall m,
  wf (dtable decoder_default) /\ bytes [130; 64; 1; 97; 1; 98; 190] /\
  hdecode m decoder_default [130; 64; 1; 97; 1; 98; 190] [] =
    ((mkDec FiveBits 4096 (mkDyn [([97], [98])] 34 4096), [],
      [(octets ":method", octets "GET", 0); ([97], [98], 4); ([97], [98], 0)]), Ok 7).
Proof. intros m. refine (conj _ (conj _ _)); [repeat split; discriminate|cbn [repeat app]; repeat constructor|destruct m; vm_compute; reflexivity]. Qed.

(* C29: decode_exact. *)
Theorem C29_decode_exact : forall m cap d buf dst, wf (dtable d) -> bytes buf ->
  exists prs rest d' hs s,
    buf = wire_octets prs ++ rest /\ wires 5 code_padding prs /\ (List.length prs <= cap)%nat /\
    interp_all (dlimit d) (abs (dtable d)) (reprs prs) = Some (d', hs) /\
    (List.length prs = cap /\ s = Done \/ (List.length prs < cap)%nat /\ ends (dlimit d) d' rest s) /\ wf (conc d') /\
    hdecode_exact m cap d buf dst = ((set_table d (conc d'), rest, dst ++ hs), stop_outcome s (counted prs)).
Proof. exact hdecode_exact_total. Qed.
Print Assumptions C29_decode_exact.

Theorem C29_decode_exact_determined : forall m cap d prs rest d' hs s dst, wf (dtable d) ->
  bytes (wire_octets prs ++ rest) -> wires 5 code_padding prs ->
  interp_all (dlimit d) (abs (dtable d)) (reprs prs) = Some (d', hs) ->
  (List.length prs = cap /\ s = Done \/ (List.length prs < cap)%nat /\ ends (dlimit d) d' rest s) ->
  hdecode_exact m cap d (wire_octets prs ++ rest) dst =
    ((set_table d (conc d'), rest, dst ++ hs), stop_outcome s (counted prs)).
Proof. exact hdecode_exact_ok. Qed.
Print Assumptions C29_decode_exact_determined.

Example C29_case : forall m,
  hdecode_exact m 2 decoder_default [130; 131; 132] [] =
    ((decoder_default, [132], [(octets ":method", octets "GET", 0); (octets ":method", octets "POST", 0)]), Ok 2) /\
  hdecode_exact m 0 decoder_default [130] [] = ((decoder_default, [130], []), Ok 0).
Proof. intros []; split; reflexivity. Qed.

(* C30: the limit set is not the one reported ... *)
Theorem C30_limit_refuted : forall d n,
  decoder_max_dynamic_size (decoder_set_max d n) = decoder_max_dynamic_size d.
Proof. reflexivity. Qed.
Print Assumptions C30_limit_refuted.

(* ... what is reported is the table's maximum: the size given to the constructor
   or in the last accepted size update; the limit set is the one enforced. *)
Theorem C30_reported_partial : forall max, decoder_max_dynamic_size (decoder_with_dynamic_size max) = max /\
  decoder_max_dynamic_size decoder_default = 4096 /\
  encoder_max_dynamic_size (encoder_with_dynamic_size max) = max /\
  encoder_max_dynamic_size encoder_default = 4096.
Proof. repeat split. Qed.
Print Assumptions C30_reported_partial.

Theorem C30_enforced_partial : forall m d lim bs n rest dst, wf (dtable d) -> bytes (bs ++ rest) ->
  int_wire 5 5 1 bs n ->
  hdecode_exact m 1 (decoder_set_max d lim) (bs ++ rest) dst =
    if n <=? lim
    then ((mkDec (dspeed d) lim (conc (resize (abs (dtable d)) n)), rest, dst), Ok 0)
    else ((decoder_set_max d lim, bs ++ rest, dst), Err DInvalidMaxDynamicSize).
Proof. exact limit_enforced. Qed.
Print Assumptions C30_enforced_partial.

(* What is reported after decoding anything: the last update that was accepted, or the
   number reported before. *)
Theorem C30_history_partial : forall m d buf dst d1 rest dst1 o, wf (dtable d) -> bytes buf ->
  hdecode m d buf dst = ((d1, rest, dst1), o) ->
  exists prs, buf = wire_octets prs ++ rest /\ wires 5 code_padding prs /\
    let updates := flat_map (fun r => match r with RSize n => [n] | _ => [] end) (map snd prs) in
    decoder_max_dynamic_size d1 = last updates (decoder_max_dynamic_size d) /\
    Forall (fun n => n <= dlimit d) updates /\ dlimit d1 = dlimit d.
Proof. exact reported_history. Qed.
Print Assumptions C30_history_partial.

(* A limit of 100: an update to 100 is accepted and then reported, one to 101 is not. *)
Example C30_case : forall m, let d := decoder_set_max decoder_default 100 in
  decoder_max_dynamic_size d = 4096 /\
  hdecode_exact m 1 d [63; 69; 130] [] = ((mkDec FiveBits 100 (mkDyn [] 0 100), [130], []), Ok 0) /\
  decoder_max_dynamic_size (mkDec FiveBits 100 (mkDyn [] 0 100)) = 100 /\
  hdecode_exact m 1 d [63; 70; 130] [] = ((d, [63; 70; 130], []), Err DInvalidMaxDynamicSize).
Proof. intros []; repeat split. Qed.

(* C31: invalid indices. *)
Theorem C31_encoder : forall m t f dst, 
  match f with Indexed i | IndexedName i _ _ => i = 0 \/ table_len t < i | Literal _ _ _ => False end ->
  hencode m t f dst = ((t, dst), Err EInvalidIndex).
Proof.
  intros m t f dst H. apply hencode_refused.
  assert (L : forall i, i = 0 \/ table_len t < i -> lookup (inner t) i = None).
  { intros i Hi. rewrite <- get_lookup. apply C19_none. exact Hi. }
  destruct f as [i|i v fl|n v fl]; [exact (L i H)| |destruct H].
  unfold field_of. rewrite (L i H). reflexivity.
Qed.
Print Assumptions C31_encoder.

Theorem C31_decoder : forall m d bs i rest dst, wf (dtable d) -> bytes (bs ++ rest) ->
  i = 0 \/ table_len (dtable d) < i ->
  (int_wire 5 7 1 bs i \/ (i <> 0 /\ exists k, int_wire 5 (kind_prefix k) (kind_bits k) bs i)) ->
  hdecode m d (bs ++ rest) dst = ((d, bs ++ rest, dst), Err DInvalidIndex).
Proof.
  intros m d bs i rest dst Hw Hb Hi. apply hdecode_bad_index; auto.
  rewrite <- get_lookup. apply C19_none. exact Hi.
Qed.
Print Assumptions C31_decoder.

Example C31_case : forall m,
  hencode m encoder_default (Indexed 62) [5] = ((encoder_default, [5]), Err EInvalidIndex) /\
  hencode m encoder_default (IndexedName 0 [97] 0) [5] = ((encoder_default, [5]), Err EInvalidIndex) /\
  hdecode m decoder_default [190; 130] [] = ((decoder_default, [190; 130], []), Err DInvalidIndex) /\
  hdecode m decoder_default [126; 1; 97] [] = ((decoder_default, [126; 1; 97], []), Err DInvalidIndex).
Proof. intros []; vm_compute; repeat split. Qed.

(* C32: termination (the model's loops have fuel = number of octets). *)
Theorem C32_terminates : forall m cap d buf dst, wf (dtable d) -> bytes buf ->
  snd (hdecode m d buf dst) <> OutOfFuel /\ snd (hdecode_exact m cap d buf dst) <> OutOfFuel.
Proof. intros. split; [apply hdecode_terminates|apply hdecode_exact_terminates]; assumption. Qed.
Print Assumptions C32_terminates.

Theorem C32_progress : forall lim pad bs r, repr_wire lim pad bs r -> (1 <= List.length bs)%nat.
Proof. exact repr_wire_nonempty. Qed.
Print Assumptions C32_progress.

(* Ten size updates in a row, then an incomplete integer (a panic, see C15). *)
Example C32_case : forall m,
  wf (dtable decoder_default) /\ bytes (repeat 32 10 ++ [255; 128]) /\
  hdecode m decoder_default (repeat 32 10 ++ [255; 128]) [] =
    ((mkDec FiveBits 4096 (mkDyn [] 0 0), [255; 128], []), Panic).
Proof. intros m. refine (conj _ (conj _ _)); [repeat split; discriminate|unfold bytes; repeat (apply Forall_cons; [reflexivity|]); apply Forall_nil|destruct m; vm_compute; reflexivity]. Qed.

(* C33: the encoder writes one representation, the one the flags ask for, with the
   meaning of RFC 7541 (the decoder's side is C24 and C29). *)
Theorem C33_encode_wire : forall m t f dst r, wf t -> input_ok f -> chosen (inner t) f r ->
  strings_within (2 ^ 32 - 1) r ->
  exists bs d' hs, hencode m t f dst = ((conc d', dst ++ bs), Ok tt) /\
    (forall limit, interp limit (abs t) r = inl (d', hs)) /\ wf (conc d') /\
    repr_wire 6 rfc_padding bs r /\ (strings_within MAX_STRING r -> repr_wire 5 rfc_padding bs r) /\ bytes bs.
Proof. exact hencode_ok. Qed.
Print Assumptions C33_encode_wire.

Theorem C33_encode_direct : forall m t dst, wf t ->
  (forall i, encode_indexed t i dst = hencode m t (Indexed i) dst) /\
  (forall i v fl, encode_indexed_name m t i v fl dst = hencode m t (IndexedName i v fl) dst) /\
  (forall n v fl, N.testbit fl 4 = false -> fl < 256 -> encode_literal m t n v fl dst = hencode m t (Literal n v fl) dst).
Proof.
  intros m t dst Hw. repeat split. intros n v fl H4 Hf. cbn [hencode].
  destruct (has_flag_bits fl Hf) as (_ & _ & _ & _ & ->). rewrite H4. reflexivity.
Qed.
Print Assumptions C33_encode_direct.

Theorem C33_update_wire : forall m t n dst, wf t -> n < 2 ^ 32 ->
  exists bs, encoder_update_max m t n dst = ((conc (resize (abs t) n), dst ++ bs), Ok tt) /\
    repr_wire 6 rfc_padding bs (RSize n) /\ (n <= MAX_UPDATE -> repr_wire 5 rfc_padding bs (RSize n)) /\
    bytes bs /\ wf (conc (resize (abs t) n)).
Proof. exact encoder_update_ok. Qed.
Print Assumptions C33_update_wire.

(* A field can be sent exactly if it exists, and the choice is determined. *)
Theorem C33_choice : forall t f, wf t -> (field_of (inner t) f <> None <-> exists r, chosen (inner t) f r).
Proof. exact chosen_iff. Qed.
Print Assumptions C33_choice.

Theorem C33_choice_unique : forall l f r1 r2, chosen l f r1 -> chosen l f r2 -> r1 = r2.
Proof. exact chosen_unique. Qed.
Print Assumptions C33_choice_unique.

(* No input can be read as two different representations. *)
Theorem C33_unambiguous : forall pad a r x b r' y,
  repr_wire 5 pad a r -> repr_wire 5 pad b r' -> bytes (a ++ x) -> a ++ x = b ++ y ->
  a = b /\ r = r' /\ x = y.
Proof. exact repr_wire_unique. Qed.
Print Assumptions C33_unambiguous.

(* RFC 7541 C.4.1, first request, with the table it leaves. *)
Example C33_case : forall m,
  run_ops m encoder_default []
    [Send (Indexed 2); Send (Indexed 6); Send (Indexed 4);
     Send (Literal (octets ":authority") (octets "www.example.com") 22)] =
  (mkDyn [(octets ":authority", octets "www.example.com")] 57 4096,
   [130; 134; 132; 65; 140; 241; 227; 194; 229; 242; 58; 107; 160; 171; 144; 244; 255],
   [Ok tt; Ok tt; Ok tt; Ok tt]).
Proof. intros []; vm_compute; reflexivity. Qed.

(* C34: concatenation. *)
Theorem C34_concat : forall m m' m'' d a b dst d1 rest dst1 k, wf (dtable d) -> bytes (a ++ b) ->
  hdecode m d a dst = ((d1, rest, dst1), Ok k) ->
  rest = [] /\
  hdecode m' d (a ++ b) dst =
    (fst (hdecode m'' d1 b dst1), add_count k (snd (hdecode m'' d1 b dst1))).
Proof. exact hdecode_concat. Qed.
Print Assumptions C34_concat.

(* The second block refers to an entry inserted by the first. *)
Example C34_case : forall m, let t := mkDyn [([97], [98])] 34 4096 in
  hdecode m decoder_default [64; 1; 97; 1; 98] [] = ((mkDec FiveBits 4096 t, [], [([97], [98], 4)]), Ok 5) /\
  hdecode m (mkDec FiveBits 4096 t) [190] [([97], [98], 4)] =
    ((mkDec FiveBits 4096 t, [], [([97], [98], 4); ([97], [98], 0)]), Ok 1) /\
  hdecode m decoder_default [64; 1; 97; 1; 98; 190] [] =
    ((mkDec FiveBits 4096 t, [], [([97], [98], 4); ([97], [98], 0)]), Ok 6).
Proof. intros []; vm_compute; repeat split. Qed.

(* ------------------------------------------------------------------ *)
(* C49: "the buffer stays untouched in case of an error" (documentation of decode)
   is false when an earlier representation of the block succeeded ... *)
Theorem C49_buffer_untouched_refuted : forall m,
  hdecode m decoder_default [130; 128] [] =
    ((decoder_default, [128], [(octets ":method", octets "GET", 0)]), Err DInvalidIndex).
Proof. intros []; reflexivity. Qed.
Print Assumptions C49_buffer_untouched_refuted.

(* ... and true of decode_exact with a capacity of one: nothing changes on error. *)
Theorem C49_exact_one_partial : forall m d buf dst st e, wf (dtable d) -> bytes buf ->
  hdecode_exact m 1 d buf dst = (st, Err e) -> st = (d, buf, dst).
Proof. exact exact_one_error. Qed.
Print Assumptions C49_exact_one_partial.

(* Exactly when: decode leaves buffer, table and destination as they were iff
   already its first representation fails, i.e. iff decoding just one fails; the
   buffer alone tells. *)
Theorem C49_when_partial : forall m d buf dst d1 rest dst1 e, wf (dtable d) -> bytes buf ->
  hdecode m d buf dst = ((d1, rest, dst1), Err e) ->
  (rest = buf <-> (d1, rest, dst1) = (d, buf, dst)) /\
  (rest = buf <-> snd (hdecode_exact m 1 d buf dst) = Err e) /\
  (rest <> buf <-> exists n, snd (hdecode_exact m 1 d buf dst) = Ok n).
Proof. exact untouched_when. Qed.
Print Assumptions C49_when_partial.

Example C49_case : forall m,
  wf (dtable decoder_default) /\ bytes [128; 130] /\
  hdecode m decoder_default [128; 130] [([1], [2], 0)] = ((decoder_default, [128; 130], [([1], [2], 0)]), Err DInvalidIndex) /\
  snd (hdecode_exact m 1 decoder_default [128; 130] []) = Err DInvalidIndex.
Proof. intros m. refine (conj _ (conj _ _)); [repeat split; discriminate|repeat constructor|destruct m; vm_compute; split; reflexivity]. Qed.

(* C50: Huffman speed and build mode do not matter. *)
Theorem C50_decode_speed : forall m m' s s' lim t buf dst, wf t -> bytes buf ->
  exists t' rest hs o,
    hdecode m (mkDec s lim t) buf dst = ((mkDec s lim t', rest, dst ++ hs), o) /\
    hdecode m' (mkDec s' lim t) buf dst = ((mkDec s' lim t', rest, dst ++ hs), o).
Proof. exact hdecode_speed. Qed.
Print Assumptions C50_decode_speed.

Theorem C50_decode_exact_speed : forall m m' s s' lim cap t buf dst, wf t -> bytes buf ->
  exists t' rest hs o,
    hdecode_exact m cap (mkDec s lim t) buf dst = ((mkDec s lim t', rest, dst ++ hs), o) /\
    hdecode_exact m' cap (mkDec s' lim t) buf dst = ((mkDec s' lim t', rest, dst ++ hs), o).
Proof. exact hdecode_exact_speed. Qed.
Print Assumptions C50_decode_exact_speed.

Example C50_case : map (fun s => hdecode Debug (mkDec s 4096 table_default) [64; 1; 97; 130; 156; 223; 64; 1; 97; 129; 0; 130] []) known_speeds =
  map (fun s => ((mkDec s 4096 (mkDyn [([97], [48]); ([97], octets "hi")] 69 4096), [],
     [([97], octets "hi", 4); ([97], [48], 4); (octets ":method", octets "GET", 0)]), Ok 12)) known_speeds.
Proof. vm_compute. reflexivity. Qed.
