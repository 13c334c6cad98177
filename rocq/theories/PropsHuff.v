(* Property theorems about the Huffman crate (C01-C09, C11, C12).
   Vocabulary: HuffSpec.v (code, codes, splits, tail_accepted, rfc_padding,
   rfc_line) and Base.v (bits_of_bytes). *)
From Coq Require Import String.
From Verif Require Import Base Utf8 HuffTables HuffAsset HuffModel HuffSpec HuffCode
  HuffEncProofs HuffDecProofs HuffDerived HuffParserProofs HuffMore.
From Verif Require ProtosUtf8.
Open Scope list_scope.
Open Scope N_scope.

(* C01: what encode writes decodes back, for any speed and build mode. *)
Theorem C01_round_trip : forall m m' sp src dst dst2, bytes src ->
  exists out, encode m src dst = (dst ++ out, Ok tt) /\ bytes out /\
              decode m' sp out dst2 = (dst2 ++ src, Ok tt).
Proof. exact huff_round_trip. Qed.
Print Assumptions C01_round_trip.

(* Every octet at once; the output is 583 octets long. *)
Definition every_octet : list N := map N.of_nat (seq 0 256).
Example C01_case : bytes every_octet /\
  let '(out, r) := encode Debug every_octet [] in
  r = Ok tt /\ List.length out = 583%nat /\ decode Release FiveBits out [1] = (1 :: every_octet, Ok tt).
Proof.
  split; [apply Forall_forall; intros x Hx; apply in_map_iff in Hx as (k & <- & Hk); apply in_seq in Hk; unfold is_byte; lia|].
  vm_compute. repeat split.
Qed.

(* C02: the output is the RFC bit string padded with fewer than 8 ones. *)
Theorem C02_encode_rfc : forall m src dst, bytes src ->
  exists out k,
    encode m src dst = (dst ++ out, Ok tt) /\ bytes out /\ (k < 8)%nat /\
    bits_of_bytes out = codes src ++ repeat true k.
Proof. exact encode_ok. Qed.
Print Assumptions C02_encode_rfc.

Theorem C02_encode_independent : forall m m' src dst dst', bytes src ->
  exists out, encode m src dst = (dst ++ out, Ok tt) /\ encode m' src dst' = (dst' ++ out, Ok tt).
Proof. exact encode_indep. Qed.
Print Assumptions C02_encode_independent.

Theorem C02_encode_empty : forall m dst, encode m [] dst = (dst, Ok tt).
Proof. exact encode_empty. Qed.
Print Assumptions C02_encode_empty.

Example C02_case : encode Debug [104; 105; 255] [7] = ([7; 156; 223; 255; 255; 119], Ok tt).
Proof. reflexivity. Qed.

(* C03: speed (and build mode) never change the result. *)
Theorem C03_speed_independent : forall m m' s s' src dst, bytes src ->
  decode m s src dst = decode m' s' src dst.
Proof. exact decode_speed_mode. Qed.
Print Assumptions C03_speed_independent.

(* DecoderSpeed::known lists every speed, once. *)
Theorem C03_known_speeds : (forall s, In s known_speeds) /\ NoDup known_speeds.
Proof. exact known_speeds_all. Qed.
Print Assumptions C03_known_speeds.

Example C03_case : map (fun s => decode Debug s [156; 223; 0; 255; 255; 255; 255; 1] [7]) known_speeds =
  repeat ([7; 104; 105; 38; 48], Err InvalidInput) 5.
Proof. vm_compute. reflexivity. Qed.

(* C04: verdict and output for every input. *)
Theorem C04_split_exists : forall bits, exists syms rest, splits bits syms rest.
Proof. exact splits_total. Qed.
Print Assumptions C04_split_exists.

Theorem C04_split_unique : forall bits s1 r1 s2 r2,
  splits bits s1 r1 -> splits bits s2 r2 -> s1 = s2 /\ r1 = r2.
Proof. exact splits_unique. Qed.
Print Assumptions C04_split_unique.

Theorem C04_decode_result : forall m sp src dst syms rest,
  bytes src -> splits (bits_of_bytes src) syms rest ->
  decode m sp src dst =
    (dst ++ syms, if tail_accepted rest then Ok tt else Err InvalidInput).
Proof. exact decode_ok. Qed.
Print Assumptions C04_decode_result.

Theorem C04_accepts_iff : forall m sp src dst dst', bytes src ->
  (decode m sp src dst = (dst', Ok tt) <->
   exists syms rest, splits (bits_of_bytes src) syms rest /\
                     tail_accepted rest = true /\ dst' = dst ++ syms).
Proof. exact decode_accepts_iff. Qed.
Print Assumptions C04_accepts_iff.

(* What a tail with an accepted value looks like: zeros, then at most 7 ones. *)
Theorem C04_tail_shape : forall l,
  tail_accepted l = true <->
  exists j k, l = repeat false j ++ repeat true k /\ (k <= 7)%nat.
Proof. exact tail_accepted_shape. Qed.
Print Assumptions C04_tail_shape.

(* An input that splits into "hi" and five 1 bits; one rejected after "w". *)
Example C04_case : decode Release FourBits [156; 223] [] = ([104; 105], Ok tt)
  /\ decode Debug ThreeBits [241; 255; 255; 255; 255] [9] = ([9; 119], Err InvalidInput).
Proof. split; reflexivity. Qed.

(* C05: padding of 8 bits or more is rejected ... *)
Theorem C05_padding_short_partial : forall m sp src dst dst' syms rest, bytes src ->
  decode m sp src dst = (dst', Ok tt) -> splits (bits_of_bytes src) syms rest ->
  (length rest < 8)%nat.
Proof. exact decode_padding_short. Qed.
Print Assumptions C05_padding_short_partial.

(* ... and all RFC padding is accepted ... *)
Theorem C05_rfc_padding_accepted_partial : forall rest, rfc_padding rest -> tail_accepted rest = true.
Proof. exact rfc_padding_accepted. Qed.
Print Assumptions C05_rfc_padding_accepted_partial.

(* The same in terms of decode: any symbols, correctly padded, decode to themselves. *)
Theorem C05_rfc_padded_decodes_partial : forall m sp src dst syms rest, bytes src -> bytes syms ->
  bits_of_bytes src = codes syms ++ rest -> rfc_padding rest ->
  decode m sp src dst = (dst ++ syms, Ok tt).
Proof.
  intros m sp src dst syms rest Hb Hs E [Hp Hl].
  assert (S : splits (bits_of_bytes src) syms rest).
  { refine (conj E (conj Hs _)). intros a Ha Hpre.
    assert (Q : prefix (code a) (code EOS)).
    { destruct Hpre as [x Hx]. destruct Hp as [y Hy]. exists (x ++ y). rewrite Hy, Hx, app_assoc. reflexivity. }
    apply prefix_free in Q; [unfold EOS in Q; lia|lia|unfold EOS; lia]. }
  pose proof (decode_ok m sp src dst syms rest Hb S) as D. pose proof (rfc_padding_accepted rest (conj Hp Hl)) as T.
  unfold verdict in D. rewrite T in D. exact D.
Qed.
Print Assumptions C05_rfc_padded_decodes_partial.

(* ... but zero bits (followed by ones) are accepted too. The exact extent: *)
Theorem C05_padding_exact_partial : forall m sp src dst dst' syms rest, bytes src ->
  decode m sp src dst = (dst', Ok tt) -> splits (bits_of_bytes src) syms rest ->
  (rfc_padding rest \/
   exists j k, (1 <= j)%nat /\ (j + k <= 5)%nat /\ rest = repeat false j ++ repeat true k).
Proof. exact decode_padding_exact. Qed.
Print Assumptions C05_padding_exact_partial.

(* The same as an equivalence: these are all the endings that are accepted. *)
Theorem C05_padding_iff_partial : forall m sp src dst syms rest, bytes src -> splits (bits_of_bytes src) syms rest ->
  (snd (decode m sp src dst) = Ok tt <->
   rfc_padding rest \/ exists j k, (1 <= j)%nat /\ (j + k <= 5)%nat /\ rest = repeat false j ++ repeat true k).
Proof.
  intros m sp src dst syms rest Hb Hs. split.
  - intros H. destruct (decode m sp src dst) as [dst' o] eqn:E. cbn [snd] in H. subst o.
    exact (decode_padding_exact m sp src dst dst' syms rest Hb E Hs).
  - intros H. rewrite (decode_ok m sp src dst syms rest Hb Hs). unfold verdict.
    assert (Ht : tail_accepted rest = true).
    { destruct H as [H|(j & k & _ & H & ->)]; [now apply rfc_padding_accepted|].
      apply tail_accepted_shape. exists j, k. split; [reflexivity|lia]. }
    rewrite Ht. reflexivity.
Qed.
Print Assumptions C05_padding_iff_partial.

Theorem C05_padding_refuted :
  exists src syms rest, bytes src /\ splits (bits_of_bytes src) syms rest /\
    ~ rfc_padding rest /\
    forall m sp, decode m sp src [] = (syms, Ok tt).
Proof.
  exists [0], [48], [false; false; false]. repeat split.
  - repeat constructor.
  - repeat constructor.
  - intros a Ha. apply short_no_code; simpl; lia.
  - intros [[t Ht] _]. discriminate Ht.
  - intros m sp. destruct m, sp; reflexivity.
Qed.
Print Assumptions C05_padding_refuted.

(* "hi" with its five padding bits; nothing before eight or more padding bits. *)
Example C05_case :
  bits_of_bytes [156; 223] = codes [104; 105] ++ repeat true 5 /\ rfc_padding (repeat true 5) /\
  decode Release OneBit [156; 223] [] = ([104; 105], Ok tt) /\
  bits_of_bytes [7; 255] = codes [48] ++ repeat true 11 /\
  decode Release OneBit [7; 255] [] = ([48], Err InvalidInput).
Proof.
  refine (conj eq_refl (conj _ (conj eq_refl (conj eq_refl eq_refl)))).
  split; [exists (repeat true 25); reflexivity|cbn; lia].
Qed.

(* C06: EOS at a symbol boundary is always an error. *)
Theorem C06_eos_rejected : forall m sp src dst syms t, bytes src -> bytes syms ->
  bits_of_bytes src = codes syms ++ code EOS ++ t ->
  decode m sp src dst = (dst ++ syms, Err InvalidInput).
Proof. exact decode_eos. Qed.
Print Assumptions C06_eos_rejected.

Example C06_case : bits_of_bytes [7; 255; 255; 255; 255] = codes [48] ++ code EOS ++ repeat true 5.
Proof. reflexivity. Qed.

(* C07: decode always returns Ok or InvalidInput (C03 gives debug = release). *)
Theorem C07_no_panic : forall m sp src dst, bytes src ->
  exists syms, decode m sp src dst = (dst ++ syms, Ok tt)
            \/ decode m sp src dst = (dst ++ syms, Err InvalidInput).
Proof. exact decode_total. Qed.
Print Assumptions C07_no_panic.

Example C07_case : map (fun sp => decode Debug sp [255; 255; 255; 255; 0; 7] [1]) known_speeds =
  repeat ([1], Err InvalidInput) 5 /\
  decode Debug FiveBits [] [1] = ([1], Ok tt).
Proof. split; vm_compute; reflexivity. Qed.

(* C08: the encode table is the RFC code, prefix-free and complete. *)
Theorem C08_table_is_rfc : length ENCODE_TABLE = 257%nat /\ forall a, a <= 256 ->
  nth_error ENCODE_TABLE (N.to_nat a) = Some (N.of_nat (length (code a)), val (code a)).
Proof. exact (conj table_length table_is_rfc). Qed.
Print Assumptions C08_table_is_rfc.

Theorem C08_prefix_free : forall a b, a <= 256 -> b <= 256 -> prefix (code a) (code b) -> a = b.
Proof. exact prefix_free. Qed.
Print Assumptions C08_prefix_free.

Theorem C08_complete : forall l, (30 <= length l)%nat ->
  exists a, (a <= 256 /\ prefix (code a) l) /\
            forall b, b <= 256 -> prefix (code b) l -> b = a.
Proof. exact code_complete. Qed.
Print Assumptions C08_complete.

Theorem C08_lengths : forall a, a <= 256 -> (5 <= length (code a) <= 30)%nat.
Proof. exact code_length. Qed.
Print Assumptions C08_lengths.

Example C08_case : code 48 = repeat false 5 /\ code EOS = repeat true 30 /\
  nth_error ENCODE_TABLE 97 = Some (5, 3) /\ prefix (code 97) (code 97 ++ repeat false 25) /\
  ~ prefix (code 48) (code 97).
Proof.
  refine (conj eq_refl (conj eq_refl (conj eq_refl (conj _ _)))); [eexists; reflexivity|].
  intros [x H]. discriminate H.
Qed.

(* C09: flatten reproduces the shipped matrices (finite domain: 2 modes x 5 speeds). *)
Theorem C09_flatten_shipped : forall m s,
  flatten m ENCODE_TABLE s = Ok (table_of_speed (speed_bits s)).
Proof. exact flatten_shipped. Qed.
Print Assumptions C09_flatten_shipped.

(* C11: the parser.  [old]: the two behaviours of std's `lines` at a CR that
   ends the text. *)
Theorem C11_line : forall line len v, utf8_text line ->
  parse_line line = Ok (len, v) <-> rfc_line line len v.
Proof. exact parse_line_iff. Qed.
Print Assumptions C11_line.

Theorem C11_bad_line_panics : forall line, utf8_text line ->
  (forall len v, ~ rfc_line line len v) <-> parse_line line = Panic.
Proof. exact parse_line_panic. Qed.
Print Assumptions C11_bad_line_panics.

(* Any text: it falls into lines in exactly one way; the result is one pair per
   line, and the panic happens exactly when some line is malformed. *)
Theorem C11_lines : forall old text, exists! ls, text_lines old text ls.
Proof. exact text_lines_unique. Qed.
Print Assumptions C11_lines.

Theorem C11_any_text : forall old text ls, utf8_text text -> text_lines old text ls ->
  (forall cs, parse old text = Ok cs <-> Forall2 (fun l c => rfc_line l (fst c) (snd c)) ls cs) /\
  (parse old text = Panic <-> Exists (fun l => forall len v, ~ rfc_line l len v) ls).
Proof. exact parse_any. Qed.
Print Assumptions C11_any_text.

(* Texts: lines joined by LF, with or without a final LF. *)
Theorem C11_text : forall old ls cs, Forall utf8_text ls ->
  Forall (fun l => ~ In 10 l /\ last l 0 <> 13) ls -> last ls [0] <> [] ->
  Forall2 (fun l c => rfc_line l (fst c) (snd c)) ls cs ->
  parse old (join_lines ls) = Ok cs /\ parse old (flat_map (fun l => l ++ [10]) ls) = Ok cs.
Proof. exact parse_text. Qed.
Print Assumptions C11_text.

Theorem C11_asset : forall old, parse old asset_text = Ok ENCODE_TABLE.
Proof. exact parse_asset. Qed.
Print Assumptions C11_asset.

(* A line whose hexadecimal column holds a no-break space, and two whose
   columns cut a character in half. *)
Definition demo_line (hex : list N) : list N :=
  repeat 46 12 ++ octets "|11111000                        " ++ repeat 46 5 ++ hex.
Example C11_unicode_space :
  utf8_text (demo_line ([194; 160] ++ octets "1f8" ++ [227; 128; 128; 32])) /\
  parse_line (demo_line ([194; 160] ++ octets "1f8" ++ [227; 128; 128; 32])) = Ok (8, 0x1f8) /\
  parse_line (demo_line (octets "     1f8" ++ [194; 160])) = Panic /\
  (exists ls, text_lines false (demo_line (octets "      1f8") ++ [13; 10]) ls /\ List.length ls = 1%nat).
Proof.
  split; [eapply ProtosUtf8.utf8_valid_text; [apply le_n|vm_compute; reflexivity]|].
  split; [vm_compute; reflexivity|]. split; [vm_compute; reflexivity|].
  exists [demo_line (octets "      1f8")]. split; [|reflexivity].
  apply (tl_crlf false _ []); [|constructor]. vm_compute. intuition discriminate.
Qed.

(* C12: sizes and injectivity. *)
Theorem C12_size : forall m src dst out, bytes src -> encode m src dst = (dst ++ out, Ok tt) ->
  length out = ((length (codes src) + 7) / 8)%nat /\ (length out <= 4 * length src)%nat.
Proof. exact (fun m s d o H E => conj (encode_size m s d o H E) (encode_size_bound m s d o H E)). Qed.
Print Assumptions C12_size.

Theorem C12_injective : forall m m' s1 s2 d1 d2 out, bytes s1 -> bytes s2 ->
  encode m s1 d1 = (d1 ++ out, Ok tt) -> encode m' s2 d2 = (d2 ++ out, Ok tt) -> s1 = s2.
Proof. exact encode_inj. Qed.
Print Assumptions C12_injective.

Example C12_case : encode Debug [97; 98] [] = ([28; 127], Ok tt) /\ encode Release [97; 99] [] = ([25; 63], Ok tt) /\
  List.length (codes [97; 98]) = 11%nat /\ encode Debug [255; 255] [] = ([255; 255; 251; 191; 255; 254; 239], Ok tt).
Proof. vm_compute. repeat split. Qed.
