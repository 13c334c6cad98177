(* C108: which errors a caller can see, and what their messages say. *)
From Coq Require Import String Ascii.
From Verif Require Import Base HuffTables HuffModel HuffSpec Leb HpackStatic HpackModel
  HpackSpec HpackApi HpackInt HpackStr HpackTab HpackDec HpackEnc HpackDerived
  HuffCode HuffEncProofs HuffDecProofs ProtosModel ProtosSpec ProtosApi ProtosNum ProtosEnc ProtosConv ProtosDec ProtosDerived ErrorText.
Open Scope list_scope.
Open Scope N_scope.

(* ------------------------------------------------------------------ *)
(* Specification vocabulary: the message of a result, if it is an error. *)
Definition message {E A} (text : E -> string) (o : outcome E A) : option string :=
  match o with Err e => Some (text e) | _ => None end.

(* A representation starts with the index i, which is 0 (not for a name) or above the table. *)
Definition starts_with_index (i : N) (bs : list N) : Prop := exists bi x, bs = bi ++ x /\
  (int_wire 5 7 1 bi i \/ i <> 0 /\ exists k, int_wire 5 (kind_prefix k) (kind_bits k) bi i).
(* A size update to n. *)
Definition starts_with_update (n : N) (bs : list N) : Prop := exists bi x, bs = bi ++ x /\ int_wire 5 5 1 bi n.

(* ------------------------------------------------------------------ *)
(* Messages tell the errors of a type apart. *)
Theorem C108_texts :
  (forall a b, enc_text a = enc_text b -> a = b) /\ (forall a b, dec_text a = dec_text b -> a = b) /\
  (forall a b, penc_text a = penc_text b -> a = b) /\ (forall a b, pdec_text a = pdec_text b -> a = b).
Proof. repeat split; intros a b; destruct a, b; cbn; intros H; first [reflexivity|discriminate H]. Qed.
Print Assumptions C108_texts.

(* Huffman: encode never fails, decode says one thing. *)
Theorem C108_huffman : forall m sp src dst, bytes src ->
  message huff_enc_text (snd (encode m src dst)) = None /\
  (message huff_dec_text (snd (decode m sp src dst)) = None \/
   message huff_dec_text (snd (decode m sp src dst)) = Some "Invalid Huffman sequence."%string).
Proof.
  intros m sp src dst Hb. split.
  - destruct (encode_ok m src dst Hb) as (out & k & E & _). rewrite E. reflexivity.
  - destruct (splits_total (bits_of_bytes src)) as (syms & rest & Hs).
    rewrite (decode_ok m sp src dst syms rest Hb Hs). cbn [snd]. unfold verdict. destruct (tail_accepted rest); [left|right]; reflexivity.
Qed.
Print Assumptions C108_huffman.

Lemma table_get_none t i : table_get t i = None <-> i = 0 \/ table_len t < i.
Proof. rewrite get_lookup, lookup_None. unfold table_len. rewrite static_length. reflexivity. Qed.

(* HPACK encode: an index that is not in the table, or a string too long to be announced;
   the documented InvalidInput and InvalidPrefix do not occur. *)
Theorem C108_hpack_encode : forall m t f dst, wf t -> input_ok f ->
  let s := message enc_text (snd (hencode m t f dst)) in
  (s = None <-> snd (hencode m t f dst) = Ok tt) /\
  (s = None \/ s = Some "Invalid index."%string \/ s = Some "Too many bytes."%string) /\
  (s = Some "Invalid index."%string <->
     match f with
     | Indexed i | IndexedName i _ _ => i = 0 \/ table_len t < i
     | Literal _ _ _ => False
     end) /\
  (s = Some "Too many bytes."%string <->
     exists r, chosen (inner t) f r /\ ~ strings_within (2 ^ 32 - 1) r).
Proof.
  intros m t f dst Hw Hf. cbv zeta.
  destruct (overflow_only m t f dst Hw Hf) as [H1 H2].
  assert (H3 : snd (hencode m t f dst) = Err EInvalidIndex <->
     match f with Indexed i | IndexedName i _ _ => i = 0 \/ table_len t < i | Literal _ _ _ => False end).
  { assert (L : forall i, lookup (inner t) i = None <-> i = 0 \/ table_len t < i).
    { intros i. rewrite <- get_lookup. exact (table_get_none t i). }
    split.
    - intros H. destruct (hencode_cases m t f dst Hw Hf) as [[Q _]|(r & _ & [(_ & bs & d' & hs & E & _)|(_ & d' & hs & j & E & _)])];
        [|rewrite E in H; discriminate H|rewrite E in H; discriminate H].
      destruct f as [i|i v fl|n v fl]; cbn [field_of] in Q; [apply L; exact Q| |discriminate Q].
      apply L. destruct (lookup (inner t) i); [discriminate Q|reflexivity].
    - intros H. rewrite hencode_refused; [reflexivity|].
      destruct f as [i|i v fl|n v fl]; cbn [field_of]; [apply L; exact H| |destruct H].
      rewrite (proj2 (L i) H). reflexivity. }
  rewrite <- H2, <- H3. clear H2 H3.
  destruct H1 as [E|[E|E]]; rewrite E; cbn [message enc_text]; repeat split; auto; try discriminate; intros X; injection X; discriminate.
Qed.
Print Assumptions C108_hpack_encode.

(* HPACK decode: what is at the front of the rest explains the error; the documented
   InvalidPrefix does not occur. *)
Theorem C108_hpack_decode : forall m d buf dst d1 rest dst1 o s, wf (dtable d) -> bytes buf ->
  hdecode m d buf dst = ((d1, rest, dst1), o) -> message dec_text o = Some s ->
  s = "Invalid index."%string /\ (exists i, (i = 0 \/ table_len (dtable d1) < i) /\ starts_with_index i rest) \/
  s = "New size exceeds hard limit."%string /\ (exists n, dlimit d < n /\ starts_with_update n rest) \/
  s = "Too many bytes."%string /\ repr_fault (inner (dtable d1)) rest Long \/
  s = "Not enough bytes."%string /\ repr_fault (inner (dtable d1)) rest Short \/
  s = "Invalid input character."%string /\ repr_fault (inner (dtable d1)) rest BadHuffman.
Proof.
  intros m d buf dst d1 rest dst1 o s Hw Hb E Hs.
  destruct (hdecode_total m d buf dst Hw Hb) as (prs & r0 & d' & hs & st & _ & _ & _ & He & Hwd & E3).
  rewrite E in E3. injection E3 as -> -> _ ->. cbn [set_table dtable].
  change (inner (conc d')) with (entries d').
  assert (L : forall i, lookup (entries d') i = None -> i = 0 \/ table_len (conc d') < i).
  { intros i Hi. apply table_get_none. rewrite get_lookup. exact Hi. }
  destruct He as [|rest f Hf|b r rest e Hr Hi].
  - discriminate Hs.
  - destruct f; cbn in Hs; injection Hs as <- || discriminate Hs; auto 10.
    left. split; [reflexivity|].
    inversion Hf; subst; try (match goal with H : int_fault _ _ _ BadName |- _ => inversion H end);
      try (match goal with H : string_fault _ BadName |- _ => inversion H; subst; match goal with H : int_fault _ _ _ BadName |- _ => inversion H end end).
    exists i. split; [apply L; assumption|]. exists bi, rest0. split; [reflexivity|]. right. split; [assumption|]. eauto.
  - destruct r as [i|k nr hu v|n]; cbn [interp] in Hi.
    + destruct (lookup (entries d') i) as [[? ?]|] eqn:El; [discriminate|]. injection Hi as <-. cbn in Hs. injection Hs as <-.
      left. split; [reflexivity|]. exists i. split; [apply L; exact El|]. inversion Hr; subst. exists b, rest. auto.
    + destruct (resolve d' nr) eqn:El; [discriminate|]. injection Hi as <-. cbn in Hs. injection Hs as <-.
      left. split; [reflexivity|]. inversion Hr; subst; cbn [resolve] in El; [|discriminate].
      destruct (lookup (entries d') i) eqn:E4; [discriminate|].
      exists i. split; [apply L; exact E4|]. exists bi, (bv ++ rest). rewrite app_assoc. split; [reflexivity|]. right. eauto.
    + destruct (n <=? dlimit d) eqn:En; [discriminate|]. injection Hi as <-. cbn in Hs. injection Hs as <-.
      right. left. split; [reflexivity|]. exists n. split; [apply N.leb_gt; exact En|]. inversion Hr; subst. exists b, rest. auto.
Qed.
Print Assumptions C108_hpack_decode.

(* Protobuf encode: an invalid field number, or a writer that stops; the documented
   DataOverflow does not occur. *)
Theorem C108_protos_encode : forall tag l s, lit_ok l -> small_lit l ->
  let t := message penc_text (snd (pencode tag l s)) in
  (t = None <-> exists n, snd (pencode tag l s) = Ok n) /\
  (t = None \/ t = Some "Found tag with invalid number."%string \/ t = Some "Write operation interrupted."%string) /\
  (t = Some "Found tag with invalid number."%string <-> tag = 0 \/ 2 ^ 29 <= tag) /\
  (room s = None -> t <> Some "Write operation interrupted."%string).
Proof.
  intros tag l s Hl Hs. cbv zeta.
  destruct (N.eq_dec tag 0) as [Z|Z]; [|destruct (N.lt_ge_cases tag (2 ^ 29)) as [B|B]].
  - rewrite (pencode_bad_tag tag l s Hl (or_introl Z)). cbn [snd message penc_text].
    repeat split; auto; try discriminate. intros (n & X). discriminate X.
  - destruct (lit_wire_exists l Hl) as (t & p & Hw). destruct (lit_wire_typ l t p Hw) as (n & Hn).
    assert (Ht : 1 <= tag < 2 ^ 29) by lia.
    destruct (field_wire_exists tag t p n Ht Hn (Hs t p Hw)) as (bs & Hf).
    rewrite (pencode_spec tag l t p bs s Ht Hl Hw (Hs t p Hw) Hf). unfold delivered.
    assert (NB : ~ (tag = 0 \/ 2 ^ 29 <= tag)) by lia.
    destruct (room s) as [r|]; [destruct (N.of_nat (List.length bs) <=? r)|]; cbn [snd message penc_text];
      repeat split; eauto; try discriminate; try contradiction; try (intros X; discriminate X); intros (k & X); discriminate X.
  - rewrite (pencode_bad_tag tag l s Hl (or_intror B)). cbn [snd message penc_text].
    repeat split; auto; try discriminate. intros (n & X). discriminate X.
Qed.
Print Assumptions C108_protos_encode.

(* Protobuf decode: one message; also for field number 0, where InvalidTag was documented. *)
Theorem C108_protos_decode : forall m p b dst d1 r1 dst1 o s, bytes b -> idle p ->
  pdecode m (decoder_of p) b dst = ((d1, r1, dst1), o) -> message pdec_text o = Some s ->
  s = "Invalid byte stream."%string /\ exists key k x, r1 = key ++ x /\ reads m key k /\ bad_key k.
Proof.
  intros m p b dst d1 r1 dst1 o s Hb Hp E Hs. destruct o as [n|e| |]; try discriminate Hs.
  destruct (decode_error m p b dst d1 r1 dst1 e Hb (idle_sane p Hp) E) as (-> & _ & H & _).
  cbn in Hs. injection Hs as <-. auto.
Qed.
Print Assumptions C108_protos_decode.

(* Every message listed is seen. *)
Example C108_case : forall m,
  message huff_dec_text (snd (decode m FiveBits [255; 255; 255; 255] [])) = Some "Invalid Huffman sequence."%string /\
  message enc_text (snd (hencode m table_default (Indexed 62) [])) = Some "Invalid index."%string /\
  message dec_text (snd (hdecode m decoder_default [130; 190] [])) = Some "Invalid index."%string /\
  message dec_text (snd (hdecode m decoder_default [130; 63; 255; 127] [])) = Some "New size exceeds hard limit."%string /\
  message dec_text (snd (hdecode m decoder_default [255; 255; 255; 255; 255] [])) = Some "Too many bytes."%string /\
  message dec_text (snd (hdecode m decoder_default [0; 2; 97] [])) = Some "Not enough bytes."%string /\
  message dec_text (snd (hdecode m decoder_default [0; 132; 255; 255; 255; 255; 0] [])) = Some "Invalid input character."%string /\
  message penc_text (snd (pencode 0 (EBool true) (vec_sink []))) = Some "Found tag with invalid number."%string /\
  message penc_text (snd (pencode 1 (EBool true) (mkSink [] (Some 1)))) = Some "Write operation interrupted."%string /\
  message pdec_text (snd (pdecode m pdecoder_default [8; 1; 0; 1] [])) = Some "Invalid byte stream."%string.
Proof. intros []; vm_compute; repeat split; reflexivity. Qed.
