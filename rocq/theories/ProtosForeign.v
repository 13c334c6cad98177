(* C99: messages of any protobuf writer, not only of Encoder. *)
From Verif Require Import Base Leb ProtosModel ProtosSpec ProtosApi ProtosNum ProtosEnc ProtosDec ProtosConv
  ProtosMore ProtosDerived.
Open Scope N_scope.

(* ------------------------------------------------------------------ *)
(* Specification (independent of the code; https://protobuf.dev/programming-guides/encoding).
   A varint of a number below 2^64 in any form of at most ten octets, possibly padded
   with zero groups. *)
Definition any_varint (v : N) (bs : list N) : Prop := leb128 bs v /\ v < 2 ^ 64 /\ (length bs <= 10)%nat.

(* Integers of w bits may be written with any 64-bit number congruent to them. *)
Definition a_bool (v : bool) (bs : list N) : Prop := exists n, any_varint n bs /\ (v = true <-> n <> 0).
Definition a_int (w : N) (v : Z) (bs : list N) : Prop :=
  exists n, any_varint n bs /\ exists k, Z.of_N n = (v + k * 2 ^ Z.of_N w)%Z.
Definition a_uint (w : N) (v : N) (bs : list N) : Prop := exists n, any_varint n bs /\ n mod 2 ^ w = v.
Definition a_sint (v : Z) (bs : list N) : Prop := any_varint (zigzag v) bs.

(* The wire type and payload of a value. *)
Definition any_lit (l : encoder_lit) (t : typ) (p : list N) : Prop :=
  match l with
  | EBytes v => t = LengthDelimited /\ p = v
  | EBool v => t = Varint /\ a_bool v p
  | EBoolVec v => t = LengthDelimited /\ packed a_bool v p
  | EInt32 v => t = Varint /\ a_int 32 v p
  | EInt32Vec v => t = LengthDelimited /\ packed (a_int 32) v p
  | EInt64 v => t = Varint /\ a_int 64 v p
  | EInt64Vec v => t = LengthDelimited /\ packed (a_int 64) v p
  | EUInt32 v => t = Varint /\ a_uint 32 v p
  | EUInt32Vec v => t = LengthDelimited /\ packed (a_uint 32) v p
  | EUInt64 v => t = Varint /\ a_uint 64 v p
  | EUInt64Vec v => t = LengthDelimited /\ packed (a_uint 64) v p
  | ESInt32 v | ESInt64 v => t = Varint /\ a_sint v p
  | ESInt32Vec v | ESInt64Vec v => t = LengthDelimited /\ packed a_sint v p
  | EFixed32 v | EFloat v => t = Bit32 /\ w_fixed 4 v p
  | EFixed32Vec v | EFloatVec v => t = LengthDelimited /\ packed (w_fixed 4) v p
  | EFixed64 v | EDouble v => t = Bit64 /\ w_fixed 8 v p
  | EFixed64Vec v | EDoubleVec v => t = LengthDelimited /\ packed (w_fixed 8) v p
  | ESFixed32 v => t = Bit32 /\ w_sfixed 4 32 v p
  | ESFixed32Vec v => t = LengthDelimited /\ packed (w_sfixed 4 32) v p
  | ESFixed64 v => t = Bit64 /\ w_sfixed 8 64 v p
  | ESFixed64Vec v => t = LengthDelimited /\ packed (w_sfixed 8 64) v p
  end.

(* A record: key, then length if length-delimited, then payload. *)
Definition any_record (tag : N) (t : typ) (p bs : list N) : Prop :=
  1 <= tag < 2 ^ 29 /\
  exists n key, wire_number t n /\ any_varint (8 * tag + n) key /\
    match t with
    | LengthDelimited => exists len, any_varint (N.of_nat (length p)) len /\ bs = key ++ len ++ p
    | _ => bs = key ++ p
    end.

(* A message, with messages inside it. *)
Inductive any_payload : tree -> typ -> list N -> Prop :=
| any_leaf l t p : lit_ok l -> any_lit l t p -> any_payload (Leaf l) t p
| any_node fs parts :
    Forall2 (fun f bs => exists t p, any_payload (snd f) t p /\ any_record (fst f) t p bs) fs parts ->
    any_payload (Node fs) LengthDelimited (concat parts).

(* One field of a message as some writer may write it. *)
Definition field_as (f : N * tree) (bs : list N) : Prop :=
  exists t p, any_payload (snd f) t p /\ any_record (fst f) t p bs.

(* The field w that the decoder appended for f: the same tag, the wire type and payload that
   the writer chose, and a payload that gives back the value. *)
Definition got (m : mode) (f : N * tree) (w : pfield) : Prop :=
  fst (fst w) = fst f /\ any_payload (snd f) (snd (fst w)) (snd w) /\ tree_reads m (snd f) (snd w).

(* ------------------------------------------------------------------ *)
Lemma any_reads m v bs : any_varint v bs -> reads m bs v.
Proof.
  intros (H & Hv & Hl). refine (conj _ (conj _ _)); [now exists v| |intros _; exact Hl].
  symmetry. now apply folded_exact.
Qed.
Lemma any_shape v bs : any_varint v bs -> varint_shape bs.
Proof. intros (H & _). now exists v. Qed.
Lemma shortest_any v bs : shortest v bs -> v < 2 ^ 64 -> any_varint v bs.
Proof.
  intros H Hv. refine (conj _ (conj Hv _)); [apply H|]. now apply shortest64_length in H.
Qed.

Lemma a_bool_reads m v bs : a_bool v bs -> r_bool m v bs.
Proof. intros (n & H & E). exists n. split; [now apply any_reads|exact E]. Qed.
Lemma a_int_reads w m v bs : in_i w v -> a_int w v bs -> r_int w m v bs.
Proof. intros Hi (n & H & k & E). exists n. split; [now apply any_reads|]. split; [exact Hi|]. now exists k. Qed.
Lemma a_uint_reads w m v bs : a_uint w v bs -> r_uint w m v bs.
Proof. intros (n & H & E). exists n. split; [now apply any_reads|now symmetry]. Qed.
Lemma a_sint_reads w m v bs : in_i w v -> a_sint v bs -> r_sint w m v bs.
Proof.
  intros Hi H. exists (zigzag v). split; [now apply any_reads|].
  rewrite unzigzag_zigzag. split; [exact Hi|]. exists 0%Z. lia.
Qed.

(* The payload of a value reads back as that value. *)
Lemma any_reads_back m l t p : lit_ok l -> any_lit l t p -> reads_back m l p.
Proof.
  intros Hl Hw. destruct l; cbn [lit_ok any_lit reads_back] in *; destruct Hw as [-> Hw];
    rewrite ?Forall_forall in Hl;
    cbn [to_bool to_bool_vec to_i32 to_i32_vec to_i64 to_i64_vec to_u32 to_u32_vec to_u64 to_u64_vec
         to_f32 to_f32_vec to_f64 to_f64_vec to_u8_vec].
  - exact Hw.
  - apply (read_one reader_bool). now apply a_bool_reads.
  - refine (read_all reader_bool m _ _ _ _ Hw). intros; now apply a_bool_reads.
  - apply (read_one rd_int32). now apply a_int_reads.
  - refine (read_all rd_int32 m _ _ _ _ Hw). intros; apply a_int_reads; auto.
  - apply (read_one rd_int64). now apply a_int_reads.
  - refine (read_all rd_int64 m _ _ _ _ Hw). intros; apply a_int_reads; auto.
  - apply (read_one rd_uint32). now apply a_uint_reads.
  - refine (read_all rd_uint32 m _ _ _ _ Hw). intros; apply a_uint_reads; auto.
  - apply (read_one reader_uint64). now apply a_uint_reads.
  - refine (read_all reader_uint64 m _ _ _ _ Hw). intros; apply a_uint_reads; auto.
  - apply (read_one rd_float). exact Hw.
  - refine (read_all rd_float m _ _ _ _ Hw). auto.
  - apply (read_one rd_double). exact Hw.
  - refine (read_all rd_double m _ _ _ _ Hw). auto.
  - apply (read_one rd_sint32). now apply a_sint_reads.
  - refine (read_all rd_sint32 m _ _ _ _ Hw). intros; apply a_sint_reads; auto.
  - apply (read_one rd_sint64). now apply a_sint_reads.
  - refine (read_all rd_sint64 m _ _ _ _ Hw). intros; apply a_sint_reads; auto.
  - apply (read_one rd_fixed32). exact Hw.
  - refine (read_all rd_fixed32 m _ _ _ _ Hw). auto.
  - apply (read_one rd_fixed64). exact Hw.
  - refine (read_all rd_fixed64 m _ _ _ _ Hw). auto.
  - apply (read_one rd_sfixed32). now apply rw_sfixed.
  - refine (read_all rd_sfixed32 m _ _ _ _ Hw). intros; apply rw_sfixed; auto.
  - apply (read_one rd_sfixed64). now apply rw_sfixed.
  - refine (read_all rd_sfixed64 m _ _ _ _ Hw). intros; apply rw_sfixed; auto.
Qed.

(* Its payload has the form its wire type asks for. *)
Definition formed (t : typ) (p : list N) : Prop :=
  match t with
  | Varint => varint_shape p | Bit32 => length p = 4%nat | Bit64 => length p = 8%nat
  | LengthDelimited => True | Unknown => False
  end.
Lemma any_formed l t p : any_lit l t p -> formed t p.
Proof.
  destruct l; cbn [any_lit]; intros [-> H]; cbn [formed]; try exact I;
    try (apply H); try (destruct H as (n & Hn & _); exact (any_shape _ _ Hn)); try exact (any_shape _ _ H).
  all: destruct H as (n & _ & Hl & _); exact Hl.
Qed.
Lemma any_payload_formed x t p : any_payload x t p -> formed t p.
Proof. destruct 1 as [l t p Hl H|fs parts H]; [now apply any_formed in H|exact I]. Qed.

(* The decoder takes a record as one key, at most one length and one payload. *)
Lemma record_items m ne tag t p bs : formed t p -> (ne = true -> p <> []) -> any_record tag t p bs ->
  items m ne Start bs Start [(tag, t, p)].
Proof.
  intros Hp Hne (Ht & n & key & Hn & Hk & Hm).
  pose proof (any_reads m _ _ Hk) as Hr.
  assert (Hkey : items m ne Start key (GotKey tag t) []).
  { apply items_one; [econstructor; eauto|]. intros _. eapply reads_nonempty; eauto. }
  change [(tag, t, p)] with ([] ++ [(tag, t, p)]).
  destruct t; cbn [formed] in Hp; try contradiction.
  - subst bs. eapply items_app; [exact Hkey|]. apply items_one; [now constructor|auto].
  - subst bs. eapply items_app; [exact Hkey|]. apply items_one; [now constructor|auto].
  - destruct Hm as (len & Hl & ->). eapply items_app; [exact Hkey|].
    pose proof (any_reads m _ _ Hl) as Hrl.
    change [(tag, LengthDelimited, p)] with ([] ++ [(tag, LengthDelimited, p)]).
    eapply items_app.
    + apply items_one; [constructor; exact Hrl|]. intros _. eapply reads_nonempty; eauto.
    + apply items_one; [now constructor|auto].
  - subst bs. eapply items_app; [exact Hkey|]. apply items_one; [now constructor|auto].
Qed.

(* A field as it was decoded: tag, type and payload. *)
Definition rec_of (f : pfield) (bs : list N) : Prop :=
  formed (snd (fst f)) (snd f) /\ any_record (fst (fst f)) (snd (fst f)) (snd f) bs.
Lemma records_items m ne ws parts : Forall2 rec_of ws parts -> (ne = true -> Forall (fun w => snd w <> []) ws) ->
  items m ne Start (concat parts) Start ws.
Proof.
  induction 1 as [|[[tag t] p] bs ws parts [Hf Hr] H IH]; intros Hne; cbn [concat].
  - constructor.
  - change ((tag, t, p) :: ws) with ([(tag, t, p)] ++ ws). cbn [fst snd] in *.
    eapply items_app; [apply record_items; [exact Hf| |exact Hr]|].
    + intros E. specialize (Hne E). now inversion Hne.
    + apply IH. intros E. specialize (Hne E). now inversion Hne.
Qed.

Lemma records_fully m ws parts dst : Forall2 rec_of ws parts ->
  decode_fully m pdecoder_default (concat parts) dst = ((pdecoder_default, [], dst ++ ws), Ok tt).
Proof.
  intros H. rewrite <- (app_nil_r (concat parts)).
  change pdecoder_default with (decoder_of Start) at 1.
  rewrite (decode_fully_run m Start (concat parts) Start ws [] (Ok tt)); auto.
  - exact I.
  - apply records_items; [exact H|discriminate].
  - apply start_waits.
Qed.

Lemma records_call m ws parts dst : Forall2 rec_of ws parts -> Forall (fun w => snd w <> []) ws ->
  pdecode m pdecoder_default (concat parts) dst =
  ((pdecoder_default, [], dst ++ ws), Ok (N.of_nat (length (concat parts)))).
Proof.
  intros H HF. rewrite <- (app_nil_r (concat parts)) at 1.
  change pdecoder_default with (decoder_of Start) at 1.
  rewrite (pdecode_run m Start (concat parts) Start ws [] Start [] (Ok tt)).
  - now rewrite app_nil_r.
  - apply records_items; auto.
  - constructor. apply start_waits.
Qed.

Definition delivers (f : N * tree) (w : pfield) : Prop :=
  fst (fst w) = fst f /\ any_payload (snd f) (snd (fst w)) (snd w).

Lemma fields_recs fs parts : Forall2 field_as fs parts ->
  exists ws, Forall2 delivers fs ws /\ Forall2 rec_of ws parts.
Proof.
  induction 1 as [|[tag x] bs fs parts (t & p & Hp & Hr) H (ws & H1 & H2)].
  - exists []. split; constructor.
  - exists ((tag, t, p) :: ws). cbn [fst snd] in *. split; constructor; auto.
    + now split.
    + split; [exact (any_payload_formed _ _ _ Hp)|exact Hr].
Qed.

(* Reading all of it, to any depth. *)
Lemma tree_understood m : forall x t p, any_payload x t p -> tree_reads m x p.
Proof.
  fix self 4. intros x t p H. destruct H as [l t p Hl Hw|fs parts HF].
  - constructor. exact (any_reads_back m l t p Hl Hw).
  - assert (K : exists ws, Forall2 (fun f w => fst f = fst (fst w) /\ tree_reads m (snd f) (snd w)) fs ws /\
                 Forall2 rec_of ws parts).
    { induction HF as [|[tag x] bs fs parts HE HF (ws & H1 & H2)].
      - exists []. split; constructor.
      - destruct HE as (t & p & Hp & Hr). exists ((tag, t, p) :: ws).
        split; constructor; auto.
        + split; [reflexivity|]. exact (self _ _ _ Hp).
        + split; [exact (any_payload_formed _ _ _ Hp)|exact Hr]. }
    destruct K as (ws & H1 & H2). apply tr_node with ws; [|exact H1].
    exact (records_fully m ws parts [] H2).
Qed.

(* What Encoder writes is such a message. *)
Lemma packed_impl {A} (P Q : A -> list N -> Prop) vs p : (forall v bs, In v vs -> P v bs -> Q v bs) ->
  packed P vs p -> packed Q vs p.
Proof.
  intros H (parts & HF & ->). exists parts. split; [|reflexivity].
  induction HF as [|v bs vs parts Hv HF IH]; constructor.
  - apply H; [now left|exact Hv].
  - apply IH. intros; apply H; [now right|assumption].
Qed.
Lemma w_bool_any v bs : w_bool v bs -> a_bool v bs.
Proof.
  intros H. exists (if v then 1 else 0). split; [|destruct v; split; congruence].
  apply shortest_any; [exact H|destruct v; reflexivity].
Qed.
Lemma w_int_any w v bs : w = 32 \/ w = 64 -> w_int v bs -> a_int w v bs.
Proof.
  intros Hw (n & (Hn & k & E) & H). exists n. split; [now apply shortest_any|].
  destruct Hw as [-> | ->].
  - exists (- k * 2 ^ 32)%Z. rewrite E. change (Z.of_N 64) with (32 + 32)%Z. rewrite Z.pow_add_r by lia.
    change (Z.of_N 32) with 32%Z. ring.
  - exists (- k)%Z. rewrite E. ring.
Qed.
Lemma w_uint_any w v bs : w <= 64 -> v < 2 ^ w -> w_uint v bs -> a_uint w v bs.
Proof.
  intros Hw Hv H. exists v. split; [|now apply N.mod_small].
  apply shortest_any; [exact H|]. eapply N.lt_le_trans; [exact Hv|]. now apply N.pow_le_mono_r.
Qed.
Lemma w_sint_any w v bs : 1 <= w <= 64 -> in_i w v -> w_sint v bs -> a_sint v bs.
Proof.
  intros Hw Hi H. apply shortest_any; [exact H|].
  eapply N.lt_le_trans; [apply (zigzag_bound w); [lia|exact Hi]|]. apply N.pow_le_mono_r; lia.
Qed.
Lemma lit_wire_any l t p : lit_ok l -> lit_wire l t p -> any_lit l t p.
Proof.
  intros Hl. destruct l; cbn [lit_ok lit_wire any_lit] in *; rewrite ?Forall_forall in Hl; intros [-> H];
    (split; [reflexivity|]); try exact H;
    first [ now apply w_bool_any | apply w_int_any; [auto|exact H] | apply w_uint_any; [lia|exact Hl|exact H]
          | apply (w_sint_any 32); [lia|exact Hl|exact H] | apply (w_sint_any 64); [lia|exact Hl|exact H]
          | eapply packed_impl; [|exact H]; cbn beta; intros v' bs Hin Hv;
            first [ now apply w_bool_any | apply w_int_any; [auto|exact Hv]
                  | apply w_uint_any; [lia|exact (Hl _ Hin)|exact Hv]
                  | apply (w_sint_any 32); [lia|exact (Hl _ Hin)|exact Hv]
                  | apply (w_sint_any 64); [lia|exact (Hl _ Hin)|exact Hv] ] ].
Qed.
Lemma field_wire_any tag l t p bs : 1 <= tag < 2 ^ 29 -> lit_ok l -> lit_wire l t p -> N.of_nat (length p) < 2 ^ 64 ->
  field_wire (tag, t, p) bs -> field_as (tag, Leaf l) bs.
Proof.
  intros Ht Hl Hw Hlen (n & key & Hn & Hk & Hm). exists t, p. cbn [fst snd].
  split; [constructor; [exact Hl|now apply lit_wire_any]|].
  split; [exact Ht|]. exists n, key. split; [exact Hn|]. split.
  - apply shortest_any; [exact Hk|]. apply wire_number_num in Hn as [_ Hn].
    change (2 ^ 29) with 536870912 in *. change (2 ^ 64) with 18446744073709551616. lia.
  - destruct t; try exact Hm. destruct Hm as (len & Hlen' & E). exists len. split; [now apply shortest_any|exact E].
Qed.

(* ------------------------------------------------------------------ *)
Lemma delivers_got m fs ws : Forall2 delivers fs ws -> Forall2 (got m) fs ws.
Proof.
  induction 1 as [|f w fs ws (E & Hp) H IH]; constructor; auto.
  refine (conj E (conj Hp _)). exact (tree_understood m _ _ _ Hp).
Qed.

Theorem foreign_understood m fs parts dst : Forall2 field_as fs parts ->
  exists ws, decode_fully m pdecoder_default (concat parts) dst = ((pdecoder_default, [], dst ++ ws), Ok tt) /\
    Forall2 (got m) fs ws.
Proof.
  intros H. destruct (fields_recs fs parts H) as (ws & H1 & H2). exists ws.
  split; [now apply records_fully|now apply delivers_got].
Qed.

Theorem foreign_call m fs parts dst :
  Forall2 (fun f bs => exists t p, p <> [] /\ any_payload (snd f) t p /\ any_record (fst f) t p bs) fs parts ->
  exists ws, pdecode m pdecoder_default (concat parts) dst =
      ((pdecoder_default, [], dst ++ ws), Ok (N.of_nat (length (concat parts)))) /\
    Forall2 (got m) fs ws.
Proof.
  intros H.
  assert (K : exists ws, Forall2 delivers fs ws /\ Forall2 rec_of ws parts /\ Forall (fun w => snd w <> []) ws).
  { induction H as [|[tag x] bs fs parts (t & p & Hne & Hp & Hr) H (ws & H1 & H2 & H3)].
    - exists []. repeat split; constructor.
    - exists ((tag, t, p) :: ws). cbn [fst snd] in *. refine (conj _ (conj _ _)); constructor; auto.
      + now split.
      + split; [exact (any_payload_formed _ _ _ Hp)|exact Hr]. }
  destruct K as (ws & H1 & H2 & H3). exists ws. split; [now apply records_call|now apply delivers_got].
Qed.

Theorem foreign_stopped m fs parts key k x dst : Forall2 field_as fs parts -> any_varint k key -> bad_key k ->
  exists ws, decode_fully m pdecoder_default (concat parts ++ key ++ x) dst =
      ((pdecoder_default, key ++ x, dst ++ ws), Err PInvalidInput) /\
    Forall2 (got m) fs ws.
Proof.
  intros H Hk Hb. destruct (fields_recs fs parts H) as (ws & H1 & H2). exists ws.
  split; [|now apply delivers_got].
  change pdecoder_default with (decoder_of Start).
  rewrite (decode_fully_run m Start (concat parts) Start ws (key ++ x) (Err PInvalidInput)); auto.
  - exact I.
  - apply records_items; [exact H2|discriminate].
  - apply halt_bad_key with k; [now apply any_reads|exact Hb].
Qed.
