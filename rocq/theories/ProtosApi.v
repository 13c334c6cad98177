(* Specification of the protobuf encoder and decoder in terms of their API types
   and of ProtosSpec.v. *)
From Verif Require Import Base Leb ProtosModel ProtosSpec.
Open Scope N_scope.

(* Wire type numbers of the protobuf encoding. *)
Definition wire_number (t : typ) (n : N) : Prop :=
  match t with
  | Varint => n = 0 | Bit64 => n = 1 | LengthDelimited => n = 2 | Bit32 => n = 5 | Unknown => False
  end.

(* Values that fit their Rust types. *)
Definition u32_ok (v : N) : Prop := v < 2 ^ 32.
Definition u64_ok (v : N) : Prop := v < 2 ^ 64.
Definition lit_ok (l : encoder_lit) : Prop :=
  match l with
  | EBytes v => bytes v
  | EBool _ | EBoolVec _ => True
  | EInt32 v | ESInt32 v | ESFixed32 v => in_i 32 v
  | EInt32Vec v | ESInt32Vec v | ESFixed32Vec v => Forall (in_i 32) v
  | EInt64 v | ESInt64 v | ESFixed64 v => in_i 64 v
  | EInt64Vec v | ESInt64Vec v | ESFixed64Vec v => Forall (in_i 64) v
  | EUInt32 v | EFixed32 v | EFloat v => u32_ok v
  | EUInt32Vec v | EFixed32Vec v | EFloatVec v => Forall u32_ok v
  | EUInt64 v | EFixed64 v | EDouble v => u64_ok v
  | EUInt64Vec v | EFixed64Vec v | EDoubleVec v => Forall u64_ok v
  end.

(* Encoded values by format. *)
Definition w_bool (v : bool) : list N -> Prop := shortest (if v then 1 else 0).
Definition w_int (v : Z) (bs : list N) : Prop := exists n, twos 64 v n /\ shortest n bs.
Definition w_uint (v : N) : list N -> Prop := shortest v.
Definition w_sint (v : Z) : list N -> Prop := shortest (zigzag v).
Definition w_fixed (k : nat) (v : N) : list N -> Prop := little k v.
Definition w_sfixed (k : nat) (w : N) (v : Z) (bs : list N) : Prop := exists n, twos w v n /\ little k n bs.

(* Wire type and payload of a literal. *)
Definition lit_wire (l : encoder_lit) (t : typ) (p : list N) : Prop :=
  match l with
  | EBytes v => t = LengthDelimited /\ p = v
  | EBool v => t = Varint /\ w_bool v p
  | EBoolVec v => t = LengthDelimited /\ packed w_bool v p
  | EInt32 v | EInt64 v => t = Varint /\ w_int v p
  | EInt32Vec v | EInt64Vec v => t = LengthDelimited /\ packed w_int v p
  | EUInt32 v | EUInt64 v => t = Varint /\ w_uint v p
  | EUInt32Vec v | EUInt64Vec v => t = LengthDelimited /\ packed w_uint v p
  | ESInt32 v | ESInt64 v => t = Varint /\ w_sint v p
  | ESInt32Vec v | ESInt64Vec v => t = LengthDelimited /\ packed w_sint v p
  | EFixed32 v | EFloat v => t = Bit32 /\ w_fixed 4 v p
  | EFixed32Vec v | EFloatVec v => t = LengthDelimited /\ packed (w_fixed 4) v p
  | EFixed64 v | EDouble v => t = Bit64 /\ w_fixed 8 v p
  | EFixed64Vec v | EDoubleVec v => t = LengthDelimited /\ packed (w_fixed 8) v p
  | ESFixed32 v => t = Bit32 /\ w_sfixed 4 32 v p
  | ESFixed32Vec v => t = LengthDelimited /\ packed (w_sfixed 4 32) v p
  | ESFixed64 v => t = Bit64 /\ w_sfixed 8 64 v p
  | ESFixed64Vec v => t = LengthDelimited /\ packed (w_sfixed 8 64) v p
  end.

(* A field on the wire, as an encoder writes it: key, then length if the payload
   is length-delimited, then payload. *)
Definition field_wire (f : pfield) (bs : list N) : Prop :=
  let '(tag, t, p) := f in
  exists n key, wire_number t n /\ shortest (8 * tag + n) key /\
    match t with
    | LengthDelimited => exists len, shortest (N.of_nat (length p)) len /\ bs = key ++ len ++ p
    | _ => bs = key ++ p
    end.

(* A sequence of calls to encode. *)
Fixpoint encode_message (fs : list (N * encoder_lit)) (s : sink) : penc :=
  match fs with
  | [] => (s, Ok 0)
  | f :: fs' => binds (pencode (fst f) (snd f) s)
                  (fun s n => binds (encode_message fs' s) (fun s k => (s, Ok (n + k))))
  end.

(* Value read back through the matching DecoderLit. *)
Definition reads_back (m : mode) (l : encoder_lit) (p : list N) : Prop :=
  match l with
  | EBytes v => to_u8_vec (DBytes p) = v
  | EBool v => to_bool m (DBool p) = Ok v
  | EBoolVec v => to_bool_vec m (DBoolVec p) = Ok v
  | EInt32 v => to_i32 m (DInt32 p) = Ok v
  | EInt32Vec v => to_i32_vec m (DInt32Vec p) = Ok v
  | EInt64 v => to_i64 m (DInt64 p) = Ok v
  | EInt64Vec v => to_i64_vec m (DInt64Vec p) = Ok v
  | EUInt32 v => to_u32 m (DUInt32 p) = Ok v
  | EUInt32Vec v => to_u32_vec m (DUInt32Vec p) = Ok v
  | EUInt64 v => to_u64 m (DUInt64 p) = Ok v
  | EUInt64Vec v => to_u64_vec m (DUInt64Vec p) = Ok v
  | EFloat v => to_f32 m (DFloat p) = Ok v
  | EFloatVec v => to_f32_vec m (DFloatVec p) = Ok v
  | EDouble v => to_f64 m (DDouble p) = Ok v
  | EDoubleVec v => to_f64_vec m (DDoubleVec p) = Ok v
  | ESInt32 v => to_i32 m (DSInt32 p) = Ok v
  | ESInt32Vec v => to_i32_vec m (DSInt32Vec p) = Ok v
  | ESInt64 v => to_i64 m (DSInt64 p) = Ok v
  | ESInt64Vec v => to_i64_vec m (DSInt64Vec p) = Ok v
  | EFixed32 v => to_u32 m (DFixed32 p) = Ok v
  | EFixed32Vec v => to_u32_vec m (DFixed32Vec p) = Ok v
  | EFixed64 v => to_u64 m (DFixed64 p) = Ok v
  | EFixed64Vec v => to_u64_vec m (DFixed64Vec p) = Ok v
  | ESFixed32 v => to_i32 m (DSFixed32 p) = Ok v
  | ESFixed32Vec v => to_i32_vec m (DSFixed32Vec p) = Ok v
  | ESFixed64 v => to_i64 m (DSFixed64 p) = Ok v
  | ESFixed64Vec v => to_i64_vec m (DSFixed64Vec p) = Ok v
  end.

(* ------------------------------------------------------------------ *)
(* Decoding a stream. *)

(* Between calls the decoder is at the start of a field, or has read a key, or
   a key and a length. *)
Inductive pending := Start | GotKey (tag : N) (t : typ) | GotLen (tag len : N).
Definition decoder_of (p : pending) : pdecoder :=
  match p with
  | Start => pdecoder_default
  | GotKey tag t => mkP tag t None
  | GotLen tag len => mkP tag LengthDelimited (Some len)
  end.

(* [reads m bs v]: the octets bs are read as the varint v.  A debug build panics
   on more than ten octets, a release build folds them (C36). *)
Definition reads (m : mode) (bs : list N) (v : N) : Prop :=
  varint_shape bs /\ v = folded 0 bs /\ (m = Debug -> (length bs <= 10)%nat).

(* One item of input: key, length, or payload. *)
Inductive item (m : mode) : pending -> list N -> pending -> list pfield -> Prop :=
| item_key bs tag t n : reads m bs (8 * tag + n) -> wire_number t n -> 1 <= tag < 2 ^ 29 ->
    item m Start bs (GotKey tag t) []
| item_varint tag bs : varint_shape bs -> item m (GotKey tag Varint) bs Start [(tag, Varint, bs)]
| item_bit32 tag bs : length bs = 4%nat -> item m (GotKey tag Bit32) bs Start [(tag, Bit32, bs)]
| item_bit64 tag bs : length bs = 8%nat -> item m (GotKey tag Bit64) bs Start [(tag, Bit64, bs)]
| item_len tag bs n : reads m bs n -> item m (GotKey tag LengthDelimited) bs (GotLen tag n) []
| item_data tag n bs : N.of_nat (length bs) = n ->
    item m (GotLen tag n) bs Start [(tag, LengthDelimited, bs)].

(* Any number of items; [ne] asks for items of at least one octet. *)
Inductive items (m : mode) (ne : bool) : pending -> list N -> pending -> list pfield -> Prop :=
| items_nil p : items m ne p [] p []
| items_cons p bs p1 h bs' p2 hs : item m p bs p1 h -> (ne = true -> bs <> []) ->
    items m ne p1 bs' p2 hs -> items m ne p (bs ++ bs') p2 (h ++ hs).

(* The input ends inside an item. *)
Definition waiting (m : mode) (p : pending) (rest : list N) : Prop :=
  match p with
  | Start | GotKey _ LengthDelimited => continued rest /\ (m = Debug -> (length rest <= 10)%nat)
  | GotKey _ Varint => continued rest
  | GotKey _ Bit32 => (length rest < 4)%nat
  | GotKey _ Bit64 => (length rest < 8)%nat
  | GotKey _ Unknown => False
  | GotLen _ n => N.of_nat (length rest) < n
  end.

(* A key that is not one: more than 32 bits, field number 0, or wire type 3, 4, 6, 7. *)
Definition bad_key (k : N) : Prop :=
  2 ^ 32 <= k \/ k / 8 = 0 \/ (k mod 8 = 3 \/ k mod 8 = 4 \/ k mod 8 = 6 \/ k mod 8 = 7).

(* Why no further item can be read. *)
Inductive halt (m : mode) : pending -> list N -> outcome pdec_error unit -> Prop :=
| halt_wait p rest : waiting m p rest -> halt m p rest (Ok tt)
| halt_bad_key bs k x : reads m bs k -> bad_key k -> halt m Start (bs ++ x) (Err PInvalidInput)
| halt_long p bs x : m = Debug -> (p = Start \/ exists tag, p = GotKey tag LengthDelimited) ->
    continued bs -> length bs = 10%nat -> x <> [] -> halt m p (bs ++ x) Panic.

(* How one call of decode ends: as above, or with an empty payload. *)
Inductive call_ends (m : mode) : pending -> list N -> pending -> list pfield -> outcome pdec_error unit -> Prop :=
| ends_halt p rest o : halt m p rest o -> call_ends m p rest p [] o
| ends_empty tag rest : call_ends m (GotLen tag 0) rest Start [(tag, LengthDelimited, [])] (Ok tt).

Definition with_count (n : N) (o : outcome pdec_error unit) : outcome pdec_error N :=
  match o with Ok _ => Ok n | Err e => Err e | Panic => Panic | OutOfFuel => OutOfFuel end.

(* States between calls. *)
Definition idle (p : pending) : Prop :=
  match p with
  | Start => True
  | GotKey tag t => 1 <= tag < 2 ^ 29 /\ t <> Unknown
  | GotLen tag len => 1 <= tag < 2 ^ 29 /\ 1 <= len < 2 ^ 64
  end.

(* A caller that repeats decode until it returns 0 or an error. *)
Fixpoint decode_until (m : mode) (fuel : nat) (d : pdecoder) (buf : list N) (dst : list pfield)
  : pstate * outcome pdec_error unit :=
  match fuel with
  | O => ((d, buf, dst), OutOfFuel)
  | S fuel' =>
      match pdecode m d buf dst with
      | ((d', buf', dst'), Ok n) =>
          if n =? 0 then ((d', buf', dst'), Ok tt) else decode_until m fuel' d' buf' dst'
      | (st, Err e) => (st, Err e)
      | (st, Panic) => (st, Panic)
      | (st, OutOfFuel) => (st, OutOfFuel)
      end
  end.
Definition decode_fully (m : mode) (d : pdecoder) (buf : list N) (dst : list pfield) :=
  decode_until m (length buf + 1) d buf dst.

(* Octets that stand for emitted fields and for the pending part. *)
Definition key_read (m : mode) (tag : N) (t : typ) (bs : list N) : Prop :=
  exists n, reads m bs (8 * tag + n) /\ wire_number t n /\ 1 <= tag < 2 ^ 29.
Definition field_read (m : mode) (f : pfield) (bs : list N) : Prop :=
  let '(tag, t, p) := f in
  exists key, key_read m tag t key /\
    match t with
    | Varint => varint_shape p /\ bs = key ++ p
    | Bit32 => length p = 4%nat /\ bs = key ++ p
    | Bit64 => length p = 8%nat /\ bs = key ++ p
    | LengthDelimited => exists len, reads m len (N.of_nat (length p)) /\ bs = key ++ len ++ p
    | Unknown => False
    end.
Definition pending_read (m : mode) (p : pending) (bs : list N) : Prop :=
  match p with
  | Start => bs = []
  | GotKey tag t => key_read m tag t bs
  | GotLen tag n => exists key len, key_read m tag LengthDelimited key /\ reads m len n /\ bs = key ++ len
  end.

(* ------------------------------------------------------------------ *)
(* What the varint decoder makes of arbitrary octets. *)
Inductive varint_result (m : mode) (b : list N) : outcome pdec_error (N * N) -> Prop :=
| vr_value bs rest v : b = bs ++ rest -> reads m bs v -> varint_result m b (Ok (v, N.of_nat (length bs)))
| vr_short : continued b -> (m = Debug -> (length b <= 10)%nat) -> varint_result m b (Err PInputUnderflow)
| vr_long bs x : m = Debug -> b = bs ++ x -> continued bs -> length bs = 10%nat -> x <> [] ->
    varint_result m b Panic.

(* The value v of a varint as the decoder converts it. *)
Definition low_signed (w : N) (v : N) (z : Z) : Prop := in_i w z /\ twos w z (v mod 2 ^ w).

(* ------------------------------------------------------------------ *)
(* A writer after the octets bs were sent to it: all of them if they fit,
   otherwise as many as fit and an error. *)
Definition delivered (s : sink) (bs : list N) : penc :=
  match room s with
  | None => (mkSink (written s ++ bs) None, Ok (N.of_nat (length bs)))
  | Some r =>
      if N.of_nat (length bs) <=? r
      then (mkSink (written s ++ bs) (Some (r - N.of_nat (length bs))), Ok (N.of_nat (length bs)))
      else (mkSink (written s ++ firstn (N.to_nat r) bs) (Some 0), Err PInterrupted)
  end.

(* Inverse of ZigZag on arbitrary numbers. *)
Definition unzigzag (v : N) : Z :=
  if N.even v then Z.of_N (v / 2) else (- Z.of_N (v / 2) - 1)%Z.
(* The w-bit signed integer congruent to y. *)
Definition truncated (w : N) (y z : Z) : Prop := in_i w z /\ exists k, y = (z + k * 2 ^ Z.of_N w)%Z.

(* How decoders read one value of each format from exactly the octets bs. *)
Definition r_bool (m : mode) (v : bool) (bs : list N) : Prop :=
  exists n, reads m bs n /\ (v = true <-> n <> 0).
Definition r_int (w : N) (m : mode) (v : Z) (bs : list N) : Prop :=
  exists n, reads m bs n /\ truncated w (Z.of_N n) v.
Definition r_uint (w : N) (m : mode) (v : N) (bs : list N) : Prop :=
  exists n, reads m bs n /\ v = n mod 2 ^ w.
Definition r_sint (w : N) (m : mode) (v : Z) (bs : list N) : Prop :=
  exists n, reads m bs n /\ truncated w (unzigzag n) v.
Definition r_fixed (k : nat) (m : mode) (v : N) (bs : list N) : Prop := little k v bs.
Definition r_sfixed (k : nat) (w : N) (m : mode) (v : Z) (bs : list N) : Prop :=
  exists n, little k n bs /\ truncated w (Z.of_N n) v.

(* Octets at which such a value does not end, and (debug builds) octets on which
   reading a varint panics. *)
Definition short_varint (m : mode) (t : list N) : Prop := continued t /\ (m = Debug -> (length t <= 10)%nat).
Definition overlong (m : mode) (t : list N) : Prop :=
  m = Debug /\ exists bs x, t = bs ++ x /\ continued bs /\ length bs = 10%nat /\ x <> [].
Definition short_fixed (k : nat) (m : mode) (t : list N) : Prop := (length t < k)%nat.
Definition never (m : mode) (t : list N) : Prop := False.

(* Result of converting one value. *)
Definition converts {A} (R : mode -> A -> list N -> Prop) (S L : mode -> list N -> Prop) (def : A)
  (m : mode) (b : list N) (o : outcome pdec_error A) : Prop :=
  (forall v bs rest, b = bs ++ rest -> R m v bs -> o = Ok v) /\
  (S m b -> o = Ok def) /\
  (L m b -> o = Panic) /\
  ((exists v bs rest, b = bs ++ rest /\ R m v bs) \/ S m b \/ L m b).
(* Result of converting a packed payload: all values, or the empty vector if a
   value is cut off at the end. *)
Definition converts_all {A} (R : mode -> A -> list N -> Prop) (S L : mode -> list N -> Prop)
  (m : mode) (b : list N) (o : outcome pdec_error (list A)) : Prop :=
  (forall vs, packed (R m) vs b -> o = Ok vs) /\
  (forall vs a t, b = a ++ t -> packed (R m) vs a -> t <> [] -> S m t -> o = Ok []) /\
  (forall vs a t, b = a ++ t -> packed (R m) vs a -> L m t -> o = Panic) /\
  exists vs a t, b = a ++ t /\ packed (R m) vs a /\ (t = [] \/ (t <> [] /\ S m t) \/ L m t).

(* Payloads that fit their wire type. *)
Definition payload_ok (t : typ) (p : list N) : Prop :=
  match t with
  | Varint => varint_shape p
  | Bit32 => length p = 4%nat
  | Bit64 => length p = 8%nat
  | LengthDelimited => N.of_nat (length p) < 2 ^ 64
  | Unknown => False
  end.

(* Literals whose payload is not empty. *)
Definition nonempty_lit (l : encoder_lit) : Prop :=
  match l with
  | EBytes v => v <> [] | EBoolVec v => v <> []
  | EInt32Vec v | EInt64Vec v | ESInt32Vec v | ESInt64Vec v | ESFixed32Vec v | ESFixed64Vec v => v <> []
  | EUInt32Vec v | EUInt64Vec v | EFloatVec v | EDoubleVec v | EFixed32Vec v | EFixed64Vec v => v <> []
  | _ => True
  end.
(* Its payload is no longer than memory can be. *)
Definition small_lit (l : encoder_lit) : Prop := forall t p, lit_wire l t p -> N.of_nat (length p) < 2 ^ 64.

(* Field w = (tag, wire type, payload) carries f = (tag, literal). *)
Definition carries (f : N * encoder_lit) (w : pfield) : Prop :=
  fst (fst w) = fst f /\ lit_wire (snd f) (snd (fst w)) (snd w).
(* Fields that can be encoded. *)
Definition good_field (f : N * encoder_lit) : Prop :=
  1 <= fst f < 2 ^ 29 /\ lit_ok (snd f) /\ small_lit (snd f).

(* What key decoding makes of arbitrary octets. *)
Inductive key_result (m : mode) (b : list N) : outcome pdec_error (N * typ * N) -> Prop :=
| kr_key bs rest tag t : b = bs ++ rest -> key_read m tag t bs ->
    key_result m b (Ok (tag, t, N.of_nat (length bs)))
| kr_bad bs rest k : b = bs ++ rest -> reads m bs k -> bad_key k -> key_result m b (Err PInvalidInput)
| kr_short : short_varint m b -> key_result m b (Err PInputUnderflow)
| kr_long : overlong m b -> key_result m b Panic.

(* A stream fed in pieces: each piece is appended to what is left and decoded
   until there is no progress. *)
Fixpoint feed (m : mode) (d : pdecoder) (left : list N) (pieces : list (list N)) (dst : list pfield)
  : pstate * outcome pdec_error unit :=
  match pieces with
  | [] => ((d, left, dst), Ok tt)
  | x :: more =>
      match decode_fully m d (left ++ x) dst with
      | ((d', left', dst'), Ok _) => feed m d' left' more dst'
      | ((d', left', dst'), o) => ((d', left' ++ concat more, dst'), o)
      end
  end.

(* ------------------------------------------------------------------ *)
(* Messages inside messages. *)
Inductive tree := Leaf (l : encoder_lit) | Node (fs : list (N * tree)).

(* A caller encodes an inner message into a Vec and passes that as bytes. *)
Fixpoint as_lit (t : tree) : encoder_lit :=
  match t with
  | Leaf l => l
  | Node fs =>
      EBytes (written (fst (encode_message (map (fun f => (fst f, as_lit (snd f))) fs) (vec_sink []))))
  end.

(* [tree_ok t]: all field numbers are valid, all values have their types, and no
   payload has 2^64 octets or more. *)
Inductive tree_ok : tree -> Prop :=
| ok_leaf l : lit_ok l -> small_lit l -> tree_ok (Leaf l)
| ok_node fs : Forall (fun f => 1 <= fst f < 2 ^ 29 /\ tree_ok (snd f)) fs ->
    small_lit (as_lit (Node fs)) -> tree_ok (Node fs).

(* [tree_reads m t p]: the payload p, read by a caller who knows the structure, gives t
   back: values through the matching DecoderLit, inner messages with a new Decoder. *)
Inductive tree_reads (m : mode) : tree -> list N -> Prop :=
| tr_leaf l p : reads_back m l p -> tree_reads m (Leaf l) p
| tr_node fs p ws : decode_fully m pdecoder_default p [] = ((pdecoder_default, [], ws), Ok tt) ->
    Forall2 (fun f w => fst f = fst (fst w) /\ tree_reads m (snd f) (snd w)) fs ws ->
    tree_reads m (Node fs) p.

(* Kinds of literals: the type of a field in a schema. *)
Inductive lit_kind :=
| KBytes | KBool | KBoolVec | KInt32 | KInt32Vec | KInt64 | KInt64Vec | KUInt32 | KUInt32Vec
| KUInt64 | KUInt64Vec | KFloat | KFloatVec | KDouble | KDoubleVec | KSInt32 | KSInt32Vec
| KSInt64 | KSInt64Vec | KFixed32 | KFixed32Vec | KFixed64 | KFixed64Vec | KSFixed32
| KSFixed32Vec | KSFixed64 | KSFixed64Vec.
Definition kind_of_lit (l : encoder_lit) : lit_kind :=
  match l with
  | EBytes _ => KBytes | EBool _ => KBool | EBoolVec _ => KBoolVec
  | EInt32 _ => KInt32 | EInt32Vec _ => KInt32Vec | EInt64 _ => KInt64 | EInt64Vec _ => KInt64Vec
  | EUInt32 _ => KUInt32 | EUInt32Vec _ => KUInt32Vec | EUInt64 _ => KUInt64 | EUInt64Vec _ => KUInt64Vec
  | EFloat _ => KFloat | EFloatVec _ => KFloatVec | EDouble _ => KDouble | EDoubleVec _ => KDoubleVec
  | ESInt32 _ => KSInt32 | ESInt32Vec _ => KSInt32Vec | ESInt64 _ => KSInt64 | ESInt64Vec _ => KSInt64Vec
  | EFixed32 _ => KFixed32 | EFixed32Vec _ => KFixed32Vec | EFixed64 _ => KFixed64 | EFixed64Vec _ => KFixed64Vec
  | ESFixed32 _ => KSFixed32 | ESFixed32Vec _ => KSFixed32Vec | ESFixed64 _ => KSFixed64 | ESFixed64Vec _ => KSFixed64Vec
  end.

(* Octets of all payloads. *)
Definition payload_octets (fs : list pfield) : nat := length (concat (map snd fs)).

(* [joined l1 l2 l]: two payloads for the same repeated field, packed or a single
   element, and the field they stand for together; also two parts of a byte string. *)
Inductive joined : encoder_lit -> encoder_lit -> encoder_lit -> Prop :=
| j_bytes a b : joined (EBytes a) (EBytes b) (EBytes (a ++ b))
| j_bool a b : joined (EBoolVec a) (EBoolVec b) (EBoolVec (a ++ b))
| j_bool1 a b : joined (EBool a) (EBoolVec b) (EBoolVec (a :: b))
| j_int32 a b : joined (EInt32Vec a) (EInt32Vec b) (EInt32Vec (a ++ b))
| j_int321 a b : joined (EInt32 a) (EInt32Vec b) (EInt32Vec (a :: b))
| j_int64 a b : joined (EInt64Vec a) (EInt64Vec b) (EInt64Vec (a ++ b))
| j_int641 a b : joined (EInt64 a) (EInt64Vec b) (EInt64Vec (a :: b))
| j_uint32 a b : joined (EUInt32Vec a) (EUInt32Vec b) (EUInt32Vec (a ++ b))
| j_uint321 a b : joined (EUInt32 a) (EUInt32Vec b) (EUInt32Vec (a :: b))
| j_uint64 a b : joined (EUInt64Vec a) (EUInt64Vec b) (EUInt64Vec (a ++ b))
| j_uint641 a b : joined (EUInt64 a) (EUInt64Vec b) (EUInt64Vec (a :: b))
| j_float a b : joined (EFloatVec a) (EFloatVec b) (EFloatVec (a ++ b))
| j_float1 a b : joined (EFloat a) (EFloatVec b) (EFloatVec (a :: b))
| j_double a b : joined (EDoubleVec a) (EDoubleVec b) (EDoubleVec (a ++ b))
| j_double1 a b : joined (EDouble a) (EDoubleVec b) (EDoubleVec (a :: b))
| j_sint32 a b : joined (ESInt32Vec a) (ESInt32Vec b) (ESInt32Vec (a ++ b))
| j_sint321 a b : joined (ESInt32 a) (ESInt32Vec b) (ESInt32Vec (a :: b))
| j_sint64 a b : joined (ESInt64Vec a) (ESInt64Vec b) (ESInt64Vec (a ++ b))
| j_sint641 a b : joined (ESInt64 a) (ESInt64Vec b) (ESInt64Vec (a :: b))
| j_fixed32 a b : joined (EFixed32Vec a) (EFixed32Vec b) (EFixed32Vec (a ++ b))
| j_fixed321 a b : joined (EFixed32 a) (EFixed32Vec b) (EFixed32Vec (a :: b))
| j_fixed64 a b : joined (EFixed64Vec a) (EFixed64Vec b) (EFixed64Vec (a ++ b))
| j_fixed641 a b : joined (EFixed64 a) (EFixed64Vec b) (EFixed64Vec (a :: b))
| j_sfixed32 a b : joined (ESFixed32Vec a) (ESFixed32Vec b) (ESFixed32Vec (a ++ b))
| j_sfixed321 a b : joined (ESFixed32 a) (ESFixed32Vec b) (ESFixed32Vec (a :: b))
| j_sfixed64 a b : joined (ESFixed64Vec a) (ESFixed64Vec b) (ESFixed64Vec (a ++ b))
| j_sfixed641 a b : joined (ESFixed64 a) (ESFixed64Vec b) (ESFixed64Vec (a :: b)).

(* The octets of a DecoderLit. *)
Definition lit_octets (l : decoder_lit) : list N :=
  match l with
  | DBytes b | DBool b | DBoolVec b | DInt32 b | DInt32Vec b | DInt64 b | DInt64Vec b | DUInt32 b | DUInt32Vec b
  | DUInt64 b | DUInt64Vec b | DFloat b | DFloatVec b | DDouble b | DDoubleVec b | DSInt32 b | DSInt32Vec b
  | DSInt64 b | DSInt64Vec b | DFixed32 b | DFixed32Vec b | DFixed64 b | DFixed64Vec b | DSFixed32 b
  | DSFixed32Vec b | DSFixed64 b | DSFixed64Vec b => b
  end.

(* Debug builds give the result of release builds, or panic. *)
Definition same_or_panic {A} (f : mode -> outcome pdec_error A) : Prop := f Debug = Panic \/ f Debug = f Release.

(* Octets that earlier calls consumed for the field in progress, at least. *)
Definition credit (p : pending) : nat := match p with Start => 0 | GotKey _ _ => 1 | GotLen _ _ => 2 end.
