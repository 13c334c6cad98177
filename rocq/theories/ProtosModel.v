(* Model of the crate httlib-protos.  Source citations are relative to
   /repo.  Unsigned integers and floating point bit patterns are N,
   signed integers Z; usize has 64 bits. *)
From Verif Require Import Base.
Open Scope N_scope.

(* protos/src/encoder/error.rs:9-21, EncoderError *)
Inductive penc_error := PDataOverflow | PInterrupted | PInvalidTag.
(* protos/src/decoder/error.rs:9-26, DecoderError; the last two are never produced *)
Inductive pdec_error := PInvalidInput | PInputUnderflow | PDecInterrupted | PDecInvalidTag.

(* protos/src/typ.rs:5-24, Typ and its discriminants; `Unknown as u32` is u32::MAX *)
Inductive typ := Varint | Bit64 | LengthDelimited | Bit32 | Unknown.
(* protos/src/typ.rs:7-23, `typ as u32` *)
Definition typ_num (t : typ) : N :=
  match t with Varint => 0 | Bit64 => 1 | LengthDelimited => 2 | Bit32 => 5 | Unknown => 2 ^ 32 - 1 end.
(* protos/src/typ.rs:26-38, TryFrom<u64>: never an error *)
Definition typ_of (n : N) : typ :=
  if n =? 0 then Varint else if n =? 1 then Bit64 else if n =? 2 then LengthDelimited
  else if n =? 5 then Bit32 else Unknown.

(* `as` casts between signed and unsigned integers of w bits (protos/src/encoder/primitives.rs:106, 118, 172, 203) *)
Definition as_u (w : N) (z : Z) : N := Z.to_N (z mod 2 ^ Z.of_N w).
(* the other direction (protos/src/decoder/primitives.rs:128, 161, 275, 326) *)
Definition as_i (w : N) (n : N) : Z :=
  let n := n mod 2 ^ w in
  if n <? 2 ^ (w - 1) then Z.of_N n else (Z.of_N n - 2 ^ Z.of_N w)%Z.

(* to_le_bytes of std (protos/src/encoder/primitives.rs:227-325) *)
Fixpoint to_le (k : nat) (v : N) : list N :=
  match k with O => [] | S k' => wrap 8 v :: to_le k' (N.shiftr v 8) end.
(* from_le_bytes (protos/src/decoder/primitives.rs:368-586) *)
Fixpoint from_le (l : list N) : N :=
  match l with [] => 0 | b :: l' => b + N.shiftl (from_le l') 8 end.

(* ------------------------------------------------------------------ *)
(* Writers.  [room] is the number of octets the writer still takes: None for a
   Vec, Some k for `&mut [u8]` and Cursor.  write_all on a writer that is full
   has written what fits and reports an io::Error, which protos/src/encoder/error.rs:23-27
   turns into Interrupted. *)
Record sink := mkSink { written : list N; room : option N }.
(* a Vec<u8> as writer (protos/src/encoder/mod.rs:147 and the other *_vec methods) *)
Definition vec_sink (dst : list N) : sink := mkSink dst None.
(* `write_all` as called at protos/src/encoder/primitives.rs:41, 45 and below *)
Definition write_all (s : sink) (data : list N) : sink * outcome penc_error unit :=
  match room s with
  | None => (mkSink (written s ++ data) None, Ok tt)
  | Some r =>
      if N.of_nat (length data) <=? r
      then (mkSink (written s ++ data) (Some (r - N.of_nat (length data))), Ok tt)
      else (mkSink (written s ++ firstn (N.to_nat r) data) (Some 0), Err PInterrupted)
  end.

(* writer and result of the functions of protos/src/encoder/primitives.rs:30-360 *)
Definition penc : Type := (sink * outcome penc_error N)%type.

(* protos/src/encoder/primitives.rs:30-49, encode_varint; val: u64, so ten iterations suffice *)
Fixpoint pencode_varint_loop (fuel : nat) (val size : N) (s : sink) : penc :=
  let size := size + 1 in
  if val <? 128 then binds (write_all s [N.land (wrap 8 val) 127]) (fun s _ => (s, Ok size))
  else
    match fuel with
    | O => (s, OutOfFuel)
    | S fuel' =>
        binds (write_all s [wrap 8 (N.lor (N.land val 127) 128)])
          (fun s _ => pencode_varint_loop fuel' (N.shiftr val 7) size s)
    end.
(* protos/src/encoder/primitives.rs:30-49, encode_varint *)
Definition pencode_varint (val : N) (s : sink) : penc := pencode_varint_loop 10 val 0 s.

(* protos/src/encoder/mod.rs:49-52 *)
Definition TAG_MIN : N := 1.
(* protos/src/encoder/mod.rs:49-52 *)
Definition TAG_MAX : N := N.shiftl 1 29 - 1.

(* protos/src/encoder/primitives.rs:68-82, encode_key *)
Definition pencode_key (tag : N) (t : typ) (s : sink) : penc :=
  if (tag <? TAG_MIN) || (TAG_MAX <? tag) then (s, Err PInvalidTag)
  else pencode_varint (N.lor (wrap 32 (N.shiftl tag 3)) (typ_num t)) s.

(* protos/src/encoder/primitives.rs:89-95 *)
Definition prim_bool (v : bool) (s : sink) : penc := pencode_varint (if v then 1 else 0) s.
(* protos/src/encoder/primitives.rs:102-107: `val as u64` sign-extends *)
Definition prim_int32 (v : Z) (s : sink) : penc := pencode_varint (as_u 64 v) s.
(* protos/src/encoder/primitives.rs:114-119 *)
Definition prim_int64 (v : Z) (s : sink) : penc := pencode_varint (as_u 64 v) s.
(* protos/src/encoder/primitives.rs:126-131 *)
Definition prim_uint32 (v : N) (s : sink) : penc := pencode_varint v s.
(* protos/src/encoder/primitives.rs:138-143 *)
Definition prim_uint64 (v : N) (s : sink) : penc := pencode_varint v s.
(* protos/src/encoder/primitives.rs:168-174: ((val << 1) ^ (val >> 31)) as u32 as u64 *)
Definition prim_sint32 (v : Z) (s : sink) : penc :=
  pencode_varint (as_u 32 (Z.lxor (as_i 32 (as_u 32 (Z.shiftl v 1))) (Z.shiftr v 31))) s.
(* protos/src/encoder/primitives.rs:199-205 *)
Definition prim_sint64 (v : Z) (s : sink) : penc :=
  pencode_varint (as_u 64 (Z.lxor (as_i 64 (as_u 64 (Z.shiftl v 1))) (Z.shiftr v 63))) s.

(* `write_all(&val.to_le_bytes())?; Ok(n)`, protos/src/encoder/primitives.rs:227-325 *)
Definition write_fixed (data : list N) (n : N) (s : sink) : penc :=
  binds (write_all s data) (fun s _ => (s, Ok n)).
(* protos/src/encoder/primitives.rs:227-233, 247-253 *)
Definition prim_fixed32 (v : N) : sink -> penc := write_fixed (to_le 4 v) 4.
(* protos/src/encoder/primitives.rs:247-253 *)
Definition prim_fixed64 (v : N) : sink -> penc := write_fixed (to_le 8 v) 8.
(* protos/src/encoder/primitives.rs:267-273, 287-293 *)
Definition prim_sfixed32 (v : Z) : sink -> penc := write_fixed (to_le 4 (as_u 32 v)) 4.
(* protos/src/encoder/primitives.rs:287-293 *)
Definition prim_sfixed64 (v : Z) : sink -> penc := write_fixed (to_le 8 (as_u 64 v)) 8.
(* protos/src/encoder/primitives.rs:303-309, 319-325; a float is its bit pattern *)
Definition prim_float (v : N) : sink -> penc := write_fixed (to_le 4 v) 4.
(* protos/src/encoder/primitives.rs:319-325 *)
Definition prim_double (v : N) : sink -> penc := write_fixed (to_le 8 v) 8.
(* protos/src/encoder/primitives.rs:346-360, encode_bytes.  `size > u64::MAX as usize` is
   never true; the size fits usize because the bytes are in memory. *)
Definition prim_bytes (data : list N) (s : sink) : penc :=
  let size := N.of_nat (length data) in
  if 2 ^ 64 - 1 <? size then (s, Err PDataOverflow)
  else
    binds (pencode_varint size s)
      (fun s n => binds (write_all s data) (fun s _ => (s, Ok (size + n)))).

(* protos/src/encoder/mod.rs:118-646, the scalar methods (118-131 encode_bool, 162 int32, 203 int64,
   244 uint32, 285 uint64, 326 float, 367 double, 408 bytes, 428 sint32, 469 sint64,
   510 fixed32, 551 fixed64, 592 sfixed32, 633 sfixed64) all have this body *)
Definition field_with (tag : N) (t : typ) (prim : sink -> penc) (s : sink) : penc :=
  binds (pencode_key tag t s) (fun s n => binds (prim s) (fun s k => (s, Ok (n + k)))).

(* protos/src/encoder/mod.rs:408-421, Encoder::encode_bytes *)
Definition pencode_bytes (tag : N) (data : list N) (s : sink) : penc :=
  field_with tag LengthDelimited (prim_bytes data) s.

(* protos/src/encoder/mod.rs:191-194 and the other *_vec methods: for each val, encode_x(val, data)? *)
Fixpoint encode_each {A} (prim : A -> sink -> penc) (vals : list A) (data : sink) : sink * outcome penc_error unit :=
  match vals with
  | [] => (data, Ok tt)
  | v :: vals' => binds (prim v data) (fun data _ => encode_each prim vals' data)
  end.
(* protos/src/encoder/mod.rs:138-155 (bool), 182-196, 223, 264, 305, 346, 387, 448, 489, 530,
   571, 612, 653.  An error of the first loop returns with dst untouched. *)
Definition pencode_vec {A} (prim : A -> sink -> penc) (tag : N) (vals : list A) (s : sink) : penc :=
  match encode_each prim vals (vec_sink []) with
  | (data, Ok _) => pencode_bytes tag (written data) s
  | (_, Err e) => (s, Err e)
  | (_, Panic) => (s, Panic)
  | (_, OutOfFuel) => (s, OutOfFuel)
  end.

(* protos/src/encoder/lit.rs:5-92, EncoderLit *)
Inductive encoder_lit :=
| EBytes (v : list N)
| EBool (v : bool) | EBoolVec (v : list bool)
| EInt32 (v : Z) | EInt32Vec (v : list Z)
| EInt64 (v : Z) | EInt64Vec (v : list Z)
| EUInt32 (v : N) | EUInt32Vec (v : list N)
| EUInt64 (v : N) | EUInt64Vec (v : list N)
| EFloat (v : N) | EFloatVec (v : list N)
| EDouble (v : N) | EDoubleVec (v : list N)
| ESInt32 (v : Z) | ESInt32Vec (v : list Z)
| ESInt64 (v : Z) | ESInt64Vec (v : list Z)
| EFixed32 (v : N) | EFixed32Vec (v : list N)
| EFixed64 (v : N) | EFixed64Vec (v : list N)
| ESFixed32 (v : Z) | ESFixed32Vec (v : list Z)
| ESFixed64 (v : Z) | ESFixed64Vec (v : list Z).

(* protos/src/encoder/lit.rs:94-182, the From impls *)
Definition lit_of_bool := EBool.
(* protos/src/encoder/lit.rs:100-104 *)
Definition lit_of_bool_vec := EBoolVec.
(* protos/src/encoder/lit.rs:106-110 *)
Definition lit_of_i32 := EInt32.
(* protos/src/encoder/lit.rs:112-116 *)
Definition lit_of_i32_vec := EInt32Vec.
(* protos/src/encoder/lit.rs:118-122 *)
Definition lit_of_i64 := EInt64.
(* protos/src/encoder/lit.rs:124-128 *)
Definition lit_of_i64_vec := EInt64Vec.
(* protos/src/encoder/lit.rs:130-134 *)
Definition lit_of_u32 := EUInt32.
(* protos/src/encoder/lit.rs:136-140 *)
Definition lit_of_u32_vec := EUInt32Vec.
(* protos/src/encoder/lit.rs:142-146 *)
Definition lit_of_u64 := EUInt64.
(* protos/src/encoder/lit.rs:148-152 *)
Definition lit_of_u64_vec := EUInt64Vec.
(* protos/src/encoder/lit.rs:154-158 *)
Definition lit_of_f32 := EFloat.
(* protos/src/encoder/lit.rs:160-164 *)
Definition lit_of_f32_vec := EFloatVec.
(* protos/src/encoder/lit.rs:166-170 *)
Definition lit_of_f64 := EDouble.
(* protos/src/encoder/lit.rs:172-176 *)
Definition lit_of_f64_vec := EDoubleVec.
(* protos/src/encoder/lit.rs:178-182 *)
Definition lit_of_u8_vec := EBytes.

(* protos/src/encoder/mod.rs:73-111, encode, with the methods it dispatches to (118-667) *)
Definition pencode (tag : N) (l : encoder_lit) (s : sink) : penc :=
  match l with
  | EBool v => field_with tag Varint (prim_bool v) s
  | EBoolVec v => pencode_vec prim_bool tag v s
  | EInt32 v => field_with tag Varint (prim_int32 v) s
  | EInt32Vec v => pencode_vec prim_int32 tag v s
  | EInt64 v => field_with tag Varint (prim_int64 v) s
  | EInt64Vec v => pencode_vec prim_int64 tag v s
  | EUInt32 v => field_with tag Varint (prim_uint32 v) s
  | EUInt32Vec v => pencode_vec prim_uint32 tag v s
  | EUInt64 v => field_with tag Varint (prim_uint64 v) s
  | EUInt64Vec v => pencode_vec prim_uint64 tag v s
  | EFloat v => field_with tag Bit32 (prim_float v) s
  | EFloatVec v => pencode_vec prim_float tag v s
  | EDouble v => field_with tag Bit64 (prim_double v) s
  | EDoubleVec v => pencode_vec prim_double tag v s
  | ESInt32 v => field_with tag Varint (prim_sint32 v) s
  | ESInt32Vec v => pencode_vec prim_sint32 tag v s
  | ESInt64 v => field_with tag Varint (prim_sint64 v) s
  | ESInt64Vec v => pencode_vec prim_sint64 tag v s
  | EFixed32 v => field_with tag Bit32 (prim_fixed32 v) s
  | EFixed32Vec v => pencode_vec prim_fixed32 tag v s
  | EFixed64 v => field_with tag Bit64 (prim_fixed64 v) s
  | EFixed64Vec v => pencode_vec prim_fixed64 tag v s
  | ESFixed32 v => field_with tag Bit32 (prim_sfixed32 v) s
  | ESFixed32Vec v => pencode_vec prim_sfixed32 tag v s
  | ESFixed64 v => field_with tag Bit64 (prim_sfixed64 v) s
  | ESFixed64Vec v => pencode_vec prim_sfixed64 tag v s
  | EBytes v => pencode_bytes tag v s
  end.

(* ------------------------------------------------------------------ *)
(* decoder/primitives.rs: a primitive returns the value written to dst and the
   number of octets read; on failure dst is not written. *)

(* protos/src/decoder/primitives.rs:30-45, decode_varint.  The shift by 7 * count (usize)
   panics in debug builds when it reaches 64. *)
Fixpoint pdecode_varint_loop (m : mode) (rest : list N) (value count : N) : outcome pdec_error (N * N) :=
  match rest with
  | [] => Err PInputUnderflow
  | byte :: rest' =>
      g <- u_shl m 64 (N.land byte 127) (7 * count) ;;
      let value := N.lor value g in
      let count := count + 1 in
      if byte <=? 127 then Ok (value, count) else pdecode_varint_loop m rest' value count
  end.
(* protos/src/decoder/primitives.rs:30-45, decode_varint *)
Definition pdecode_varint (m : mode) (buf : list N) : outcome pdec_error (N * N) :=
  pdecode_varint_loop m buf 0 0.

(* protos/src/decoder/primitives.rs:65-85, decode_key *)
Definition pdecode_key (m : mode) (buf : list N) : outcome pdec_error (N * typ * N) :=
  kn <- pdecode_varint m buf ;;
  let '(key, size) := kn in
  if 2 ^ 32 - 1 <? key then Err PInvalidInput
  else
    let t := typ_of (N.land key 7) in
    let tag := N.shiftr (wrap 32 key) 3 in
    if tag <? TAG_MIN then Err PInvalidInput
    else
      match t with
      | Unknown => Err PInvalidInput
      | _ => Ok (tag, t, size)
      end.

(* the common shape of protos/src/decoder/primitives.rs:92-97, 125-130, 158-163, 191-196, 224-226, 272-277, 323-328:
   decode_varint, then a conversion *)
Definition on_varint {A} (f : N -> A) (m : mode) (buf : list N) : outcome pdec_error (A * N) :=
  vn <- pdecode_varint m buf ;; Ok (f (fst vn), snd vn).
(* protos/src/decoder/primitives.rs:92-97 *)
Definition get_bool := on_varint (fun v => negb (v =? 0)).
(* protos/src/decoder/primitives.rs:125-130, 158-163 *)
Definition get_int32 := on_varint (as_i 32).
(* protos/src/decoder/primitives.rs:158-163 *)
Definition get_int64 := on_varint (as_i 64).
(* protos/src/decoder/primitives.rs:191-196, 224-226 *)
Definition get_uint32 := on_varint (wrap 32).
(* protos/src/decoder/primitives.rs:224-226 *)
Definition get_uint64 := on_varint (fun v => v).
(* protos/src/decoder/primitives.rs:272-277: ((val >> 1) as i32) ^ (-((val & 1) as i32)) *)
Definition get_sint32 := on_varint (fun v => Z.lxor (as_i 32 (N.shiftr v 1)) (- as_i 32 (N.land v 1))).
(* protos/src/decoder/primitives.rs:323-328 *)
Definition get_sint64 := on_varint (fun v => Z.lxor (as_i 64 (N.shiftr v 1)) (- as_i 64 (N.land v 1))).

(* the common shape of protos/src/decoder/primitives.rs:368-379, 411-422, 454-465, 497-508, 539-547, 578-586:
   from_le_bytes of the first k octets *)
Definition on_fixed {A} (k : nat) (f : N -> A) (m : mode) (buf : list N) : outcome pdec_error (A * N) :=
  if N.of_nat (length buf) <? N.of_nat k then Err PInputUnderflow
  else Ok (f (from_le (firstn k buf)), N.of_nat k).
(* protos/src/decoder/primitives.rs:368-379, 411-422 *)
Definition get_fixed32 := on_fixed 4 (fun v => v).
(* protos/src/decoder/primitives.rs:411-422 *)
Definition get_fixed64 := on_fixed 8 (fun v => v).
(* protos/src/decoder/primitives.rs:454-465, 497-508 *)
Definition get_sfixed32 := on_fixed 4 (as_i 32).
(* protos/src/decoder/primitives.rs:497-508 *)
Definition get_sfixed64 := on_fixed 8 (as_i 64).
(* protos/src/decoder/primitives.rs:539-547, 578-586 *)
Definition get_float := on_fixed 4 (fun v => v).
(* protos/src/decoder/primitives.rs:578-586 *)
Definition get_double := on_fixed 8 (fun v => v).

(* `&buf[size..]`, protos/src/decoder/primitives.rs:104-118 and the other *_vec functions *)
Definition slice_from {E} (buf : list N) (size : N) : outcome E (list N) :=
  if size <=? N.of_nat (length buf) then Ok (skipn (N.to_nat size) buf) else Panic.

(* protos/src/decoder/primitives.rs:104-118 (bool), 137-151, 170, 203, 233, 284, 335, 386,
   429, 472, 515, 554, 593: the thirteen *_vec functions have this body.  The
   items are appended to dst (empty in every caller) at the end. *)
Fixpoint get_vec_loop {A} (get : list N -> outcome pdec_error (A * N)) (fuel : nat) (buf : list N) (size : N) (items : list A)
  : outcome pdec_error (list A * N) :=
  let total := N.of_nat (length buf) in
  if (size <? total) || (total =? 0) then
    match fuel with
    | O => OutOfFuel
    | S fuel' =>
        rest <- slice_from buf size ;;
        vn <- get rest ;;
        get_vec_loop get fuel' buf (size + snd vn) (items ++ [fst vn])
    end
  else Ok (items, size).
(* protos/src/decoder/primitives.rs:104-118 and the other *_vec functions, from `size = 0` and no items *)
Definition get_vec {A} (get : list N -> outcome pdec_error (A * N)) (buf : list N) : outcome pdec_error (list A * N) :=
  get_vec_loop get (length buf + 1) buf 0 [].

(* protos/src/decoder/primitives.rs:614-632, extract_varint *)
Fixpoint extract_varint_loop (rest bytes : list N) (count : N) : outcome pdec_error (list N * N) :=
  match rest with
  | [] => Err PInputUnderflow
  | byte :: rest' =>
      if byte <=? 127 then Ok (bytes ++ [byte], count + 1)
      else extract_varint_loop rest' (bytes ++ [byte]) (count + 1)
  end.
(* protos/src/decoder/primitives.rs:614-632, extract_varint *)
Definition prim_extract_varint (buf : list N) : outcome pdec_error (list N * N) := extract_varint_loop buf [] 0.
(* protos/src/decoder/primitives.rs:639-648, 655-664 *)
Definition prim_extract_bit32 (buf : list N) : outcome pdec_error (list N * N) :=
  if N.of_nat (length buf) <? 4 then Err PInputUnderflow else Ok (firstn 4 buf, 4).
(* protos/src/decoder/primitives.rs:655-664, extract_bit64 *)
Definition prim_extract_bit64 (buf : list N) : outcome pdec_error (list N * N) :=
  if N.of_nat (length buf) <? 8 then Err PInputUnderflow else Ok (firstn 8 buf, 8).
(* protos/src/decoder/primitives.rs:671-682, extract_ld *)
Definition prim_extract_ld (buf : list N) (size : N) : outcome pdec_error (list N * N) :=
  if N.of_nat (length buf) <? size then Err PInputUnderflow else Ok (firstn (N.to_nat size) buf, size).

(* ------------------------------------------------------------------ *)
(* decoder/mod.rs *)

(* protos/src/decoder/mod.rs:31-38 *)
Record pdecoder := mkP { ptag : N; ptyp : typ; pld : option N }.
(* protos/src/decoder/mod.rs:273-276 reset, 279-286 default *)
Definition pdecoder_default : pdecoder := mkP 0 Unknown None.

Notation pfield := (N * typ * list N)%type.
(* what `&mut self`, `buf` and `dst` of decode stand for (protos/src/decoder/mod.rs:71-75) *)
Definition pstate : Type := (pdecoder * list N * list pfield)%type.

(* `buf.drain(..size)`, protos/src/decoder/mod.rs:118, 143, 169, 195, 241, 267 *)
Definition pdrain (buf : list N) (n : N) : list N := skipn (N.to_nat n) buf.

(* protos/src/decoder/mod.rs:112-120, Decoder::decode_key *)
Definition step_key (m : mode) (st : pstate) : pstate * outcome pdec_error N :=
  let '(d, buf, dst) := st in
  match pdecode_key m buf with
  | Ok (tag, t, size) => ((mkP tag t (pld d), pdrain buf size, dst), Ok size)
  | Err PInputUnderflow => (st, Ok 0)
  | Err e => (st, Err e)
  | Panic => (st, Panic)
  | OutOfFuel => (st, OutOfFuel)
  end.

(* protos/src/decoder/mod.rs:131-146, 157-172, 183-198, 254-270: extract_varint,
   extract_bit32, extract_bit64, extract_ld_bytes *)
Definition step_extract (x : list N -> outcome pdec_error (list N * N)) (st : pstate) : pstate * outcome pdec_error N :=
  let '(d, buf, dst) := st in
  match x buf with
  | Ok (b, size) => ((pdecoder_default, pdrain buf size, dst ++ [(ptag d, ptyp d, b)]), Ok size)
  | Err PInputUnderflow => (st, Ok 0)
  | Err e => (st, Err e)
  | Panic => (st, Panic)
  | OutOfFuel => (st, OutOfFuel)
  end.

(* protos/src/decoder/mod.rs:230-243, decode_ld_len *)
Definition step_len (m : mode) (st : pstate) : pstate * outcome pdec_error N :=
  let '(d, buf, dst) := st in
  match pdecode_varint m buf with
  | Ok (v, size) => ((mkP (ptag d) (ptyp d) (Some v), pdrain buf size, dst), Ok size)
  | Err PInputUnderflow => (st, Ok 0)
  | Err e => (st, Err e)
  | Panic => (st, Panic)
  | OutOfFuel => (st, OutOfFuel)
  end.

(* protos/src/decoder/mod.rs:209-219, extract_ld *)
Definition step_ld (m : mode) (st : pstate) : pstate * outcome pdec_error N :=
  match pld (fst (fst st)) with
  | Some len => step_extract (fun buf => prim_extract_ld buf len) st
  | None => step_len m st
  end.

(* protos/src/decoder/mod.rs:78-95, one iteration of decode *)
Definition pstep (m : mode) (st : pstate) : pstate * outcome pdec_error N :=
  match ptyp (fst (fst st)) with
  | Unknown => step_key m st
  | Varint => step_extract prim_extract_varint st
  | Bit32 => step_extract prim_extract_bit32 st
  | Bit64 => step_extract prim_extract_bit64 st
  | LengthDelimited => step_ld m st
  end.

(* protos/src/decoder/mod.rs:71-102, Decoder::decode.  Every iteration but the last removes
   an octet, so length + 1 iterations suffice. *)
Fixpoint pdecode_loop (m : mode) (fuel : nat) (st : pstate) (total : N) : pstate * outcome pdec_error N :=
  match fuel with
  | O => (st, OutOfFuel)
  | S fuel' =>
      binds (pstep m st)
        (fun st size => if size =? 0 then (st, Ok total) else pdecode_loop m fuel' st (total + size))
  end.
(* protos/src/decoder/mod.rs:71-102, Decoder::decode *)
Definition pdecode (m : mode) (d : pdecoder) (buf : list N) (dst : list pfield) : pstate * outcome pdec_error N :=
  pdecode_loop m (length buf + 1) (d, buf, dst) 0.

(* ------------------------------------------------------------------ *)
(* decoder/lit.rs *)

(* protos/src/decoder/lit.rs:12-98, DecoderLit *)
Inductive decoder_lit :=
| DBytes (b : list N)
| DBool (b : list N) | DBoolVec (b : list N)
| DInt32 (b : list N) | DInt32Vec (b : list N)
| DInt64 (b : list N) | DInt64Vec (b : list N)
| DUInt32 (b : list N) | DUInt32Vec (b : list N)
| DUInt64 (b : list N) | DUInt64Vec (b : list N)
| DFloat (b : list N) | DFloatVec (b : list N)
| DDouble (b : list N) | DDoubleVec (b : list N)
| DSInt32 (b : list N) | DSInt32Vec (b : list N)
| DSInt64 (b : list N) | DSInt64Vec (b : list N)
| DFixed32 (b : list N) | DFixed32Vec (b : list N)
| DFixed64 (b : list N) | DFixed64Vec (b : list N)
| DSFixed32 (b : list N) | DSFixed32Vec (b : list N)
| DSFixed64 (b : list N) | DSFixed64Vec (b : list N).

(* `decode_x(&byt, &mut dst).unwrap_or(0); dst` (protos/src/decoder/lit.rs:100-264): an error leaves the default *)
Definition or_default {A} (def : A) (x : outcome pdec_error (A * N)) : outcome pdec_error A :=
  match x with
  | Ok (v, _) => Ok v
  | Err _ => Ok def
  | Panic => Panic
  | OutOfFuel => OutOfFuel
  end.

(* protos/src/decoder/lit.rs:100-109 *)
Definition to_bool (m : mode) (l : decoder_lit) : outcome pdec_error bool :=
  match l with DBool b => or_default false (get_bool m b) | _ => Ok false end.
(* protos/src/decoder/lit.rs:111-120 *)
Definition to_bool_vec (m : mode) (l : decoder_lit) : outcome pdec_error (list bool) :=
  match l with DBoolVec b => or_default [] (get_vec (get_bool m) b) | _ => Ok [] end.
(* protos/src/decoder/lit.rs:122-133 *)
Definition to_i32 (m : mode) (l : decoder_lit) : outcome pdec_error Z :=
  match l with
  | DInt32 b => or_default 0%Z (get_int32 m b)
  | DSInt32 b => or_default 0%Z (get_sint32 m b)
  | DSFixed32 b => or_default 0%Z (get_sfixed32 m b)
  | _ => Ok 0%Z
  end.
(* protos/src/decoder/lit.rs:135-146 *)
Definition to_i32_vec (m : mode) (l : decoder_lit) : outcome pdec_error (list Z) :=
  match l with
  | DInt32Vec b => or_default [] (get_vec (get_int32 m) b)
  | DSInt32Vec b => or_default [] (get_vec (get_sint32 m) b)
  | DSFixed32Vec b => or_default [] (get_vec (get_sfixed32 m) b)
  | _ => Ok []
  end.
(* protos/src/decoder/lit.rs:148-159 *)
Definition to_i64 (m : mode) (l : decoder_lit) : outcome pdec_error Z :=
  match l with
  | DInt64 b => or_default 0%Z (get_int64 m b)
  | DSInt64 b => or_default 0%Z (get_sint64 m b)
  | DSFixed64 b => or_default 0%Z (get_sfixed64 m b)
  | _ => Ok 0%Z
  end.
(* protos/src/decoder/lit.rs:161-172 *)
Definition to_i64_vec (m : mode) (l : decoder_lit) : outcome pdec_error (list Z) :=
  match l with
  | DInt64Vec b => or_default [] (get_vec (get_int64 m) b)
  | DSInt64Vec b => or_default [] (get_vec (get_sint64 m) b)
  | DSFixed64Vec b => or_default [] (get_vec (get_sfixed64 m) b)
  | _ => Ok []
  end.
(* protos/src/decoder/lit.rs:174-184 *)
Definition to_u32 (m : mode) (l : decoder_lit) : outcome pdec_error N :=
  match l with
  | DUInt32 b => or_default 0 (get_uint32 m b)
  | DFixed32 b => or_default 0 (get_fixed32 m b)
  | _ => Ok 0
  end.
(* protos/src/decoder/lit.rs:186-196 *)
Definition to_u32_vec (m : mode) (l : decoder_lit) : outcome pdec_error (list N) :=
  match l with
  | DUInt32Vec b => or_default [] (get_vec (get_uint32 m) b)
  | DFixed32Vec b => or_default [] (get_vec (get_fixed32 m) b)
  | _ => Ok []
  end.
(* protos/src/decoder/lit.rs:198-208 *)
Definition to_u64 (m : mode) (l : decoder_lit) : outcome pdec_error N :=
  match l with
  | DUInt64 b => or_default 0 (get_uint64 m b)
  | DFixed64 b => or_default 0 (get_fixed64 m b)
  | _ => Ok 0
  end.
(* protos/src/decoder/lit.rs:210-220 *)
Definition to_u64_vec (m : mode) (l : decoder_lit) : outcome pdec_error (list N) :=
  match l with
  | DUInt64Vec b => or_default [] (get_vec (get_uint64 m) b)
  | DFixed64Vec b => or_default [] (get_vec (get_fixed64 m) b)
  | _ => Ok []
  end.
(* protos/src/decoder/lit.rs:222-231, 233-242, 244-253, 255-264; 0.0 is the bit pattern 0 *)
Definition to_f32 (m : mode) (l : decoder_lit) : outcome pdec_error N :=
  match l with DFloat b => or_default 0 (get_float m b) | _ => Ok 0 end.
(* protos/src/decoder/lit.rs:233-242 *)
Definition to_f32_vec (m : mode) (l : decoder_lit) : outcome pdec_error (list N) :=
  match l with DFloatVec b => or_default [] (get_vec (get_float m) b) | _ => Ok [] end.
(* protos/src/decoder/lit.rs:244-253 *)
Definition to_f64 (m : mode) (l : decoder_lit) : outcome pdec_error N :=
  match l with DDouble b => or_default 0 (get_double m b) | _ => Ok 0 end.
(* protos/src/decoder/lit.rs:255-264 *)
Definition to_f64_vec (m : mode) (l : decoder_lit) : outcome pdec_error (list N) :=
  match l with DDoubleVec b => or_default [] (get_vec (get_double m) b) | _ => Ok [] end.
(* protos/src/decoder/lit.rs:266-273 *)
Definition to_u8_vec (l : decoder_lit) : list N :=
  match l with DBytes b => b | _ => [] end.

(* std's String::from_utf8 (not part of the crate; called at protos/src/decoder/lit.rs:275-287): the well-formed byte
   sequences of the Unicode standard, table 3-7. *)
Definition in_range (lo hi b : N) : bool := (lo <=? b) && (b <=? hi).
(* whether String::from_utf8 (called at protos/src/decoder/lit.rs:275-287) accepts *)
Fixpoint utf8_valid (b : list N) : bool :=
  match b with
  | [] => true
  | b0 :: r0 =>
      if b0 <? 128 then utf8_valid r0
      else
        match r0 with
        | [] => false
        | b1 :: r1 =>
            if in_range 194 223 b0 then in_range 128 191 b1 && utf8_valid r1
            else
              match r1 with
              | [] => false
              | b2 :: r2 =>
                  let ok3 :=
                    if b0 =? 224 then in_range 160 191 b1
                    else if b0 =? 237 then in_range 128 159 b1
                    else in_range 225 239 b0 && in_range 128 191 b1 in
                  if ok3 then in_range 128 191 b2 && utf8_valid r2
                  else
                    match r2 with
                    | [] => false
                    | b3 :: r3 =>
                        (if b0 =? 240 then in_range 144 191 b1
                         else if b0 =? 244 then in_range 128 143 b1
                         else in_range 241 243 b0 && in_range 128 191 b1)
                        && in_range 128 191 b2 && in_range 128 191 b3 && utf8_valid r3
                    end
              end
        end
  end.
(* protos/src/decoder/lit.rs:275-287; a String is its octets *)
Definition to_string (l : decoder_lit) : list N :=
  match l with DBytes b => if utf8_valid b then b else [] | _ => [] end.
