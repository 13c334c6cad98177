(* Model of the crate httlib-hpack: primitives, table, encoder, decoder.
   Source citations are relative to /repo. *)
From Coq Require Import String Ascii.
From Verif Require Import Base HuffTables HuffModel HpackStatic.
Open Scope list_scope.
Open Scope N_scope.

(* hpack/src/encoder/error.rs:8-26, EncoderError *)
Inductive enc_error := EInvalidInput | EInvalidIndex | EInvalidPrefix | EIntegerOverflow.

(* hpack/src/decoder/error.rs:8-32, DecoderError *)
Inductive dec_error :=
| DInvalidInput | DInvalidIndex | DInvalidPrefix | DIntegerOverflow
| DIntegerUnderflow | DInvalidMaxDynamicSize.

(* `u32::MAX`, used at hpack/src/encoder/primitives.rs:104 *)
Definition U32_MAX : N := 2 ^ 32 - 1.

(* ------------------------------------------------------------------ *)
(* encoder/primitives.rs                                                *)

(* hpack/src/encoder/primitives.rs:64-67, `while value >= 128 { push(0x80 | value as u8); value >>= 7 }`
   then push(value as u8).  value: u32, so five iterations always suffice. *)
Fixpoint encode_integer_tail (fuel : nat) (value : N) (dst : list N)
  : list N * outcome enc_error unit :=
  if 128 <=? value then
    match fuel with
    | O => (dst, OutOfFuel)
    | S fuel' => encode_integer_tail fuel' (N.shiftr value 7) (dst ++ [N.lor 128 (wrap 8 value)])
    end
  else (dst ++ [wrap 8 value], Ok tt).

(* hpack/src/encoder/primitives.rs:44-70, encode_integer *)
Definition encode_integer (value flags prefix_size : N) (dst : list N)
  : list N * outcome enc_error unit :=
  if (prefix_size <? 1) || (8 <? prefix_size) then (dst, Err EInvalidPrefix)
  else
    let mask := wrap 8 (N.shiftl 1 prefix_size - 1) in
    let flags := N.land flags (255 - mask) in
    if value <? mask then (dst ++ [N.lor flags (wrap 8 value)], Ok tt)
    else encode_integer_tail 5 (value - mask) (dst ++ [N.lor flags mask]).

(* hpack/src/encoder/error.rs:28-34: From<httlib_huffman::EncoderError>: everything becomes InvalidInput *)
Definition enc_of_huff {A} (x : outcome huff_error A) : outcome enc_error A :=
  match x with
  | Ok a => Ok a | Err InvalidInput => Err EInvalidInput
  | Panic => Panic | OutOfFuel => OutOfFuel
  end.

(* hpack/src/encoder/primitives.rs:90-112, encode_string *)
Definition encode_string (m : mode) (data : list N) (huffman : bool) (dst : list N)
  : list N * outcome enc_error unit :=
  fb <-[dst] (if huffman then
                let '(h, r) := encode m data [] in
                _ <- enc_of_huff r ;; Ok (128, h)
              else Ok (0, data)) ;;
  let '(flags, bytes) := fb in
  let len := N.of_nat (List.length bytes) in
  if U32_MAX <? len then (dst, Err EIntegerOverflow)
  else
    binds (encode_integer len flags 7 dst) (fun dst' _ => (dst' ++ bytes, Ok tt)).

(* ------------------------------------------------------------------ *)
(* decoder/primitives.rs                                                *)

(* hpack/src/decoder/primitives.rs:68-87, the loop of decode_integer.  [rest] is the part
   of the buffer not yet read: reading buf[total - 1] past the end panics,
   because the emptiness test looks at the whole buffer. *)
Fixpoint decode_integer_tail (rest : list N) (value shift total : N)
  : outcome dec_error (N * N) :=
  match rest with
  | [] => Panic
  | byte :: rest' =>
      let total := total + 1 in
      let value := value + N.shiftl (N.land byte 127) shift in
      let shift := shift + 7 in
      if N.land byte 128 =? 0 then Ok (value, total)
      else if total =? 5 then Err DIntegerOverflow
      else decode_integer_tail rest' value shift total
  end.

(* hpack/src/decoder/primitives.rs:48-87, decode_integer; returns (value written to dst, octets read).
   The additions cannot overflow u32: at most four 7-bit groups are added to a
   value below 256 (proved: decode_integer_u32). *)
Definition decode_integer (buf : list N) (prefix_size : N) : outcome dec_error (N * N) :=
  if (prefix_size <? 1) || (8 <? prefix_size) then Err DInvalidPrefix
  else
    match buf with
    | [] => Err DIntegerUnderflow
    | byte :: rest =>
        let mask := wrap 8 (N.shiftl 1 prefix_size - 1) in
        let value := N.land byte mask in
        if value <? mask then Ok (value, 1)
        else decode_integer_tail rest value 0 1
    end.

(* hpack/src/decoder/error.rs:34-40: From<httlib_huffman::DecoderError>: InvalidInput *)
Definition dec_of_huff {A} (x : outcome huff_error A) : outcome dec_error A :=
  match x with
  | Ok a => Ok a | Err InvalidInput => Err DInvalidInput
  | Panic => Panic | OutOfFuel => OutOfFuel
  end.

(* hpack/src/decoder/primitives.rs:107-126, decode_string into an empty destination (both
   callers pass a fresh Vec that is dropped on error); returns (string, octets). *)
Definition decode_string (m : mode) (s : speed) (buf : list N) : outcome dec_error (list N * N) :=
  match buf with
  | [] => Panic                                   (* buf[0] *)
  | b0 :: _ =>
      let huffman := N.land b0 128 =? 128 in
      lt <- decode_integer buf 7 ;;
      let '(len, total) := lt in
      avail <- u_sub m 64 (N.of_nat (List.length buf)) total ;;
      if avail <? len then Err DIntegerUnderflow
      else
        let body := firstn (N.to_nat len) (skipn (N.to_nat total) buf) in
        if huffman then
          let '(d, r) := decode m s body [] in
          _ <- dec_of_huff r ;; Ok (d, total + len)
        else Ok (body, total + len)
  end.

(* ------------------------------------------------------------------ *)
(* table                                                                *)

Notation entry := (list N * list N)%type.

(* byte string literals, as in hpack/src/table/static.rs:11-73 *)
Fixpoint octets_of_string (s : string) : list N :=
  match s with
  | EmptyString => []
  | String c s' => N_of_ascii c :: octets_of_string s'
  end.

(* hpack/src/table/static.rs:11-73 *)
Definition STATIC_TABLE : list entry :=
  Eval vm_compute in
    map (fun nv => (octets_of_string (fst nv), octets_of_string (snd nv))) STATIC_TABLE_text.

(* hpack/src/table/dynamic.rs:8-24, DynamicTable.  [inner] lists the newest entry first
   (push_front / pop_back of the VecDeque). *)
Record dynamic_table := mkDyn { inner : list entry; dsize : N; dmax : N }.

(* hpack/src/table/mod.rs:79-86, Table (the static part is the constant above) *)
Definition table := dynamic_table.

(* hpack/src/table/dynamic.rs:28-34 with_size; hpack/src/table/mod.rs:91-96 with_dynamic_size *)
Definition table_with_size (max : N) : table := mkDyn [] 0 max.
(* hpack/src/table/dynamic.rs:104-108, hpack/src/table/mod.rs:189-195, default *)
Definition table_default : table := table_with_size 4096.

(* `h.0.len() + h.1.len()`, hpack/src/table/dynamic.rs:86 and 98 *)
Definition entry_len (e : entry) : N := N.of_nat (List.length (fst e)) + N.of_nat (List.length (snd e)).

(* hpack/src/table/dynamic.rs:95-101, consolidate.  An iteration on an empty deque changes
   nothing, i.e. loops forever: that is the OutOfFuel case.  `self.size -=` is
   a checked usize subtraction. *)
Fixpoint consolidate_loop {E} (m : mode) (fuel : nat) (t : dynamic_table) : outcome E dynamic_table :=
  if dmax t <? dsize t then
    match fuel with
    | O => OutOfFuel
    | S fuel' =>
        match rev (inner t) with
        | [] => consolidate_loop m fuel' t
        | h :: r =>
            size' <- u_sub m 64 (dsize t) (entry_len h + 32) ;;
            consolidate_loop m fuel' (mkDyn (rev r) size' (dmax t))
        end
    end
  else Ok t.
(* hpack/src/table/dynamic.rs:95-101, consolidate, with fuel for one round per entry and one more *)
Definition consolidate {E} (m : mode) (t : dynamic_table) : outcome E dynamic_table :=
  consolidate_loop m (S (List.length (inner t))) t.

(* hpack/src/table/dynamic.rs:56-60 update_max_size; hpack/src/table/mod.rs:121-123 *)
Definition table_update_max {E} (m : mode) (t : table) (size : N) : outcome E table :=
  consolidate m (mkDyn (inner t) (dsize t) size).

(* hpack/src/table/dynamic.rs:85-90 insert; hpack/src/table/mod.rs:183-185.  `self.size +=` is
   written without wrap: it adds lengths of vectors that are in memory. *)
Definition table_insert {E} (m : mode) (t : table) (name value : list N) : outcome E table :=
  consolidate m (mkDyn ((name, value) :: inner t)
                       (dsize t + (entry_len (name, value) + 32)) (dmax t)).

(* hpack/src/table/mod.rs:100-102, 105-107, 111-113, 116-118 *)
Definition table_len (t : table) : N := N.of_nat (List.length STATIC_TABLE) + N.of_nat (List.length (inner t)).
(* hpack/src/table/mod.rs:105-107, dynamic_len *)
Definition table_dynamic_len (t : table) : N := N.of_nat (List.length (inner t)).
(* hpack/src/table/mod.rs:111-113, dynamic_size; hpack/src/table/dynamic.rs:42-44, size: `as u32` *)
Definition table_dynamic_size (t : table) : N := wrap 32 (dsize t).
(* hpack/src/table/mod.rs:116-118, max_dynamic_size; hpack/src/table/dynamic.rs:47-49 *)
Definition table_max_dynamic_size (t : table) : N := dmax t.

(* hpack/src/table/mod.rs:141-154 get; hpack/src/table/dynamic.rs:63-68 *)
Definition table_get (t : table) (index : N) : option entry :=
  if index =? 0 then None
  else
    let index := index - 1 in
    let static_len := N.of_nat (List.length STATIC_TABLE) in
    if index <? static_len then nth_error STATIC_TABLE (N.to_nat index)
    else nth_error (inner t) (N.to_nat (index - static_len)).

(* hpack/src/table/iter.rs:13-20 and hpack/src/table/mod.rs:132-134: the items a `for` loop over
   iter() sees.  index: u32. *)
Fixpoint iter_from {E} (m : mode) (fuel : nat) (t : table) (index : N) : outcome E (list entry) :=
  match fuel with
  | O => OutOfFuel
  | S fuel' =>
      index' <- u_add m 32 index 1 ;;
      match table_get t index with
      | None => Ok []
      | Some e => l <- iter_from m fuel' t index' ;; Ok (e :: l)
      end
  end.
(* hpack/src/table/mod.rs:132-134, iter, run to its end *)
Definition table_iter {E} (m : mode) (t : table) : outcome E (list entry) :=
  iter_from m (N.to_nat (table_len t) + 1) t 1.

(* `==` on octet slices, hpack/src/table/mod.rs:167-168 *)
Fixpoint list_eqb (a b : list N) : bool :=
  match a, b with
  | [], [] => true
  | x :: a', y :: b' => (x =? y) && list_eqb a' b'
  | _, _ => false
  end.

(* hpack/src/table/mod.rs:163-180, find: the loop over iter().enumerate(), i counting from 0 *)
Fixpoint find_loop (name value : list N) (items : list entry) (i : N) (name_match : option N)
  : option (N * bool) :=
  match items with
  | [] => match name_match with Some i => Some (i, false) | None => None end
  | h :: items' =>
      if list_eqb name (fst h) then
        if list_eqb value (snd h) then Some (i + 1, true)
        else find_loop name value items' (i + 1)
               (match name_match with None => Some (i + 1) | Some _ => name_match end)
      else find_loop name value items' (i + 1) name_match
  end.
(* hpack/src/table/mod.rs:163-180, find *)
Definition table_find {E} (m : mode) (t : table) (name value : list N)
  : outcome E (option (N * bool)) :=
  items <- table_iter m t ;; Ok (find_loop name value items 0 None).

(* ------------------------------------------------------------------ *)
(* Encoder: hpack/src/encoder/mod.rs.  The encoder consists of its table
   (hpack/src/encoder/mod.rs:80-83); operations return (table, dst) and the result. *)

(* hpack/src/encoder/input.rs:3-15 *)
Inductive encoder_input :=
| Indexed (index : N)
| IndexedName (index : N) (value : list N) (flags : N)
| Literal (name value : list N) (flags : N).

(* hpack/src/encoder/input.rs:17-33, the From impls behind `encode(field, ..)`, F: Into<EncoderInput> *)
Definition input_of_u32 (i : N) : encoder_input := Indexed i.
(* hpack/src/encoder/input.rs:22-26 *)
Definition input_of_indexed_name (f : N * list N * N) : encoder_input :=
  let '(i, v, fl) := f in IndexedName i v fl.
(* hpack/src/encoder/input.rs:28-32 *)
Definition input_of_literal (f : list N * list N * N) : encoder_input :=
  let '(n, v, fl) := f in Literal n v fl.

(* hpack/src/encoder/mod.rs:103-107, 404-410 *)
Definition encoder_with_dynamic_size (max : N) : table := table_with_size max.
(* hpack/src/encoder/mod.rs:403-410, default *)
Definition encoder_default : table := table_default.
(* hpack/src/encoder/mod.rs:110-112 *)
Definition encoder_max_dynamic_size (t : table) : N := table_max_dynamic_size t.

(* what `&mut self` and `dst: &mut Vec<u8>` stand for (hpack/src/encoder/mod.rs:141-145): table and output *)
Definition enc_state : Type := (table * list N)%type.

(* `flags & bit == bit`, hpack/src/encoder/mod.rs:274-283 and elsewhere *)
Definition has_flag (flags bit : N) : bool := N.land flags bit =? bit.

(* a call of a function that only has dst, e.g. hpack/src/encoder/mod.rs:201: the table stays *)
Definition with_table {A} (t : table) (x : list N * outcome enc_error A) : enc_state * outcome enc_error A :=
  let '(d, r) := x in ((t, d), r).

(* hpack/src/encoder/mod.rs:191-202 *)
Definition encode_indexed (t : table) (index : N) (dst : list N) : enc_state * outcome enc_error unit :=
  match table_get t index with
  | None => ((t, dst), Err EInvalidIndex)
  | Some _ => with_table t (encode_integer index 128 7 dst)
  end.

(* hpack/src/encoder/mod.rs:260-284 *)
Definition encode_indexed_name (m : mode) (t : table) (index : N) (value : list N) (flags : N) (dst : list N)
  : enc_state * outcome enc_error unit :=
  match table_get t index with
  | None => ((t, dst), Err EInvalidIndex)
  | Some e =>
      let name := fst e in
      binds
        (if has_flag flags 4 then
           t' <-[(t, dst)] table_insert m t name value ;;
           with_table t' (encode_integer index 64 6 dst)
         else if has_flag flags 8 then with_table t (encode_integer index 16 4 dst)
         else with_table t (encode_integer index 0 4 dst))
        (fun td _ => with_table (fst td) (encode_string m value (has_flag flags 2) (snd td)))
  end.

(* hpack/src/encoder/mod.rs:354-373 *)
Definition encode_literal (m : mode) (t : table) (name value : list N) (flags : N) (dst : list N)
  : enc_state * outcome enc_error unit :=
  binds
    (if has_flag flags 4 then
       t' <-[(t, dst ++ [64])] table_insert m t name value ;;
       ((t', dst ++ [64]), Ok tt)
     else if has_flag flags 8 then ((t, dst ++ [16]), Ok tt)
     else ((t, dst ++ [0]), Ok tt))
    (fun td _ =>
       binds (with_table (fst td) (encode_string m name (has_flag flags 1) (snd td)))
         (fun td' _ => with_table (fst td') (encode_string m value (has_flag flags 2) (snd td')))).

(* hpack/src/encoder/mod.rs:141-174, encode.  `index as u32` truncates. *)
Definition hencode (m : mode) (t : table) (field : encoder_input) (dst : list N)
  : enc_state * outcome enc_error unit :=
  match field with
  | Indexed index => encode_indexed t index dst
  | IndexedName index value flags => encode_indexed_name m t index value flags dst
  | Literal name value flags =>
      if has_flag flags 16 then
        found <-[(t, dst)] table_find m t name value ;;
        match found with
        | Some (index, true) => encode_indexed t (wrap 32 index) dst
        | Some (index, false) => encode_indexed_name m t (wrap 32 index) value flags dst
        | None => encode_literal m t name value flags dst
        end
      else encode_literal m t name value flags dst
  end.

(* hpack/src/encoder/mod.rs:393-400 *)
Definition encoder_update_max (m : mode) (t : table) (size : N) (dst : list N)
  : enc_state * outcome enc_error unit :=
  t' <-[(t, dst)] table_update_max m t size ;;
  with_table t' (encode_integer size 32 5 dst).

(* ------------------------------------------------------------------ *)
(* Decoder: hpack/src/decoder/mod.rs                                    *)

(* hpack/src/decoder/mod.rs:30-42 *)
Record decoder := mkDec { dspeed : speed; dlimit : N; dtable : table }.

(* hpack/src/decoder/mod.rs:54-60, 391-400 *)
Definition decoder_with_dynamic_size (max : N) : decoder := mkDec FiveBits max (table_with_size max).
(* hpack/src/decoder/mod.rs:390-400, default *)
Definition decoder_default : decoder := mkDec FiveBits (table_max_dynamic_size table_default) table_default.
(* hpack/src/decoder/mod.rs:66-68: the table's maximum, not the limit *)
Definition decoder_max_dynamic_size (d : decoder) : N := table_max_dynamic_size (dtable d).
(* hpack/src/decoder/mod.rs:76-78 *)
Definition decoder_set_max (d : decoder) (size : N) : decoder := mkDec (dspeed d) size (dtable d).

Notation header := (list N * list N * N)%type.

(* what `&mut self`, `buf` and `dst` of hpack/src/decoder/mod.rs:100-104 stand for *)
Definition dec_state : Type := (decoder * list N * list header)%type.

(* assignment through `self.table` (hpack/src/decoder/mod.rs:339, 382) *)
Definition set_table (d : decoder) (t : table) : decoder := mkDec (dspeed d) (dlimit d) t.

(* `buf.drain(0..total)`, hpack/src/decoder/mod.rs:199, 347, 385 *)
Definition drain (buf : list N) (total : N) : list N := skipn (N.to_nat total) buf.

(* hpack/src/decoder/mod.rs:185-201 *)
Definition decode_indexed (d : decoder) (buf : list N) (dst : list header) : dec_state * outcome dec_error N :=
  it <-[(d, buf, dst)] decode_integer buf 7 ;;
  let '(index, total) := it in
  match table_get (dtable d) index with
  | None => ((d, buf, dst), Err DInvalidIndex)
  | Some (name, value) => ((d, drain buf total, dst ++ [(name, value, 0)]), Ok total)
  end.

(* hpack/src/decoder/mod.rs:308-349 *)
Definition decode_literal (m : mode) (d : decoder) (buf : list N) (dst : list header)
  : dec_state * outcome dec_error N :=
  match buf with
  | [] => ((d, buf, dst), Panic)                  (* buf[0] *)
  | octet :: _ =>
      let prefix := if N.land octet 64 =? 64 then 6 else 4 in
      it <-[(d, buf, dst)] decode_integer buf prefix ;;
      let '(index, total) := it in
      nt <-[(d, buf, dst)]
        (if index =? 0 then
           st <- decode_string m (dspeed d) (drain buf total) ;;
           Ok (fst st, total + snd st)
         else
           match table_get (dtable d) index with
           | Some h => Ok (fst h, total)
           | None => Err DInvalidIndex
           end) ;;
      let '(name, total) := nt in
      vt <-[(d, buf, dst)] decode_string m (dspeed d) (drain buf total) ;;
      let '(value, n) := vt in
      let total := total + n in
      if N.land octet 64 =? 64 then
        t' <-[(d, buf, dst)] table_insert m (dtable d) name value ;;
        ((set_table d t', drain buf total, dst ++ [(name, value, 4)]), Ok total)
      else if N.land octet 16 =? 16 then
        ((d, drain buf total, dst ++ [(name, value, 8)]), Ok total)
      else ((d, drain buf total, dst ++ [(name, value, 0)]), Ok total)
  end.

(* hpack/src/decoder/mod.rs:372-387 *)
Definition decoder_update_max (m : mode) (d : decoder) (buf : list N) (dst : list header)
  : dec_state * outcome dec_error N :=
  st <-[(d, buf, dst)] decode_integer buf 5 ;;
  let '(new_size, total) := st in
  if dlimit d <? new_size then ((d, buf, dst), Err DInvalidMaxDynamicSize)
  else
    t' <-[(d, buf, dst)] table_update_max m (dtable d) new_size ;;
    ((set_table d t', drain buf total, dst), Ok total).

(* hpack/src/decoder/mod.rs:152-165, one iteration of the loop of decode_exact on a
   non-empty buffer; the result is the amount added to `total` (the octets of a
   size update are not added). *)
Definition decode_one (m : mode) (d : decoder) (buf : list N) (dst : list header)
  : dec_state * outcome dec_error N :=
  match buf with
  | [] => ((d, buf, dst), Panic)                  (* buf[0]; not reached *)
  | octet :: _ =>
      if N.land octet 128 =? 128 then decode_indexed d buf dst
      else if N.land octet 64 =? 64 then decode_literal m d buf dst
      else if N.land octet 32 =? 32 then
        binds (decoder_update_max m d buf dst) (fun s _ => (s, Ok 0))
      else if N.land octet 16 =? 16 then decode_literal m d buf dst
      else decode_literal m d buf dst
  end.

(* hpack/src/decoder/mod.rs:138-165, decode_exact; [limit] starts as dst.capacity(), so
   the recursion on it is the loop itself. *)
Fixpoint decode_exact_loop (m : mode) (limit : nat) (d : decoder) (buf : list N) (dst : list header) (total : N)
  : dec_state * outcome dec_error N :=
  match buf, limit with
  | [], _ => ((d, buf, dst), Ok total)
  | _, O => ((d, buf, dst), Ok total)
  | _, S limit' =>
      binds (decode_one m d buf dst)
        (fun s n => let '(d', buf', dst') := s in
                    decode_exact_loop m limit' d' buf' dst' (total + n))
  end.
(* hpack/src/decoder/mod.rs:138-165, decode_exact; [cap] is dst.capacity() *)
Definition hdecode_exact (m : mode) (cap : nat) (d : decoder) (buf : list N) (dst : list header)
  : dec_state * outcome dec_error N :=
  decode_exact_loop m cap d buf dst 0.

(* hpack/src/decoder/mod.rs:100-115, decode.  Vec::with_capacity(1) has capacity 1 for this
   element type.  On an error of decode_exact `data` is dropped. *)
Fixpoint decode_loop (m : mode) (fuel : nat) (d : decoder) (buf : list N) (dst : list header) (total : N)
  : dec_state * outcome dec_error N :=
  match buf with
  | [] => ((d, buf, dst), Ok total)
  | _ =>
      match fuel with
      | O => ((d, buf, dst), OutOfFuel)
      | S fuel' =>
          match hdecode_exact m 1 d buf [] with
          | ((d', buf', data), Ok n) => decode_loop m fuel' d' buf' (dst ++ data) (total + n)
          | ((d', buf', _), Err e) => ((d', buf', dst), Err e)
          | ((d', buf', _), Panic) => ((d', buf', dst), Panic)
          | ((d', buf', _), OutOfFuel) => ((d', buf', dst), OutOfFuel)
          end
      end
  end.
(* hpack/src/decoder/mod.rs:100-115, decode; every round removes an octet *)
Definition hdecode (m : mode) (d : decoder) (buf : list N) (dst : list header)
  : dec_state * outcome dec_error N :=
  decode_loop m (List.length buf) d buf dst 0.
