(* Model of the crate httlib-huffman: encoder, decoder reader, flattener and
   parser.  Source citations are relative to /repo. *)
From Verif Require Import Base HuffTables.
Open Scope N_scope.

(* huffman/src/encoder/error.rs:7-11 and huffman/src/decoder/error.rs:7-11:
   both enums have the single variant InvalidInput. *)
Inductive huff_error := InvalidInput.

(* ------------------------------------------------------------------ *)
(* Encoder: huffman/src/encoder/mod.rs:120-149                          *)

(* huffman/src/encoder/mod.rs:134-139, the inner loop
     while bits_left <= 32 { dst.push((bits >> 32) as u8); bits <<= 8; bits_left += 8 }
   bits: u64, bits_left: u8. *)
Fixpoint encode_flush (m : mode) (fuel : nat) (bits bits_left : N) (dst : list N)
  : list N * outcome huff_error (N * N) :=
  if bits_left <=? 32 then
    match fuel with
    | O => (dst, OutOfFuel)
    | S fuel' =>
        let dst' := dst ++ [wrap 8 (N.shiftr bits 32)] in
        bits' <-[dst'] u_shl m 64 bits 8 ;;
        bits_left' <-[dst'] u_add m 8 bits_left 8 ;;
        encode_flush m fuel' bits' bits_left' dst'
    end
  else (dst, Ok (bits, bits_left)).

(* huffman/src/encoder/mod.rs:125-140, the body of `for &byte in src`.  The fuel 5 covers
   every run of the inner loop (bits_left is a u8 and grows by 8 up to 32). *)
Fixpoint encode_bytes (m : mode) (src : list N) (bits bits_left : N) (dst : list N)
  : list N * outcome huff_error (N * N) :=
  match src with
  | [] => (dst, Ok (bits, bits_left))
  | byte :: src' =>
      match nth_error ENCODE_TABLE (N.to_nat byte) with
      | None => (dst, Err InvalidInput)
      | Some (code_len, code) =>
          sh <-[dst] u_sub m 8 bits_left code_len ;;
          shifted <-[dst] u_shl m 64 code sh ;;
          bits_left' <-[dst] u_sub m 8 bits_left code_len ;;
          binds (encode_flush m 5 (N.lor bits shifted) bits_left' dst)
                (fun dst' bb => encode_bytes m src' (fst bb) (snd bb) dst')
      end
  end.

(* huffman/src/encoder/mod.rs:120-149, `pub fn encode`. *)
Definition encode (m : mode) (src dst : list N) : list N * outcome huff_error unit :=
  binds (encode_bytes m src 0 40 dst)
    (fun dst' bb =>
       let '(bits, bits_left) := bb in
       if bits_left =? 40 then (dst', Ok tt)
       else
         one <-[dst'] u_shl m 64 1 bits_left ;;
         ones <-[dst'] u_sub m 64 one 1 ;;
         (dst' ++ [wrap 8 (N.shiftr (N.lor bits ones) 32)], Ok tt)).

(* ------------------------------------------------------------------ *)
(* Decoder                                                              *)

(* huffman/src/decoder/speed.rs:4-18 *)
Inductive speed := OneBit | TwoBits | ThreeBits | FourBits | FiveBits.

(* `speed as usize`, huffman/src/decoder/speed.rs:4-18 *)
Definition speed_bits (s : speed) : N :=
  match s with
  | OneBit => 1 | TwoBits => 2 | ThreeBits => 3 | FourBits => 4 | FiveBits => 5
  end.

(* huffman/src/decoder/speed.rs:20-31, DecoderSpeed::known *)
Definition known_speeds : list speed := [OneBit; TwoBits; ThreeBits; FourBits; FiveBits].

(* huffman/src/decoder/reader.rs:5-26, DecodeReader (all fields usize; the functions
   below take the number w of its bits). *)
Record reader := mkReader {
  rspeed : N;
  rid : N;
  rbuf : N;
  rbuf_size : N;
  rtail : N;
  rtail_size : N
}.

(* huffman/src/decoder/reader.rs:30-39, DecodeReader::new *)
Definition reader_new (s : N) : reader := mkReader s 0 0 0 0 0.

(* huffman/src/decoder/reader.rs:134-182, the table selected by `match self.speed`. *)
Definition table_of_speed (s : N) : list (list cell) :=
  if s =? 2 then DECODE_TABLE2
  else if s =? 3 then DECODE_TABLE3
  else if s =? 4 then DECODE_TABLE4
  else if s =? 5 then DECODE_TABLE5
  else DECODE_TABLE1.

(* huffman/src/decoder/reader.rs:134-182, find_target *)
Definition find_target (r : reader) (key : N) : outcome huff_error cell :=
  match nth_error (table_of_speed (rspeed r)) (N.to_nat (rid r)) with
  | Some transitions =>
      match nth_error transitions (N.to_nat key) with
      | Some target => Ok target
      | None => Err InvalidInput
      end
  | None => Err InvalidInput
  end.

(* huffman/src/decoder/reader.rs:104-131, decode_next.  On Err the reader is dropped by every caller
   (`?` up to `decode`, whose reader is a local), so only Ok returns it.
   `a >> b - c` parses as `a >> (b - c)` and `a >> l << n` as `(a >> l) << n`. *)
Definition decode_next (w : N) (m : mode) (r : reader) (dst : list N)
  : list N * outcome huff_error reader :=
  sh <-[dst] u_sub m w (rbuf_size r) (rspeed r) ;;
  key <-[dst] u_shr m w (rbuf r) sh ;;
  target <-[dst] find_target r key ;;
  let '(next_id, ascii, leftover) := target in
  hi <-[dst] u_shr m w key leftover ;;
  sh2 <-[dst] u_add m w sh leftover ;;
  taken <-[dst] u_shl m w hi sh2 ;;
  buf <-[dst] u_sub m w (rbuf r) taken ;;
  used <-[dst] u_sub m w (rspeed r) leftover ;;
  buf_size <-[dst] u_sub m w (rbuf_size r) used ;;
  tail0 <-[dst] u_shl m w (rtail r) used ;;
  tail_size <-[dst] u_add m w (rtail_size r) used ;;
  let tail := N.lor tail0 hi in
  match ascii with
  | Some a =>
      if a <? 256 then (dst ++ [wrap 8 a], Ok (mkReader (rspeed r) 0 buf buf_size 0 0))
      else (dst, Err InvalidInput)
  | None =>
      match next_id with
      | Some n => (dst, Ok (mkReader (rspeed r) n buf buf_size tail tail_size))
      | None => (dst, Err InvalidInput)
      end
  end.

(* huffman/src/decoder/reader.rs:49-55, the loop of DecodeReader::decode *)
Fixpoint reader_loop (w : N) (m : mode) (fuel : nat) (r : reader) (dst : list N)
  : list N * outcome huff_error reader :=
  if rbuf_size r <? rspeed r then (dst, Ok r)
  else
    match fuel with
    | O => (dst, OutOfFuel)
    | S fuel' =>
        binds (decode_next w m r dst) (fun dst' r' => reader_loop w m fuel' r' dst')
    end.

(* huffman/src/decoder/reader.rs:43-58, DecodeReader::decode.  Every iteration removes at least one
   bit unless a cell has leftover = speed, so buf_size is ample fuel. *)
Definition reader_decode (w : N) (m : mode) (r : reader) (byte : N) (dst : list N)
  : list N * outcome huff_error reader :=
  buf <-[dst] u_shl m w (rbuf r) 8 ;;
  buf_size <-[dst] u_add m w (rbuf_size r) 8 ;;
  let r1 := mkReader (rspeed r) (rid r) (N.lor buf byte) buf_size (rtail r) (rtail_size r) in
  reader_loop w m (N.to_nat buf_size) r1 dst.

(* huffman/src/decoder/reader.rs:90, the accepted values of the tail *)
Definition accepted_tails : list N := [0; 1; 3; 7; 15; 31; 63; 127].

(* huffman/src/decoder/reader.rs:67-98, finalize.  `(a as f64 / s as f64).ceil() as usize` is written
   as the integer ceiling (a + s - 1) / s, which it equals: HuffFloat.v, C91.  The
   dead writes after the check (reset of
   the reader) are kept out since the reader is dropped by `decode`. *)
Definition finalize (w : N) (m : mode) (r : reader) (dst : list N)
  : list N * outcome huff_error unit :=
  let s := rspeed r in
  shift_len <-[dst] u_sub m w ((rbuf_size r + s - 1) / s * s) (rbuf_size r) ;;
  buf <-[dst] u_shl m w (rbuf r) shift_len ;;
  buf_size <-[dst] u_add m w (rbuf_size r) shift_len ;;
  let r1 := mkReader s (rid r) buf buf_size (rtail r) (rtail_size r) in
  binds
    (if s <=? buf_size then
       match find_target r1 buf with
       | Ok (_, _, leftover) =>
           if shift_len <=? leftover then decode_next w m r1 dst else (dst, Ok r1)
       | _ => (dst, Ok r1)
       end
     else (dst, Ok r1))
    (fun dst' r2 =>
       buf2 <-[dst'] u_shr m w (rbuf r2) shift_len ;;
       buf_size2 <-[dst'] u_sub m w (rbuf_size r2) shift_len ;;
       tail0 <-[dst'] u_shl m w (rtail r2) buf_size2 ;;
       _ <-[dst'] u_add m w (rtail_size r2) buf_size2 ;;
       let tail := N.lor tail0 buf2 in
       if existsb (N.eqb tail) accepted_tails then (dst', Ok tt)
       else (dst', Err InvalidInput)).

(* huffman/src/decoder/mod.rs:108-110, `for byte in src { reader.decode(..)? }` *)
Fixpoint reader_run (w : N) (m : mode) (r : reader) (src dst : list N)
  : list N * outcome huff_error reader :=
  match src with
  | [] => (dst, Ok r)
  | byte :: src' =>
      binds (reader_decode w m r byte dst) (fun dst' r' => reader_run w m r' src' dst')
  end.

(* huffman/src/decoder/mod.rs:101-114, `pub fn decode`, where usize has w bits *)
Definition decode_on (w : N) (m : mode) (s : speed) (src dst : list N)
  : list N * outcome huff_error unit :=
  binds (reader_run w m (reader_new (speed_bits s)) src dst)
        (fun dst' r => finalize w m r dst').
(* huffman/src/decoder/mod.rs:101-114, on 64-bit targets *)
Definition decode (m : mode) (s : speed) (src dst : list N)
  : list N * outcome huff_error unit := decode_on 64 m s src dst.

(* ------------------------------------------------------------------ *)
(* Flattener                                                            *)

(* huffman/src/flattener/mod.rs:191-199, generate_blank_transition *)
Definition blank_transition (sp : N) : list cell :=
  repeat (None, None, 0) (N.to_nat (2 ^ sp)).

(* `(x as f32 / speed as f32).ceil() as usize` (huffman/src/flattener/mod.rs:152 and 211):
   integer ceiling, to which it is equal: HuffFloat.v, C91. *)
Definition ceil_div (a b : N) : N := (a + b - 1) / b.

(* huffman/src/flattener/mod.rs:209-234, generate_coding_paths.  bits: u32; the shift
   `bits <<= leftover` drops bits beyond 32; `bits >> k` panics in debug and
   masks the amount in release when k >= 32.  `chunks.pop().unwrap()` panics
   for a zero length code. *)
Fixpoint coding_chunks (m : mode) (bits chunks_len sp chunk_max : N) (is : list nat)
  : outcome huff_error (list N) :=
  match is with
  | [] => Ok []
  | i :: is' =>
      sh <- u_sub m 64 chunks_len (N.of_nat i + 1) ;;
      c <- u_shr m 32 bits (sh * sp) ;;
      cs <- coding_chunks m bits chunks_len sp chunk_max is' ;;
      Ok (N.land c chunk_max :: cs)
  end.

(* huffman/src/flattener/mod.rs:209-234, generate_coding_paths *)
Definition generate_coding_paths (m : mode) (coding : N * N) (sp : N)
  : outcome huff_error (list (list N)) :=
  let chunks_len := ceil_div (fst coding) sp in
  let chunk_max := 2 ^ sp - 1 in
  leftover <- u_sub m 64 (chunks_len * sp) (fst coding) ;;
  bits <- u_shl m 32 (snd coding) leftover ;;
  chunks <- coding_chunks m bits chunks_len sp chunk_max (seq 0 (N.to_nat chunks_len)) ;;
  match rev chunks with
  | [] => Panic
  | chunk_last :: rchunks =>
      Ok (map (fun i => rev rchunks ++ [chunk_last + N.of_nat i])
              (seq 0 (N.to_nat (2 ^ leftover))))
  end.

(* `v[i] = f(v[i])` on a vector (huffman/src/flattener/mod.rs:159-186) *)
Fixpoint update {A} (l : list A) (i : nat) (f : A -> A) : list A :=
  match l, i with
  | [], _ => []
  | x :: l', O => f x :: l'
  | x :: l', S i' => x :: update l' i' f
  end.

(* huffman/src/flattener/mod.rs:159-177, creation of the rows along the first path variant
   (all keys but the last).  Indexing out of bounds panics. *)
Fixpoint flatten_walk (blank : list cell) (table : list (list cell)) (id : N) (keys : list N)
  : outcome huff_error (list (list cell) * N) :=
  match keys with
  | [] => Ok (table, id)
  | key :: keys' =>
      match nth_error table (N.to_nat id) with
      | None => Panic
      | Some row =>
          match nth_error row (N.to_nat key) with
          | None => Panic
          | Some (Some next_id, _, _) => flatten_walk blank table next_id keys'
          | Some (None, _, _) =>
              let next_id := wrap 8 (N.of_nat (length table)) in
              let table' :=
                update (table ++ [blank]) (N.to_nat id)
                  (fun row => update row (N.to_nat key)
                                (fun c => (Some next_id, snd (fst c), snd c))) in
              flatten_walk blank table' next_id keys'
          end
      end
  end.

(* huffman/src/flattener/mod.rs:180-184, the last key of a path variant: target.1 and target.2 *)
Definition flatten_set (table : list (list cell)) (id key ascii leftover : N)
  : outcome huff_error (list (list cell)) :=
  match nth_error table (N.to_nat id) with
  | None => Panic
  | Some row =>
      match nth_error row (N.to_nat key) with
      | None => Panic
      | Some _ =>
          Ok (update table (N.to_nat id)
                (fun row => update row (N.to_nat key)
                   (fun c => (fst (fst c), Some (wrap 16 ascii), wrap 8 leftover))))
      end
  end.

(* huffman/src/flattener/mod.rs:156-185, the loop over the path variants of one code.
   [first] is `path_index == 0`; `id` is kept from the first variant on. *)
Fixpoint flatten_paths (blank : list cell) (table : list (list cell)) (id : N)
         (paths : list (list N)) (first : bool) (ascii leftover : N)
  : outcome huff_error (list (list cell)) :=
  match paths with
  | [] => Ok table
  | keys :: paths' =>
      match rev keys with
      | [] => Panic
      | last_key :: rkeys =>
          ti <- (if first then flatten_walk blank table id (rev rkeys) else Ok (table, id)) ;;
          table' <- flatten_set (fst ti) (snd ti) last_key ascii leftover ;;
          flatten_paths blank table' (snd ti) paths' false ascii leftover
      end
  end.

(* huffman/src/flattener/mod.rs:151-186, the loop over the codings *)
Fixpoint flatten_codings (m : mode) (blank : list cell) (table : list (list cell))
         (sp : N) (ascii : N) (codings : list (N * N))
  : outcome huff_error (list (list cell)) :=
  match codings with
  | [] => Ok table
  | coding :: codings' =>
      leftover <- u_sub m 64 (ceil_div (fst coding) sp * sp) (fst coding) ;;
      paths <- generate_coding_paths m coding sp ;;
      table' <- flatten_paths blank table 0 paths true ascii leftover ;;
      flatten_codings m blank table' sp (ascii + 1) codings'
  end.

(* huffman/src/flattener/mod.rs:141-188, `pub fn flatten` *)
Definition flatten (m : mode) (codings : list (N * N)) (s : speed)
  : outcome huff_error (list (list cell)) :=
  let sp := speed_bits s in
  flatten_codings m (blank_transition sp) [blank_transition sp] sp 0 codings.

(* ------------------------------------------------------------------ *)
(* Parser: huffman/src/parser/mod.rs.  A `&str` is the list of its octets,
   which are UTF-8 by the type's invariant. *)

(* std's `str::lines` (called at huffman/src/parser/mod.rs:33): split at LF, drop one CR before it, no empty last line.
   A CR that ends an unterminated last line was dropped too by the std of the
   crate's time ([old] = true) and is kept since Rust 1.70 ([old] = false). *)
Definition strip_cr (l : list N) : list N :=
  match rev l with
  | 13 :: r => rev r
  | _ => l
  end.

(* the loop of `str::lines` (called at huffman/src/parser/mod.rs:33) *)
Fixpoint lines_from (old : bool) (cur text : list N) : list (list N) :=
  match text with
  | [] => match cur with [] => [] | _ => [if old then strip_cr cur else cur] end
  | c :: text' =>
      if c =? 10 then strip_cr cur :: lines_from old [] text'
      else lines_from old (cur ++ [c]) text'
  end.
(* `data.lines()` at huffman/src/parser/mod.rs:33 *)
Definition lines (old : bool) (text : list N) : list (list N) := lines_from old [] text.

(* `&s[a..b]` on octets (huffman/src/parser/mod.rs:50): None = panic *)
Definition slice {A} (l : list A) (a b : nat) : option (list A) :=
  if (b <=? length l)%nat then Some (firstn (b - a) (skipn a l)) else None.

(* std's `str::is_char_boundary`, checked by the slicing at huffman/src/parser/mod.rs:59 *)
Definition char_boundary (l : list N) (i : nat) : bool :=
  (i =? 0)%nat || (i =? length l)%nat ||
  match nth_error l i with
  | Some b => negb ((128 <=? b) && (b <? 192))
  | None => false
  end.

(* `&s[a..b]` on text (huffman/src/parser/mod.rs:59): also panics inside a character. *)
Definition str_slice (l : list N) (a b : nat) : option (list N) :=
  if char_boundary l a && char_boundary l b then slice l a b else None.

(* std's `char::is_whitespace` (behind `trim()` at huffman/src/parser/mod.rs:59) on the one, two and three octet characters (no
   longer one is white space). *)
Definition white1 (c : N) : bool := ((9 <=? c) && (c <=? 13)) || (c =? 32).
(* two octets (`trim()` at huffman/src/parser/mod.rs:59) *)
Definition white2 (c0 c1 : N) : bool := (c0 =? 194) && ((c1 =? 133) || (c1 =? 160)).
(* three octets (`trim()` at huffman/src/parser/mod.rs:59) *)
Definition white3 (c0 c1 c2 : N) : bool :=
  ((c0 =? 225) && (c1 =? 154) && (c2 =? 128)) ||
  ((c0 =? 226) && (c1 =? 128) &&
     (((128 <=? c2) && (c2 <=? 138)) || (c2 =? 168) || (c2 =? 169) || (c2 =? 175))) ||
  ((c0 =? 226) && (c1 =? 129) && (c2 =? 159)) ||
  ((c0 =? 227) && (c1 =? 128) && (c2 =? 128)).

(* std's `str::trim` (called at huffman/src/parser/mod.rs:59), character by character from the front, then from the back
   (on the reversed octets). *)
Fixpoint trim_start (l : list N) : list N :=
  match l with
  | c0 :: r0 =>
      if white1 c0 then trim_start r0 else
      match r0 with
      | c1 :: r1 =>
          if white2 c0 c1 then trim_start r1 else
          match r1 with
          | c2 :: r2 => if white3 c0 c1 c2 then trim_start r2 else l
          | [] => l
          end
      | [] => l
      end
  | [] => []
  end.
(* from the back, on the reversed octets (`trim()` at huffman/src/parser/mod.rs:59) *)
Fixpoint trim_back (l : list N) : list N :=
  match l with
  | c0 :: r0 =>
      if white1 c0 then trim_back r0 else
      match r0 with
      | c1 :: r1 =>
          if white2 c1 c0 then trim_back r1 else
          match r1 with
          | c2 :: r2 => if white3 c2 c1 c0 then trim_back r2 else l
          | [] => l
          end
      | [] => l
      end
  | [] => []
  end.
(* `trim()` at huffman/src/parser/mod.rs:59 *)
Definition trim (l : list N) : list N := rev (trim_back (rev (trim_start l))).

(* char::to_digit(16), behind from_str_radix at huffman/src/parser/mod.rs:59 *)
Definition hex_digit (c : N) : option N :=
  if (48 <=? c) && (c <=? 57) then Some (c - 48)
  else if (97 <=? c) && (c <=? 102) then Some (c - 87)
  else if (65 <=? c) && (c <=? 70) then Some (c - 55)
  else None.

(* the loop of u32::from_str_radix (called at huffman/src/parser/mod.rs:59); None: its Err, on which `expect` panics *)
Fixpoint hex_digits (acc : N) (l : list N) : option N :=
  match l with
  | [] => Some acc
  | c :: l' =>
      match hex_digit c with
      | Some d => if acc * 16 + d <? 2 ^ 32 then hex_digits (acc * 16 + d) l' else None
      | None => None
      end
  end.

(* u32::from_str_radix(_, 16), called at huffman/src/parser/mod.rs:59: a leading `+` is allowed before digits. *)
Definition u32_from_hex (l : list N) : option N :=
  match l with
  | [] => None
  | 43 :: [] => None
  | 43 :: l' => hex_digits 0 l'
  | _ => hex_digits 0 l
  end.

(* huffman/src/parser/mod.rs:50-56: the bit columns; None = panic!("unexpected byte") *)
Fixpoint parse_bits (l : list N) : option (list bool) :=
  match l with
  | [] => Some []
  | b :: l' =>
      if b =? 49 then option_map (cons true) (parse_bits l')
      else if b =? 48 then option_map (cons false) (parse_bits l')
      else if (b =? 124) || (b =? 32) then parse_bits l'
      else None
  end.

(* huffman/src/parser/mod.rs:47-62, parse_line *)
Definition parse_line (line : list N) : outcome huff_error (N * N) :=
  match slice line 12 45 with
  | None => Panic
  | Some cols =>
      match parse_bits cols with
      | None => Panic
      | Some msb =>
          match str_slice line 50 59 with
          | None => Panic
          | Some hex =>
              match u32_from_hex (trim hex) with
              | None => Panic
              | Some lsb => Ok (wrap 16 (N.of_nat (length msb)), lsb)
              end
          end
      end
  end.

(* huffman/src/parser/mod.rs:32-42, parse *)
Fixpoint parse_lines (ls : list (list N)) : outcome huff_error (list (N * N)) :=
  match ls with
  | [] => Ok []
  | l :: ls' =>
      c <- parse_line l ;;
      cs <- parse_lines ls' ;;
      Ok (c :: cs)
  end.
(* huffman/src/parser/mod.rs:32-42, parse *)
Definition parse (old : bool) (text : list N) : outcome huff_error (list (N * N)) :=
  parse_lines (lines old text).
