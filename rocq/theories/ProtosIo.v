(* The encoder of the protos crate over an arbitrary io::Write.

   ProtosModel.v runs the encoder on a Vec or on a slice with a fixed amount of room.
   Here the same functions are generic in the writer, as in the code (`W: io::Write`):
   the writer is any state machine that answers each `write` call with an accepted
   number of octets, ErrorKind::Interrupted or another error.  [gpencode_sink]
   (ProtosIoProofs.v) shows that on the writers of ProtosModel.v it is the same function. *)
From Verif Require Import Base ProtosModel.
Open Scope N_scope.

(* Answers of io::Write::write, the trait of protos/src/encoder/primitives.rs:30-36. *)
Inductive io_answer := Accepted (n : N) | Again | Refused.

(* State of a writer (`buf: &mut W`, protos/src/encoder/primitives.rs:30-36), with everything it has accepted so far (ghost). *)
Definition gstate (W : Type) : Type := (W * list N)%type.

(* std::io::Write::write_all, the provided method:
     while !buf.is_empty() { match self.write(buf) {
       Ok(0) => return Err(WriteZero), Ok(n) => buf = &buf[n..],
       Err(ref e) if e.is_interrupted() => {}, Err(e) => return Err(e) } }
   The error becomes EncoderError::Interrupted (protos/src/encoder/error.rs:23-27).
   [fuel] bounds the number of write calls, OutOfFuel stands for a loop that goes on. *)
Fixpoint std_write_all {W} (write : W -> list N -> W * io_answer) (fuel : nat) (s : gstate W) (data : list N)
  : gstate W * outcome penc_error unit :=
  match data with
  | [] => (s, Ok tt)
  | _ =>
      match fuel with
      | O => (s, OutOfFuel)
      | S fuel' =>
          let '(w, log) := s in
          match write w data with
          | (w', Accepted n) =>
              if n =? 0 then ((w', log), Err PInterrupted)
              else if N.of_nat (length data) <? n then ((w', log ++ data), Panic)     (* &buf[n..] *)
              else std_write_all write fuel' (w', log ++ firstn (N.to_nat n) data) (skipn (N.to_nat n) data)
          | (w', Again) => std_write_all write fuel' (w', log) data
          | (w', Refused) => ((w', log), Err PInterrupted)
          end
      end
  end.

Section Generic.
Context {D : Type} (wa : D -> list N -> D * outcome penc_error unit).

(* writer and result of the functions of protos/src/encoder/primitives.rs:30-360 *)
Definition genc : Type := (D * outcome penc_error N)%type.

(* protos/src/encoder/primitives.rs:30-49, encode_varint *)
Fixpoint gencode_varint_loop (fuel : nat) (val size : N) (s : D) : genc :=
  let size := size + 1 in
  if val <? 128 then binds (wa s [N.land (wrap 8 val) 127]) (fun s _ => (s, Ok size))
  else
    match fuel with
    | O => (s, OutOfFuel)
    | S fuel' =>
        binds (wa s [wrap 8 (N.lor (N.land val 127) 128)])
          (fun s _ => gencode_varint_loop fuel' (N.shiftr val 7) size s)
    end.
(* protos/src/encoder/primitives.rs:30-49, encode_varint *)
Definition gencode_varint (val : N) (s : D) : genc := gencode_varint_loop 10 val 0 s.

(* protos/src/encoder/primitives.rs:68-82, encode_key *)
Definition gencode_key (tag : N) (t : typ) (s : D) : genc :=
  if (tag <? TAG_MIN) || (TAG_MAX <? tag) then (s, Err PInvalidTag)
  else gencode_varint (N.lor (wrap 32 (N.shiftl tag 3)) (typ_num t)) s.

(* protos/src/encoder/primitives.rs:89-205, the varint primitives *)
Definition gprim_bool (v : bool) (s : D) : genc := gencode_varint (if v then 1 else 0) s.
(* protos/src/encoder/primitives.rs:102-107, 114-119 *)
Definition gprim_int (v : Z) (s : D) : genc := gencode_varint (as_u 64 v) s.
(* protos/src/encoder/primitives.rs:126-131, 138-143 *)
Definition gprim_uint (v : N) (s : D) : genc := gencode_varint v s.
(* protos/src/encoder/primitives.rs:168-174 *)
Definition gprim_sint32 (v : Z) (s : D) : genc :=
  gencode_varint (as_u 32 (Z.lxor (as_i 32 (as_u 32 (Z.shiftl v 1))) (Z.shiftr v 31))) s.
(* protos/src/encoder/primitives.rs:199-205 *)
Definition gprim_sint64 (v : Z) (s : D) : genc :=
  gencode_varint (as_u 64 (Z.lxor (as_i 64 (as_u 64 (Z.shiftl v 1))) (Z.shiftr v 63))) s.

(* protos/src/encoder/primitives.rs:227-340: one write_all of 4 or 8 octets *)
Definition gwrite_fixed (data : list N) (n : N) (s : D) : genc := binds (wa s data) (fun s _ => (s, Ok n)).

(* protos/src/encoder/primitives.rs:346-360, encode_bytes *)
Definition gprim_bytes (data : list N) (s : D) : genc :=
  let size := N.of_nat (length data) in
  if 2 ^ 64 - 1 <? size then (s, Err PDataOverflow)
  else
    binds (gencode_varint size s)
      (fun s n => binds (wa s data) (fun s _ => (s, Ok (size + n)))).

(* protos/src/encoder/mod.rs:118-131 and the other scalar methods *)
Definition gfield_with (tag : N) (t : typ) (prim : D -> genc) (s : D) : genc :=
  binds (gencode_key tag t s) (fun s n => binds (prim s) (fun s k => (s, Ok (n + k)))).
(* protos/src/encoder/mod.rs:408-421, Encoder::encode_bytes *)
Definition gencode_bytes (tag : N) (data : list N) (s : D) : genc :=
  gfield_with tag LengthDelimited (gprim_bytes data) s.

(* protos/src/encoder/mod.rs:138-155 and the other *_vec methods: the elements are
   encoded into a Vec first (ProtosModel.encode_each), which is then written *)
Definition gencode_vec {A} (prim : A -> sink -> penc) (tag : N) (vals : list A) (s : D) : genc :=
  match encode_each prim vals (vec_sink []) with
  | (data, Ok _) => gencode_bytes tag (written data) s
  | (_, Err e) => (s, Err e)
  | (_, Panic) => (s, Panic)
  | (_, OutOfFuel) => (s, OutOfFuel)
  end.

(* protos/src/encoder/mod.rs:73-111, encode *)
Definition gpencode (tag : N) (l : encoder_lit) (s : D) : genc :=
  match l with
  | EBool v => gfield_with tag Varint (gprim_bool v) s
  | EBoolVec v => gencode_vec prim_bool tag v s
  | EInt32 v => gfield_with tag Varint (gprim_int v) s
  | EInt32Vec v => gencode_vec prim_int32 tag v s
  | EInt64 v => gfield_with tag Varint (gprim_int v) s
  | EInt64Vec v => gencode_vec prim_int64 tag v s
  | EUInt32 v => gfield_with tag Varint (gprim_uint v) s
  | EUInt32Vec v => gencode_vec prim_uint32 tag v s
  | EUInt64 v => gfield_with tag Varint (gprim_uint v) s
  | EUInt64Vec v => gencode_vec prim_uint64 tag v s
  | EFloat v => gfield_with tag Bit32 (gwrite_fixed (to_le 4 v) 4) s
  | EFloatVec v => gencode_vec prim_float tag v s
  | EDouble v => gfield_with tag Bit64 (gwrite_fixed (to_le 8 v) 8) s
  | EDoubleVec v => gencode_vec prim_double tag v s
  | ESInt32 v => gfield_with tag Varint (gprim_sint32 v) s
  | ESInt32Vec v => gencode_vec prim_sint32 tag v s
  | ESInt64 v => gfield_with tag Varint (gprim_sint64 v) s
  | ESInt64Vec v => gencode_vec prim_sint64 tag v s
  | EFixed32 v => gfield_with tag Bit32 (gwrite_fixed (to_le 4 v) 4) s
  | EFixed32Vec v => gencode_vec prim_fixed32 tag v s
  | EFixed64 v => gfield_with tag Bit64 (gwrite_fixed (to_le 8 v) 8) s
  | EFixed64Vec v => gencode_vec prim_fixed64 tag v s
  | ESFixed32 v => gfield_with tag Bit32 (gwrite_fixed (to_le 4 (as_u 32 v)) 4) s
  | ESFixed32Vec v => gencode_vec prim_sfixed32 tag v s
  | ESFixed64 v => gfield_with tag Bit64 (gwrite_fixed (to_le 8 (as_u 64 v)) 8) s
  | ESFixed64Vec v => gencode_vec prim_sfixed64 tag v s
  | EBytes v => gencode_bytes tag v s
  end.

(* A caller of protos/src/encoder/mod.rs:73-111 that encodes field after field and stops
   at the first error. *)
Fixpoint gencode_message (fs : list (N * encoder_lit)) (s : D) : genc :=
  match fs with
  | [] => (s, Ok 0)
  | f :: fs' => binds (gpencode (fst f) (snd f) s)
                  (fun s n => binds (gencode_message fs' s) (fun s k => (s, Ok (n + k))))
  end.
End Generic.

(* protos/src/encoder/mod.rs:73-111, encode, on a writer that has taken nothing yet *)
Definition encode_to {W} (write : W -> list N -> W * io_answer) (fuel : nat) (tag : N) (l : encoder_lit) (w : W)
  : gstate W * outcome penc_error N := gpencode (std_write_all write fuel) tag l (w, []).
(* a whole message on a writer: protos/src/encoder/mod.rs:73-111 field after field *)
Definition encode_message_to {W} (write : W -> list N -> W * io_answer) (fuel : nat) (fs : list (N * encoder_lit)) (w : W)
  : gstate W * outcome penc_error N := gencode_message (std_write_all write fuel) fs (w, []).

(* ------------------------------------------------------------------ *)
(* Specification: a dialogue with a writer. *)

(* A writer that never claims to have taken more octets than it was given. *)
Definition honest {W} (write : W -> list N -> W * io_answer) : Prop :=
  forall w data w' n, data <> [] -> write w data = (w', Accepted n) -> n <= N.of_nat (length data).

(* The calls made, in order: buffer and answer.  The buffer is never empty. *)
Inductive dialogue {W} (write : W -> list N -> W * io_answer) : W -> list (list N * io_answer) -> W -> Prop :=
| d_nil w : dialogue write w [] w
| d_cons w data w1 a tr w2 : data <> [] -> write w data = (w1, a) -> dialogue write w1 tr w2 ->
    dialogue write w ((data, a) :: tr) w2.

(* The octets the writer took. *)
Definition taken (tr : list (list N * io_answer)) : list N :=
  concat (map (fun c => match snd c with Accepted n => firstn (N.to_nat n) (fst c) | _ => [] end) tr).
(* How often it answered Interrupted. *)
Definition agains (tr : list (list N * io_answer)) : nat :=
  length (filter (fun c => match snd c with Again => true | _ => false end) tr).
(* Answers after which write_all goes on. *)
Definition progress (c : list N * io_answer) : Prop :=
  match snd c with Accepted n => 0 < n | Again => True | Refused => False end.
Definition strictly_before (a bs : list N) : Prop := exists x, x <> [] /\ bs = a ++ x.

(* Sending the octets bs: all of them with their number, or - after a refusal - a
   strict prefix and Interrupted, or - the writer having answered Interrupted more
   than [fuel - length bs] times - still going on with a strict prefix sent. *)
Definition sending {W} (write : W -> list N -> W * io_answer) (fuel : nat) (bs : list N)
  (w : W) (tr : list (list N * io_answer)) (w' : W) (got : list N) (o : outcome penc_error N) : Prop :=
  dialogue write w tr w' /\ got = taken tr /\
  match o with
  | Ok n => got = bs /\ n = N.of_nat (length bs) /\ Forall progress tr
  | Err e => e = PInterrupted /\ strictly_before got bs /\
      exists tr0 data a, tr = tr0 ++ [(data, a)] /\ (a = Refused \/ a = Accepted 0) /\ Forall progress tr0
  | Panic => False
  | OutOfFuel => strictly_before got bs /\ Forall progress tr /\ (fuel < length bs + agains tr)%nat
  end.

(* a consists of exactly the first k parts and of a', which is less than part k. *)
Definition complete (parts : list (list N)) (a : list N) (k : nat) (a' : list N) : Prop :=
  a = concat (firstn k parts) ++ a' /\ (k <= length parts)%nat /\
  forall part, nth_error parts k = Some part -> (length a' < length part)%nat.
