(* Specification of the HPACK encoder API and of sessions, in terms of the API
   types and of HpackSpec.v. *)
From Verif Require Import Base HpackModel HpackSpec.
Open Scope N_scope.

(* ------------------------------------------------------------------ *)
(* Tables: concrete and abstract. *)
(* The abstract table behind a concrete one, and back. *)
Definition abs (t : table) : dyn := mkdyn (inner t) (dmax t).
Definition wf (t : table) : Prop :=
  dsize t = size (inner t) /\ size (inner t) <= dmax t /\ dmax t < 2 ^ 32.

Definition conc (d : dyn) : table := mkDyn (entries d) (size (entries d)) (max_size d).

(* Any sequence of table operations. *)
Inductive table_op := TInsert (name value : list N) | TUpdate (n : N).
Definition table_op_ok (o : table_op) : Prop := match o with TInsert _ _ => True | TUpdate n => n < 2 ^ 32 end.
Fixpoint table_meaning (d : dyn) (ops : list table_op) : dyn :=
  match ops with
  | [] => d
  | TInsert n v :: ops' => table_meaning (insert d (n, v)) ops'
  | TUpdate n :: ops' => table_meaning (resize d n) ops'
  end.

(* ------------------------------------------------------------------ *)
(* Errors of the decoder. *)
(* Result of a fault. *)
Definition fault_outcome {A} (f : fault) : outcome dec_error A :=
  match f with
  | Cut => Panic
  | Long => Err DIntegerOverflow
  | Short => Err DIntegerUnderflow
  | BadHuffman => Err DInvalidInput
  | BadName => Err DInvalidIndex
  end.

Definition refusal_error (e : refusal) : dec_error :=
  match e with BadIndex => DInvalidIndex | BadSize => DInvalidMaxDynamicSize end.

Definition stop_outcome (s : stop) (n : N) : outcome dec_error N :=
  match s with
  | Done => Ok n
  | Fault f => fault_outcome f
  | Refused e => Err (refusal_error e)
  end.

Definition add_count (k : N) (o : outcome dec_error N) : outcome dec_error N :=
  match o with Ok n => Ok (k + n) | x => x end.

(* ------------------------------------------------------------------ *)
(* Encoder *)

(* Arguments a caller can pass: octet strings, u32 indices, u8 flags. *)
Definition input_ok (f : encoder_input) : Prop :=
  match f with
  | Indexed i => i < 2 ^ 32
  | IndexedName i v fl => i < 2 ^ 32 /\ bytes v /\ fl < 256
  | Literal n v fl => bytes n /\ bytes v /\ fl < 256
  end.

(* The header a field stands for, if any. *)
Definition field_of (l : list field_line) (f : encoder_input) : option field_line :=
  match f with
  | Indexed i => lookup l i
  | IndexedName i v _ => option_map (fun e => (fst e, v)) (lookup l i)
  | Literal n v _ => Some (n, v)
  end.

(* Is the line in the static or dynamic table? *)
Definition line_eq_dec (a b : field_line) : {a = b} + {a <> b}.
Proof. decide equality; apply (list_eq_dec N.eq_dec). Defined.
Definition has_line (l : list field_line) (e : field_line) : bool :=
  if in_dec line_eq_dec e (rfc_static ++ l) then true else false.

(* Flags the decoder will report for the field: 0 for an indexed field,
   otherwise that of the literal kind asked for. *)
Definition flag_used (l : list field_line) (f : encoder_input) : N :=
  match f with
  | Indexed _ => 0
  | IndexedName _ _ fl => kind_flag (kind_of fl)
  | Literal n v fl => if N.testbit fl 4 && has_line l (n, v) then 0 else kind_flag (kind_of fl)
  end.

(* The representation the flags ask for. *)
Inductive chosen (l : list field_line) : encoder_input -> repr -> Prop :=
| ch_indexed i e : lookup l i = Some e -> chosen l (Indexed i) (RIndexed i)
| ch_indexed_name i v fl e : lookup l i = Some e ->
    chosen l (IndexedName i v fl) (RLiteral (kind_of fl) (NameIndex i) (N.testbit fl 1) v)
| ch_literal n v fl : N.testbit fl 4 = false ->
    chosen l (Literal n v fl) (RLiteral (kind_of fl) (NameLiteral (N.testbit fl 0) n) (N.testbit fl 1) v)
| ch_best n v fl found : N.testbit fl 4 = true -> find_spec (lookup l) n v found ->
    chosen l (Literal n v fl)
      (match found with
       | Some (i, true) => RIndexed i
       | Some (i, false) => RLiteral (kind_of fl) (NameIndex i) (N.testbit fl 1) v
       | None => RLiteral (kind_of fl) (NameLiteral (N.testbit fl 0) n) (N.testbit fl 1) v
       end).

(* All string data of a representation has at most [max] octets on the wire. *)
Definition strings_within (max : N) (r : repr) : Prop :=
  match r with
  | RLiteral _ n h v =>
      coded_length h v <= max /\
      match n with NameLiteral hn s => coded_length hn s <= max | NameIndex _ => True end
  | _ => True
  end.

(* The largest string and size update the decoder of this crate can read. *)
Definition MAX_STRING : N := 126 + 2 ^ 28.
Definition MAX_UPDATE : N := 30 + 2 ^ 28.

(* ------------------------------------------------------------------ *)
(* Sessions *)
Inductive op := Send (f : encoder_input) | Resize (n : N).

(* All literal strings of a field are short enough for the decoder, coded as the
   flags ask. *)
Definition sendable (f : encoder_input) : Prop :=
  match f with
  | Indexed _ => True
  | IndexedName _ v fl => coded_length (N.testbit fl 1) v <= MAX_STRING
  | Literal n v fl =>
      coded_length (N.testbit fl 0) n <= MAX_STRING /\ coded_length (N.testbit fl 1) v <= MAX_STRING
  end.
Definition op_ok (limit : N) (o : op) : Prop :=
  match o with
  | Send f => input_ok f /\ sendable f
  | Resize n => n <= limit /\ n <= MAX_UPDATE
  end.

(* Run the encoder, carrying on after errors; collects the results. *)
Fixpoint run_ops (m : mode) (t : table) (dst : list N) (ops : list op)
  : table * list N * list (outcome enc_error unit) :=
  match ops with
  | [] => (t, dst, [])
  | o :: ops' =>
      let '((t', dst'), r) :=
        match o with
        | Send f => hencode m t f dst
        | Resize n => encoder_update_max m t n dst
        end in
      let '(t'', dst'', rs) := run_ops m t' dst' ops' in
      (t'', dst'', r :: rs)
  end.

(* What a session means: final table, headers, and result of each operation. *)
Fixpoint meaning (d : dyn) (ops : list op) : dyn * list out_header * list (outcome enc_error unit) :=
  match ops with
  | [] => (d, [], [])
  | Send f :: ops' =>
      match field_of (entries d) f with
      | Some (n, v) =>
          let fl := flag_used (entries d) f in
          let d1 := if fl =? 4 then insert d (n, v) else d in
          let '(d2, hs, rs) := meaning d1 ops' in
          (d2, (n, v, fl) :: hs, Ok tt :: rs)
      | None =>
          let '(d2, hs, rs) := meaning d ops' in
          (d2, hs, Err EInvalidIndex :: rs)
      end
  | Resize n :: ops' =>
      let '(d2, hs, rs) := meaning (resize d n) ops' in
      (d2, hs, Ok tt :: rs)
  end.

(* ------------------------------------------------------------------ *)
(* Any sequence of calls on one decoder. *)
Inductive call :=
| CallDecode (buf : list N) (dst : list out_header)
| CallExact (cap : nat) (buf : list N) (dst : list out_header)
| CallLimit (n : N).

Definition call_ok (c : call) : Prop :=
  match c with
  | CallDecode buf _ | CallExact _ buf _ => bytes buf
  | CallLimit n => n < 2 ^ 32
  end.

Definition do_call (m : mode) (d : decoder) (c : call) : decoder :=
  match c with
  | CallDecode buf dst => fst (fst (fst (hdecode m d buf dst)))
  | CallExact cap buf dst => fst (fst (fst (hdecode_exact m cap d buf dst)))
  | CallLimit n => decoder_set_max d n
  end.

(* The largest limit configured by the calls. *)
Fixpoint largest (start : N) (cs : list call) : N :=
  match cs with
  | [] => start
  | CallLimit n :: cs' => largest (N.max start n) cs'
  | _ :: cs' => largest start cs'
  end.


(* The table after a literal of kind k. *)
Definition lit_after (d : dyn) (k : kind) (e : field_line) : dyn :=
  match k with WithIndexing => insert d e | _ => d end.

(* Run table operations, stopping at a panic (table_insert and table_update_max
   are Table::insert and Table::update_max_dynamic_size). *)
Fixpoint run_table {E} (m : mode) (t : table) (ops : list table_op) : outcome E table :=
  match ops with
  | [] => Ok t
  | TInsert n v :: ops' => t' <- table_insert m t n v ;; run_table m t' ops'
  | TUpdate n :: ops' => t' <- table_update_max m t n ;; run_table m t' ops'
  end.

(* Arguments within the types, nothing else: octets, u32, u8. *)
Definition op_typed (o : op) : Prop :=
  match o with Send f => input_ok f | Resize n => n < 2 ^ 32 end.

(* No size update of the session is above the limit. *)
Definition resize_within (limit : N) (o : op) : Prop :=
  match o with Send _ => True | Resize n => n <= limit end.

(* With the dynamic entries l, the operation is one the decoder of this crate can
   read: coded strings of at most 2^28 + 126 octets, size updates of at most
   2^28 + 30 and at most the limit. *)
Definition readable (limit : N) (l : list field_line) (o : op) : Prop :=
  match o with
  | Send f => forall r, chosen l f r -> strings_within MAX_STRING r
  | Resize n => n <= limit /\ n <= MAX_UPDATE
  end.

(* No call of the session returned IntegerOverflow. *)
Definition no_overflow (rs : list (outcome enc_error unit)) : Prop := ~ In (Err EIntegerOverflow) rs.

(* Octets of decoded names and values. *)
Definition header_size (h : out_header) : N := N.of_nat (length (fst (fst h))) + N.of_nat (length (snd (fst h))).
Fixpoint total_size (hs : list out_header) : N :=
  match hs with [] => 0 | h :: hs' => header_size h + total_size hs' end.

(* Passing a decoded header on to an encoder, flags included. *)
Definition as_literal (h : out_header) : encoder_input := Literal (fst (fst h)) (snd (fst h)) (snd h).

Definition forwardable (h : out_header) : Prop :=
  bytes (fst (fst h)) /\ bytes (snd (fst h)) /\
  N.of_nat (length (fst (fst h))) <= MAX_STRING /\ N.of_nat (length (snd (fst h))) <= MAX_STRING /\
  (snd h = 0 \/ snd h = 4 \/ snd h = 8).

(* A decoder d whose table is that of the encoder (t) reads what the encoder wrote
   for the calls ops, which left the encoder with the table t'.  The result x is
   either complete: all input consumed, all headers the calls mean appended, the
   table again that of the encoder; or decoding stopped at the octets of the first
   call o this decoder cannot read, with IntegerOverflow (or, for a size update
   above the limit, InvalidMaxDynamicSize), having delivered exactly what the calls
   ops1 before it mean and with the table the encoder had at that point. *)
Definition delivers_or_stops (m : mode) (d : decoder) (t : table) (ops : list op) (t' : table)
    (out : list N) (dst0 : list out_header) (x : dec_state * outcome dec_error N) : Prop :=
  (exists n, x = ((set_table d t', [], dst0 ++ snd (fst (meaning (abs t) ops))), Ok n)) \/
  exists ops1 o ops2 t1 out1 rs1 rest e,
    ops = ops1 ++ o :: ops2 /\ run_ops m t [] ops1 = (t1, out1, rs1) /\ out = out1 ++ rest /\
    ~ readable (dlimit d) (inner t1) o /\
    x = ((set_table d t1, rest, dst0 ++ snd (fst (meaning (abs t) ops1))), Err e) /\
    (e = DIntegerOverflow \/ e = DInvalidMaxDynamicSize /\ exists n, o = Resize n /\ dlimit d < n).
