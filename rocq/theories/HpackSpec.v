(* Specification vocabulary for HPACK (RFC 7541), independent of the model. *)
From Coq Require Import String Ascii.
From Verif Require Import Base HuffSpec Leb.
Open Scope list_scope.
Open Scope N_scope.

Notation field_line := (list N * list N)%type.   (* name, value *)

(* ------------------------------------------------------------------ *)
(* RFC 7541 Appendix A, typed from the RFC.                             *)
Local Open Scope string_scope.
Definition rfc_static_text : list (string * string) := [
  (":authority", ""); (":method", "GET"); (":method", "POST"); (":path", "/");
  (":path", "/index.html"); (":scheme", "http"); (":scheme", "https");
  (":status", "200"); (":status", "204"); (":status", "206"); (":status", "304");
  (":status", "400"); (":status", "404"); (":status", "500");
  ("accept-charset", ""); ("accept-encoding", "gzip, deflate"); ("accept-language", "");
  ("accept-ranges", ""); ("accept", ""); ("access-control-allow-origin", ""); ("age", "");
  ("allow", ""); ("authorization", ""); ("cache-control", ""); ("content-disposition", "");
  ("content-encoding", ""); ("content-language", ""); ("content-length", "");
  ("content-location", ""); ("content-range", ""); ("content-type", ""); ("cookie", "");
  ("date", ""); ("etag", ""); ("expect", ""); ("expires", ""); ("from", ""); ("host", "");
  ("if-match", ""); ("if-modified-since", ""); ("if-none-match", ""); ("if-range", "");
  ("if-unmodified-since", ""); ("last-modified", ""); ("link", ""); ("location", "");
  ("max-forwards", ""); ("proxy-authenticate", ""); ("proxy-authorization", "");
  ("range", ""); ("referer", ""); ("refresh", ""); ("retry-after", ""); ("server", "");
  ("set-cookie", ""); ("strict-transport-security", ""); ("transfer-encoding", "");
  ("user-agent", ""); ("vary", ""); ("via", ""); ("www-authenticate", "")].
Local Close Scope string_scope.
Definition rfc_static : list field_line :=
  map (fun nv => (octets (fst nv), octets (snd nv))) rfc_static_text.

(* ------------------------------------------------------------------ *)
(* Section 5.1: integers.  [int_wire lim p hi bs v]: the octets bs, at most lim
   of them, are an integer v with a p-bit prefix whose first octet carries hi in
   the 8-p bits above the prefix.  The encoding need not be the shortest. *)
Inductive int_wire (lim : nat) (p hi : N) : list N -> N -> Prop :=
| int_short v : v < 2 ^ p - 1 -> (1 <= lim)%nat -> int_wire lim p hi [hi * 2 ^ p + v] v
| int_long t r : leb128 t r -> (S (List.length t) <= lim)%nat ->
    int_wire lim p hi ((hi * 2 ^ p + (2 ^ p - 1)) :: t) (2 ^ p - 1 + r).

(* Section 5.2: strings; [pad] says which padding a Huffman string may end with. *)
Inductive string_wire (lim : nat) (pad : list bool -> Prop) : bool -> list N -> list N -> Prop :=
| string_plain lb s : int_wire lim 7 0 lb (N.of_nat (List.length s)) ->
    string_wire lim pad false (lb ++ s) s
| string_huffman lb h s rest : int_wire lim 7 1 lb (N.of_nat (List.length h)) ->
    bytes h -> splits (bits_of_bytes h) s rest -> pad rest ->
    string_wire lim pad true (lb ++ h) s.

(* Section 6: representations; the booleans tell whether a string is Huffman coded. *)
Inductive kind := WithIndexing | WithoutIndexing | NeverIndexed.
Inductive name_ref := NameIndex (i : N) | NameLiteral (huffman : bool) (name : list N).
Inductive repr :=
| RIndexed (i : N)
| RLiteral (k : kind) (n : name_ref) (huffman : bool) (value : list N)
| RSize (max : N).

(* Bit pattern in front of the index: 01, 0000, 0001. *)
Definition kind_prefix (k : kind) : N := match k with WithIndexing => 6 | _ => 4 end.
Definition kind_bits (k : kind) : N :=
  match k with WithIndexing => 1 | WithoutIndexing => 0 | NeverIndexed => 1 end.

Inductive repr_wire (lim : nat) (pad : list bool -> Prop) : list N -> repr -> Prop :=
| wire_indexed bs i : int_wire lim 7 1 bs i -> repr_wire lim pad bs (RIndexed i)
| wire_indexed_name k bi i hv bv v : int_wire lim (kind_prefix k) (kind_bits k) bi i -> i <> 0 ->
    string_wire lim pad hv bv v ->
    repr_wire lim pad (bi ++ bv) (RLiteral k (NameIndex i) hv v)
| wire_new_name k bi hn bn n hv bv v : int_wire lim (kind_prefix k) (kind_bits k) bi 0 ->
    string_wire lim pad hn bn n -> string_wire lim pad hv bv v ->
    repr_wire lim pad (bi ++ bn ++ bv) (RLiteral k (NameLiteral hn n) hv v)
| wire_size bs n : int_wire lim 5 1 bs n -> repr_wire lim pad bs (RSize n).

(* ------------------------------------------------------------------ *)
(* Sections 2.3 and 4: tables.  Entries are listed newest first. *)
Record dyn := mkdyn { entries : list field_line; max_size : N }.

Definition line_size (e : field_line) : N :=
  N.of_nat (List.length (fst e)) + N.of_nat (List.length (snd e)) + 32.
Fixpoint size (l : list field_line) : N :=
  match l with [] => 0 | e :: l' => line_size e + size l' end.

(* The single index address space, starting at 1. *)
Definition lookup (d : list field_line) (i : N) : option field_line :=
  if i =? 0 then None else nth_error (rfc_static ++ d) (N.to_nat (i - 1)).

(* [fits max l k]: k is the longest initial run of l whose size is at most max. *)
Definition fits (max : N) (l k : list field_line) : Prop :=
  prefix k l /\ size k <= max /\
  forall k', prefix k' l -> size k' <= max -> (List.length k' <= List.length k)%nat.

(* The same as a function. *)
Fixpoint fit (max : N) (l : list field_line) : list field_line :=
  match l with
  | [] => []
  | e :: l' => if line_size e <=? max then e :: fit (max - line_size e) l' else []
  end.

Definition insert (d : dyn) (e : field_line) : dyn :=
  mkdyn (fit (max_size d) (e :: entries d)) (max_size d).
Definition resize (d : dyn) (n : N) : dyn := mkdyn (fit n (entries d)) n.

(* A decoded header: name, value, flags of the representation (0x4 with
   indexing, 0x8 never indexed). *)
Notation out_header := (list N * list N * N)%type.
Definition kind_flag (k : kind) : N :=
  match k with WithIndexing => 4 | WithoutIndexing => 0 | NeverIndexed => 8 end.

Inductive refusal := BadIndex | BadSize.

Definition resolve (d : dyn) (n : name_ref) : option (list N) :=
  match n with
  | NameLiteral _ s => Some s
  | NameIndex i => option_map fst (lookup (entries d) i)
  end.

(* Sections 3.2, 6: what one representation does.  [limit] is the protocol's
   bound on table size updates (section 6.3). *)
Definition interp (limit : N) (d : dyn) (r : repr) : (dyn * list out_header) + refusal :=
  match r with
  | RIndexed i =>
      match lookup (entries d) i with
      | Some (n, v) => inl (d, [(n, v, 0)])
      | None => inr BadIndex
      end
  | RLiteral k nr _ v =>
      match resolve d nr with
      | Some n => inl (match k with WithIndexing => insert d (n, v) | _ => d end, [(n, v, kind_flag k)])
      | None => inr BadIndex
      end
  | RSize n => if n <=? limit then inl (resize d n, []) else inr BadSize
  end.

(* A whole block. *)
Fixpoint interp_all (limit : N) (d : dyn) (rs : list repr) : option (dyn * list out_header) :=
  match rs with
  | [] => Some (d, [])
  | r :: rs' =>
      match interp limit d r with
      | inl (d', h) =>
          match interp_all limit d' rs' with
          | Some (d'', hs) => Some (d'', h ++ hs)
          | None => None
          end
      | inr _ => None
      end
  end.

(* A sequence of representations, each with its octets. *)
Definition wires (lim : nat) (pad : list bool -> Prop) (prs : list (list N * repr)) : Prop :=
  Forall (fun p => repr_wire lim pad (fst p) (snd p)) prs.
Definition wire_octets (prs : list (list N * repr)) : list N := concat (map fst prs).
Definition reprs (prs : list (list N * repr)) : list repr := map snd prs.

(* Octets of the representations that are not table size updates. *)
Definition is_size (r : repr) : bool := match r with RSize _ => true | _ => false end.
Definition counted (prs : list (list N * repr)) : N :=
  fold_right (fun p n => (if is_size (snd p) then 0 else N.of_nat (List.length (fst p))) + n) 0 prs.

(* Padding the decoder of this crate lets through. *)
Definition code_padding (rest : list bool) : Prop := tail_accepted rest = true.

(* [find_spec get name value r]: r is the smallest index of an equal name and
   value, flagged true; failing that the smallest index of an equal name, flagged
   false; None if no name is equal. *)
Definition find_spec (get : N -> option field_line) (name value : list N) (r : option (N * bool)) : Prop :=
  match r with
  | Some (i, true) => get i = Some (name, value) /\ forall j, j < i -> get j <> Some (name, value)
  | Some (i, false) =>
      (exists v, get i = Some (name, v)) /\ (forall j v, j < i -> get j <> Some (name, v)) /\
      forall j, get j <> Some (name, value)
  | None => forall j v, get j <> Some (name, v)
  end.

(* Number of octets of the string data on the wire. *)
Definition coded_length (huffman : bool) (s : list N) : N :=
  if huffman then N.of_nat ((List.length (codes s) + 7) / 8) else N.of_nat (List.length s).

(* ------------------------------------------------------------------ *)
(* Malformed input. *)

(* A p-bit-prefix integer cut off after its first octet or after 1-3 continued octets. *)
Definition cut_int (p hi : N) (bs : list N) : Prop :=
  exists t, bs = (hi * 2 ^ p + (2 ^ p - 1)) :: t /\ continued t /\ (List.length t <= 3)%nat.

(* Four continued octets after a full prefix, whatever follows. *)
Definition long_int (p hi : N) (bs : list N) : Prop :=
  exists t rest, bs = (hi * 2 ^ p + (2 ^ p - 1)) :: t ++ rest /\ continued t /\ List.length t = 4%nat.

(* What can be wrong with a representation: it stops inside an integer or before
   a string; an integer has too many octets; a string is longer than the rest of
   the input; its Huffman data is bad; its name index is not in the table. *)
Inductive fault := Cut | Long | Short | BadHuffman | BadName.

Inductive int_fault (p hi : N) (bs : list N) : fault -> Prop :=
| if_cut : cut_int p hi bs -> int_fault p hi bs Cut
| if_long : long_int p hi bs -> int_fault p hi bs Long.

Inductive string_fault : list N -> fault -> Prop :=
| sf_empty : string_fault [] Cut
| sf_int hi bs f : hi <= 1 -> int_fault 7 hi bs f -> string_fault bs f
| sf_short hi lb len body : hi <= 1 -> int_wire 5 7 hi lb len -> N.of_nat (List.length body) < len ->
    string_fault (lb ++ body) Short
| sf_huffman lb h rest syms tail : int_wire 5 7 1 lb (N.of_nat (List.length h)) ->
    splits (bits_of_bytes h) syms tail -> ~ code_padding tail ->
    string_fault (lb ++ h ++ rest) BadHuffman.

(* [repr_fault l bs f]: with the dynamic entries l, the octets bs start with a
   representation that has the fault f. *)
Inductive repr_fault (l : list field_line) : list N -> fault -> Prop :=
| rf_indexed bs f : int_fault 7 1 bs f -> repr_fault l bs f
| rf_size bs f : int_fault 5 1 bs f -> repr_fault l bs f
| rf_name_index k bs f : int_fault (kind_prefix k) (kind_bits k) bs f -> repr_fault l bs f
| rf_bad_name k bi i rest : int_wire 5 (kind_prefix k) (kind_bits k) bi i -> i <> 0 ->
    lookup l i = None -> repr_fault l (bi ++ rest) BadName
| rf_value1 k bi i e rest f : int_wire 5 (kind_prefix k) (kind_bits k) bi i -> i <> 0 ->
    lookup l i = Some e -> string_fault rest f -> repr_fault l (bi ++ rest) f
| rf_name k bi rest f : int_wire 5 (kind_prefix k) (kind_bits k) bi 0 ->
    string_fault rest f -> repr_fault l (bi ++ rest) f
| rf_value2 k bi hn bn n rest f : int_wire 5 (kind_prefix k) (kind_bits k) bi 0 ->
    string_wire 5 code_padding hn bn n -> string_fault rest f -> repr_fault l (bi ++ bn ++ rest) f.

(* How decoding of a block ends, in table d with the octets rest to go. *)
Inductive stop := Done | Fault (f : fault) | Refused (e : refusal).
Inductive ends (limit : N) (d : dyn) : list N -> stop -> Prop :=
| ends_done : ends limit d [] Done
| ends_fault rest f : repr_fault (entries d) rest f -> ends limit d rest (Fault f)
| ends_refused b r rest e : repr_wire 5 code_padding b r -> interp limit d r = inr e ->
    ends limit d (b ++ rest) (Refused e).

(* ------------------------------------------------------------------ *)
(* Encoder side: flag bits 0x1 name Huffman, 0x2 value Huffman, 0x4 with indexing,
   0x8 never indexed, 0x10 best format. *)
Definition kind_of (flags : N) : kind :=
  if N.testbit flags 2 then WithIndexing
  else if N.testbit flags 3 then NeverIndexed else WithoutIndexing.
