# Formal model of xpepermint/httlib-rs in Rocq (Coq 8.16.1)

The repository has three crates, all modelled: `huffman` (RFC 7541 Appendix B
codec, table flattener, table parser), `hpack` (RFC 7541 encoder, decoder and
table) and `protos` (protobuf wire codec).

## Modelling conventions

* Bytes and every unsigned Rust integer are `N`; well-formedness (`< 2^8`,
  `< 2^32`, `< 2^64`) is a hypothesis of the theorems or is proved.  Signed
  integers are `Z`.  `f32`/`f64` are their IEEE bit patterns (`to_bits`), which
  is all the code ever looks at.  `usize` is 64 bits.
* A function with `&mut` arguments returns their new values next to the result.
* Results are `outcome E A := Ok a | Err e | Panic | OutOfFuel`.  `Panic` is a
  Rust panic (index out of bounds, arithmetic overflow in a debug build,
  `expect`).  `OutOfFuel` is the artefact of writing `while`/`loop` as
  recursion on fuel; every theorem either concludes with a concrete non-fuel
  outcome or is preceded by a lemma excluding it.
* `mode := Debug | Release` selects overflow semantics at the places where
  arithmetic could overflow.  Debug panics, Release wraps.
* `Vec::capacity` is a parameter (`cap`), since `decode_exact` uses it as limit.
* `io::Write` is a sink with optional remaining room (`None` = `Vec<u8>`,
  `Some n` = `&mut [u8]` of n octets).  `ProtosIo.v` has the same encoder over an
  arbitrary writer; C71_same shows that the two agree.
* The big tables (ENCODE_TABLE, DECODE_TABLE of the five speeds, STATIC_TABLE,
  the RFC asset) are generated from /repo text by a script into `HuffTables.v`,
  `HuffAsset.v`, `HpackStatic.v` and are part of the model.

## Files (rocq/theories)

| file | contents |
| --- | --- |
| `Base.v` | outcome type, modes, bit strings and arithmetic lemmas |
| `HuffTables.v`, `HuffAsset.v` | generated tables, generated RFC asset text |
| `HuffModel.v` | encoder, decoder reader, flattener, parser |
| `HuffSpec.v` | RFC code as bit strings, bit-level meaning of accept/reject |
| `HuffCode.v`, `HuffEncProofs.v`, `HuffDecProofs.v`, `HuffDerived.v`, `HuffParserProofs.v` | proofs |
| `PropsHuff.v` | property theorems C01-C09, C11, C12 |
| `HuffTree.v`, `HuffFlat.v`, `HuffFlatPanic.v`, `HuffFlatIff.v`, `PropsFlat.v` | code tree specification, flattener proofs, C10 and C51 |
| `HuffFloat.v`, `PropsFloat.v` | the floating-point expressions, with Coq's specification of IEEE 754 (C91) |
| `HpackStatic.v`, `HpackModel.v` | generated static table, model of the hpack crate |
| `HpackSpec.v`, `HpackApi.v` | RFC 7541 grammar and dynamic table; histories of API calls |
| `Leb.v`, `HpackInt.v`, `HpackStr.v`, `HpackTab.v`, `HpackDec.v`, `HpackEnc.v`, `HpackDerived.v` | proofs |
| `PropsHpack.v` | property theorems C13-C34, C49, C50 |
| `HpackConn.v`, `PropsConn.v` | schedules of encoder and decoder calls on one connection, C76 |
| `HpackWidth.v`, `PropsWidth.v` | the hpack crate where usize has w bits, C77 |
| `HpackSecret.v`, `HpackRelay.v`, `PropsSecret.v` | pairs of sessions (C78), chains of intermediaries (C79) |
| `HpackOctets.v`, `PropsOctets.v` | hpack connections with octet-wise delivery (C80) |
| `ProtosSession.v`, `PropsProtos5.v` | protos streams under every schedule (C81) |
| `ProtosForward.v`, `PropsProtos6.v` | schema-less forwarding of protobuf messages (C82) |
| `HpackSizes.v`, `PropsSizes.v` | encoders and decoders with different tables, recovery by a size update to 0 (C83) |
| `HpackIter.v`, `HpackLength.v`, `PropsLength.v` | the table iterator call by call (C84), sizes of encoded headers (C85) |
| `HpackRetain.v`, `PropsRetain.v` | how long a field can be referenced (C87) |
| `HpackHistory.v`, `PropsHistory.v` | the same with table size changes (second part of C87) |
| `HpackFlags.v`, `PropsFlags.v` | provenance of decoded headers and table entries, meaning of the flags (C90) |
| `PropsUpdate.v` | table size updates inside a block (C92) |
| `Appends.v`, `PropsAppend.v` | independence of the destination vector (C93) |
| `PropsJoin.v` | joining Huffman strings (C94) |
| `HpackAlike.v`, `PropsAlike.v` | equivalence of decoders (C95) |
| `HpackEncAlike.v`, `PropsEncAlike.v` | which encoders can be told apart (C111) |
| `HpackUnambig.v`, `PropsUnambig.v` | header blocks are unambiguous (C112) |
| `HpackCoalesce.v`, `PropsCoalesce.v` | runs of table size updates (C113) |
| `HpackReach.v`, `PropsReach.v` | which encoder and decoder states occur (C114) |
| `HpackTrust.v`, `PropsTrust.v` | exactly when an out-of-step decoder is complete, and when truthful (C115) |
| `HpackLoss.v`, `PropsLoss.v` | blocks lost, repeated or reordered (C116) |
| `ProtosLang.v`, `PropsLang.v` | the language of messages, cuts and overwriting in place (C117) |
| `HpackOpaque.v`, `PropsOpaque.v` | runs that differ in strings only (C118) |
| `HpackChoice.v`, `PropsChoice.v` | the same headers compressed differently (C119) |
| `HpackRecover.v`, `PropsRecover.v` | a decoder out of step that recovers by itself, or never (C120) |
| `HpackProbe.v`, `PropsProbe.v` | what probing can learn about a stored field (C121) |
| `HuffMatrix.v`, `HuffCount.v`, `PropsMatrix.v` | what a flattened table says about the code (C122) |
| `HpackConform.v`, `PropsConform.v` | blocks of any RFC 7541 encoder (C96) |
| `HpackTidy.v`, `PropsTidy.v` | flag bits (C97), tables without duplicates (C98) |
| `HpackOnce.v`, `PropsOnce.v` | repeated headers: each sent in full at most once (C101) |
| `PropsBatch.v` | decoding in batches (C102) |
| `PropsLimit.v` | results as a function of the limit (C103) |
| `PropsProtos11.v` | state of the protobuf decoder (C104) |
| `PropsExact.v` | number of headers decode_exact gives (C105) |
| `PropsWait.v` | what the HPACK decoder waits for (C106) |
| `PropsProtos12.v` | what the protobuf decoder waits for (C107) |
| `PropsProtos13.v` | unfinished protobuf fields and their completions (C110) |
| `ErrorText.v`, `PropsErrors.v` | messages of the errors, and which are seen (C108) |
| `HpackHope.v`, `PropsHope.v` | unfinished header blocks and their completions (C109) |
| `ProtosForeign.v`, `PropsForeign.v` | messages of any protobuf writer (C99) |
| `ProtosCanon.v`, `PropsCanon.v` | the shortest encoding of a message (C100) |
| `ProtosLength.v`, `PropsProtos7.v` | sizes of protobuf fields, messages and nested messages (C86) |
| `ProtosEvolve.v`, `PropsProtos8.v` | unknown fields and the order of fields (C88) |
| `PropsProtos10.v` | repeated fields end to end, in any grouping (second part of C65) |
| `ProtosRetry.v`, `PropsProtos9.v` | calling encode again after Interrupted (C89) |
| `HuffMore.v`, `HpackMore.v`, `HpackMore2.v`, `HpackUnique.v`, `HpackCap.v`, `PropsMore.v` | proofs and theorems C52-C62, C74, C75 |
| `ProtosModel.v` | model of the protos crate |
| `Utf8.v` | UTF-8 text and white space |
| `ProtosSpec.v`, `ProtosApi.v` | wire format; messages and streams of decoder calls |
| `ProtosNum.v`, `ProtosEnc.v`, `ProtosConv.v`, `ProtosUtf8.v`, `ProtosDec.v`, `ProtosDerived.v` | proofs |
| `PropsProtos.v` | property theorems C35-C48 |
| `ProtosMore.v`, `PropsProtos2.v` | proofs and theorems C63-C70 |
| `ProtosIo.v`, `ProtosIoProofs.v`, `PropsProtos3.v` | the protos encoder over an arbitrary `io::Write`, its specification, C71 and C72 |
| `ProtosWidth.v`, `PropsProtos4.v` | the protos decoder where usize has w bits, C73 |
| `Conformance.v` | generated: the test vectors of /repo reproduced by the model (tests of the model, not properties) |

`Props*.v` hold the property theorems (`C<nn>_...`), with
`Print Assumptions` after each, and `Example`s showing that hypotheses are satisfiable.

## Per property plan

Huffman

* C01 round trip: corollary of C02 and C04 (spec level: codes ++ ones splits uniquely).
* C02 encoder: loop invariant "accumulator mod 2^40 = value of pending bits shifted by bits_left".
* C03 speed independence: corollary of C04 (verdict and dst are functions of the bits alone).
* C04 accepted set: simulation of the table driven reader by a bit-at-a-time
  tree walk; each table is checked cell by cell against the code (finite
  `vm_compute`, lifted), reader invariant by induction over the input.
* C05 first half corollary of C04; second half `_refuted` with a witness, plus exact extent.
* C06 corollary of C04 (EOS prefix makes the split impossible).
* C07 debug/release agreement and no panic: same simulation, all checked subtractions shown safe.
* C08 finite check lifted to all bit strings.
* C09 `vm_compute` equality (the domain is finite: five speeds).
* C10 general flattener correctness: `HuffTree.v` defines the bit-by-bit walk of a
  code tree; invariant over codes added so far relating matrix rows to tree nodes. The converse (`HuffFlatIff.v`): pointers are never overwritten, the 257th row leaves a pointer 0, and a symbol is only written at the end of its own computed path.
  The 256 row bound is a hypothesis on the code tree and is shown sharp.
* C51 exact panic condition of `flatten` for every table: a weaker invariant
  (matrix shape, row numbers in range), no prefix-freeness needed.
* C11 parser: characterisation per line, for every UTF-8 text as a list of lines, + asset evaluation.
* C12 corollary of C01 and C02.

HPACK

* C13, C14 integer codec: induction over 7-bit groups.
* C15 refuted: exact characterisation of the panicking inputs + witnesses.
* C16 string literals: from C01, C13.
* C17, C18 dynamic table: invariant over operation lists; "longest prefix that fits" spec.
* C19, C20 address space and search: list lemmas.
* C21, C22, C33: the RFC 7541 section 6 grammar is an inductive relation between
  octets, table and effect; encoder output is in it, decoder is sound and
  complete for it within its integer limit; session theorem by induction over operations.
* C23, C24, C31: case analysis on every error exit; the `> u32::MAX` case refuted.
* C25, C34: monotonicity of the representation decoder under appended bytes.
* C26: invariant over API histories.
* C27, C28, C30: positive part + `_refuted` witness.
* C29, C32: induction over the buffer.

Sizes and interoperability (second round)

* C52, C53, C54 Huffman: from the exact characterisation of C04 (every code has at least 5 bits; uniqueness of splits).
* C55 sessions against the RFC grammar with 6-octet integers instead of the crate's own decoder: induction over operations.
* C56 the same sessions against the crate's decoder: a representation outside its integer limit is shown to be
  reported in front of the offending octets.
* C57 two-run simulation of all encoder functions (buffers differ by a prefix).
* C58 minimality of integers lifted to representations; C59 from C58 and the bound on indices.
* C60, C61 induction over the block with a potential per octet; C62 corollary of C21.

Protos

* C35, C36 varint: induction over 7-bit groups; over-long case characterised.
* C37–C41: per literal kind.
* C42, C43: induction over field list; refutation of one-call decoding for empty payloads.
* C44–C48: small-step view of the resumable decoder; each step consumes a
  definite wire item; split invariance by confluence on appended bytes.
* C63 induction over message trees (nested induction over field lists), from C42's round trip.
* C64, C65: the exact readings of C36/C41 applied to the octets of another encoder.
* C66, C67: corollaries of the field list round trip and of the uniqueness of shortest varints.
* C68, C69: induction over the decoder's steps; C70 from the exact octets of C37.
* C71: the encoder is generic in `write_all`; a parametricity argument shows that it sends a list of chunks
  fixed by the field, then induction over chunks and over the calls `write_all` makes to the writer.
* C72: case analysis on where the cut falls (key, length, payload), then C44.
* C73: the step analysis of C44-C48 repeated with lengths modulo 2^w; the divergence is computed.
* C74 (huffman): the invariant of C04 with the width as a parameter: partial codes have at most 29 bits.
* C75: `decode` with arbitrary capacities (`hdecode_caps`), by induction on the buffer over the parse of C24.
* C76: an invariant (calls done / in the buffer / on the wire) over arbitrary event lists; decode_exact on encoder output by induction on the calls; the harness (`conn_step`) is ours, its steps are the modelled API calls.
* C77: the model repeated with w-bit arithmetic, equality by the size bounds of C17 and C60; it also justifies the unwrapped sum in `table_insert`.
* C78: case analysis on the encoder: without 0x4 the table is returned unchanged, so induction over two sessions in lockstep; `C78_best_format_leaks` shows why 0x10 is excluded.
* C79: induction over hops and messages from C62; the harness (`relay`) is ours.
* C80: invariant over the events of C76 with octet-wise delivery; the octets in the buffer
  and on the wire always are the encoding, from the decoder's table, of the operations not
  yet read. The harness (`stream_step`) is ours; its steps are the modelled API calls.
* C81: invariant "decoding the rest to the end gives everything" over sends, deliveries and
  decode calls (`ProtosSession.v`); the harness (`pstep_event`) is ours.
* C82: every emitted field is a wire field of the input (C48); its conversion and the encoding of
  the literal are inverse up to the length of varints; the forwarder (`forward_lit`) is ours.
* C83: simulation between two tables of which one extends the other (`fit` is monotone in the
  list and the bound); for a smaller decoder table a reference beyond it is out of range, never
  shifted, because both number from the newest entry. Recovery: size 0 empties both tables.
* C84: `next` is modelled call by call (`HpackIter.v`) and the `for` loop of the model shown to
  be made of these calls; induction over the number of calls.
* C85: every wire form of a representation has at least `repr_octets` octets and one has exactly
  as many, so the shortest one (C58) has; bounds and the session theorem follow by induction.
* C86: lengths of the octets `lit_wire` and `field_wire` prescribe are the explicit numbers of
  `field_octets` (binary logarithm over seven), and C41's `pencode` theorem says the encoder writes
  those octets; messages and trees by induction. `C86_small` ties the side condition of the other
  protobuf theorems to this number.
* C87: `fit max (a ++ fit max l) = fit max (a ++ l)`: forgetting early or late is the same, so the
  table is the longest fitting run of the whole history; induction over the calls (encoder) or the
  representations (decoder), then C20 and C85 for the repeated field.  With size changes: the table after
  a list of events, by induction from the newest event; its k-th entry is there iff all conditions held.
* C88: the octets of a literal are unique (`lit_wire` is a function of the literal), so the decoded
  fields are determined by the encoded ones field by field (C42), and filters commute with that.
* C89: partial, the full statement is refuted.  By C71 a failed call leaves a strict prefix `got` of the
  field's octets `bs`, a successful one `bs`.  If `got` is not empty, `got ++ bs` is not read as the field:
  either `got` ends inside the key, then the key read is the key with further groups below it, a larger
  number; or the key is read and the length or payload does not fit, by counting octets.
* C90: each representation emits at most one header, whose strings are table entries or string literals
  among its octets, and leaves a prefix of the stored headers and old entries; induction over the
  representations given by C24/C29.
* C91: the functions with float expressions are modelled again on `Coq.Floats.SpecFloat`; the expression
  is compared with the integer ceiling for all u8 values and speeds by computation, which covers the
  flattener's types, and the decoder because fewer than `speed` bits are left at the end (invariant `Rep`).
* C92: the block is cut before the update (`hdecode_concat`), the update is one representation
  (`hdecode_ok`), and the rest is decoded from the table left. That the decoder does not enforce the
  place of updates or ask for one after the limit was lowered is `C92_position_refuted`.
* C93: a predicate on functions of the destination, closed under the model's sequencing operators,
  shown for each function by following its definition; nothing is assumed about state or input.
* C94: at bit level; a misaligned join would make the codes of b equal to themselves shifted by ones,
  so all ones, and no byte has such a code.
* C95: one direction is a simulation on the abstract tables; for the other, a reference tells entries
  apart, an update limits, and filling the table exactly (entries of 32 octets behind one that takes up
  the remainder) and referring to the oldest tells maxima apart.
* C96: every RFC representation either is in the decoder's grammar or carries the fault Long whatever follows
  it; the block is split at the first of the second kind and both halves are settled by the decoder theorem.
* C97: the bit tests of the code are tests of single bits (C22); the two encodings are compared branch by branch.
* C98: the representation chosen with 0x10 is a literal only if find has no equal line (C20), insertion keeps a
  prefix of the new line and the old ones, and prefixes of a list without duplicates have none.
* C99: a specification of what any writer may write (padded varints, congruent numbers, nesting) stands beside the one of what Encoder writes; padded varints are read like shortest ones (C36), so each record is one key, at most one length and one payload of the stream (C43), and induction over the nesting gives the values.
* C100: the specification allows any padding of any varint; a shortest varint is unique and its length grows with the number, so shorter payloads give lengths that are not longer, and induction over the nesting adds this up; equality of the total length forces equality of each part.
* C101: a header stored with the best format is not in the table at that moment, so the headers stored during a session are distinct and fit the table together; by induction over the calls none of them is evicted. Octets: C85 for the headers in full, the index bound for the others.
* C102: the loop with capacity a + b is the loop with a followed by the loop with b (induction on a); decode is the loop with at least as much capacity as there are representations (C28's exact account of decode_exact).
* C103: the meaning of a block depends on the limit only at its size updates; the threshold is the largest update processed under the largest limit an update can reach. C24 turns this into the result of decode.
* C104: C47's account of one call gives the states; two states differ on as many zero octets as the shorter one needs to complete its field (a new decoder refuses a zero key).
* C105 (partial): from the account of decode_exact (C25); every representation but a size update gives one header, so the first capacity-many representations are the first capacity-many headers. Two refutations for the full statement.
* C106: from the account of decode (C24): a cut representation has less than an integer of five octets and two strings, whose announced lengths are below 2^28+127; finality is C25.
* C107 (partial): from C47's account of one call, which is an equivalence for a call without progress; refuted by continuation octets of any number.
* C108: the Display impls are modelled in `ErrorText.v`; which errors occur follows from C04, C23, C24, C31, C41, C45.
* C109 (partial): a cut representation (C24) is either completed explicitly (least end of the integer, filled strings, the rest of a Huffman code and padding) or excluded because the representation of any completion has the same parts (uniqueness of integers, strings, representations; prefix-freeness of the code).
* C110 (partial): fields are completed explicitly after the key; for keys, groups to come only set bits, which within ten octets are above the place reached (debug) and beyond can be any (release, folding of C36).
* C111: the relation is a bisimulation (a line of one table is found at least as soon in the other, so searches agree; what is evicted depends on sizes only); each difference has a distinguishing sequence of at most three calls (a size update and an index for sizes, an insertion under the name and a search for names, a search for values, one entry of exactly the larger maximum for maxima).
* C112: the octets of a session are a sequence of representations (C55) that can be split in one way only (uniqueness of integers, strings and first octets), so equal octets give equal representations, which mean the same from the same table; conversely a representation has one shortest encoding (C58).
* C113: fitting entries to one size after another fits them to the smaller; the decoder reads a run of updates as one change of table (C34).
* C114: invariants one way (received strings and updates are bounded by the 5-octet integers); the other way, empty the table by an update to 0 and store the wanted entries oldest first, which a decoder follows (C16, C23).
* C115: sufficiency by simulation (the relation between the two tables survives insertion, eviction and updates); necessity by histories that tell: a reference to the first index at which the tables differ, and, if the encoder's maximum is larger, literals that fill its table to the last octet followed by a reference to the oldest.
* C116: a caller on each side and a network that delivers any list of the vectors sent; quiet blocks leave the encoder's table alone and a decoder in step unchanged, self-contained blocks are shown independent of the table call by call, and the remaining blocks form a session of their own (induction over the arrivals).
* C117: the decoder's total run (C48's items) regrouped by field gives the records; records are prefix-free because varints are; the rest is induction over the record lists.
* C118: a relation on strings lifted to lines, tables, representations, headers and calls; `interp`, `fit`, `lookup` and `find_spec` respect it (induction over the representations or calls), and the decoder and the encoder are these by C24 and C33, with octet counts from C85.
* C119: what is asked for is read off the encoder's own tables call by call; by induction over the calls it is what the session means (C21), which is what the decoder reports.
* C120: by induction over the calls the octets of table-free calls are the same for every table, so the decoder may be paired with an encoder that has its own table (C21); the two tables then are the histories cut to the maximum size, which are equal exactly if the first difference is cut off; the repeated reference is computed.
* C121: relational induction over the calls: related tables (equal names and lengths, entries equal unless not asked for) give the same search results, octets and related tables; one guess is read back by the uniqueness of representations (C112), its length by C85.
* C122: C10 gives that the matrix represents the code tree; by induction on depth two trees represented by one matrix have the same node at each row and the same code for each symbol; a blank cell is a chunk along which the walk dies, found by cutting a bit string into chunks, and conversely completed with zeros to a string no code begins. The number of branchings of a complete code is counted by induction on the longest code (`HuffCount.v`).

## Trusted base

* Coq 8.16.1's kernel, including its `vm_compute` reduction machine (used for the
  finite table checks).  No `native_compute`.
* `Print Assumptions` is run after every property theorem and prints "Closed under
  the global context" for each one: no axiom, neither of ours nor of the standard
  library, is used by any theorem.
* `coqchk` also lists the seven `Coq.ssr.ssrunder.Under_rel.*` constants.  They are
  parameters of a module in Coq's own standard library that is loaded (through
  `Lia`/`Zify`), not used: no theorem depends on them, as Print Assumptions shows.
* The reading of Rust given under "Modelling conventions" and in the comments of
  the `*Model.v` files, each definition of which cites the lines it models.
* As evidence for that reading, `Conformance.v` (generated by
  `tools/gen_conformance.py`) evaluates the model, in both build modes, on every
  encode/decode vector of /repo's own tests, RFC 7541 Appendix C.3-C.6 included, and
  checks the results the tests assert; of the http2jp stories in /repo/hpack/fixtures
  it has the first three per encoder.  `tools/run_fixtures.py` runs the extracted
  model on all 47142 blocks of these stories (all headers agree, in both modes).
* `tools/gen_tables.py`, which copies the tables from /repo into the three
  generated files.  (C08, C11 prove the generated encoder table equal to the RFC
  listing in /repo/huffman/assets, and C04/C09 check the decoder tables against it.)

Assumptions about what is outside the repository:

* `usize` is 64 bits, except that the Huffman decoder (`decode_on`), the protos
  decoder (`pdecode_on`, C73) and the hpack crate (`..._on` of `HpackWidth.v`, C77)
  are also modelled for any width; allocation does not fail; slices and `Vec`s have fewer than
  2^63 octets where a theorem says so.
* `Vec::with_capacity(n)` gives capacity at least n and `Vec` growth is arbitrary;
  the one place where the code reads a capacity (`decode_exact`) takes the
  capacity as a parameter.  C49's positive half says "capacity one".  `hdecode` takes
  `with_capacity(1)` to be exactly one; C75 shows what any other capacity changes.
* `io::Write` is a `Vec<u8>` (never fails) or a writer with a fixed amount of room
  (`&mut [u8]`), whose `write` takes what fits; in C71 and C72 it is any writer that
  does not claim to have taken more than it was given, driven by the provided
  `write_all` of std (loop until done, retry on Interrupted, error on 0 or on error).
* `f32`/`f64` travel as bit patterns: `to_le_bytes`/`from_le_bytes` are exact.
* `String::from_utf8` is modelled by Unicode table 3-7 (`ProtosModel.v`) and proved
  equal to "is the encoding of a sequence of scalar values" (`ProtosUtf8.v`).
* `str::lines` (both its old and new treatment of a CR at the end of the text),
  `trim` (Unicode White_Space, octet by octet), `&str` slicing (panics inside a
  character) and `u32::from_str_radix` (parser), on any UTF-8 text.
* `as f32`, `as f64`, `/`, `ceil` and `as usize` follow IEEE 754 as specified by Coq's
  `SpecFloat` (C91; the model proper uses integer ceilings, proved equal).

## What is modelled and what is not

Modelled, function by function:

* huffman: `encode`, `decode`, `DecodeReader` (all methods), the five decode tables,
  the encode table, `flatten`, `generate_blank_transition`, `generate_coding_paths`,
  `parse`.
* hpack: `Encoder` (constructors, `max_dynamic_size`, `encode`, `encode_indexed`,
  `encode_indexed_name`, `encode_literal`, every flag, `update_max_dynamic_size`),
  `Decoder` (constructors, getter and setter, `decode`, `decode_exact`, every
  representation), `Table`, `DynamicTable`, `TableIter`, the static table,
  `encode_integer`, `encode_string`, `decode_integer`, `decode_string`.
* protos: `Encoder` (every `EncoderLit`, `encode`), `Decoder` (`decode`, all states),
  the `decode_*`/`encode_*` helpers, `Typ`/wire type numbers, the literal conversions.

The `Display` impls of the six error types are modelled in `ErrorText.v`.

Not modelled: memory allocation failure, `Debug` and `Error` impls and
other derived traits, performance, benches, examples and tests.
