{"id": "C01", "title": "Huffman round trip", "statement": "For every byte string s and every decoder speed, decoding what `httlib_huffman::encode` wrote for s succeeds and yields exactly s, appended to whatever the destination already held.", "quantifier": "all byte strings of any length, all previous contents of the destination, all five speeds, debug and release builds", "why_tests_cant": "The bit offset of every symbol depends on all symbols before it; a test corpus samples a vanishing part of the strings and of the leftover/padding alignments.", "anchors": ["huffman/src/encoder/mod.rs:encode", "huffman/src/decoder/mod.rs:decode", "huffman/src/decoder/reader.rs:DecodeReader"]}
{"id": "C02", "title": "Huffman encoder output is the RFC 7541 bit string", "statement": "`encode` never fails or panics; it appends to dst exactly the octets whose bits are the RFC 7541 Appendix B codes of the source bytes in order, followed by fewer than eight 1 bits to reach an octet boundary (nothing is appended for the empty source), and it leaves the previous contents of dst alone.", "quantifier": "all byte strings, all previous contents of dst, both build modes", "why_tests_cant": "A 64-bit accumulator is reused for the whole input; only an argument about every alignment shows that no bit is lost or duplicated.", "anchors": ["huffman/src/encoder/mod.rs:encode", "huffman/src/encoder/table.rs:ENCODE_TABLE", "huffman/assets/hpack-huffman.txt"]}
{"id": "C03", "title": "Decoding speed never changes the result", "statement": "`decode` gives the same verdict and writes the same bytes to dst for all five speeds, on valid and on invalid input. `DecoderSpeed::known()` lists every speed exactly once.", "quantifier": "all byte strings (valid or not), all pairs of speeds", "why_tests_cant": "Five different translation tables with up to 2000 entries and different chunk alignments have to agree on every input.", "anchors": ["huffman/src/decoder/reader.rs:decode_next", "huffman/src/decoder/reader.rs:finalize", "huffman/src/decoder/table1.rs", "huffman/src/decoder/table2.rs", "huffman/src/decoder/table3.rs", "huffman/src/decoder/table4.rs", "huffman/src/decoder/table5.rs"]}
{"id": "C04", "title": "Exact set of accepted Huffman strings", "statement": "`decode` succeeds exactly when the input bits split into codes of byte symbols followed by a tail that contains no further complete code (nor EOS) and whose numeric value is 0,1,3,7,15,31,63 or 127; then it appends exactly those symbols. Otherwise it returns InvalidInput and dst has received exactly the symbols before the offending point.", "quantifier": "all byte strings, all speeds, all previous contents of dst", "why_tests_cant": "Both directions quantify over all byte strings; tests can show neither that nothing else is accepted nor what is left in dst on failure.", "anchors": ["huffman/src/decoder/mod.rs:decode", "huffman/src/decoder/reader.rs:finalize"]}
{"id": "C05", "title": "Huffman padding is checked as RFC 7541 section 5.2 requires", "statement": "Padding longer than 7 bits, and padding that is not the most significant bits of EOS (all ones), must be rejected. (The second half fails for this code: zero bits are accepted as padding.)", "quantifier": "all byte strings and speeds", "why_tests_cant": "Needs all possible tails after all possible symbol sequences; existing tests only try three bad paddings.", "anchors": ["huffman/src/decoder/reader.rs:finalize"]}
{"id": "C06", "title": "EOS is never accepted", "statement": "Whenever the 30-bit EOS code occurs at a symbol boundary of the input, decode returns InvalidInput, whatever follows.", "quantifier": "all symbol prefixes, all following bits, all speeds", "why_tests_cant": "EOS may occur at any bit offset of an arbitrarily long input.", "anchors": ["huffman/src/decoder/reader.rs:decode_next"]}
{"id": "C07", "title": "Huffman decoding never panics or loops", "statement": "`decode` terminates on every input with Ok or InvalidInput; no arithmetic overflow or index error occurs in debug or release build, and both builds agree.", "quantifier": "all byte strings, all speeds, both build modes", "why_tests_cant": "Absence of panics on arbitrary network input cannot be sampled.", "anchors": ["huffman/src/decoder/reader.rs:decode", "huffman/src/decoder/reader.rs:decode_next", "huffman/src/decoder/reader.rs:finalize", "huffman/src/decoder/reader.rs:find_target"]}
{"id": "C08", "title": "Encode table is the RFC code, prefix-free and complete", "statement": "ENCODE_TABLE equals the code listed in RFC 7541 Appendix B for each of the 257 symbols; no code is a prefix of another and every sufficiently long bit string starts with exactly one code.", "quantifier": "all 257 symbols, all pairs of symbols, all bit strings", "why_tests_cant": "Unique decodability is a statement about all bit strings.", "anchors": ["huffman/src/encoder/table.rs:ENCODE_TABLE", "huffman/assets/hpack-huffman.txt"]}
{"id": "C09", "title": "Shipped translation tables are what flatten generates", "statement": "`flatten(&ENCODE_TABLE, speed)` returns exactly DECODE_TABLE of tableN.rs for the five speeds, without panicking.", "quantifier": "all five speeds and all table cells", "why_tests_cant": "No test in the repository compares the generated with the shipped tables.", "anchors": ["huffman/src/flattener/mod.rs:flatten", "huffman/src/flattener/mod.rs:generate_coding_paths", "huffman/src/decoder/table1.rs:DECODE_TABLE", "huffman/src/decoder/table2.rs:DECODE_TABLE", "huffman/src/decoder/table3.rs:DECODE_TABLE", "huffman/src/decoder/table4.rs:DECODE_TABLE", "huffman/src/decoder/table5.rs:DECODE_TABLE"]}
{"id": "C10", "title": "Flattened tables decode any prefix-free code", "statement": "For every prefix-free code table the matrix returned by `flatten` maps each (row, chunk) to the symbol completed by that chunk and its leftover, or to the row reached, exactly as walking the code tree bit by bit does, if and only if every code has at least one bit and, padded to whole chunks, loses none of them in the u32 it is shifted in, and the tree has at most 256 nodes at chunk boundaries (any number of codes, codes of any length).", "quantifier": "all prefix-free code tables and speeds", "why_tests_cant": "Quantifies over all code tables.", "anchors": ["huffman/src/flattener/mod.rs:flatten", "huffman/src/flattener/mod.rs:generate_coding_paths", "huffman/src/flattener/mod.rs:generate_blank_transition"]}
{"id": "C11", "title": "Parser reads the RFC table format", "statement": "`parse` splits any text at LF or CR LF and returns one (length, code) pair per line: for every line in RFC layout the number of 0/1 digits in the bit columns and the hexadecimal number in the code columns (surrounded by white space of any kind); on the shipped asset it returns exactly ENCODE_TABLE. It panics exactly when some line is too short, has another byte in the bit columns, or has no 32-bit hexadecimal number in the code columns (including columns that cut a multi-octet character).", "quantifier": "all UTF-8 texts, well-formed or not", "why_tests_cant": "All texts; the shipped test looks at three lines.", "anchors": ["huffman/src/parser/mod.rs:parse", "huffman/src/parser/mod.rs:parse_line", "huffman/assets/hpack-huffman.txt"]}
{"id": "C12", "title": "Huffman encoded size and injectivity", "statement": "The number of octets appended by `encode` is the total code length divided by 8 rounded up (so at most 4 octets per byte), and two different strings never have the same encoding.", "quantifier": "all pairs of byte strings", "why_tests_cant": "Quantifies over all pairs of strings.", "anchors": ["huffman/src/encoder/mod.rs:encode"]}
{"id": "C13", "title": "HPACK integer round trip and limits", "statement": "For every u32 value, prefix size 1..8 and flag bits, the decoder reads back the value written by the encoder, consuming exactly its octets whatever follows, if the value is below 2^prefix-1+2^28; for larger values the decoder reports IntegerOverflow.", "quantifier": "all u32 values, prefix sizes, flags, following bytes", "why_tests_cant": "2^32 values x 8 prefixes x arbitrary following bytes.", "anchors": ["hpack/src/encoder/primitives.rs:encode_integer", "hpack/src/decoder/primitives.rs:decode_integer"]}
{"id": "C14", "title": "HPACK integer encoding follows RFC 7541 section 5.1", "statement": "The octets written have the flag bits (restricted to the bits above the prefix) in the first octet, the value in the prefix if it fits, otherwise all ones followed by little-endian 7-bit groups with continuation bits, minimal in number; a prefix size outside 1..8 is rejected with InvalidPrefix and nothing is written.", "quantifier": "all u32 values, prefix sizes, flags", "why_tests_cant": "2^32 values x 256 prefixes x 256 flags.", "anchors": ["hpack/src/encoder/primitives.rs:encode_integer"]}
{"id": "C15", "title": "Truncated HPACK input is reported, not a crash", "statement": "Decoding a header block that stops in the middle of an integer or before a string length must return IntegerUnderflow. (Fails: the decoder panics with an index out of bounds; the exact panicking inputs are characterised.)", "quantifier": "all byte strings and decoder states", "why_tests_cant": "Crash freedom on arbitrary input and the exact crash set are universal statements.", "anchors": ["hpack/src/decoder/primitives.rs:decode_integer", "hpack/src/decoder/primitives.rs:decode_string", "hpack/src/decoder/mod.rs:decode_literal"]}
{"id": "C16", "title": "HPACK string literal round trip", "statement": "For every byte string, with and without Huffman coding, and for every decoder speed, the decoder reads back the string written by the encoder and consumes exactly its octets whatever follows, provided the coded length is below 2^28+127.", "quantifier": "all byte strings, both codings, all speeds, all following bytes", "why_tests_cant": "Unbounded strings and continuations.", "anchors": ["hpack/src/encoder/primitives.rs:encode_string", "hpack/src/decoder/primitives.rs:decode_string"]}
{"id": "C17", "title": "Dynamic table accounting and bound", "statement": "After any sequence of insertions and size updates the reported dynamic size equals the sum over the entries of name length + value length + 32, never exceeds the current maximum, and eviction terminates without panicking.", "quantifier": "all sequences of insert / update_max_dynamic_size from an empty table of any maximum", "why_tests_cant": "All histories.", "anchors": ["hpack/src/table/dynamic.rs:DynamicTable", "hpack/src/table/mod.rs:Table"]}
{"id": "C18", "title": "Eviction is first-in first-out as in RFC 7541 section 4.4", "statement": "Insertion leaves the new entry at index 62 followed by the longest run of the most recent old entries that still fits; an entry larger than the maximum empties the table; a size update keeps the longest run of the most recent entries that fits; relative order is never changed.", "quantifier": "all table contents, entries and maxima", "why_tests_cant": "All table states.", "anchors": ["hpack/src/table/dynamic.rs:insert", "hpack/src/table/dynamic.rs:consolidate", "hpack/src/table/dynamic.rs:update_max_size"]}
{"id": "C19", "title": "Index address space", "statement": "Index 0 and any index beyond 61 + number of dynamic entries yield nothing; 1..61 yield the RFC 7541 Appendix A static entries regardless of history; 61+k yields the k-th most recently inserted live entry. Iteration lists exactly these entries in index order.", "quantifier": "all tables reachable by any history, all u32 indices", "why_tests_cant": "All histories and indices.", "anchors": ["hpack/src/table/mod.rs:get", "hpack/src/table/iter.rs:TableIter", "hpack/src/table/static.rs:STATIC_TABLE"]}
{"id": "C20", "title": "Table search is correct and minimal", "statement": "`find(name,value)` returns the smallest index with equal name and value if there is one, otherwise the smallest index with equal name flagged as name-only, otherwise nothing.", "quantifier": "all tables, names and values", "why_tests_cant": "All table states and queries.", "anchors": ["hpack/src/table/mod.rs:find"]}
{"id": "C21", "title": "Encoder and decoder stay synchronised over a whole session", "statement": "Whatever sequence of fields (indexed, indexed name, literal; any flags) and size updates within the decoder's limit is encoded, decoding the concatenated output with a decoder created with the same table size yields the same headers in the same order, consumes everything, and leaves both dynamic tables identical; refused fields have no effect on either side. (Holds for coded strings of at most 2^28+126 octets and size updates of at most 2^28+30; fails beyond, because the encoder writes 6-octet integers the decoder refuses.)", "quantifier": "all finite sequences of encoder operations, all flag bytes, all initial sizes, both Huffman choices", "why_tests_cant": "Correctness of a later index depends on the complete history of insertions and evictions on both sides.", "anchors": ["hpack/src/encoder/mod.rs:Encoder", "hpack/src/decoder/mod.rs:Decoder"]}
{"id": "C22", "title": "One encoded field decodes to itself", "statement": "For every pair of encoder and decoder with equal tables, a field whose index exists and whose coded strings have at most 2^28+126 octets is encoded successfully and decodes to the same name and value with the flag bits of the representation used, consuming exactly its octets whatever follows, and both tables change identically.", "quantifier": "all table states, fields, flags, following bytes", "why_tests_cant": "All states and fields.", "anchors": ["hpack/src/encoder/mod.rs:encode", "hpack/src/encoder/mod.rs:encode_indexed", "hpack/src/encoder/mod.rs:encode_indexed_name", "hpack/src/encoder/mod.rs:encode_literal", "hpack/src/decoder/mod.rs:decode_exact"]}
{"id": "C23", "title": "A failed encode has no effect", "statement": "When an encoder operation returns an error, neither the output buffer nor the table has changed, so encoder and decoder remain synchronised. (Holds for every InvalidIndex failure; fails for strings whose coded length exceeds u32::MAX.)", "quantifier": "all states and operations", "why_tests_cant": "All states; the failing case needs 4 GiB inputs.", "anchors": ["hpack/src/encoder/mod.rs:encode_indexed_name", "hpack/src/encoder/mod.rs:encode_literal", "hpack/src/encoder/primitives.rs:encode_string"]}
{"id": "C24", "title": "A failed decode keeps what was decoded and the undecoded rest", "statement": "When decode returns an error, the buffer holds exactly the part of the input from the start of the representation that failed, dst holds the previous contents plus the headers of the representations before it, and the dynamic table is as if only those had been processed.", "quantifier": "all inputs, decoder states and failure points", "why_tests_cant": "All failure points of all inputs.", "anchors": ["hpack/src/decoder/mod.rs:decode", "hpack/src/decoder/mod.rs:decode_exact", "hpack/src/decoder/mod.rs:decode_literal"]}
{"id": "C25", "title": "Header blocks may be split anywhere", "statement": "If decode of a first part ends without panic in success or IntegerUnderflow, then appending the second part to what is left in the buffer and decoding again yields the same headers, table and verdict as decoding the whole block at once.", "quantifier": "all byte strings, all split points, all decoder states", "why_tests_cant": "All splits of all inputs.", "anchors": ["hpack/src/decoder/mod.rs:decode"]}
{"id": "C26", "title": "Table size signals cannot exceed the protocol limit", "statement": "A size update above the decoder's limit is rejected with InvalidMaxDynamicSize, changing nothing; consequently the decoder's dynamic table never holds more octets than the largest limit ever configured, whatever the peer sends.", "quantifier": "all interleavings of set_max_dynamic_size and decode calls on arbitrary bytes", "why_tests_cant": "All histories of peer-controlled input.", "anchors": ["hpack/src/decoder/mod.rs:update_max_dynamic_size", "hpack/src/decoder/mod.rs:set_max_dynamic_size"]}
{"id": "C27", "title": "Never-indexed fields stay out of the table and are marked", "statement": "A field encoded with NEVER_INDEXED is never inserted in either table and the decoder reports it with NEVER_INDEXED. (Holds when neither WITH_INDEXING nor BEST_FORMAT is set; fails otherwise, with witnesses.)", "quantifier": "all fields, table states and flag bytes", "why_tests_cant": "All flag combinations in all table states.", "anchors": ["hpack/src/encoder/mod.rs:encode", "hpack/src/encoder/mod.rs:encode_literal", "hpack/src/decoder/mod.rs:decode_literal"]}
{"id": "C28", "title": "Byte count returned by decode", "statement": "The count returned by decode equals the number of octets removed from the buffer. (Fails when the block contains a table size update; it equals the octets of the header representations.)", "quantifier": "all inputs that decode successfully", "why_tests_cant": "All inputs.", "anchors": ["hpack/src/decoder/mod.rs:decode_exact"]}
{"id": "C29", "title": "decode_exact processes at most capacity representations", "statement": "decode_exact processes representations until the buffer is empty or as many as the destination's capacity have been processed, never more, and stops at a representation boundary.", "quantifier": "all inputs, capacities and decoder states", "why_tests_cant": "All inputs and capacities.", "anchors": ["hpack/src/decoder/mod.rs:decode_exact"]}
{"id": "C30", "title": "The configured limit can be read back", "statement": "After set_max_dynamic_size(n), max_dynamic_size() returns n. (Fails: it returns the table's current maximum.)", "quantifier": "all sizes and decoder states", "why_tests_cant": "All states.", "anchors": ["hpack/src/decoder/mod.rs:max_dynamic_size", "hpack/src/decoder/mod.rs:set_max_dynamic_size"]}
{"id": "C31", "title": "Invalid indices are rejected on both sides", "statement": "An indexed field or indexed name whose index is 0 (indexed field) or not in the table is refused with InvalidIndex by encoder and decoder, leaving table, output and input unchanged.", "quantifier": "all states and indices", "why_tests_cant": "All states and indices.", "anchors": ["hpack/src/encoder/mod.rs:encode_indexed", "hpack/src/decoder/mod.rs:decode_indexed", "hpack/src/decoder/mod.rs:decode_literal"]}
{"id": "C32", "title": "HPACK decoding terminates", "statement": "decode and decode_exact terminate on every input: each processed representation removes at least one octet.", "quantifier": "all inputs and states", "why_tests_cant": "All inputs.", "anchors": ["hpack/src/decoder/mod.rs:decode", "hpack/src/decoder/mod.rs:decode_exact"]}
{"id": "C33", "title": "Everything the encoder writes is RFC 7541 section 6 wire format, everything the decoder accepts too", "statement": "Each successful encoder call appends exactly one representation of RFC 7541 section 6 denoting the field; each representation processed by the decoder is one of the section 6 forms and is interpreted as section 6 and 2.3 prescribe.", "quantifier": "all states, fields, inputs", "why_tests_cant": "Interoperability with any other implementation is a statement over all wire strings.", "anchors": ["hpack/src/encoder/mod.rs", "hpack/src/decoder/mod.rs"]}
{"id": "C34", "title": "Decoding a concatenation is decoding the parts in turn", "statement": "If decoding a first block succeeds, decoding it followed by a second block gives the same headers, table and verdict as decoding the two blocks one after the other, and the counts add up.", "quantifier": "all pairs of byte strings and states", "why_tests_cant": "All pairs of inputs.", "anchors": ["hpack/src/decoder/mod.rs:decode"]}
{"id": "C35", "title": "Varint round trip and minimality", "statement": "For every u64 the varint written decodes to the same value, consuming exactly its octets whatever follows; its length is the number of 7-bit groups (1..10), the last octet is non-zero unless the value is 0, and the reported size is the number of octets.", "quantifier": "all u64 values and following bytes", "why_tests_cant": "2^64 values.", "anchors": ["protos/src/encoder/primitives.rs:encode_varint", "protos/src/decoder/primitives.rs:decode_varint"]}
{"id": "C36", "title": "Varint decoding of arbitrary bytes is safe", "statement": "Decoding a varint from arbitrary octets returns a value or InputUnderflow, and never panics. (Fails: more than ten octets with continuation bits panic in debug builds and silently alias bits in release builds; both are characterised exactly.)", "quantifier": "all byte strings, both build modes", "why_tests_cant": "Arbitrary peer-controlled input of any length.", "anchors": ["protos/src/decoder/primitives.rs:decode_varint"]}
{"id": "C37", "title": "Field keys", "statement": "A key written for tag 1..2^29-1 and any wire type decodes to the same tag and type; other tags are refused by the encoder with InvalidTag and nothing is written; the decoder refuses tag 0, keys above 32 bits and unknown wire types with InvalidInput without consuming input. Typ::try_from gives the four wire types for 0, 1, 2 and 5 and Unknown for every other number.", "quantifier": "all u32 tags, wire types, input strings", "why_tests_cant": "All tags and inputs.", "anchors": ["protos/src/encoder/primitives.rs:encode_key", "protos/src/decoder/primitives.rs:decode_key", "protos/src/typ.rs:Typ"]}
{"id": "C38", "title": "ZigZag", "statement": "sint32/sint64 encodings use the ZigZag number 2n for n >= 0 and -2n-1 for n < 0 as varint and decode to the original value.", "quantifier": "all i32 and i64 values", "why_tests_cant": "2^64 values.", "anchors": ["protos/src/encoder/primitives.rs:encode_sint32", "protos/src/encoder/primitives.rs:encode_sint64", "protos/src/decoder/primitives.rs:decode_sint32", "protos/src/decoder/primitives.rs:decode_sint64"]}
{"id": "C39", "title": "Scalar values round trip for every format", "statement": "For each of the scalar formats (bool, int32/64, uint32/64, sint32/64, fixed32/64, sfixed32/64, float, double, bytes) the value bytes extracted by the decoder for an encoded field convert back, through the matching DecoderLit, to the original value.", "quantifier": "all values of all 14 scalar formats, all tags", "why_tests_cant": "All values.", "anchors": ["protos/src/encoder/mod.rs:Encoder", "protos/src/decoder/lit.rs:DecoderLit"]}
{"id": "C40", "title": "Packed repeated values round trip", "statement": "For each packed format, encoding a vector and converting the extracted bytes back with the matching DecoderLit yields the same vector, including the empty one; a payload that is not a whole number of elements yields the empty vector, never a partial one.", "quantifier": "all vectors of all 13 packed formats; all payloads", "why_tests_cant": "All vectors.", "anchors": ["protos/src/encoder/mod.rs:encode_int32_vec", "protos/src/decoder/primitives.rs:decode_int32_vec", "protos/src/decoder/lit.rs"]}
{"id": "C41", "title": "Encoder reports and appends exactly one field", "statement": "Encoder::encode appends key and payload in protobuf wire format, leaves previous output alone, and returns the number of octets appended, for every literal kind; with an invalid tag it returns InvalidTag and writes nothing; with a writer that runs out of space it returns Interrupted having written a prefix of the field.", "quantifier": "all tags, literals and writers", "why_tests_cant": "All values and all failure points of the writer.", "anchors": ["protos/src/encoder/mod.rs:encode", "protos/src/encoder/primitives.rs"]}
{"id": "C42", "title": "Message round trip", "statement": "Decoding the concatenated encodings of any list of fields with valid tags and no empty payload yields, in one call, one entry per field in order with its tag, wire type and payload, consumes everything and returns the total number of octets.", "quantifier": "all lists of fields", "why_tests_cant": "All messages.", "anchors": ["protos/src/encoder/mod.rs:encode", "protos/src/decoder/mod.rs:decode"]}
{"id": "C43", "title": "Empty length-delimited fields", "statement": "A message with empty bytes/packed fields also decodes completely in one call. (Fails: decode returns right after the first empty payload; repeated calls recover the rest.)", "quantifier": "all messages containing empty payloads", "why_tests_cant": "All messages.", "anchors": ["protos/src/decoder/mod.rs:decode", "protos/src/decoder/mod.rs:extract_ld_bytes"]}
{"id": "C44", "title": "Protobuf streams may be split anywhere", "statement": "Feeding a message to one decoder in any number of pieces (calling decode until it makes no progress after each) yields the same fields, remaining bytes and error as feeding it at once.", "quantifier": "all byte strings, all splits, all decoder states", "why_tests_cant": "All splits.", "anchors": ["protos/src/decoder/mod.rs:Decoder"]}
{"id": "C45", "title": "A protobuf decode error is clean", "statement": "When decode returns an error, it is InvalidInput for a malformed key; the buffer starts with that key, dst holds exactly the fields before it, and the decoder is ready for a new key.", "quantifier": "all inputs and decoder states", "why_tests_cant": "All failure points.", "anchors": ["protos/src/decoder/mod.rs:decode"]}
{"id": "C46", "title": "Conversions are total", "statement": "Converting any DecoderLit to any target type never returns an error: matching variants yield the decoded value or the type's default if the payload is truncated, any other variant yields the default; String conversion yields the text for valid UTF-8 and the empty string otherwise. The only panic is that of debug builds on a varint of more than ten octets (C36).", "quantifier": "all literals, payload bytes, target types and both build modes", "why_tests_cant": "All payloads.", "anchors": ["protos/src/decoder/lit.rs"]}
{"id": "C47", "title": "Protobuf decoding terminates", "statement": "Decoder::decode ends on every input (with a panic only in debug builds, on a varint of more than ten octets) and removes exactly the returned number of octets from the buffer.", "quantifier": "all inputs and decoder states", "why_tests_cant": "All inputs.", "anchors": ["protos/src/decoder/mod.rs:decode"]}
{"id": "C48", "title": "Everything the protobuf decoder emits is a wire field of the input", "statement": "The octets consumed by decode are exactly the concatenation of key and payload encodings of the emitted entries (plus the pending key/length kept in the decoder), each tag in 1..2^29-1 and each type one of the four wire types.", "quantifier": "all inputs and decoder states", "why_tests_cant": "All inputs.", "anchors": ["protos/src/decoder/mod.rs:decode", "protos/src/decoder/primitives.rs"]}
{"id": "C49", "title": "Decoder leaves buffer and destination untouched on error", "statement": "As the documentation of decode promises, when decode returns an error the input buffer and the destination are as before the call. (Fails for decode when an earlier representation of the block was good; holds for decode_exact with a destination of capacity one.)", "quantifier": "all inputs, decoder states", "why_tests_cant": "Ranges over all inputs and failure points; a test shows single ones.", "anchors": ["hpack/src/decoder/mod.rs: Decoder::decode, Decoder::decode_exact"]}
{"id": "C50", "title": "HPACK decoding does not depend on Huffman speed or build mode", "statement": "For every input and table, decode and decode_exact give the same headers, remaining input, table and verdict for all five Huffman speeds and for debug and release builds.", "quantifier": "all inputs, tables, limits, speeds, build modes", "why_tests_cant": "Equality of two functions over all inputs, including malformed ones.", "anchors": ["hpack/src/decoder/mod.rs: Decoder::decode", "hpack/src/decoder/primitives.rs: decode_string"]}
{"id": "C51", "title": "Flattening panics exactly on impossible code lengths", "statement": "For every code table, prefix-free or not, `flatten` returns a matrix or panics; it panics exactly when some code has length 0 or, with overflow checks on, when the last chunk of some code starts at bit 32 or later. It never indexes outside the matrix.", "quantifier": "all code tables, speeds and build modes", "why_tests_cant": "Quantifies over all code tables; a table with more than 256 rows reuses row numbers and could index anywhere.", "anchors": ["huffman/src/flattener/mod.rs:flatten", "huffman/src/flattener/mod.rs:generate_coding_paths"]}
{"id": "C52", "title": "Huffman output is at most 8/5 of the input", "statement": "For every input, speed and build mode, `decode` appends to `dst` at most 8/5 times as many octets as the input has, whether it returns Ok or an error; it never removes or changes what `dst` held.", "quantifier": "all octet strings, speeds, build modes, initial dst", "why_tests_cant": "A resource bound over all inputs, hostile ones included.", "anchors": ["huffman/src/decoder/mod.rs:decode"]}
{"id": "C53", "title": "Huffman decoding is monotone in the input", "statement": "The octets decoded from an initial part of an input are an initial part of the octets decoded from the whole input, whatever the results and speeds of the two calls.", "quantifier": "all inputs and all cut points, all pairs of speeds and build modes", "why_tests_cant": "Ranges over all inputs and all ways to extend them.", "anchors": ["huffman/src/decoder/mod.rs:decode"]}
{"id": "C54", "title": "Canonical form of Huffman strings", "statement": "If `decode` accepts an input, re-encoding the result with `encode` gives back exactly that input if and only if the bits after the last code are fewer than 8 one-bits. Two accepted inputs with such padding and the same decoded text are equal.", "quantifier": "all accepted inputs, speeds, build modes", "why_tests_cant": "Ranges over all accepted inputs; non-canonical forms matter for signatures and caches and are rare in samples.", "anchors": ["huffman/src/decoder/mod.rs:decode", "huffman/src/encoder/mod.rs:encode"]}
{"id": "C55", "title": "Any encoder session is valid HPACK for any conforming decoder", "statement": "For every sequence of `encode` and `update_max_dynamic_size` calls with arguments of the right types, if no call returns IntegerOverflow and no update is above the limit, the octets written are a sequence of RFC 7541 section 6 representations with RFC padding, and interpreting them by RFC 7541 with the same table yields exactly the headers the successful calls stand for, and the final table of the encoder; strings and sizes are not limited to what the decoder of this crate can read.", "quantifier": "all call histories, all starting tables, all limits", "why_tests_cant": "Histories are unbounded and the sizes at stake (2^28 octets and more) are out of reach of tests.", "anchors": ["hpack/src/encoder/mod.rs:Encoder::encode", "hpack/src/encoder/mod.rs:Encoder::update_max_dynamic_size"]}
{"id": "C56", "title": "Encoder and decoder never get out of step silently", "statement": "For every sequence of typed encoder calls without IntegerOverflow, a decoder that starts with the same table and any limit either consumes all the output, delivers all headers and ends with the same table, or stops with an error exactly at the octets of the first call it cannot read (a string of more than 2^28+126 coded octets, an update above 2^28+30 or above its limit), having delivered exactly the headers of the earlier calls and holding the table the encoder had then.", "quantifier": "all call histories, tables and decoder limits", "why_tests_cant": "Ranges over all histories, and over sizes no test can build.", "anchors": ["hpack/src/encoder/mod.rs:Encoder::encode", "hpack/src/encoder/mod.rs:Encoder::update_max_dynamic_size", "hpack/src/decoder/mod.rs:Decoder::decode"]}
{"id": "C57", "title": "Encoding only appends and does not look at dst", "statement": "`Encoder::encode` and `update_max_dynamic_size` only append to `dst`, on success and on failure; the octets appended, the result and the new table do not depend on what `dst` holds nor on overflow checks.", "quantifier": "all tables, fields, sizes, buffer contents, build modes, and all sequences of calls", "why_tests_cant": "Independence from the buffer is a relation between all pairs of runs.", "anchors": ["hpack/src/encoder/mod.rs:Encoder::encode", "hpack/src/encoder/mod.rs:Encoder::update_max_dynamic_size"]}
{"id": "C58", "title": "Fields are encoded in the fewest octets", "statement": "The octets written for a field are a shortest RFC 7541 encoding of the representation the flags ask for (indices, lengths and Huffman data included), and it is the only encoding of that length.", "quantifier": "all tables, fields and flags with coded strings below 2^32 octets", "why_tests_cant": "Compares with all other encodings of the same representation.", "anchors": ["hpack/src/encoder/mod.rs:Encoder::encode", "hpack/src/encoder/primitives.rs:encode_integer", "hpack/src/encoder/primitives.rs:encode_string"]}
{"id": "C59", "title": "The best-format flag never makes a field longer", "statement": "With a table maximum of at most 2^18 and a name that is not empty, encoding a header with BEST_FORMAT never takes more octets than without it, and takes fewer if the header is in the static or dynamic table.", "quantifier": "all tables, headers, flags", "why_tests_cant": "Depends on the index found, thus on the whole history.", "anchors": ["hpack/src/encoder/mod.rs:Encoder::encode", "hpack/src/table/mod.rs:Table::find"]}
{"id": "C60", "title": "Bounded decompression", "statement": "For any input, `Decoder::decode` appends at most one header per octet consumed, and the octets of the names and values appended are at most max(60, table maximum, limit) - 32 + 8/5 per octet consumed, whether decoding succeeds or not.", "quantifier": "all decoder states and all octet strings", "why_tests_cant": "A resource bound over all inputs, hostile ones included.", "anchors": ["hpack/src/decoder/mod.rs:Decoder::decode"]}
{"id": "C61", "title": "Number of dynamic entries is bounded", "statement": "After any sequence of calls an encoder or decoder holds at most (maximum table size)/32 dynamic entries.", "quantifier": "all call histories", "why_tests_cant": "Ranges over all histories.", "anchors": ["hpack/src/table/dynamic.rs:DynamicTable::insert", "hpack/src/table/dynamic.rs:DynamicTable::update_max_size"]}
{"id": "C62", "title": "Forwarding decoded headers keeps names, values and flags", "statement": "If a list of decoded (name, value, flags) headers is passed with these flags to an encoder, a decoder in step with it decodes exactly this list: never-indexed headers stay never-indexed across a hop. Flags reported by the decoder are 0, 4 or 8.", "quantifier": "all header lists with strings of at most 2^28+126 octets, all tables", "why_tests_cant": "Ranges over all header lists and table histories.", "anchors": ["hpack/src/encoder/mod.rs:Encoder::encode", "hpack/src/decoder/mod.rs:Decoder::decode"]}
{"id": "C63", "title": "Nested messages round trip", "statement": "A message tree of any depth, encoded bottom-up by passing each inner message's octets as EncoderLit::Bytes to the outer one, is given back by decoding each LengthDelimited payload with a new Decoder and each leaf through the DecoderLit of its type.", "quantifier": "all message trees with valid field numbers and values whose payloads have fewer than 2^64 octets", "why_tests_cant": "Induction over unbounded nesting depth and width.", "anchors": ["protos/src/encoder/mod.rs:Encoder::encode", "protos/src/decoder/mod.rs:Decoder::decode", "protos/src/decoder/lit.rs:DecoderLit"]}
{"id": "C64", "title": "Reading with another type of the same wire format", "statement": "A value written as one varint type and read as another gives the protobuf result: int/uint/bool read with a different width truncates or sign-extends modulo 2^32 or 2^64, bool is true iff the number is not 0, sint32 and sint64 are interchangeable up to truncation, and fixed/sfixed/float of one width share their bits. The same holds element by element for packed fields.", "quantifier": "all values, all pairs of types with the same wire format, packed vectors of any length", "why_tests_cant": "All 2^64 values and vectors of any length.", "anchors": ["protos/src/encoder/primitives.rs", "protos/src/decoder/primitives.rs", "protos/src/decoder/lit.rs:DecoderLit"]}
{"id": "C65", "title": "Occurrences of a packed field concatenate", "statement": "The concatenated payloads of two occurrences of a repeated field, each packed or a single unpacked element, decode through the packed DecoderLit to the elements of the first followed by those of the second. End to end: when a message contains a repeated field under a tag in any number of occurrences, packed or single in any mixture and among other fields, the payloads a new decoder finds under that tag, put together, are the packed payload of the whole field and convert to all its elements in order, however the elements were grouped.", "quantifier": "all repeated types, all element lists, all groupings into occurrences, all other fields of the message", "why_tests_cant": "Ranges over all pairs of element lists.", "anchors": ["protos/src/encoder/primitives.rs", "protos/src/decoder/primitives.rs", "protos/src/decoder/lit.rs:DecoderLit"]}
{"id": "C66", "title": "Messages concatenate", "statement": "Encoding two field lists into one buffer gives the concatenation of their encodings, and decoding that gives the fields of the first followed by the fields of the second.", "quantifier": "all pairs of encodable field lists", "why_tests_cant": "Ranges over all pairs of messages.", "anchors": ["protos/src/encoder/mod.rs:Encoder::encode", "protos/src/decoder/mod.rs:Decoder::decode"]}
{"id": "C67", "title": "A schema makes encoding injective", "statement": "If each field number has one type, two field lists with the same octets are the same list.", "quantifier": "all schemas and pairs of encodable field lists", "why_tests_cant": "Injectivity quantifies over pairs of inputs.", "anchors": ["protos/src/encoder/mod.rs:Encoder::encode", "protos/src/encoder/primitives.rs"]}
{"id": "C68", "title": "Decoding emits no more than it consumes", "statement": "For any input, Decoder::decode emits at most one field per two octets consumed, and payload octets plus fields are at most the octets consumed (counting those consumed by earlier calls for a field in progress). An announced length alone allocates no output.", "quantifier": "all inputs, in the initial state and in the middle of a field", "why_tests_cant": "A resource bound over all inputs, hostile ones included.", "anchors": ["protos/src/decoder/mod.rs:Decoder::decode"]}
{"id": "C69", "title": "Builds differ only by panics", "statement": "On any input, a debug build's decode and each DecoderLit conversion gives exactly the release build's result, or panics.", "quantifier": "all inputs, all decoder states, all conversions", "why_tests_cant": "Relates two builds over all inputs.", "anchors": ["protos/src/decoder/mod.rs:Decoder::decode", "protos/src/decoder/primitives.rs", "protos/src/decoder/lit.rs:DecoderLit"]}
{"id": "C70", "title": "Documented sizes of integers", "statement": "A negative int32 or int64 always takes ten octets after its key; a sint in [-2^(7k+6), 2^(7k+6)) takes at most k+1; a larger unsigned number never takes fewer octets.", "quantifier": "all field numbers and values", "why_tests_cant": "All values.", "anchors": ["protos/src/encoder/mod.rs:Encoder::encode", "protos/src/encoder/primitives.rs"]}
{"id": "C71", "title": "Encoding into an arbitrary writer", "statement": "Whatever io::Write the Encoder writes to - taking any number of octets per call, interrupting, refusing at any point - encode returns Ok(n) exactly when the writer took all n octets of the field and nothing else; on an error (Interrupted) it took a strict prefix of them and the last call was refused or took nothing; encode never panics and ends unless the writer keeps answering Interrupted. The same holds for a sequence of encode calls that stops at the first error. An invalid tag makes no call at all.", "quantifier": "all writers (state machines), all interleavings of their answers, all fields and messages", "why_tests_cant": "Quantifies over all writers, i.e. over all schedules of short writes, interruptions and failures.", "anchors": ["protos/src/encoder/mod.rs:Encoder::encode", "protos/src/encoder/primitives.rs", "protos/src/encoder/error.rs"]}
{"id": "C72", "title": "Messages cut off anywhere", "statement": "Decoding any prefix of an encoded message gives no error and no panic, emits exactly the fields that are complete in it, and feeding the rest to the same decoder completes the message. So whatever a writer took before it failed (C71) decodes to the first fields of the message.", "quantifier": "all messages, all cut points, all writers", "why_tests_cant": "All crash points of all messages.", "anchors": ["protos/src/decoder/mod.rs:Decoder::decode", "protos/src/encoder/mod.rs:Encoder::encode"]}
{"id": "C73", "title": "Protobuf decoding on 32-bit targets", "statement": "Where usize has w bits, the decoder takes a payload of n mod 2^w octets when the length n is announced, and is otherwise the 64-bit decoder. So 32-bit and 64-bit targets give the same result on every input that announces no length of 2^32 or more, and every message with shorter payloads is decoded completely; on other inputs they differ (a ten octet stream that the former reads as two fields and the latter as an unfinished one).", "quantifier": "all widths w, all inputs, all decoder states between calls", "why_tests_cant": "The announced lengths at stake exceed any buffer a test can build, and the tests run on one target.", "anchors": ["protos/src/decoder/primitives.rs:extract_ld", "protos/src/decoder/mod.rs:Decoder::decode"]}
{"id": "C74", "title": "Huffman decoding does not depend on the pointer width", "statement": "`decode` gives the same bytes and verdict on all targets whose usize has at least 32 bits, although its bit buffers are usize and a partial code plus the next chunk can exceed 32 bits.", "quantifier": "all widths of at least 32 bits, all inputs, speeds and build modes", "why_tests_cant": "All inputs on all targets.", "anchors": ["huffman/src/decoder/reader.rs:DecodeReader", "huffman/src/decoder/mod.rs:decode"]}
{"id": "C75", "title": "Decoding does not depend on how the allocator rounds capacities", "statement": "`Decoder::decode` limits each inner step by the capacity of a vector it asks for with `with_capacity(1)`, which std only guarantees to be at least one. Whatever capacities it gets, the verdict, the rest of the buffer, the dynamic table and, on success, the decoded headers are the same; on an error the only difference is that headers decoded into the vector in use are lost, fewer than its capacity.", "quantifier": "all capacities of all inner vectors, all buffers, all reachable decoders, both build modes", "why_tests_cant": "The allocator of the test machine gives exactly one; other capacities are allowed by std's contract but cannot be provoked.", "anchors": ["hpack/src/decoder/mod.rs:Decoder::decode", "hpack/src/decoder/mod.rs:Decoder::decode_exact"]}
{"id": "C76", "title": "Connections stay consistent under every schedule", "statement": "One encoder and one decoder that start with equal tables are used in any order: encoder calls (fields, size updates, also failing ones), delivery of any number of the produced vectors, `decode`, `decode_exact` with any capacity, changes of the decoder's limit, retries after errors. At every moment the decoder has exactly the dynamic table the encoder had after some prefix of its calls, has delivered exactly the headers of that prefix, and the octets underway are exactly the encoding of the remaining calls. Decoder calls never panic, and fail only in front of a call that cannot be read with the present limit (a size update above it, or an integer over five octets), without losing anything; delivering and decoding the rest completes the headers and makes the tables equal.", "quantifier": "all schedules of encoder calls, deliveries, decoder calls and limit changes, all equal initial tables, both build modes on each side; encoder calls that return IntegerOverflow (4 GiB strings) excluded", "why_tests_cant": "Infinitely many interleavings; tests decode each block right after encoding it.", "anchors": ["hpack/src/encoder/mod.rs:Encoder::encode", "hpack/src/encoder/mod.rs:Encoder::update_max_dynamic_size", "hpack/src/decoder/mod.rs:Decoder::decode", "hpack/src/decoder/mod.rs:Decoder::decode_exact", "hpack/src/decoder/mod.rs:Decoder::set_max_dynamic_size"]}
{"id": "C77", "title": "HPACK does not depend on the pointer width", "statement": "With all size arithmetic done on w >= 32 bits, encoder sessions, `decode` and `decode_exact` give the results of the 64-bit build as long as twice the table limit plus the (expanded) input fits in w bits; on 32-bit targets this covers every vector and table limits up to 2^28. Beyond that, an insertion whose size sum does not fit panics in debug builds, and in release builds records a size 2^w too small and evicts nothing.", "quantifier": "all widths of at least 32 bits, all inputs, sessions, capacities, reachable states and build modes", "why_tests_cant": "Targets and sizes no test run has.", "anchors": ["hpack/src/table/dynamic.rs:DynamicTable::insert", "hpack/src/table/dynamic.rs:DynamicTable::consolidate", "hpack/src/decoder/primitives.rs:decode_string", "hpack/src/decoder/mod.rs:Decoder::decode", "hpack/src/encoder/mod.rs:Encoder::encode"]}
{"id": "C78", "title": "Fields sent without indexing leave no trace", "statement": "Two encoder sessions that differ only in fields for which indexing was not asked (flag 0x4 clear) produce, at every other call, the same octets and the same result, and leave the same encoder: later output carries no information about such fields. Conversely, such a literal without the best-format flag 0x10 is written without looking at the table (an indexed name looks only at whether the index exists), and without the Huffman flags the number of octets depends on the lengths of name and value only.", "quantifier": "all pairs of sessions, positions, initial tables, fields, flags and build modes", "why_tests_cant": "A property of pairs of executions (non-interference); a test sees one.", "anchors": ["hpack/src/encoder/mod.rs:Encoder::encode", "hpack/src/encoder/mod.rs:Encoder::encode_literal", "hpack/src/encoder/mod.rs:Encoder::encode_indexed_name"]}
{"id": "C79", "title": "Headers survive any number of intermediaries", "statement": "Header lists sent one after the other through any number of hops, each decoding and encoding again with the reported flags and each with its own table sizes and contents, arrive with the same names, values, order and indexing marks; afterwards the two ends of every hop still agree.", "quantifier": "all chains of hops (any number, any table sizes, any agreeing tables), all sequences of header lists whose names and values have at most 2^28 + 126 octets, both build modes", "why_tests_cant": "Unbounded numbers of hops and messages with persistent state at every hop.", "anchors": ["hpack/src/encoder/mod.rs:Encoder::encode", "hpack/src/decoder/mod.rs:Decoder::decode"]}
{"id": "C80", "title": "Header blocks arriving octet by octet", "statement": "Whatever sequence of headers and table resizes the sender encodes, however the octets are portioned on their way (also inside a representation) and whenever the receiver calls decode or decode_exact on what has arrived, nothing is lost, repeated or altered: the headers received are those of an initial part of what was sent, both tables are those of a correct peer, the remaining octets are exactly the encoding of the rest, and a call that cannot finish reports IntegerUnderflow or panics (or reports the limit the next operation violates) without damaging this. Delivering the rest and decoding once more yields everything, if no operation exceeds the limits.", "quantifier": "all operation sequences, all interleavings of sends, deliveries of any number of octets and decoder calls, all initial tables, both build modes", "why_tests_cant": "Unboundedly many schedules and cut points; errors and panics in the middle of a history.", "anchors": ["hpack/src/decoder/mod.rs:Decoder::decode", "hpack/src/decoder/mod.rs:Decoder::decode_exact", "hpack/src/encoder/mod.rs:Encoder::encode"]}
{"id": "C81", "title": "Protobuf fields over a stream, under every schedule", "statement": "Fields encoded one after the other onto a stream whose octets arrive in arbitrary portions, with the decoder called at arbitrary moments on what is in the buffer, are decoded in order, without loss, repetition or alteration: at every moment what was decoded is an initial part of what was sent and reads back as the original values, no call of decode so far returned an error or panicked, and when a call makes no progress every field delivered completely has been decoded.", "quantifier": "all field sequences, all interleavings of encodes, deliveries of any number of octets and decode calls, both build modes", "why_tests_cant": "Unboundedly many schedules and cut points with a decoder state that survives calls.", "anchors": ["protos/src/decoder/mod.rs:Decoder::decode", "protos/src/encoder/mod.rs:Encoder::encode"]}
{"id": "C82", "title": "Messages can be forwarded without a schema", "statement": "Whatever octets were received, writing every decoded field again by its wire type alone (varints as uint64, 32-bit as fixed32, 64-bit as fixed64, length-delimited as bytes) gives a message that is not longer than the input, decodes completely and without error, has the same field numbers, wire types and payloads, with varints that read the same under every integer type, and that forwards to itself. Messages written by this crate's encoder are forwarded octet by octet. The only obstacle is a varint of more than ten octets in a debug build, on which the conversion panics.", "quantifier": "all octet strings shorter than 2^64, all messages, both build modes on either side", "why_tests_cant": "Ranges over arbitrary, also malformed and non-canonical, input and over all readings of it.", "anchors": ["protos/src/decoder/mod.rs:Decoder::decode", "protos/src/encoder/mod.rs:Encoder::encode", "protos/src/decoder/lit.rs:DecoderLit"]}
{"id": "C83", "title": "Tables of different sizes, and recovery", "statement": "A decoder whose dynamic table is at least as large as the encoder's (and shares its newest entries) decodes everything the encoder writes, although the encoder evicts entries earlier. A decoder whose table is smaller never takes an index for another header: the headers it appends are an initial part of those sent, and it either reads everything or stops with InvalidIndex. After the encoder signals size 0 the two agree again, whatever both tables held before, and the encoder's output no longer depends on its past.", "quantifier": "all pairs of well-formed tables so related (all pairs, for recovery), all sequences of encoder calls, all size limits below 2^32, both build modes on either side", "why_tests_cant": "Ranges over unbounded histories with evictions happening at different times on the two sides.", "anchors": ["hpack/src/table/mod.rs:Table", "hpack/src/table/dynamic.rs:DynamicTable", "hpack/src/encoder/mod.rs:Encoder::update_max_dynamic_size", "hpack/src/decoder/mod.rs:Decoder::decode"]}
{"id": "C84", "title": "The table iterator yields every entry once", "statement": "Calling next() n times on Table::iter() returns the 61 static entries, then the dynamic entries from the newest to the oldest, then None, for every n below 2^32 - 1; from any other starting index it returns what get() returns there. The bound is sharp: call number 2^32 - 1 panics in a debug build, and a release build starts over after 2^32 calls.", "quantifier": "all tables, all numbers of calls, all starting indices, both build modes", "why_tests_cant": "Ranges over all tables and over call counts up to 2^32.", "anchors": ["hpack/src/table/iter.rs:TableIter::next", "hpack/src/table/mod.rs:Table::iter"]}
{"id": "C85", "title": "Sizes of encoded headers", "statement": "encode appends exactly the octets RFC 7541 needs for the representation it chooses (given by an explicit formula); at most 5 for an index, 11 plus the coded value for an indexed name, 13 plus coded name and value for a literal, whatever the table holds, and at least one. A size update takes at most 6. A whole session without Huffman coding never needs more octets than the header list size of RFC 7540 section 6.5.2 (four times that with Huffman coding), plus 6 for each size update.", "quantifier": "all tables, fields, flags and sequences of calls, both build modes", "why_tests_cant": "Ranges over all fields and table histories; the bound is a maximum over all of them.", "anchors": ["hpack/src/encoder/mod.rs:Encoder::encode", "hpack/src/encoder/mod.rs:Encoder::update_max_dynamic_size", "hpack/src/encoder/primitives.rs:encode_integer", "hpack/src/encoder/primitives.rs:encode_string"]}
{"id": "C86", "title": "Sizes of protobuf fields and messages", "statement": "Encoding a field appends and returns exactly: the octets of its key (one per seven bits begun of eight times the field number), for bytes and vectors those of the payload length, and those of the payload, where a varint takes one octet per seven bits begun, a negative int32 or int64 ten, fixed formats four or eight and packed vectors the sum. A message takes the sum of its fields, at any depth of nesting, and a writer with room for r octets suffices exactly if that sum is at most r. A scalar field takes 2 to 15 octets, any other field 2 to 15 more than its payload.", "quantifier": "all literals, field numbers, messages, nested messages and writers with any amount of room", "why_tests_cant": "Ranges over all values and message shapes; a buffer that is one octet too small fails only on particular values.", "anchors": ["protos/src/encoder/mod.rs:Encoder::encode", "protos/src/encoder/primitives.rs", "protos/src/encoder/lit.rs:EncoderLit"]}
{"id": "C87", "title": "How long a header field can be referenced", "statement": "Without table size changes, after any sequence of encode calls (or any decoded input) the k-th newest of all fields ever sent with incremental indexing is at index 62 + k exactly as long as it and the newer ones together fit the table; otherwise that index is invalid. So a field sent with indexing and sent again with the best-format flag is sent as an index, one octet if fewer than 65 fields were stored in between, as long as the fields stored in between leave it room. With table size changes in between, that index is the k-th newest field exactly if at every moment since it was stored it and the then newer ones fitted the maximum of that moment (so a field evicted by a smaller maximum does not come back).", "quantifier": "all tables, all sequences of encode calls with all flags, all decoder inputs including malformed ones, all later points in time", "why_tests_cant": "Ranges over histories of any length; eviction errors show up only after particular sums of sizes.", "anchors": ["hpack/src/table/dynamic.rs:DynamicTable::insert", "hpack/src/table/dynamic.rs:DynamicTable::consolidate", "hpack/src/table/mod.rs:Table::get", "hpack/src/encoder/mod.rs:Encoder::encode", "hpack/src/decoder/mod.rs:Decoder::decode"]}
{"id": "C88", "title": "Unknown fields and the order of fields", "statement": "A reader of an encoded message that skips the field numbers it does not know sees exactly the fields it would see if the others had never been encoded. For each field number it sees the values in the order they were encoded, and how fields of different numbers are interleaved makes no difference; a permuted message has the same length and decodes to the permuted fields.", "quantifier": "all messages, all sets of known field numbers, all interleavings and permutations, both build modes", "why_tests_cant": "Ranges over all messages, all subsets of fields and all orders.", "anchors": ["protos/src/encoder/mod.rs:Encoder::encode", "protos/src/decoder/mod.rs:Decoder::decode"]}
{"id": "C89", "title": "Interrupted encoding can be retried", "statement": "As EncoderError::Interrupted documents, a call of the protobuf Encoder::encode that failed with Interrupted can be repeated: after calling it again with the same field and the same writer until it succeeds, the writer holds that field once, so that a decoder reading the stream sees exactly that field. (The code keeps what the failed call wrote: the retried stream reads as the field if and only if the failed call had written nothing; the successful call itself writes the whole field and the failed ones a strict part of it, so a caller that takes back what the failed calls wrote can retry.)", "quantifier": "all honest writers, all fields, all points of failure and numbers of attempts, both build modes", "why_tests_cant": "the failure may come after any octet of any field, from any writer; only a proof covers all of them, and the failing retries look like success to the caller", "anchors": ["protos/src/encoder/error.rs EncoderError::Interrupted", "protos/src/encoder/mod.rs Encoder::encode", "protos/src/encoder/primitives.rs", "protos/src/decoder/mod.rs Decoder::decode"]}
{"id": "C90", "title": "Where decoded headers come from, and what their flags say", "statement": "Whatever octets Decoder::decode or decode_exact is given and however the call ends, every header appended to dst is either (with flags 0) an entry of the static table or of the dynamic table as it was at that point, or a literal whose value is spelled out in the octets consumed and whose name is spelled out there or in a table, with flags 0, 0x4 or 0x8. The dynamic table afterwards holds the newest part of: the headers appended with flag 0x4, newest first, followed by the entries it had before; in particular nothing is added to it unless a header is returned with flag 0x4, as documented.", "quantifier": "all decoder states, all octet strings including malformed ones, all outcomes, both entry points, any capacity, both build modes", "why_tests_cant": "it excludes every header and table entry not accounted for by the input or the tables, for arbitrary hostile input", "anchors": ["hpack/src/decoder/mod.rs Decoder::decode, decode_exact, decode_indexed, decode_literal", "hpack/src/table/mod.rs Table"]}
{"id": "C91", "title": "Floating-point rounding never affects Huffman coding", "statement": "The huffman crate computes numbers of chunks as (a as f64 / s as f64).ceil() while decoding and as (a as f32 / s as f32).ceil() while flattening. With IEEE 754 arithmetic decode returns, for every input, speed and pointer width of at least 32 bits, exactly the symbols and the verdict of the RFC code; and flatten, for every list of codes, the matrix it would build with exact integer ceilings.", "quantifier": "all inputs, speeds, build modes, pointer widths of at least 32 bits; all lists of codes with u8 lengths", "why_tests_cant": "a rounding error shows only for particular operands; all reachable ones have to be covered, and that no others are reachable is an invariant of the decoder", "anchors": ["huffman/src/decoder/reader.rs DecodeReader::finalize", "huffman/src/flattener/mod.rs flatten, generate_coding_paths", "huffman/src/decoder/mod.rs decode"]}
{"id": "C92", "title": "Table size updates take effect where they stand in the block", "statement": "A dynamic table size update read by the decoder after any decoded prefix of a block takes effect at once: within the limit set by set_max_dynamic_size it makes its number the table's maximum, evicts from the old end until the rest fits and decoding goes on with that table; above the limit decoding stops in front of it with InvalidMaxDynamicSize, keeping all headers and the table from before. In full, RFC 7541 section 4.2 also wants an update only at the beginning of a block, and wants one at the beginning of the first block after the limit was lowered below the current maximum. (The decoder checks neither.)", "quantifier": "all decoders with a consistent table, all decoded prefixes, all updates (shortest or not), all octets behind them", "why_tests_cant": "position in the block, table content and limit vary independently", "anchors": ["hpack/src/decoder/mod.rs Decoder::decode, Decoder::set_max_dynamic_size, Decoder::update_max_dynamic_size", "hpack/src/table/dynamic.rs DynamicTable::update_max_size"]}
{"id": "C93", "title": "Codecs only append to the destination and do not look at it", "statement": "Huffman encode and decode, the HPACK encoder's encode and update_max_dynamic_size, the HPACK decoder's decode and decode_exact and the protobuf decoder's decode leave everything already in the destination vector in place, put what they produce behind it, and produce the same data, the same final state, the same remaining input and the same result (success, error or panic) as with an empty vector; decode_exact depends on the capacity of the vector but not on its length or content.", "quantifier": "all states (consistent or not), all inputs, all destination contents, all outcomes", "why_tests_cant": "state, input, destination content and the place of an error vary independently", "anchors": ["huffman/src/encoder/mod.rs encode", "huffman/src/decoder/mod.rs decode", "hpack/src/encoder/mod.rs Encoder::encode, Encoder::update_max_dynamic_size", "hpack/src/decoder/mod.rs Decoder::decode, Decoder::decode_exact", "protos/src/decoder/mod.rs Decoder::decode"]}
{"id": "C94", "title": "Huffman strings join only at octet boundaries", "statement": "Encoding b behind an already encoded a (two calls of encode on one vector) gives the same octets as encoding the joined string a b, and is read back by decode as a b, exactly when b is empty or the codes of a fill whole octets; otherwise the padding written after a is taken for the beginning of a code. In every case a is read first.", "quantifier": "all pairs of byte strings, all destination contents, all speeds, debug and release builds", "why_tests_cant": "it is an equivalence over all pairs of strings: no string with misaligned end may happen to join", "anchors": ["huffman/src/encoder/mod.rs encode", "huffman/src/decoder/mod.rs decode"]}
{"id": "C95", "title": "A decoder remembers its table and its limit, and nothing else", "statement": "Two HPACK decoders whose dynamic tables list the same entries, with the same maximum and the same limit, answer every sequence of decode, decode_exact and set_max_dynamic_size calls alike (octets left, headers, result), whatever they went through before and whatever their Huffman speed. Conversely, decoders that differ in entries, limit or maximum are told apart by some header block, except when limits differ only above 2^28+30 (no update the decoder reads is larger) or maxima only below 32 (no entry fits).", "quantifier": "all pairs of decoders with consistent tables, all sequences of calls on arbitrary octets", "why_tests_cant": "quantifies over all pairs of states and all futures, and the converse needs a distinguishing block for every pair", "anchors": ["hpack/src/decoder/mod.rs Decoder::decode, Decoder::decode_exact, Decoder::set_max_dynamic_size", "hpack/src/table/dynamic.rs DynamicTable"]}
{"id": "C96", "title": "Header blocks of any conforming encoder are understood", "statement": "Whatever header block RFC 7541 lets an encoder produce (any mix of representations, plain or Huffman strings with EOS padding, integers written with any number of octets), Decoder::decode delivers exactly the headers it means and ends with the table it prescribes. (The code does so only if every integer takes at most five octets; otherwise it stops with IntegerOverflow in front of the first representation with a longer one, after delivering and storing what comes before, and never reads the block as something else. Shortest integers below 2^28 always qualify.)", "quantifier": "all decoder states, all header blocks generated by the grammar of RFC 7541 with integers of any number of octets, all contents of the destination", "why_tests_cant": "ranges over every encoder's choice of representation, string coding and integer length, at every table state", "anchors": ["hpack/src/decoder/mod.rs Decoder::decode", "hpack/src/decoder/primitives.rs decode_integer"]}
{"id": "C97", "title": "What the flag bits of a field mean", "statement": "encode looks only at the documented flag bits: 0x1 (Huffman name) and 0x10 (best format) for literals, 0x2 (Huffman value), 0x4 (with indexing) and, if 0x4 is not set, 0x8 (never indexed) for literals and indexed names. Inputs that differ in other bits only give the same octets, result and table whatever the table holds; each of these five bits makes a difference.", "quantifier": "all tables, fields, pairs of flag octets, destinations and build modes", "why_tests_cant": "quantifies over all table states, fields and pairs of flag octets", "anchors": ["hpack/src/encoder/mod.rs Encoder::encode, encode_indexed_name, encode_literal", "hpack/src/encoder/input.rs EncoderInput"]}
{"id": "C98", "title": "With the best-format flag no header is stored twice", "statement": "An encoder whose calls ask for indexing only in literals with the best-format flag 0x10 (any other calls, failing ones and size changes in between) never stores a header that is in the static table or already in the dynamic table: at every moment each header has at most one index.", "quantifier": "all maximum sizes and all histories of calls", "why_tests_cant": "an invariant over all call histories, including evictions and failed calls", "anchors": ["hpack/src/encoder/mod.rs Encoder::encode", "hpack/src/table/mod.rs Table::find, Table::insert"]}
{"id": "C99", "title": "Messages of any protobuf writer are understood", "statement": "A message written by any conforming protobuf writer is understood: keys, lengths and varint values may be in any form of at most ten octets (also padded with zero groups), a value of w bits may be written with any 64-bit number congruent to it modulo 2^w, repeated values may be packed, and messages may be nested. Repeated calls of decode deliver exactly the fields, in order, whatever pieces the message arrives in, with the decoder back in its initial state, and every payload gives its value through the matching DecoderLit, to any depth; one call is enough if no payload is empty. The exception is a group (wire types 3 and 4): decode returns InvalidInput in front of its key after it delivered all fields before it. What Encoder writes is one such message.", "quantifier": "all messages of any depth, all their encodings, all ways to cut them into pieces, both build modes", "why_tests_cant": "quantifies over all messages, over all encodings of each (not only those Encoder writes) and over all ways to cut them", "anchors": ["protos/src/decoder/mod.rs Decoder::decode", "protos/src/decoder/primitives.rs decode_varint, decode_key, extract_varint", "protos/src/decoder/lit.rs DecoderLit"]}
{"id": "C100", "title": "Encoder writes the shortest encoding of a message", "statement": "The encodings of a message that follow the protobuf documentation (fields in their order, true as 1, negative int32 and int64 values sign-extended to 64 bits, packed repeated values, nested to any depth) differ only in how far each key, length and varint value is padded. Encoder writes one of them, none is shorter, and it is the only one of its length. All of them are read as the same values, so a message received in any of them does not grow when it is encoded again, and encoding again what Encoder wrote gives the same octets.", "quantifier": "all messages of any depth whose values are in range, all their encodings, both build modes", "why_tests_cant": "minimality compares the written octets with every other encoding of the same message, at every depth of nesting", "anchors": ["protos/src/encoder/mod.rs Encoder::encode", "protos/src/encoder/lit.rs EncoderLit", "protos/src/encoder/primitives.rs encode_varint, encode_key"]}
{"id": "C101", "title": "Headers that fit the table together are sent in full at most once", "statement": "If a set of headers fits the dynamic table together, and an encoder stores only headers of this set, with the best-format flag (and makes any other calls that store nothing and do not resize), then whatever the table held before, each header of the set is sent in full for indexing at most once, none of those so sent is evicted, and asking for one again gives an index (one octet for a set of up to 65 headers) and leaves the table alone. So an encoder with an empty table that sends such headers, as often and in whatever order, writes at most four times their size (once their size without Huffman coding) plus one index for each header sent. The condition is sharp: two headers that are one octet too large for the table, sent in turn, are sent in full every time.", "quantifier": "all tables, sets of headers, sequences of calls of any length, both build modes", "why_tests_cant": "quantifies over all sequences of calls and all sets of headers, and bounds the total over the whole life of a connection", "anchors": ["hpack/src/encoder/mod.rs Encoder::encode, WITH_INDEXING, BEST_FORMAT", "hpack/src/table/mod.rs Table::find", "hpack/src/table/dynamic.rs DynamicTable::insert"]}
{"id": "C102", "title": "Decoding in batches is decoding at once", "statement": "Calling decode_exact repeatedly, each time with the rest of the buffer and some capacity, until a call fails or the capacities are used up, gives the same headers, rest of the buffer, table, verdict and count (the counts of the calls added up) as a single call with the sum of the capacities; and if the capacities sum to at least the number of octets in the buffer, the same as decode. So a caller may hand out the headers of a block in batches of any size (some may be empty) and sees nothing different, for good and bad input alike.", "quantifier": "all decoders, buffers (malformed ones included), contents of the destination, lists of capacities, both build modes", "why_tests_cant": "quantifies over every way of cutting every input into batches, with the table threaded through", "anchors": ["hpack/src/decoder/mod.rs Decoder::decode, Decoder::decode_exact"]}
{"id": "C103", "title": "What the limit on table size updates decides", "statement": "For every decoder state and every input there is a threshold, at most 2^28+30: with a limit (set_max_dynamic_size) from there on, decode gives the same headers, rest, table, verdict and count whatever the limit is; with any smaller limit it stops with InvalidMaxDynamicSize in front of a table size update above that limit, after an initial part of the same headers. So raising the limit never changes a result other than InvalidMaxDynamicSize (errors included), and in that case the decoder consumes at least as much and keeps all headers it had found.", "quantifier": "all decoders with consistent tables, all inputs (malformed ones included), all limits, both build modes", "why_tests_cant": "compares runs of every input under every pair of limits", "anchors": ["hpack/src/decoder/mod.rs Decoder::set_max_dynamic_size, Decoder::decode, Decoder::update_max_dynamic_size"]}
{"id": "C104", "title": "What a protobuf decoder remembers", "statement": "After any calls of decode, on any buffers and whatever they returned, a protobuf Decoder remembers nothing, or the field number and wire type of a field in progress, or these and its payload length; every such state is reached. Two decoders answer every buffer alike exactly if they are in the same such state. Fields that were delivered leave no trace: after a call that delivered a field the decoder is as a new one that was given only the octets consumed after the last field delivered.", "quantifier": "all sequences of calls on arbitrary octets, all pairs of states, both build modes", "why_tests_cant": "ranges over all histories of a decoder and compares all pairs of states on all inputs", "anchors": ["protos/src/decoder/mod.rs Decoder, Decoder::decode, Decoder::reset"]}
{"id": "C105", "title": "How many headers decode_exact gives", "statement": "Given a destination vector with some capacity, a successful decode_exact appends exactly as many of the block's headers as there is room for, so the vector is full and not reallocated, or all headers if there are fewer. (Fails: a size update takes the place of a header, so fewer are given; and the capacity counts, not the room left, so a vector that already holds headers gets more than fit. Proved instead: it never appends more headers than the capacity, and in a block without size updates it appends precisely the first capacity-many headers that decode would give.)", "quantifier": "all blocks, destinations, capacities, decoder states and build modes", "why_tests_cant": "ranges over all blocks and capacities", "anchors": ["hpack/src/decoder/mod.rs Decoder::decode_exact"]}
{"id": "C106", "title": "How long the HPACK decoder waits for more", "statement": "When decode or decode_exact asks for more input (IntegerUnderflow, or the panic of C15), at most 2^29+262 octets are left in the buffer, whatever the peer sent; with more than that in the buffer every call consumes something or fails with an error that no further input can change. The bound is reached in every decoder state.", "quantifier": "all inputs, decoder states, capacities and build modes", "why_tests_cant": "ranges over all inputs, and the bound is half a gibibyte", "anchors": ["hpack/src/decoder/mod.rs Decoder::decode, Decoder::decode_exact", "hpack/src/decoder/primitives.rs decode_integer, decode_string"]}
{"id": "C107", "title": "What a protobuf decoder waits for", "statement": "A call of decode that does nothing leaves in the buffer less than a varint, fixed value or announced payload can have: less than ten octets, or less than the length announced. (Fails in both builds: a varint field, and in release builds a key or a length, is waited for however many continuation octets arrive; in debug builds a key or a length is waited for with one octet too many, ten. Proved: exactly when a call does nothing, and that these are the only exceptions.)", "quantifier": "all buffers, all states of the decoder between calls, both build modes", "why_tests_cant": "ranges over all inputs of any length", "anchors": ["protos/src/decoder/mod.rs Decoder::decode", "protos/src/decoder/primitives.rs decode_varint, extract_varint"]}
{"id": "C108", "title": "Which errors a caller can see, and what their messages say", "statement": "Within each error type the Display messages differ. Huffman encode never fails and decode reports only 'Invalid Huffman sequence.'. HPACK encode reports 'Invalid index.' exactly for an index that is 0 or above the table, 'Too many bytes.' exactly if a string of the representation it chooses has 2^32 octets or more, and nothing else. When HPACK decode reports an error, the octets left in the buffer start with a representation that explains it: an index that is 0 or above the table, a size update above the limit, an integer of too many octets, a string that is cut, or bad Huffman data. Protobuf encode reports 'Found tag with invalid number.' exactly for a number outside 1..2^29-1, 'Write operation interrupted.' only if the writer stops, and nothing else. Protobuf decode reports only 'Invalid byte stream.', with the bad key at the front of the buffer (also for field number 0, so InvalidTag is never seen).", "quantifier": "all inputs and states, both build modes", "why_tests_cant": "that no other error is ever reported ranges over all inputs", "anchors": ["huffman/src/encoder/error.rs", "huffman/src/decoder/error.rs", "hpack/src/encoder/error.rs", "hpack/src/decoder/error.rs", "protos/src/encoder/error.rs", "protos/src/decoder/error.rs"]}
{"id": "C109", "title": "Waiting can help", "statement": "When decode asks for more input (IntegerUnderflow, or the panic of C15), there are octets with which the same block decodes successfully. (Fails: a Huffman string that already contains the end-of-string code, an unfinished index already above the table and an unfinished size already above the limit are waited for although nothing can complete them. Proved: exactly which unfinished blocks can be completed, and that these are the only exceptions.)", "quantifier": "all inputs, decoder states and build modes", "why_tests_cant": "for every unfinished block some completion must exist, or none among infinitely many", "anchors": ["hpack/src/decoder/mod.rs Decoder::decode", "hpack/src/decoder/primitives.rs decode_integer, decode_string", "hpack/src/decoder/error.rs DecoderError::IntegerUnderflow"]}
{"id": "C110", "title": "Waiting for the rest of a protobuf field can help", "statement": "Whenever a call of protobuf decode waits (takes nothing, delivers nothing, reports nothing), there are octets with which the call delivers a field. (Fails: a key whose first octet already shows an unused wire type, or that has a bit above the 32nd already, is waited for, and in debug builds so is a key or length of ten octets, where any further octet panics. Proved: exactly which waits can end with a field; after a good key all of them can, except that length.)", "quantifier": "all buffers, all states of the decoder between calls, both build modes", "why_tests_cant": "for every unfinished field some completion must exist, or none among infinitely many", "anchors": ["protos/src/decoder/mod.rs Decoder::decode", "protos/src/decoder/primitives.rs decode_varint, decode_key"]}
{"id": "C111", "title": "What an encoder remembers", "statement": "Two HPACK encoders answer every sequence of encode and update_max_dynamic_size calls with the same octets and the same results exactly when their dynamic tables have, position by position, the same names and the same entry sizes, and the same entries wherever an entry is not a repetition of a static or newer entry, and have the same maximum size (or both a maximum below 32, which admits no entry). So an encoder's output depends on nothing but its table: encoders with equal tables and maxima always answer alike, encoders that are alike stay alike through any calls, and where no line occurs twice the output reveals every entry.", "quantifier": "all pairs of encoder states, and so all pairs of histories from any initial sizes; all sequences of later calls", "why_tests_cant": "both directions quantify over all future call sequences: equality for all of them, and for every difference of state some sequence that shows it", "anchors": ["hpack/src/encoder/mod.rs Encoder::encode, update_max_dynamic_size", "hpack/src/table/mod.rs Table::find, get, insert"]}
{"id": "C112", "title": "Header blocks are unambiguous", "statement": "If two sequences of encoder calls, starting from equal HPACK encoders, write the same octets, they sent the same headers with the same flags in the same order and leave equal encoders; if the octets of one are the beginning of the other's, so are its headers. Two single fields have the same octets exactly when the same representation is chosen for them; literals sent without the search flag have the same octets only if name, value, kind and string codings agree. (Calls that return IntegerOverflow are excluded.)", "quantifier": "all encoder states, all pairs of call sequences, both build modes", "why_tests_cant": "injectivity relates every pair of call sequences", "anchors": ["hpack/src/encoder/mod.rs Encoder::encode, update_max_dynamic_size", "hpack/src/encoder/primitives.rs encode_integer, encode_string"]}
{"id": "C113", "title": "Of several table size updates only the smallest and the last matter", "statement": "Any run of dynamic table size updates leaves encoder and decoder as the two updates to the smallest and then to the last of the sizes would (so signalling these two, as RFC 7541 section 4.2 asks, is enough): the encoder's table and maximum are the same, and a block that starts with the run is decoded as the block that starts with the two (same headers, rest, decoder and result). The last update alone is enough exactly when the smallest size would evict no more entries than the last; so always when the last size is the smallest.", "quantifier": "all encoders and decoders with consistent tables, all runs of sizes (within the decoder's limit), all encodings of them, all following octets, both build modes", "why_tests_cant": "unbounded runs of updates in any order on tables of any contents", "anchors": ["hpack/src/encoder/mod.rs Encoder::update_max_dynamic_size", "hpack/src/decoder/mod.rs Decoder::decode, update_max_dynamic_size", "hpack/src/table/dynamic.rs DynamicTable::update_max_size"]}
{"id": "C114", "title": "Exactly which states an encoder or decoder can get into", "statement": "An encoder can be brought, by calls of encode and update_max_dynamic_size, into every state whose table is consistent (recorded size that of the entries, at most the maximum, a u32) and holds octet strings, from any state and whatever size it was created with, and into no other. A decoder created with table size n gets into exactly the states with any u32 limit and a consistent table whose maximum is n or at most 2^28 + 30 and whose names and values each fit into 2^28 + 126 octets, plain or Huffman coded; from each of its states it can be brought into each of them with a maximum of at most 2^28 + 30, and a larger maximum once left is never had again. So some encoder tables cannot be those of any decoder.", "quantifier": "all table sizes, all states, all finite sequences of calls with arguments of the right types (successful or not), both build modes", "why_tests_cant": "needs every state and every history: both that no sequence of calls leads elsewhere and that each state has a sequence that leads to it", "anchors": ["hpack/src/encoder/mod.rs Encoder::with_dynamic_size, encode, update_max_dynamic_size", "hpack/src/decoder/mod.rs Decoder::with_dynamic_size, decode, decode_exact, set_max_dynamic_size", "hpack/src/table/dynamic.rs DynamicTable::insert, update_max_size"]}
{"id": "C115", "title": "Exactly when a decoder out of step still gets every header, and when it cannot get a wrong one", "statement": "Take an encoder and a decoder in any states. Whatever the encoder is asked to send (with strings and size updates the decoder can read), the decoder reads all of it and reports exactly the headers sent, if and only if its table begins with the encoder's entries, newest first, and its maximum size is at least the encoder's (or the encoder's is below 32, so that it never holds an entry). It never reports a header that was not sent in that place, if and only if one of the two tables begins with the entries of the other, whatever the maximum sizes; in that case it reports everything, or stops with InvalidIndex after a correct initial part. Both conditions persist from buffer to buffer.", "quantifier": "all encoder and decoder states, all sequences of encoder calls, both build modes on each side", "why_tests_cant": "both directions range over every pair of states: one over every later history, the other needs a failing history for every pair that violates the condition", "anchors": ["hpack/src/encoder/mod.rs Encoder::encode, update_max_dynamic_size", "hpack/src/decoder/mod.rs Decoder::decode", "hpack/src/table/mod.rs Table::get", "hpack/src/table/dynamic.rs DynamicTable::insert, update_max_size"]}
{"id": "C116", "title": "Header blocks lost, repeated or reordered on the way", "statement": "Blocks are encoded into a vector each and every vector that arrives is decoded by itself. If no block asks for storing, any of them may be lost, repeated or reordered: each arriving vector gives exactly its own headers and neither side's state changes, even if the blocks refer to stored entries. A block that uses static indices and literals only, without the store and best-format flags, has the same octets whatever the encoder's table and is read alike by every decoder; such blocks may be lost, repeated and moved anywhere among storing blocks that arrive once each and in order. A lost block that stores cannot be made up for: with a different newest entry in the decoder's table, the next reference to the lost entry is reported as that other header, with result Ok.", "quantifier": "all lists of blocks, all selections and orders of arrivals (any length, with repetition), all table states, both build modes on each side", "why_tests_cant": "ranges over every list of blocks and every delivery schedule, and over every table the block meets", "anchors": ["hpack/src/encoder/mod.rs Encoder::encode", "hpack/src/decoder/mod.rs Decoder::decode", "hpack/src/table/mod.rs Table::get"]}
{"id": "C117", "title": "Which octets are a protobuf message, and in how many ways", "statement": "Octets decode to a list of fields, with nothing left over, pending or in error, exactly if they are the concatenation of the fields' records (key, length if any, payload; any padding). The octets determine where each record ends, whichever builds read them: no record is a proper prefix of another. So if a and a++b are messages, b is one, with the remaining fields; every field of a message has a record of its own between two messages; and a payload may be overwritten in place by any octets of the same number, or for a varint by any varint: the message then has that payload in that field and is otherwise unchanged.", "quantifier": "all octet strings, field lists and cuts (any length), all replacement payloads, both build modes", "why_tests_cant": "an exact description of an infinite language, and of every cut and every overwriting of its words", "anchors": ["protos/src/decoder/mod.rs Decoder::decode", "protos/src/decoder/primitives.rs decode_varint", "protos/src/typ.rs Typ"]}
{"id": "C118", "title": "Names and values are opaque", "statement": "What the strings say has no influence on what the decoder does, only how long they are: if the decoded part of any input, and the entries of the decoder's table, are rewritten with other strings of the same lengths (strings of the static table standing for themselves), the same number of headers comes out with the same flags and the corresponding strings, the table has the same size and maximum with corresponding strings, the rest and the error (if any) are the same, and so is the octet count if the octets of each field number the same. So plain strings may be masked where they stand. The encoder, without Huffman coding, gives the same results, the same number of octets and a corresponding table; with the best-format flag provided that equal strings stand for equal ones and different for different ones.", "quantifier": "all inputs (any length), all correspondences of strings that keep lengths and the static table, all rewritings, all table states, all sessions, both build modes", "why_tests_cant": "compares every two runs that differ only in strings, over every correspondence", "anchors": ["hpack/src/decoder/mod.rs Decoder::decode", "hpack/src/encoder/mod.rs Encoder::encode", "hpack/src/table/dynamic.rs DynamicTable::insert", "hpack/src/table/mod.rs Table::find"]}
{"id": "C119", "title": "How headers are compressed cannot be seen in their names and values", "statement": "A decoder in step with the encoder gets exactly the names and values the calls ask for, in order: as spelled out, or as found at the index at the time of the call. So two connections on which the same names and values are asked for give the same names and values, whatever the flags (Huffman, indexing, best format), the use of indices, the size updates in between, the table sizes and contents, and the builds. Calls that spell out name and value ask for the same in every state.", "quantifier": "all pairs of sessions (any length and mixture of calls), all table states and sizes, all flags, both build modes on all four ends", "why_tests_cant": "compares every two ways of compressing the same headers, in every state", "anchors": ["hpack/src/encoder/mod.rs Encoder::encode", "hpack/src/encoder/mod.rs Encoder::update_max_dynamic_size", "hpack/src/decoder/mod.rs Decoder::decode"]}
{"id": "C120", "title": "When a decoder out of step recovers by itself, and when it never does", "statement": "Calls that do not look at stored entries (static indices, indexed names from the static table, literals without the best-format flag, size updates), though they may store and evict, are written with the same octets whatever the encoder's table and read right by every decoder, whatever its table; the decoder ends with the table the encoder would have if it had started from the decoder's. Without size updates they bring the decoder in step exactly if the maximum sizes agree and the newest entries in which the two tables differ no longer fit behind the fields stored since and the entries they have in common; so in particular once the fields stored fill the table up to less than 32 octets. A size update n does so exactly if those entries do not fit into n behind the common ones. With the best-format flag it may never recover: if the newest entries differ, the encoder's newest field sent any number of times with that flag (even with the store flag) is read as the decoder's newest entry every time, with result Ok, and neither side's state changes.", "quantifier": "all lists of such calls, all pairs of encoder and decoder states, both builds, any number of repetitions", "why_tests_cant": "recovery depends on every entry of two arbitrary tables and on arbitrarily many stored fields; that one never recovers is a statement about unboundedly many calls", "anchors": ["hpack/src/encoder/mod.rs Encoder::encode, Encoder::update_max_dynamic_size", "hpack/src/decoder/mod.rs Decoder::decode", "hpack/src/table/mod.rs Table::insert, Table::find, Table::update_max_dynamic_size", "hpack/src/table/dynamic.rs DynamicTable::insert"]}
{"id": "C121", "title": "What probing can learn about a stored field", "statement": "Two encoders whose tables differ only in values of equal length write the same octets and return the same results for any calls (literals, references, indexed names, size updates), as long as no call asks the best-format search for one of the differing fields as a whole: a wrong guess, even of all but one octet, shows nothing. Storing one value or another of equal length (plain, without the best-format flag) gives two such encoders with equally many octets. A single guess tells two such encoders apart exactly if the first index of the guessed field differs between them, and a right guess is seen by its length alone: one octet exactly if the field has an index below 127.", "quantifier": "all pairs of consistent tables, all call sequences of any length, all guesses, flags and builds", "why_tests_cant": "that every wrong guess in every session shows nothing is a relation between two unbounded runs of the encoder over arbitrary tables (noninterference), not an input-output pair", "anchors": ["hpack/src/encoder/mod.rs Encoder::encode", "hpack/src/table/mod.rs Table::find, Table::get", "hpack/src/table/dynamic.rs DynamicTable::insert"]}
{"id": "C122", "title": "What a flattened table says about the code", "statement": "For the tables the flattener is meant for (codes of 1 to 32 bits, 30 at three and five bits per chunk, none a prefix of another, at most 256 rows) the matrix determines the table: two tables flattened to the same matrix at the same speed, in any build, are equal, symbol by symbol. The matrix has no blank cell exactly when the code is complete (every bit string as long as the longest code begins with a code), so a code has blank cells at every speed it fits or at none. A table of codes of at most 30 bits that can be flattened one bit at a time can be flattened at every speed. A complete code of 1 to 32 bit codes can be flattened one bit at a time exactly if it has at most 257 codes, and then with one row less than codes; if its codes have at most 30 bits, every speed works. The RFC 7541 code is complete and has no blank cell at any speed. With its 257 codes it is as large as a complete code can be. Tables that are not prefix-free can share a matrix, and nothing is reported.", "quantifier": "all code tables of any length with any prefix-free codes, all speeds, both build modes, all bit strings", "why_tests_cant": "injectivity over all pairs of tables and completeness over all bit strings of unbounded length are universal statements; tests flatten a handful of tables", "anchors": ["huffman/src/flattener/mod.rs flatten", "huffman/src/decoder/table1.rs DECODE_TABLE", "huffman/src/encoder/table.rs ENCODE_TABLE"]}
