{
 "C05": {
  "note": "Length half proved. The 'padding must be ones' half is false of the code: zero bits are accepted (C05_padding_refuted, input [0x00]); C05_padding_exact_partial gives the exact set."
 },
 "C15": {
  "note": "False of the code: truncated input panics (C15_truncated_panics_refuted). Proved: the exact set of panicking inputs, and that every cut of a good block ends in a panic or IntegerUnderflow with everything before the cut processed."
 },
 "C21": {
  "note": "Proved for all sessions whose coded strings have at most 2^28+126 octets and whose updates are at most 2^28+30 (and the decoder's limit); beyond that it is false: C21_large_update_refuted."
 },
 "C23": {
  "note": "InvalidIndex failures proved to have no effect; the only other failure, IntegerOverflow for a coded string of 2^32 octets or more, does change buffer and table: C23_failed_encode_refuted."
 },
 "C27": {
  "note": "Proved when bits 0x4 and 0x10 are clear, with the exact condition for being marked; false otherwise: C27_never_indexed_refuted."
 },
 "C28": {
  "note": "False with table size updates in the block: C28_count_refuted. Proved: the count is the octets of the other representations, and equals the octets removed iff there is no size update."
 },
 "C30": {
  "note": "False of the code: C30_limit_refuted (the getter returns the table's maximum). Proved: what is reported, and that the limit set is the one enforced."
 },
 "C49": {
  "note": "False for decode (C49_buffer_untouched_refuted); proved for decode_exact with capacity one."
 },
 "C36": {
  "note": "False of the code: more than ten octets panic in debug builds (C36_panic_refuted) and alias in release builds (C36_alias_refuted). Proved: the exact result on every input, and the exact value up to ten octets."
 },
 "C41": {
  "note": "Writers are modelled as a Vec or a writer with a fixed amount of room; payloads are shorter than 2^64 octets."
 },
 "C43": {
  "note": "False for one call (C43_one_call_refuted). Proved: where the call stops, and that repeated calls deliver the whole message."
 },
 "C10": {
  "note": "C10_flatten_represents_iff is the exact condition for prefix-free tables in both build modes; C10_flatten_represents_checked and C10_chunks_right_iff give it as plain arithmetic when no shift reaches 32 (always so with overflow checks); C10_flatten_represents is the simple sufficient form."
 },
 "C89": {
  "note": "False as documented (C89_retry_refuted): what the failed call wrote stays in the writer. Proved: exactly when a single retry is harmless, and that only octets of the failed calls have to be taken back."
 },
 "C92": {
  "note": "Full statement false: C92_position_refuted (update in the middle of a block accepted; no update demanded after the limit was lowered). Proved: the effect of an update wherever it stands."
 },
 "C96": {
  "note": "The full statement is refuted (C96_every_block_refuted: a conforming block with a six-octet integer is rejected). The partial theorem says exactly what happens to every RFC block."
 },
 "C105": {
  "note": "The full statement is false of the code (two refutations). Proved: the upper bound for every input, and exactness in blocks without size updates."
 },
 "C107": {
  "note": "The full statement is false of the code in both builds (C107_refuted). Proved: the exact set of buffers on which a call does nothing."
 },
 "C109": {
  "note": "The full statement is false of the code: three kinds of hopeless input are waited for (C109_huffman_refuted, C109_index_refuted, C109_size_refuted). C109_exactly_partial characterises exactly when a completion exists."
 },
 "C110": {
  "note": "The full statement is false of the code (C110_wire_type_refuted, C110_large_refuted, C110_ten_refuted). C110_exactly_partial characterises exactly when a wait can end with a field."
 }
}