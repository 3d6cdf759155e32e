{"claims": [
{"property": "C01", "status": "proved", "theorems": ["C01_sha1", "C01_sha1_history"], "note": "All call histories of one or many objects, debug and release builds, against FIPS 180-4."},
{"property": "C02", "status": "proved", "theorems": ["C02_sha224", "C02_sha224_history", "C02_sha256", "C02_sha256_history"], "note": "Both classes; constants derived from roots of primes in the specification."},
{"property": "C03", "status": "proved", "theorems": ["C03_sha384", "C03_sha384_history", "C03_sha512", "C03_sha512_history", "C03_sha512_224", "C03_sha512_224_history", "C03_sha512_256", "C03_sha512_256_history"], "note": "All four classes; the 512/t initial values are generated by the FIPS 180-4 procedure in the specification."},
{"property": "C04", "status": "proved", "theorems": ["C04_md2", "C04_md2_history"], "note": "All call histories, debug and release builds, against RFC 1319 (with the checksum erratum); the substitution table of the specification is the literal table of the RFC."},
{"property": "C05", "status": "proved", "theorems": ["C05_md4", "C05_md4_history"], "note": "All call histories, debug and release builds, against RFC 1320."},
{"property": "C06", "status": "proved", "theorems": ["C06_md5", "C06_md5_history"], "note": "All call histories, debug and release builds, against RFC 1321; the sine table is recomputed in the specification with integer arithmetic."},
{"property": "C07", "status": "proved", "theorems": ["C07_ripemd128", "C07_ripemd128_history", "C07_ripemd160", "C07_ripemd160_history", "C07_ripemd256", "C07_ripemd256_history", "C07_ripemd320", "C07_ripemd320_history"], "note": "All four classes against the RIPEMD-128/160/256/320 specification; message order and rotation tables derived from the permutations rho and pi."},
{"property": "C08", "status": "proved", "theorems": ["C08_has160", "C08_has160_history"], "note": "All call histories, debug and release builds; the word order is derived from its arithmetic description; the uninitialised table of the code is modelled and never read before it is written."},
{"property": "C09", "status": "proved", "theorems": ["C09_sm3", "C09_sm3_history"], "note": "All call histories, debug and release builds, against GB/T 32905."},
{"property": "C10", "status": "proved", "theorems": ["C10_tiger", "C10_tiger_history", "C10_tiger2", "C10_tiger2_history"], "note": "Both variants, all call histories, debug and release builds; the S-boxes of the specification are written by the published generator, not copied from the code."},
{"property": "C11", "status": "partial", "theorems": ["C11_tiger1_128_refuted", "C11_tiger1_160_refuted", "C11_tiger2_128_refuted", "C11_tiger2_160_refuted"], "note": "Refuted: for every message and both builds, toArray() (hence every read-out) writes 24 bytes into the 16- or 20-byte result array. Nothing of the claim holds, so there is no positive part."},
{"property": "C12", "status": "proved", "theorems": ["C12_whirlpool", "C12_whirlpool_history"], "note": "All call histories, debug and release builds, for every message shorter than 2^128 bits; the specification computes the substitution box from its mini-boxes and multiplies in GF(2^8)."},
{"property": "C13", "status": "partial", "theorems": ["C13_blake224_partial", "C13_blake224_history_partial", "C13_blake256_partial", "C13_blake256_history_partial", "C13_blake384_partial", "C13_blake384_history_partial", "C13_blake512_partial", "C13_blake512_history_partial", "C13_blake224_refuted", "C13_blake224_coded", "C13_blake256_refuted", "C13_blake256_coded", "C13_blake384_refuted", "C13_blake384_coded", "C13_blake512_refuted", "C13_blake512_coded"], "note": "Partial: all four classes are proved to be BLAKE for messages whose length leaves room for the padding in their last block (length mod block < 14 words). Refuted outside: a 14-word zero message gets another digest. C13_*_coded say exactly what is computed on all messages."},
{"property": "C14", "status": "proved", "theorems": ["C14_blake2b", "C14_blake2b_history", "C14_blake2s", "C14_blake2s_history"], "note": "All call histories, debug and release builds, against RFC 7693 (unkeyed, longest output), for every message shorter than 2^128 (2^64) bytes."},
{"property": "C15", "status": "proved", "theorems": ["C15_sha3_224", "C15_sha3_224_history", "C15_sha3_256", "C15_sha3_256_history", "C15_sha3_384", "C15_sha3_384_history", "C15_sha3_512", "C15_sha3_512_history"], "note": "All four classes, any chunking, any history."},
{"property": "C16", "status": "proved", "theorems": ["C16_shake128", "C16_shake128_int", "C16_shake128_history", "C16_shake128_length", "C16_shake256", "C16_shake256_int", "C16_shake256_history", "C16_shake256_length"], "note": "Every output length (0 included), from the int constructor on; negative lengths throw std::length_error."},
{"property": "C17", "status": "partial", "theorems": ["C17_cshake128_partial", "C17_cshake128_long_refuted", "C17_cshake128_history", "C17_cshake128_plain", "C17_cshake128_negative", "C17_cshake256_partial", "C17_cshake256_long_refuted", "C17_cshake256_history", "C17_cshake256_plain", "C17_cshake256_negative", "C17_cshake128_never_wrong", "C17_cshake256_never_wrong"], "note": "Partial: proved for every digest length, name, customization and message, all histories, provided name and customization are at most (2^56-2^8)/8 bytes; refuted from 2^56-4 bits on (the length prefix overflows its 8-byte buffer). For all names and customizations up to 2^63 bits: the right digest or that failure, never a wrong digest. Assumes std::log2 is accurate to within the stated bound (Spec/Log2.v); the assumption is shown satisfiable."},
{"property": "C18", "status": "partial", "theorems": ["C18_tuplehash128_never_wrong", "C18_tuplehash256_never_wrong", "C18_tuplehash128_partial", "C18_tuplehash128_long_refuted", "C18_tuplehash128_history", "C18_tuplehash128_negative", "C18_tuplehash128_overflow", "C18_tuplehash256_partial", "C18_tuplehash256_long_refuted", "C18_tuplehash256_history", "C18_tuplehash256_negative", "C18_tuplehash256_overflow"], "note": "Partial: proved for digest lengths below 2^28 bytes and strings of at most (2^56-2^8)/8 bytes, all histories. Refuted outside: the length prefix overflows its buffer, and digestLength*8 overflows int (undefined behaviour). For all lengths and all strings up to 2^63 bits: the right digest or one of these failures, never a wrong digest. Same std::log2 assumption as C17."},
{"property": "C19", "status": "proved", "theorems": ["C19_siphash", "C19_siphash_history", "C19_siphash_key_debug", "C19_siphash_key_release"], "note": "All keys, chunkings, call histories and round counts, debug and release builds. A key of the wrong size stops a debug build; a shorter key makes a release build read past its end."},
{"property": "C20", "status": "proved", "theorems": ["C20_crc32", "C20_crc32_history", "C20_table", "C20_table_shape"], "note": "All chunkings and call histories against the bit-serial definition; every table entry equals the remainder the polynomial prescribes."},
{"property": "C21", "status": "proved", "theorems": ["C21_fnv32_0", "C21_fnv32_0_history", "C21_fnv32_1", "C21_fnv32_1_history", "C21_fnv32_1a", "C21_fnv32_1a_history", "C21_fnv64_0", "C21_fnv64_0_history", "C21_fnv64_1", "C21_fnv64_1_history", "C21_fnv64_1a", "C21_fnv64_1a_history", "C21_offset_bases"], "note": "All six classes; histories without reset() for FNV-0 (its reset() does nothing, see C23)."},
{"property": "C22", "status": "proved", "theorems": ["C22_library", "C22_objects", "C22_digest", "C22_cshake128", "C22_cshake256"], "note": "All 43 classes of Model/Library.v (short Tiger: both fail alike), any two builds, plus cSHAKE within the C17 length limit; the absorbed objects themselves are equal. TupleHash has one item per addData call, so the property does not apply to it."},
{"property": "C23", "status": "partial", "theorems": ["C23_cshake128_drops", "C23_cshake128_refuted", "C23_tuplehash128_refuted", "C23_cshake256_drops", "C23_cshake256_refuted", "C23_tuplehash256_refuted", "C23_fnv32_0_keeps", "C23_fnv32_0_refuted", "C23_fnv64_0_keeps", "C23_fnv64_0_refuted", "C23_library", "C23_cshake128_plain", "C23_cshake256_plain"], "note": "Proved for all classes but FNV-0 and the short Tigers, for all legal histories before and all programs after. Refuted for FNV-0 (reset() does nothing), for customized cSHAKE and for TupleHash (prefix not absorbed again)."},
{"property": "C24", "status": "partial", "theorems": ["C24_library_partial", "C24_tiger_refuted", "C24_empty_string_refuted", "C24_cshake128_partial", "C24_cshake256_partial", "C24_tuplehash128_partial", "C24_tuplehash256_partial"], "note": "Proved for all classes and all legal programs except: short Tiger read-outs write out of bounds (refuted), toString() of an empty digest (refuted), cSHAKE/TupleHash names, customizations or items at least 2^56 bits long (refuted in C17/C18/C30), cSHAKE copy assignment between kinds (refuted in C33)."},
{"property": "C25", "status": "partial", "theorems": ["C25_library", "C25_checks_only", "C25_tiger", "C25_cshake128_refuted", "C25_cshake128_partial", "C25_cshake256_partial", "C25_tuplehash128_partial", "C25_tuplehash256_partial"], "note": "Same programs: both builds end with the same observations and no check fires. cSHAKE/TupleHash within the length limit; beyond it the builds differ (refuted). Moreover, for all 43 classes of Model/Library.v and any program at all, legal or not, a debug build that runs to its end shows the same as a release build."},
{"property": "C26", "status": "proved", "theorems": ["C26_library"], "note": "All classes but the short Tigers (which cannot be read out, C11), all messages and chunkings, both builds; toString() needs a non-empty digest (C24)."},
{"property": "C27", "status": "partial", "theorems": ["C27_library", "C27_truncated_partial", "C27_sponge_partial", "C27_total", "C27_sponge_refuted", "C27_md2_refuted", "C27_siphash_refuted", "C27_shake128_refuted", "C27_shake256_refuted", "C27_cshake128_partial", "C27_cshake128_total", "C27_cshake128_refuted", "C27_tuplehash128_partial", "C27_tuplehash128_total", "C27_cshake256_partial", "C27_cshake256_total", "C27_cshake256_refuted", "C27_tuplehash256_partial", "C27_tuplehash256_total"], "note": "Proved as an equivalence for the 25 classes whose digest shows all that == compares (all reachable objects). Equal objects have equal digests for the other classes too (SHA-3, SHAKE, cSHAKE, TupleHash: finalized objects of the same digest length), and != is always the negation. Refuted conversely: SHA-3, SHAKE and MD2 objects with equal digests and unequal states exist (pigeonhole; KECCAK-f and the MD2 rounds are injective), an explicit pair for SipHash; and SHAKE and cSHAKE objects of different digest lengths compare equal for every message. Open: the converse for SHA-224, SHA-384, SHA-512/t, BLAKE-224 and BLAKE-384."},
{"property": "C28", "status": "partial", "theorems": ["C28_library", "C28_sponge_partial", "C28_sha3_refuted", "C28_shake_refuted", "C28_cshake128_partial", "C28_tuplehash128_partial", "C28_cshake256_partial", "C28_tuplehash256_partial"], "note": "Proved for all pairs of reachable objects, finalized or not, of all classes but SHA-3, SHAKE, cSHAKE and TupleHash; for those proved for finalized objects of the same digest length. Refuted in general: an unfinalized SHA3-256 object that has absorbed a padded block equals the finalized one, and SHAKE objects of different lengths are equal, with different std::hash values."},
{"property": "C29", "status": "proved", "theorems": ["C29_uint128_add", "C29_uint128_times8", "C29_add", "C29_chunks", "C29_field64", "C29_classes64", "C29_appended64", "C29_field128", "C29_classes128", "C29_appended128", "C29_blake64", "C29_blake128", "C29_blake2b", "C29_blake2s"], "note": "uint128 addition and multiplication by 8 are exact modulo 2^128; in every block class the counter plus the buffered bytes equals the number of bytes taken, whatever the chunking; what finalize appends ends with that bit count in the algorithm's byte order and width; BLAKE and BLAKE2 counters likewise."},
{"property": "C30", "status": "partial", "theorems": ["C30_left_never_wrong", "C30_right_never_wrong", "C30_left_encode_partial", "C30_right_encode_partial", "C30_left_shape", "C30_right_shape", "C30_left_unique", "C30_right_unique", "C30_left_encode_refuted", "C30_right_encode_refuted", "C30_log2_assumption"], "note": "Partial: proved for values up to 2^56-2^8 under the accuracy assumption on std::log2. Refuted from 2^56-4 on: the 8-byte buffer overflows (out-of-bounds write in release builds, exception in debug builds). For all values up to 2^63: the right encoding or that failure, never a wrong encoding."},
{"property": "C31", "status": "proved", "theorems": ["C31_regroup", "C31_tuplehash128", "C31_injective128", "C31_collision128", "C31_tuplehash256", "C31_injective256", "C31_collision256"], "note": "Injectivity of the hashed stream for all pairs of tuples, lengths and customizations (strings up to the limit of C30); equal digests of different inputs are sponge collisions."},
{"property": "C32", "status": "proved", "theorems": ["C32_shake128", "C32_shake256", "C32_cshake128", "C32_cshake256"], "note": "SHAKE128/256 and cSHAKE128/256, every pair of lengths."},
{"property": "C33", "status": "partial", "theorems": ["C33_cshake128_partial", "C33_cshake128_assign_refuted", "C33_cshake128_moved_refuted", "C33_tuplehash128_partial", "C33_tuplehash128_moved_refuted", "C33_cshake256_partial", "C33_cshake256_assign_refuted", "C33_cshake256_moved_refuted", "C33_tuplehash256_partial", "C33_tuplehash256_moved_refuted"], "note": "Partial: all programs over many objects in which copy assignment stays within one kind (customized or not) and does not target a moved-from object. Refuted outside: a null unique_ptr is dereferenced."},
{"property": "C34", "status": "proved", "theorems": ["C34_own_calls", "C34_own_digest", "C34_cshake128", "C34_cshake256", "C34_tuplehash128", "C34_tuplehash256"], "note": "Every class and program: an object is what its own calls (through copies) make it. Digest form for legal programs; cSHAKE and TupleHash with constructions, copies, moves and assignments in C17/C18/C33 and here."},
{"property": "C35", "status": "proved", "theorems": ["C35_padding", "C35_blocks", "C35_collision", "C35_blake_padding", "C35_blake_blocks", "C35_blake_collision", "C35_blake2_padding", "C35_blake2_blocks", "C35_blake2_collision", "C35_md2_padding", "C35_md2_blocks", "C35_md2_collision", "C35_siphash_padding"], "note": "Padding and block splitting are injective on the messages each algorithm accepts, and equal final chaining values from different messages exhibit two different inputs that the compression function sends to the same value. Covers MD2, MD4, MD5, SHA-1, SHA-2, RIPEMD, HAS-160, SM3, Tiger, Whirlpool, BLAKE, BLAKE2 and SipHash; the sponges are C38."},
{"property": "C36", "status": "proved", "theorems": ["C36_burst", "C36_affine"], "note": "Burst detection for two messages in any chunking; the affine law on digests."},
{"property": "C37", "status": "partial", "theorems": ["C37_file_partial", "C37_sized", "C37_tuple128_partial", "C37_tuple256_partial", "C37_usage", "C37_not_a_number", "C37_usage_text", "C37_cshake128", "C37_cshake256", "C37_cshake128_refuted", "C37_cshake256_refuted", "C37_not_opened_refuted", "C37_read_error_refuted", "C37_errors_ignored", "C37_tiger_refuted", "C37_large_length_refuted", "C37_zero_length_refuted", "C37_tuple128_refuted", "C37_tuple256_refuted"], "note": "Proved for all options without further arguments except the four short Tigers, for SHAKE and TupleHash lengths, usage text and argument counts, any read sizes. Refuted: the cSHAKE customization string is used as the function name; files that cannot be opened or read are reported as hashed, with status 0; short Tigers write out of bounds; lengths of 2^31 and more leave main as an exception, length 0 reads the front of an empty vector, TupleHash lengths from 2^28 overflow int."},
{"property": "C38", "status": "proved", "theorems": ["C38_domains", "C38_objects", "C38_cshake128", "C38_cshake256", "C38_cshake128_after_reset", "C38_cshake256_after_reset"], "note": "proved for new objects, whatever the chunks; after reset() of a customized object the separation is lost (C38_cshake128_after_reset, C38_cshake256_after_reset)"},
{"property": "C39", "status": "proved", "theorems": ["C39_overloads", "C39_cshake128", "C39_cshake256", "C39_tuple128", "C39_tuple256"], "note": "proved; the overloads are modelled down to single reads of a byte-addressed memory"},
{"property": "C40", "status": "partial", "theorems": ["C40_any_order_partial", "C40_early_text_refuted"], "note": "All 43 classes, all programs in any call order, both builds. Refuted clause: toString() of a SHA-3 or SHAKE object that is not finalized is front() of an empty string (undefined behaviour). The four short Tiger classes only without read-outs (they write out of bounds, C24)."},
{"property": "C41", "status": "partial", "theorems": ["C41_sponge", "C41_crc_refuted", "C41_sha1_refuted"], "note": "Proved for SHA-3 and SHAKE: all messages, all later calls but reset(). Refuted for CRC_32 (every message) and SHA1 (a concrete message): a second finalize() changes the digest; the interface comments do not allow the call."},
{"property": "C42", "status": "partial", "theorems": ["C42_literal", "C42_readme_refuted"], "note": "Refuted: proved for all classes, literals and states that the array overload hashes the terminating zero too; the two calls shown as equivalent in README.md give different SHA-1 digests."},
{"property": "C43", "status": "partial", "theorems": ["C43_digest_partial", "C43_history_partial", "C43_text_partial", "C43_vectors_refuted"], "note": "Refuted: neither vector of test_has_v_320.cpp is reproduced (C43_vectors_refuted). Proved: for all messages, chunkings and programs the class computes the function of Spec/HasV.v, a loop-form description of the unrolled code; that description is of this file, not of the published HAS-V, which is not available offline."},
{"property": "C44", "status": "proved", "theorems": ["C44_continues", "C44_forged", "C44_collision"], "note": "Holds for every class that appends the message length and shows its whole state. The statement uses hash_chunks only; Model/Extension.v is the computation made without the message."},
{"property": "C45", "status": "proved", "theorems": ["C45_combine", "C45_residue", "C45_forge"], "note": "For all messages and all digests; values of the examples from zlib."},
{"property": "C46", "status": "proved", "theorems": ["C46_one_byte", "C46_suffix", "C46_leading_zeros", "C46_finalize"], "note": "For the six classes of fnv.h."},
{"property": "C47", "status": "proved", "theorems": ["C47_once"], "note": "For the 22 classes that append the message length; the compression calls are observed with an instrumented instance of the same model skeleton, shown to compute the same chaining values."},
{"property": "C48", "status": "partial", "theorems": ["C48_first_byte", "C48_nonzero_refuted"], "note": "Refuted: the conversion to bool is false for non-zero digests that begin with a zero byte (C48_nonzero_refuted). Proved: it is 'first byte not zero' for every class and message."},
{"property": "C49", "status": "partial", "theorems": ["C49_history", "C49_fips", "C49_moved_reset", "C49_sized", "C49_length_refuted"], "note": "Refuted: a variable of type SHA3_n yields a digest of another length after assignment from a base object (C49_length_refuted). Proved: all programs over objects of any lengths run and read out the promised digests; reset of moved-from objects; n bits when only SHA3_n variables are created."},
{"property": "C50", "status": "partial", "theorems": ["C50_cshake", "C50_tuplehash", "C50_careful", "C50_careful_tuplehash", "C50_moved_refuted"], "note": "Refuted: a moved-from cSHAKE object can hold and return earlier content (C50_moved_refuted). Proved: the outcome of every program over cSHAKE and TupleHash objects, in any order of calls, is the one computed by the table of owners; careful programs always go through."},
{"property": "C51", "status": "partial", "theorems": ["C51_span", "C51_confined", "C51_least_distance_refuted", "C51_reversed_refuted"], "note": "Refuted: an iterator moved by PTRDIFF_MIN overflows (C51_least_distance_refuted); a span from two pointers in the wrong order is accepted (C51_reversed_refuted). Proved: every other program over spans and iterators does what the specification says, is never undefined, and stays inside of the span it was given."},
{"property": "C52", "status": "partial", "theorems": ["C52_narrow", "C52_at", "C52_copy", "C52_copy_overlap_refuted", "C52_byte_bits", "C52_byte_shift", "C52_byte_shift_refuted", "C52_finally", "C52_finally_once"], "note": "Refuted: copy between overlapping spans (C52_copy_overlap_refuted), byte shifts above 24 (C52_byte_shift_refuted). Proved: narrow, at, copy, byte operators and finally as stated."},
{"property": "C53", "status": "proved", "theorems": ["C53_sha3", "C53_cshake", "C53_tuplehash", "C53_genuine", "C53_genuine_cshake", "C53_genuine_tuplehash", "C53_recovers", "C53_moved", "C53_moved_early", "C53_moved_late"], "note": "All programs; exact read-outs of SHA-3, SHAKE, cSHAKE and TupleHash objects, including repeated finalize and moved-from objects."},
{"property": "C54", "status": "proved", "theorems": ["C54_exact", "C54_standard", "C54_early", "C54_again", "C54_again_genuine", "C54_again_field", "C54_recovers"], "note": "Exact read-outs of all programs over the 22 Merkle-Damgard classes. Findings: a second finalize() writes a wrong length (incomplete block counted twice; Uint128 counter already multiplied by 8)."},
{"property": "C55", "status": "proved", "theorems": ["C55_exact", "C55_standard", "C55_recovers", "C55_fnv0_reset", "C55_fnv_finalize", "C55_crc_twice", "C55_md2_again", "C55_early", "C55_siphash_early"], "note": "Exact read-outs of all programs over the 15 classes that are neither Merkle-Damgard nor sponges. Findings: FNV-0 reset() never has an effect; a second finalize() of CRC_32 undoes the first; an early SipHash read-out is a constant."},
{"property": "C56", "status": "partial", "theorems": ["C56_values", "C56_sha3", "C56_cshake", "C56_cshake256", "C56_tuplehash", "C56_tuplehash256", "C56_hidden_refuted"], "note": "Refuted: a swap does not exchange the sponge a CSHAKE object keeps after a move assignment, so a later copy assignment can dereference a null pointer (C56_hidden_refuted). Proved: swaps exchange the 43 value classes and SHA-3/SHAKE objects in all programs, CSHAKE and TUPLE_HASH objects in all promised programs."},
{"property": "C57", "status": "proved", "theorems": ["C57_equal", "C57_block", "C57_reached", "C57_exist", "C57_cshake128", "C57_cshake256"], "note": "Equal objects mean the same message or an inner collision of the blocks before the last ones; one-block differences always show; an inner collision always yields equal objects; existence by counting (not constructive). The cSHAKE part needs an accurate std::log2, as C17."},
{"property": "C58", "status": "proved", "theorems": ["C58_buffer", "C58_reset", "C58_same", "C58_digest"], "note": "Buffer contents proved for every class with m_buffer and every order of calls; reset() for every class but FNV-0 (its reset() is wrong, see C23). cSHAKE, TupleHash and HAS_V_320 objects are not in the scope of this property. The model has no spare capacity of std::vector: digest bytes may stay behind the end of m_final after reset() of the SHA-3 classes."},
{"property": "C59", "status": "partial", "theorems": ["C59_same_functions", "C59_same_equality", "C59_same_constructor", "C59_library_partial", "C59_siphash_key_partial", "C59_siphash_constructor", "C59_tables_refuted", "C59_text_refuted", "C59_equality_refuted"], "note": "Refuted for the classes with tables (the indices determine the message), for toString() and for operator==; proved for all other classes and programs, and for the SipHash key. Missing: the classes not in the list of Model/Library.v."},
{"property": "C60", "status": "proved", "theorems": ["C60_program", "C60_call", "C60_equality"], "note": "Counts array accesses and branches of the functions in Model/Leak/, which Proof/LeakErase.v shows to be the modelled ones."},
{"property": "C61", "status": "proved", "theorems": ["C61_erased", "C61_cshake", "C61_tuple"], "note": "Both keyed uses included: names and customization strings are part of the contents that do not show."},
{"property": "C62", "status": "proved", "theorems": ["C62_program", "C62_call"], "note": "Counted is what Base/Leak.v records, as in C60."},
{"property": "C63", "status": "proved", "theorems": ["C63_erased", "C63_equal", "C63_program", "C63_call"], "note": "Programs of the members the class has (has_member of C43); toString() excluded since it calls snprintf."},
{"property": "C64", "status": "partial", "theorems": ["C64_cshake128_reset", "C64_cshake256_reset", "C64_tuple128_reset", "C64_tuple256_reset", "C64_cshake128_finalize", "C64_cshake256_finalize", "C64_tuple128_finalize", "C64_tuple256_finalize", "C64_cshake128_move_refuted", "C64_cshake256_move_refuted"], "note": "Refuted for programs with move assignment (the target keeps its old heap object behind the pointer not in use; C64_cshake128_move_refuted, C64_cshake256_move_refuted). Proved for all programs without it. Bytes of the vector m_final beyond its size and freed memory are not modelled."}
]}
