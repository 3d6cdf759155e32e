{
"C01": {"note": "All call histories of one or many objects, debug and release builds, against FIPS 180-4."},
"C02": {"note": "Both classes; constants derived from roots of primes in the specification."},
"C03": {"note": "All four classes; the 512/t initial values are generated by the FIPS 180-4 procedure in the specification."},
"C04": {"note": "All call histories, debug and release builds, against RFC 1319 (with the checksum erratum); the substitution table of the specification is the literal table of the RFC."},
"C05": {"note": "All call histories, debug and release builds, against RFC 1320."},
"C06": {"note": "All call histories, debug and release builds, against RFC 1321; the sine table is recomputed in the specification with integer arithmetic."},
"C07": {"note": "All four classes against the RIPEMD-128/160/256/320 specification; message order and rotation tables derived from the permutations rho and pi."},
"C08": {"note": "All call histories, debug and release builds; the word order is derived from its arithmetic description; the uninitialised table of the code is modelled and never read before it is written."},
"C09": {"note": "All call histories, debug and release builds, against GB/T 32905."},
"C10": {"note": "Both variants, all call histories, debug and release builds; the S-boxes of the specification are written by the published generator, not copied from the code."},
"C11": {"note": "Refuted: for every message and both builds, toArray() (hence every read-out) writes 24 bytes into the 16- or 20-byte result array. Nothing of the claim holds, so there is no positive part."},
"C12": {"note": "All call histories, debug and release builds, for every message shorter than 2^128 bits; the specification computes the substitution box from its mini-boxes and multiplies in GF(2^8)."},
"C13": {"note": "Partial: all four classes are proved to be BLAKE for messages whose length leaves room for the padding in their last block (length mod block < 14 words). Refuted outside: a 14-word zero message gets another digest. C13_*_coded say exactly what is computed on all messages."},
"C14": {"note": "All call histories, debug and release builds, against RFC 7693 (unkeyed, longest output), for every message shorter than 2^128 (2^64) bytes."},
"C15": {"note": "All four classes, any chunking, any history."},
"C16": {"note": "Every output length (0 included), from the int constructor on; negative lengths throw std::length_error."},
"C17": {"note": "Partial: proved for every digest length, name, customization and message, all histories, provided name and customization are at most (2^56-2^8)/8 bytes; refuted from 2^56-4 bits on (the length prefix overflows its 8-byte buffer). For all names and customizations up to 2^63 bits: the right digest or that failure, never a wrong digest. Assumes std::log2 is accurate to within the stated bound (Spec/Log2.v); the assumption is shown satisfiable."},
"C18": {"note": "Partial: proved for digest lengths below 2^28 bytes and strings of at most (2^56-2^8)/8 bytes, all histories. Refuted outside: the length prefix overflows its buffer, and digestLength*8 overflows int (undefined behaviour). For all lengths and all strings up to 2^63 bits: the right digest or one of these failures, never a wrong digest. Same std::log2 assumption as C17."},
"C19": {"note": "All keys, chunkings, call histories and round counts, debug and release builds. A key of the wrong size stops a debug build; a shorter key makes a release build read past its end."},
"C20": {"note": "All chunkings and call histories against the bit-serial definition; every table entry equals the remainder the polynomial prescribes."},
"C21": {"note": "All six classes; histories without reset() for FNV-0 (its reset() does nothing, see C23)."},
"C22": {"note": "All 43 classes of Model/Library.v (short Tiger: both fail alike), any two builds, plus cSHAKE within the C17 length limit; the absorbed objects themselves are equal. TupleHash has one item per addData call, so the property does not apply to it."},
"C23": {"note": "Proved for all classes but FNV-0 and the short Tigers, for all legal histories before and all programs after. Refuted for FNV-0 (reset() does nothing), for customized cSHAKE and for TupleHash (prefix not absorbed again)."},
"C24": {"note": "Proved for all classes and all legal programs except: short Tiger read-outs write out of bounds (refuted), toString() of an empty digest (refuted), cSHAKE/TupleHash names, customizations or items at least 2^56 bits long (refuted in C17/C18/C30), cSHAKE copy assignment between kinds (refuted in C33)."},
"C25": {"note": "Same programs: both builds end with the same observations and no check fires. cSHAKE/TupleHash within the length limit; beyond it the builds differ (refuted). Moreover, for all 43 classes of Model/Library.v and any program at all, legal or not, a debug build that runs to its end shows the same as a release build."},
"C26": {"note": "All classes but the short Tigers (which cannot be read out, C11), all messages and chunkings, both builds; toString() needs a non-empty digest (C24)."},
"C27": {"note": "Proved as an equivalence for the 25 classes whose digest shows all that == compares (all reachable objects). Equal objects have equal digests for the other classes too (SHA-3, SHAKE, cSHAKE, TupleHash: finalized objects of the same digest length), and != is always the negation. Refuted conversely: SHA-3, SHAKE and MD2 objects with equal digests and unequal states exist (pigeonhole; KECCAK-f and the MD2 rounds are injective), an explicit pair for SipHash; and SHAKE and cSHAKE objects of different digest lengths compare equal for every message. Open: the converse for SHA-224, SHA-384, SHA-512/t, BLAKE-224 and BLAKE-384."},
"C28": {"note": "Proved for all pairs of reachable objects, finalized or not, of all classes but SHA-3, SHAKE, cSHAKE and TupleHash; for those proved for finalized objects of the same digest length. Refuted in general: an unfinalized SHA3-256 object that has absorbed a padded block equals the finalized one, and SHAKE objects of different lengths are equal, with different std::hash values."},
"C29": {"note": "uint128 addition and multiplication by 8 are exact modulo 2^128; in every block class the counter plus the buffered bytes equals the number of bytes taken, whatever the chunking; what finalize appends ends with that bit count in the algorithm's byte order and width; BLAKE and BLAKE2 counters likewise."},
"C30": {"note": "Partial: proved for values up to 2^56-2^8 under the accuracy assumption on std::log2. Refuted from 2^56-4 on: the 8-byte buffer overflows (out-of-bounds write in release builds, exception in debug builds). For all values up to 2^63: the right encoding or that failure, never a wrong encoding."},
"C31": {"note": "Injectivity of the hashed stream for all pairs of tuples, lengths and customizations (strings up to the limit of C30); equal digests of different inputs are sponge collisions."},
"C32": {"note": "SHAKE128/256 and cSHAKE128/256, every pair of lengths."},
"C33": {"note": "Partial: all programs over many objects in which copy assignment stays within one kind (customized or not) and does not target a moved-from object. Refuted outside: a null unique_ptr is dereferenced."},
"C34": {"note": "Every class and program: an object is what its own calls (through copies) make it. Digest form for legal programs; cSHAKE and TupleHash with constructions, copies, moves and assignments in C17/C18/C33 and here."},
"C35": {"note": "Padding and block splitting are injective on the messages each algorithm accepts, and equal final chaining values from different messages exhibit two different inputs that the compression function sends to the same value. Covers MD2, MD4, MD5, SHA-1, SHA-2, RIPEMD, HAS-160, SM3, Tiger, Whirlpool, BLAKE, BLAKE2 and SipHash; the sponges are C38."},
"C36": {"note": "Burst detection for two messages in any chunking; the affine law on digests."},
"C37": {"note": "Proved for all options without further arguments except the four short Tigers, for SHAKE and TupleHash lengths, usage text and argument counts, any read sizes. Refuted: the cSHAKE customization string is used as the function name; files that cannot be opened or read are reported as hashed, with status 0; short Tigers write out of bounds; lengths of 2^31 and more leave main as an exception, length 0 reads the front of an empty vector, TupleHash lengths from 2^28 overflow int."},
"C38": {"note": "proved for new objects, whatever the chunks; after reset() of a customized object the separation is lost (C38_cshake128_after_reset, C38_cshake256_after_reset)"},
"C39": {"note": "proved; the overloads are modelled down to single reads of a byte-addressed memory"},
"C40": {"note": "All 43 classes, all programs in any call order, both builds. Refuted clause: toString() of a SHA-3 or SHAKE object that is not finalized is front() of an empty string (undefined behaviour). The four short Tiger classes only without read-outs (they write out of bounds, C24)."},
"C41": {"note": "Proved for SHA-3 and SHAKE: all messages, all later calls but reset(). Refuted for CRC_32 (every message) and SHA1 (a concrete message): a second finalize() changes the digest; the interface comments do not allow the call."},
"C42": {"note": "Refuted: proved for all classes, literals and states that the array overload hashes the terminating zero too; the two calls shown as equivalent in README.md give different SHA-1 digests."},
"C43": {"note": "Refuted: neither vector of test_has_v_320.cpp is reproduced (C43_vectors_refuted). Proved: for all messages, chunkings and programs the class computes the function of Spec/HasV.v, a loop-form description of the unrolled code; that description is of this file, not of the published HAS-V, which is not available offline."},
"C44": {"note": "Holds for every class that appends the message length and shows its whole state. The statement uses hash_chunks only; Model/Extension.v is the computation made without the message."},
"C45": {"note": "For all messages and all digests; values of the examples from zlib."},
"C46": {"note": "For the six classes of fnv.h."},
"C47": {"note": "For the 22 classes that append the message length; the compression calls are observed with an instrumented instance of the same model skeleton, shown to compute the same chaining values."},
"C48": {"note": "Refuted: the conversion to bool is false for non-zero digests that begin with a zero byte (C48_nonzero_refuted). Proved: it is 'first byte not zero' for every class and message."},
"C49": {"note": "Refuted: a variable of type SHA3_n yields a digest of another length after assignment from a base object (C49_length_refuted). Proved: all programs over objects of any lengths run and read out the promised digests; reset of moved-from objects; n bits when only SHA3_n variables are created."},
"C50": {"note": "Refuted: a moved-from cSHAKE object can hold and return earlier content (C50_moved_refuted). Proved: the outcome of every program over cSHAKE and TupleHash objects, in any order of calls, is the one computed by the table of owners; careful programs always go through."},
"C51": {"note": "Refuted: an iterator moved by PTRDIFF_MIN overflows (C51_least_distance_refuted); a span from two pointers in the wrong order is accepted (C51_reversed_refuted). Proved: every other program over spans and iterators does what the specification says, is never undefined, and stays inside of the span it was given."},
"C52": {"note": "Refuted: copy between overlapping spans (C52_copy_overlap_refuted), byte shifts above 24 (C52_byte_shift_refuted). Proved: narrow, at, copy, byte operators and finally as stated."},
"C53": {"note": "All programs; exact read-outs of SHA-3, SHAKE, cSHAKE and TupleHash objects, including repeated finalize and moved-from objects."},
"C54": {"note": "Exact read-outs of all programs over the 22 Merkle-Damgard classes. Findings: a second finalize() writes a wrong length (incomplete block counted twice; Uint128 counter already multiplied by 8)."},
"C55": {"note": "Exact read-outs of all programs over the 15 classes that are neither Merkle-Damgard nor sponges. Findings: FNV-0 reset() never has an effect; a second finalize() of CRC_32 undoes the first; an early SipHash read-out is a constant."},
"C56": {"note": "Refuted: a swap does not exchange the sponge a CSHAKE object keeps after a move assignment, so a later copy assignment can dereference a null pointer (C56_hidden_refuted). Proved: swaps exchange the 43 value classes and SHA-3/SHAKE objects in all programs, CSHAKE and TUPLE_HASH objects in all promised programs."},
"C57": {"note": "Equal objects mean the same message or an inner collision of the blocks before the last ones; one-block differences always show; an inner collision always yields equal objects; existence by counting (not constructive). The cSHAKE part needs an accurate std::log2, as C17."},
"C58": {"note": "Buffer contents proved for every class with m_buffer and every order of calls; reset() for every class but FNV-0 (its reset() is wrong, see C23). cSHAKE, TupleHash and HAS_V_320 objects are not in the scope of this property. The model has no spare capacity of std::vector: digest bytes may stay behind the end of m_final after reset() of the SHA-3 classes."},
"C59": {"note": "Refuted for the classes with tables (the indices determine the message), for toString() and for operator==; proved for all other classes and programs, and for the SipHash key. Missing: the classes not in the list of Model/Library.v."},
"C60": {"note": "Counts array accesses and branches of the functions in Model/Leak/, which Proof/LeakErase.v shows to be the modelled ones."},
"C61": {"note": "Both keyed uses included: names and customization strings are part of the contents that do not show."},
"C62": {"note": "Counted is what Base/Leak.v records, as in C60."},
"C63": {"note": "Programs of the members the class has (has_member of C43); toString() excluded since it calls snprintf."},
"C64": {"note": "Refuted for programs with move assignment (the target keeps its old heap object behind the pointer not in use; C64_cshake128_move_refuted, C64_cshake256_move_refuted). Proved for all programs without it. Bytes of the vector m_final beyond its size and freed memory are not modelled."}
}
