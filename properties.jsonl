{"id": "C01", "title": "SHA-1 digests are the standard ones", "statement": "For every message, fed to a SHA-1 object by any sequence of addData calls (any chunk sizes, including empty chunks), finalize() followed by toArray()/toVector()/toString() yields exactly the digest that FIPS 180-4 / RFC 3174 prescribes for the concatenation of the chunks.", "quantifier": "all byte strings, all partitions into chunks, debug and release builds", "why_tests_cant": "The input space is every byte string of every length and every way of cutting it into addData calls; a test suite samples a few dozen of them, and the tail-length cases around the block boundary are exactly where padding and buffering bugs live.", "anchors": ["src/sha1.h: SHA1::addData, finalize, addDataImpl, toArray"]}
{"id": "C02", "title": "SHA-224/SHA-256 digests are the standard ones", "statement": "For every message, fed to a SHA-224/SHA-256 object by any sequence of addData calls (any chunk sizes, including empty chunks), finalize() followed by toArray()/toVector()/toString() yields exactly the digest that FIPS 180-4 prescribes for the concatenation of the chunks.", "quantifier": "all byte strings, all partitions into chunks, debug and release builds", "why_tests_cant": "The input space is every byte string of every length and every way of cutting it into addData calls; a test suite samples a few dozen of them, and the tail-length cases around the block boundary are exactly where padding and buffering bugs live.", "anchors": ["src/sha2_224.h: SHA2_224", "src/sha2_256.h: SHA2_256"]}
{"id": "C03", "title": "SHA-384/SHA-512/SHA-512-224/SHA-512-256 digests are the standard ones", "statement": "For every message, fed to a SHA-384/SHA-512/SHA-512-224/SHA-512-256 object by any sequence of addData calls (any chunk sizes, including empty chunks), finalize() followed by toArray()/toVector()/toString() yields exactly the digest that FIPS 180-4 prescribes for the concatenation of the chunks. The initial values of the two truncated variants are those of the SHA-512/t IV generation function.", "quantifier": "all byte strings, all partitions into chunks, debug and release builds", "why_tests_cant": "The input space is every byte string of every length and every way of cutting it into addData calls; a test suite samples a few dozen of them, and the tail-length cases around the block boundary are exactly where padding and buffering bugs live.", "anchors": ["src/sha2_384.h: SHA2_384", "src/sha2_512.h: SHA2_512", "src/sha2_512_224.h: SHA2_512_224", "src/sha2_512_256.h: SHA2_512_256"]}
{"id": "C04", "title": "MD2 digests are the standard ones", "statement": "For every message, fed to a MD2 object by any sequence of addData calls (any chunk sizes, including empty chunks), finalize() followed by toArray()/toVector()/toString() yields exactly the digest that RFC 1319 (with the checksum erratum) prescribes for the concatenation of the chunks.", "quantifier": "all byte strings, all partitions into chunks, debug and release builds", "why_tests_cant": "The input space is every byte string of every length and every way of cutting it into addData calls; a test suite samples a few dozen of them, and the tail-length cases around the block boundary are exactly where padding and buffering bugs live.", "anchors": ["src/md2.h: MD2"]}
{"id": "C05", "title": "MD4 digests are the standard ones", "statement": "For every message, fed to a MD4 object by any sequence of addData calls (any chunk sizes, including empty chunks), finalize() followed by toArray()/toVector()/toString() yields exactly the digest that RFC 1320 prescribes for the concatenation of the chunks.", "quantifier": "all byte strings, all partitions into chunks, debug and release builds", "why_tests_cant": "The input space is every byte string of every length and every way of cutting it into addData calls; a test suite samples a few dozen of them, and the tail-length cases around the block boundary are exactly where padding and buffering bugs live.", "anchors": ["src/md4.h: MD4"]}
{"id": "C06", "title": "MD5 digests are the standard ones", "statement": "For every message, fed to a MD5 object by any sequence of addData calls (any chunk sizes, including empty chunks), finalize() followed by toArray()/toVector()/toString() yields exactly the digest that RFC 1321 prescribes for the concatenation of the chunks.", "quantifier": "all byte strings, all partitions into chunks, debug and release builds", "why_tests_cant": "The input space is every byte string of every length and every way of cutting it into addData calls; a test suite samples a few dozen of them, and the tail-length cases around the block boundary are exactly where padding and buffering bugs live.", "anchors": ["src/md5.h: MD5"]}
{"id": "C07", "title": "RIPEMD-128/160/256/320 digests are the standard ones", "statement": "For every message, fed to a RIPEMD-128/160/256/320 object by any sequence of addData calls (any chunk sizes, including empty chunks), finalize() followed by toArray()/toVector()/toString() yields exactly the digest that the RIPEMD-160 paper of Dobbertin, Bosselaers and Preneel prescribes for the concatenation of the chunks.", "quantifier": "all byte strings, all partitions into chunks, debug and release builds", "why_tests_cant": "The input space is every byte string of every length and every way of cutting it into addData calls; a test suite samples a few dozen of them, and the tail-length cases around the block boundary are exactly where padding and buffering bugs live.", "anchors": ["src/ripemd_128.h: RIPEMD_128", "src/ripemd_160.h: RIPEMD_160", "src/ripemd_256.h: RIPEMD_256", "src/ripemd_320.h: RIPEMD_320"]}
{"id": "C08", "title": "HAS-160 digests are the standard ones", "statement": "For every message, fed to a HAS-160 object by any sequence of addData calls (any chunk sizes, including empty chunks), finalize() followed by toArray()/toVector()/toString() yields exactly the digest that TTAS.KO-12.0011 prescribes for the concatenation of the chunks.", "quantifier": "all byte strings, all partitions into chunks, debug and release builds", "why_tests_cant": "The input space is every byte string of every length and every way of cutting it into addData calls; a test suite samples a few dozen of them, and the tail-length cases around the block boundary are exactly where padding and buffering bugs live.", "anchors": ["src/has_160.h: HAS_160"]}
{"id": "C09", "title": "SM3 digests are the standard ones", "statement": "For every message, fed to a SM3 object by any sequence of addData calls (any chunk sizes, including empty chunks), finalize() followed by toArray()/toVector()/toString() yields exactly the digest that GB/T 32905-2016 prescribes for the concatenation of the chunks.", "quantifier": "all byte strings, all partitions into chunks, debug and release builds", "why_tests_cant": "The input space is every byte string of every length and every way of cutting it into addData calls; a test suite samples a few dozen of them, and the tail-length cases around the block boundary are exactly where padding and buffering bugs live.", "anchors": ["src/sm3.h: SM3"]}
{"id": "C10", "title": "Tiger/Tiger2 (192-bit) digests are the standard ones", "statement": "For every message, fed to a Tiger/Tiger2 (192-bit) object by any sequence of addData calls (any chunk sizes, including empty chunks), finalize() followed by toArray()/toVector()/toString() yields exactly the digest that Anderson and Biham's Tiger specification (first padding byte 0x01 for Tiger, 0x80 for Tiger2) prescribes for the concatenation of the chunks.", "quantifier": "all byte strings, all partitions into chunks, debug and release builds", "why_tests_cant": "The input space is every byte string of every length and every way of cutting it into addData calls; a test suite samples a few dozen of them, and the tail-length cases around the block boundary are exactly where padding and buffering bugs live.", "anchors": ["src/tiger.h: Tiger<1,192>, Tiger<2,192>"]}
{"id": "C11", "title": "Reading a Tiger/128 or Tiger/160 digest is safe and gives the truncated Tiger digest", "statement": "For every message, reading the digest of a finalized Tiger1_128, Tiger1_160, Tiger2_128 or Tiger2_160 object (toArray, toVector, toString, operator T) returns the first 16 (20) bytes of the 192-bit digest and touches no memory outside the returned array.", "quantifier": "all byte strings, all chunkings, both variants, both lengths", "why_tests_cant": "An out-of-bounds write of a few bytes behind a stack array usually produces the expected output in a unit test; only an argument about every write can rule it out (or exhibit it).", "anchors": ["src/tiger.h: Tiger<V,D>::toArray, toString, toVector, operator T"]}
{"id": "C12", "title": "Whirlpool digests are the standard ones", "statement": "For every message, fed to a Whirlpool object by any sequence of addData calls (any chunk sizes, including empty chunks), finalize() followed by toArray()/toVector()/toString() yields exactly the digest that the ISO/IEC 10118-3 Whirlpool specification (message length below 2^128 bits) prescribes for the concatenation of the chunks.", "quantifier": "all byte strings, all partitions into chunks, debug and release builds", "why_tests_cant": "The input space is every byte string of every length and every way of cutting it into addData calls; a test suite samples a few dozen of them, and the tail-length cases around the block boundary are exactly where padding and buffering bugs live.", "anchors": ["src/whirlpool.h: Whirlpool"]}
{"id": "C13", "title": "BLAKE-224/256/384/512 (SHA-3 finalist) digests are the standard ones", "statement": "For every message, fed to a BLAKE-224/256/384/512 (SHA-3 finalist) object by any sequence of addData calls (any chunk sizes, including empty chunks), finalize() followed by toArray()/toVector()/toString() yields exactly the digest that the BLAKE submission (version 1.2 rounds) prescribes for the concatenation of the chunks. In particular when the padding spills into a second block, where the specification requires the bit counter of the block that still holds message bits and a zero counter for the block that holds none.", "quantifier": "all byte strings, all partitions into chunks, debug and release builds", "why_tests_cant": "The input space is every byte string of every length and every way of cutting it into addData calls; a test suite samples a few dozen of them, and the tail-length cases around the block boundary are exactly where padding and buffering bugs live.", "anchors": ["src/blake1_224.h: Blake1_224", "src/blake1_256.h: Blake1_256", "src/blake1_384.h: Blake1_384", "src/blake1_512.h: Blake1_512"]}
{"id": "C14", "title": "BLAKE2b-512/BLAKE2s-256 digests are the standard ones", "statement": "For every message, fed to a BLAKE2b-512/BLAKE2s-256 object by any sequence of addData calls (any chunk sizes, including empty chunks), finalize() followed by toArray()/toVector()/toString() yields exactly the digest that RFC 7693 (unkeyed, maximum digest length) prescribes for the concatenation of the chunks.", "quantifier": "all byte strings, all partitions into chunks, debug and release builds", "why_tests_cant": "The input space is every byte string of every length and every way of cutting it into addData calls; a test suite samples a few dozen of them, and the tail-length cases around the block boundary are exactly where padding and buffering bugs live.", "anchors": ["src/blake2.h: Blake2", "src/blake2s.h: Blake2s"]}
{"id": "C15", "title": "SHA3-224/256/384/512 digests are the standard ones", "statement": "For every message, fed to a SHA3-224/256/384/512 object by any sequence of addData calls (any chunk sizes, including empty chunks), finalize() followed by toArray()/toVector()/toString() yields exactly the digest that FIPS 202 prescribes for the concatenation of the chunks.", "quantifier": "all byte strings, all partitions into chunks, debug and release builds", "why_tests_cant": "The input space is every byte string of every length and every way of cutting it into addData calls; a test suite samples a few dozen of them, and the tail-length cases around the block boundary are exactly where padding and buffering bugs live.", "anchors": ["src/sha3.h: SHA3_224, SHA3_256, SHA3_384, SHA3_512, Keccak<R,P>"]}
{"id": "C16", "title": "SHAKE128/SHAKE256 digests are the standard ones", "statement": "For every message, fed to a SHAKE128/SHAKE256 object by any sequence of addData calls (any chunk sizes, including empty chunks), finalize() followed by toArray()/toVector()/toString() yields exactly the digest that FIPS 202 prescribes for the concatenation of the chunks. The output has exactly the requested number of bytes, for every positive requested length.", "quantifier": "all byte strings, all partitions into chunks, debug and release builds", "why_tests_cant": "The input space is every byte string of every length and every way of cutting it into addData calls; a test suite samples a few dozen of them, and the tail-length cases around the block boundary are exactly where padding and buffering bugs live.", "anchors": ["src/sha3.h: SHAKE_128, SHAKE_256, Keccak<R,P>"]}
{"id": "C17", "title": "cSHAKE128/cSHAKE256 digests are the standard ones", "statement": "For every message, fed to a cSHAKE128/cSHAKE256 object by any sequence of addData calls (any chunk sizes, including empty chunks), finalize() followed by toArray()/toVector()/toString() yields exactly the digest that NIST SP 800-185 prescribes for the concatenation of the chunks. This holds for every function name and every customization string, including both empty (where it must equal SHAKE).", "quantifier": "all byte strings, all partitions into chunks, debug and release builds", "why_tests_cant": "The input space is every byte string of every length and every way of cutting it into addData calls; a test suite samples a few dozen of them, and the tail-length cases around the block boundary are exactly where padding and buffering bugs live.", "anchors": ["src/cshake.h: CShake<S,K,P>, leftEncode"]}
{"id": "C18", "title": "TupleHash digests are the standard ones", "statement": "For every customization string, every sequence of nextData calls and every requested digest length, a TupleHash object returns TupleHash128/256 of NIST SP 800-185 of the tuple of the byte strings passed in.", "quantifier": "all tuples (including empty tuples and empty elements), all customization strings, all digest lengths for which the bit length fits an int", "why_tests_cant": "The space of tuples is infinite in two directions (number of elements and their lengths); length-prefix bugs show only at particular lengths (2^k boundaries of the encoded length).", "anchors": ["src/tuple_hash.h: TupleHash::nextData, finalize, rightEncode", "src/cshake.h: leftEncode"]}
{"id": "C19", "title": "SipHash digests are the standard ones", "statement": "For every 16-byte key and every message in any chunking, SipHash yields SipHash-2-4 (in general SipHash-c-d for the template parameters), as a big-endian 8-byte digest, including the mod-256 length byte.", "quantifier": "all keys, all byte strings, all chunkings, all round counts", "why_tests_cant": "The input space is every byte string of every length and every way of cutting it into addData calls; a test suite samples a few dozen of them, and the tail-length cases around the block boundary are exactly where padding and buffering bugs live.", "anchors": ["src/siphash.h: SipHash<C,D>"]}
{"id": "C20", "title": "CRC-32 is the bit-by-bit CRC of the IEEE polynomial", "statement": "For every message in any chunking, the table-driven slicing-by-16 computation returns the same value as the bit-serial reflected CRC with polynomial 0xEDB88320, initial value and final xor 0xFFFFFFFF; every entry of the 16x256 tables is the one the polynomial prescribes.", "quantifier": "all byte strings, all chunkings", "why_tests_cant": "Each table has 256 entries and the bulk path mixes 16 tables; a wrong entry is hit by a given test byte with probability 1/256, and the bulk and byte paths must agree at every alignment.", "anchors": ["src/crc_32.h: CRC_32::addDataImpl, crc32LUT"]}
{"id": "C21", "title": "FNV-0/FNV-1/FNV-1a digests are the standard ones", "statement": "For every message in any chunking, a freshly constructed FNV32_x/FNV64_x object returns the FNV-0, FNV-1 or FNV-1a hash (32 or 64 bit) of the message; the offset bases are the FNV-0 hashes of the standard's signature string.", "quantifier": "all byte strings, all chunkings, six variants", "why_tests_cant": "The input space is every byte string of every length and every way of cutting it into addData calls; a test suite samples a few dozen of them, and the tail-length cases around the block boundary are exactly where padding and buffering bugs live.", "anchors": ["src/fnv.h: FNVHash<DigestType,Variant>"]}
{"id": "C22", "title": "How the data is cut into addData calls never matters", "statement": "For every hash class of the library, two objects of that class (same parameters) that are fed chunk sequences with the same concatenation have, after finalize, the same digest; empty chunks have no effect.", "quantifier": "all classes, all pairs of chunk sequences with equal concatenation", "why_tests_cant": "There are exponentially many partitions of a message; the interesting ones depend on the buffer fill level modulo the block size in combination with the chunk size.", "anchors": ["src/*.h: addData(Span)"]}
{"id": "C23", "title": "reset() makes an object as good as new", "statement": "After any legal history of addData/finalize/reset calls, reset() brings an object to a state in which every later history gives the same results as on a freshly constructed object with the same constructor arguments.", "quantifier": "all classes, all histories before the reset, all histories after it", "why_tests_cant": "State left behind by reset shows only after particular earlier histories (a partly filled buffer, a counter, a customization prefix).", "anchors": ["src/*.h: reset()", "src/fnv.h: FNVHash::reset", "src/cshake.h: CShake::reset", "src/tuple_hash.h: TupleHash::reset"]}
{"id": "C24", "title": "No legal use reads or writes out of bounds", "statement": "For every sequence of API calls that respects the header comments (constructor arguments valid, no addData after finalize before reset), no call reads or writes outside the internal buffer, the block arrays, the caller's span or the result array, and no span operation violates its precondition.", "quantifier": "all classes, all legal histories", "why_tests_cant": "Buffer overflows in padding code depend on the exact fill level at finalize time and are silent in most test runs.", "anchors": ["src/*.h: Buffer, addData, finalize, addDataImpl, toArray"]}
{"id": "C25", "title": "Debug and release builds compute the same thing", "statement": "With the extra bounds checks of a debug build (NDEBUG undefined), every legal history gives exactly the results of the release build, and no check fires: no exception is thrown and no assert fails.", "quantifier": "all classes, all legal histories, both build modes", "why_tests_cant": "The debug checks use index arithmetic that can itself wrap (count-1 with count 0); whether some history triggers one cannot be settled by running examples.", "anchors": ["src/*.h: Buffer::fill, Buffer(initializer_list)", "src/*.h: assert((data.size() % BLOCK_SIZE) == 0)"]}
{"id": "C26", "title": "All digest read-outs agree", "statement": "For every finalized object, toVector() has the bytes of toArray(), toString() is the lower-case hexadecimal rendering of those bytes (two characters per byte, high nibble first), converting to an unsigned integer type T gives the big-endian value of the first min(sizeof(T), digest size) bytes, and std::hash returns the same as conversion to size_t.", "quantifier": "all digest values, all unsigned integer widths", "why_tests_cant": "There are 2^n digests; conversions truncate and shift, and edge cases (leading zeros, integer wider than the digest) are rarely sampled.", "anchors": ["src/*.h: toString, toVector, toArray, operator T, std::hash specializations"]}
{"id": "C27", "title": "Comparing finalized objects compares digests", "statement": "For finalized objects of the same class, a == b holds if and only if their digests are equal, and a != b is its negation.", "quantifier": "all pairs of messages", "why_tests_cant": "Equality is implemented on internal state rather than on the digest; whether the two notions coincide is a statement about all pairs of states.", "anchors": ["src/*.h: operator==, operator!="]}
{"id": "C28", "title": "Equal objects hash equally", "statement": "Whenever a == b for two objects of one class, std::hash gives equal values for a and b (the requirement of unordered containers).", "quantifier": "all pairs of reachable objects, finalized or not", "why_tests_cant": "It quantifies over all pairs of reachable object states, including different constructor arguments.", "anchors": ["src/*.h: operator==, std::hash specializations", "src/sha3.h: Keccak operator=="]}
{"id": "C29", "title": "The message length counter is exact", "statement": "The length appended by finalize() is the total message length in bits modulo the width of the length field, for any total length (in particular the two-word counters carry correctly from the low to the high word), so messages whose bit length fits the field are padded with their true length.", "quantifier": "all total lengths, all counter values including the 64-bit carry boundary", "why_tests_cant": "Exercising the carry needs messages of 2^61 bytes or more.", "anchors": ["src/sha2_512.h: Uint128", "src/sha2_384.h, src/whirlpool.h, src/blake1_512.h, src/blake2.h: Uint128", "src/sha1.h: m_sizeCounter"]}
{"id": "C30", "title": "The integer encodings of SP 800-185 are correct and reversible", "statement": "For every 64-bit value the length prefix/suffix produced for cSHAKE and TupleHash is left_encode/right_encode of SP 800-185: the byte count n is the smallest positive integer with value < 2^(8n), followed (preceded) by the n big-endian bytes; it never overflows its buffer and is uniquely decodable.", "quantifier": "all 64-bit values; the floating-point byte count computation is covered for every value", "why_tests_cant": "The byte count is computed with floating-point log2 and rounding; an error would sit at isolated values next to powers of 256.", "anchors": ["src/cshake.h: leftEncode", "src/tuple_hash.h: rightEncode"]}
{"id": "C31", "title": "TupleHash input encoding is unambiguous", "statement": "Two different tuples (or the same tuple with different requested digest lengths, or different customization strings) are never turned into the same byte stream before hashing; in particular moving bytes between neighbouring elements always changes the hashed stream.", "quantifier": "all pairs of tuples, digest lengths and customization strings", "why_tests_cant": "Injectivity is a statement about all pairs of inputs.", "anchors": ["src/tuple_hash.h: TupleHash::nextData, finalize", "src/cshake.h: CShake constructor"]}
{"id": "C32", "title": "Longer SHAKE outputs extend shorter ones", "statement": "For the same message, the output of SHAKE128/SHAKE256/cSHAKE with length m is a prefix of the output with length n whenever m <= n.", "quantifier": "all messages, all pairs of lengths", "why_tests_cant": "Output lengths are unbounded; block-boundary effects in squeezing only show for lengths beyond a multiple of the rate.", "anchors": ["src/sha3.h: Keccak::finalize"]}
{"id": "C33", "title": "Copying, moving and assigning cSHAKE/TupleHash objects is safe and preserves the hash state", "statement": "Copy construction and copy assignment give an independent object with the same behaviour; move construction/assignment transfer the behaviour; for any two live objects, whatever their constructor arguments, assignment is defined behaviour.", "quantifier": "all pairs of reachable objects, all later histories", "why_tests_cant": "Which smart pointer is null depends on the constructor arguments of both sides; tests exercise one combination.", "anchors": ["src/cshake.h: CShake(const CShake&), CShake(CShake&&), operator="]}
{"id": "C34", "title": "Copies are independent", "statement": "In any program that creates, copies and feeds any number of hash objects in any interleaving, each object's digest depends only on the data fed to it and to the object it was copied from before the copy.", "quantifier": "all interleavings of operations on all objects", "why_tests_cant": "The number of interleavings is unbounded.", "anchors": ["src/*.h: implicit copy operations, addData, finalize"]}
{"id": "C35", "title": "Padding never confuses two messages", "statement": "For every block hash of the library, two different messages (with lengths representable in the length field) are never padded to the same sequence of blocks; hence two messages with equal final chaining value exhibit a collision of the compression function.", "quantifier": "all pairs of messages", "why_tests_cant": "Injectivity and collision reductions are statements about all pairs of messages.", "anchors": ["src/*.h: finalize"]}
{"id": "C36", "title": "CRC-32 detects every burst error of up to 32 bits", "statement": "If two messages of the same length differ only within a window of 32 consecutive bits (in transmission order, least significant bit of each byte first), their CRC-32 values differ; and the CRC is affine: crc(x^y^z) = crc(x)^crc(y)^crc(z) for equal-length messages.", "quantifier": "all messages, all burst positions and patterns", "why_tests_cant": "The number of error patterns is 2^32 per position.", "anchors": ["src/crc_32.h: CRC_32::addDataImpl"]}
{"id": "C37", "title": "The command line tool hashes the file it was given with the algorithm it was asked for", "statement": "For every option name the tool accepts, the printed digest is the digest by the algorithm of that name of the exact bytes of the file or standard input, whatever sizes the reads return; unknown options and wrong argument counts print the usage text and hash nothing; the arguments documented in the usage text (digest length, customization string) have the documented meaning; a file that cannot be opened is not reported as a successful hash.", "quantifier": "all argument vectors, all file contents, all read-size sequences", "why_tests_cant": "The option table, the enum order and the dispatch switch are three parallel lists; read sizes depend on the OS.", "anchors": ["src/program/main.cpp: main, getHash, runHash, readNPrint, readAllNPrint"]}
{"id": "C38", "title": "SHA-3, SHAKE and cSHAKE inputs are domain separated", "statement": "No two of the functions SHA3-n, SHAKE and (customized) cSHAKE with the same rate ever feed the same padded block sequence to the permutation, for any messages, names and customization strings.", "quantifier": "all pairs of messages and parameters", "why_tests_cant": "It is a statement about all pairs of inputs to different functions.", "anchors": ["src/sha3.h: Keccak<R,P>::finalize", "src/cshake.h: CShake"]}
{"id": "C39", "title": "All addData overloads mean the same bytes", "statement": "addData(pointer, length), addData(byte array), addData(typed array) and addData(typed span) have the same effect as addData of the span of bytes of the object representation, for every element type size and count.", "quantifier": "all element sizes, counts and contents", "why_tests_cant": "Overloads multiply sizes; an error (element count instead of byte count) is only visible for element types wider than a byte.", "anchors": ["src/*.h: addData overloads"]}
{"id": "C40", "title": "No order of calls makes an object misbehave", "statement": "Every program over any number of objects that calls the members in any order (adding data after finalize(), finalizing twice, reading before finalize(), copying in any state) runs to its end in both builds without an access out of bounds and without a failed assert, and shows the same in both; excluded are only the text of an empty digest and, for SHA-3 and SHAKE, the text before finalize().", "quantifier": "all classes, all programs, all inputs, both builds", "why_tests_cant": "The interface comments forbid such call orders but nothing enforces it; the set of call sequences is infinite.", "anchors": ["src/*.h: addData, finalize, reset, toArray, toString, toVector, operator T"]}
{"id": "C41", "title": "A finished digest stays until reset()", "statement": "Once finalize() has run, every later read-out shows the digest of the message at that time until reset() is called, whatever is added or finalized in between. (True of SHA-3 and SHAKE; false of CRC_32, where every further finalize() complements the value, and of SHA1.)", "quantifier": "all messages, all sequences of calls", "why_tests_cant": "Quantifies over all call sequences after finalize().", "anchors": ["src/sha3.h: Keccak<R,P>::finalize, toVector", "src/crc_32.h: CRC_32::finalize", "src/sha1.h: SHA1::finalize"]}
{"id": "C42", "title": "A string literal passed to addData() is hashed as its characters", "statement": "addData(\"text\") has the same effect as addData(\"text\", strlen(\"text\")), as README.md shows. (False: the array overload takes the terminating zero as well, for every class, every literal and every state of the object.)", "quantifier": "all classes, literals, object states", "why_tests_cant": "The tests pass literals through strlen(); the overload for arrays is chosen by the compiler.", "anchors": ["README.md: usage", "src/sha1.h: addData(const T (&array)[N]) and the same in the other headers"]}
{"id": "C43", "title": "HAS_V_320 is a function of the message, and reproduces the published vectors", "statement": "For HAS_V_320 (src/unfinished) the digest after finalize() depends only on the concatenation of the data added since construction or reset(), is the function described in Spec/HasV.v, and toString() is its lower-case hexadecimal text; no call reads an unset table entry or outside a block. The two vectors that its test file quotes from the HAS-V specification are reproduced. (The last sentence is false: both digests differ.)", "quantifier": "all messages, divisions into addData calls, programs over any number of objects; two fixed messages for the vectors", "why_tests_cant": "The test file has two vectors and empty expected strings; division into calls, reuse after reset() and the 128-byte boundary of the vector buffer are not covered, and the file is not part of the test build.", "anchors": ["src/unfinished/has_v_320.cpp:67-807", "src/unfinished/test_has_v_320.cpp:21-28"]}
{"id": "C44", "title": "Length extension: a digest determines the digest of every continuation behind the padding", "statement": "For MD4, MD5, SHA1, SHA2_256, SHA2_512, RIPEMD_128/160/256/320, HAS_160, SM3, Tiger1_192, Tiger2_192 and Whirlpool: let d be the digest of a message m of n bytes and p the padding that finalize() appends to a message of n bytes. For every t the digest of m ++ p ++ t is a fixed function of d, n and t; no other byte of m enters. Hence two messages of one length with one digest keep having one digest after m ++ p ++ t, and SHA2_256(key ++ message) is not an authentication code. For every class that appends the length (the truncated ones too) the chaining value left by finalize() is the value from which the blocks of t go on.", "quantifier": "all classes named, debug and release build, all messages, divisions into addData calls and continuations t below the length limit", "why_tests_cant": "It relates the digests of two unbounded families of messages; a test can only exhibit single forgeries, and a change that breaks the relation for messages of some length class (say an extra finalization step when the padding needs its own block) is only seen there.", "anchors": ["src/sha2_256.h:334-385 SHA2_256::finalize, 385-401 toArray", "src/md5.h:358-374 MD5::toArray", "src/tiger.h:511-528 Tiger::toArray", "src/whirlpool.h:697-713 Whirlpool::toArray"]}
{"id": "C45", "title": "CRC-32 of concatenations: combining, residue, forced values", "statement": "(a) CRC_32(x ++ y) is a fixed function of CRC_32(x), CRC_32(y) and the length of y: the first digest shifted through 8*|y| zero bits, exclusive-or the second. (b) A message followed by four bytes has the digest 2144df1c exactly if these bytes are its CRC_32, least significant byte first. (c) For every message and every 4-byte digest there is exactly one 4-byte ending that leads to this digest.", "quantifier": "all messages, divisions into addData calls and digests", "why_tests_cant": "(c) claims a bijection on 2^32 endings for every message, (a) a relation between all pairs of messages; the slicing-by-16 tables make length-dependent errors that single vectors miss.", "anchors": ["src/crc_32.h: CRC_32::addDataImpl, finalize, toArray"]}
{"id": "C46", "title": "FNV separates messages that differ in one byte; what it does not see", "statement": "For FNV32_0, FNV32_1, FNV32_1a, FNV64_0, FNV64_1, FNV64_1a: two messages that differ in exactly one byte have different digests; two messages with a common ending have equal digests exactly if they have equal digests without it; finalize() has no effect (a program without its finalize() calls shows the same results). FNV32_0 and FNV64_0 ignore zero bytes at the beginning of the message.", "quantifier": "all messages, divisions into addData calls, endings; all programs for finalize()", "why_tests_cant": "Injectivity in each byte for an unbounded number of positions and prefixes rests on the prime being invertible modulo the word size, which samples cannot show.", "anchors": ["src/fnv.h:273-315 addDataImpl", "src/fnv.h:178-181 finalize", "src/fnv.h:147-175 reset"]}
{"id": "C47", "title": "Every block is compressed exactly once, in order, as soon as it is complete", "statement": "For every hash class that appends the message length (HAS-160, MD4, MD5, RIPEMD, SHA-1, SHA-2, SM3, Tiger, Whirlpool): after any sequence of addData calls the compression function has been called on exactly the consecutive complete blocks of the data, in order and once each, and the fewer than blockSize remaining bytes are in the buffer; finalize() calls it on exactly one further block if the marker and the length field fit behind these bytes and on two otherwise, and then the calls are the blocks of the padded message. So the work done is fixed by the length of the message, not by its division into calls.", "quantifier": "all 22 classes, all messages shorter than the length field's limit, all divisions into addData calls, debug and release", "why_tests_cant": "A digest shows the final value only, so a block compressed twice and undone, held back, or compressed from bytes beyond the buffer would go unseen; the claim is about every call for an unbounded number of chunkings.", "anchors": ["src/sha1.h:385-418 addData", "src/sha1.h:303-327 finalize", "src/sha1.h:443-614 addDataImpl", "and the same members of the other headers"]}
{"id": "C48", "title": "A digest in a condition: conversion to bool", "statement": "The conversion template operator T accepts bool, so a finalized object can stand in a condition. Claim: it is false only for an all-zero digest. (Refuted: it looks at the first byte of the digest only; proved: for every class and message the result is exactly 'first digest byte not zero', consistent with the conversion to a one-byte unsigned type.)", "quantifier": "all classes except the unreadable short Tiger ones, all messages and divisions", "why_tests_cant": "One message in 256 per class behaves unexpectedly; the positive statement is for all of them.", "anchors": ["src/sha1.h:369-383 operator T and the same member of the other headers"]}
{"id": "C49", "title": "SHA-3 and SHAKE objects of different output lengths: copies, moves, assignment from the base class", "statement": "The class Keccak<R, P>(int digestLength) is public, and SHA3_n and SHAKE_n derive from it and convert and assign from it. For every program that constructs objects of one base class with any non-negative lengths, feeds, finalizes, resets, copies, moves and assigns them to each other, all calls succeed and every read-out is the sponge output for the length and the data the object has by then. A moved-from object may be reset and is then like a new object of its old length. In programs that create objects only as variables of one type SHA3_n every digest has n bits. Claim: a variable of type SHA3_n always yields n bits. (Refuted: not after assignment from a base object of another length, which the alias offers as an operator.)", "quantifier": "all six instances, all programs with any number of objects, all lengths 0 .. 2^31-1, all data and divisions, debug and release", "why_tests_cant": "Programs mixing lengths, copies and moves are unbounded, and the compiler-generated copy operations have no test in the repository.", "anchors": ["src/sha3.h:215 Keccak(int)", "src/sha3.h:604-630 KeccakAlias, SHAKEAlias", "src/sha3.h:266-275 members, implicit copy and move operations", "src/sha3.h:322-360 reset, finalize"]}
{"id": "C50", "title": "cSHAKE and TupleHash objects: exactly which programs go through, moved-from objects included", "statement": "A cSHAKE object owns up to two sponges through pointers; moves and assignments exchange them. For every program that constructs, feeds, finalizes, resets, reads, copies, moves and assigns such objects in any order (also addData after finalize, repeated finalize, any use of moved-from objects), the outcome is the one computed by a small table of who owns what: it goes through, dereferences a null pointer, reads the text of an empty digest, or names an object that was never made; nothing else can happen. Programs that leave moved-from objects alone (except moving to them), assign copies only between objects of the same kind and ask for text only of finished, non-empty digests always go through. Claim: a moved-from object has no content and cannot be read. (Refuted: after a move between the two kinds an object that is moved away keeps the sponge it had before, and finalize and toVector return the SHAKE output of its earlier message.)", "quantifier": "CSHAKE_128, CSHAKE_256, TupleHash_128, TupleHash_256, all programs with any number of objects, all lengths, names, customizations and data in the supported ranges, debug and release", "why_tests_cant": "The set of call sequences is unbounded, the outcome of the faulty ones is undefined behaviour which a test cannot observe, and the returning content needs a history of two moves between objects of different kinds.", "anchors": ["src/cshake.h:125-128 m_customized, m_shake, m_keccak", "src/cshake.h:188-234 copy and move operations", "src/cshake.h:236-294 members", "src/tuple_hash.h:117-118 implicit copy and move operations"]}
{"id": "C51", "title": "gsl::span and its iterators stay inside of the viewed elements", "statement": "The library is written on gsl::span. Every program that makes spans (from arrays, containers, pointer and count, two pointers, other spans, first, last, subspan in their run-time and template forms), looks at them (size, ssize, size_bytes, empty, [], front, back, at, comparisons), writes through them and moves, compares, subtracts and dereferences their iterators does what the mathematical picture says (a view is a stretch of an array, a cursor a place in it): asking for an element, a subview or a place that is not there ends the process, and nothing is undefined behaviour. A program that is only given one span and names no array itself behaves the same whatever lies outside of the span, and changes nothing outside. Claims: the same for an iterator moved by any ptrdiff_t, and for a span from any two pointers into one array. (Both refuted: += PTRDIFF_MIN overflows while checking; two pointers in the wrong order give a span of 2^64 - 2 elements.)", "quantifier": "all programs over any number of spans and iterators, all arrays that fit into the address space, all element sizes, indices, counts and distances of the machine types", "why_tests_cant": "Programs are unbounded sequences over 64-bit arguments; an access out of bounds need not be visible in a test, and the exceptional arguments are single values out of 2^64.", "anchors": ["src/gsl/span span, details::span_iterator, details::extent_type", "src/gsl/span_ext comparisons, at, ssize", "src/gsl/util narrow_cast", "src/gsl/assert Expects"]}
{"id": "C52", "title": "gsl helpers: narrow, at, copy, byte, finally", "statement": "narrow<T>(u) returns u when T has that value and throws otherwise, for integer types of any size and sign. at(array, i) returns element i if there is one and ends the process otherwise. copy(src, dest) leaves in dest the elements src had and changes nothing else, or ends the process without writing when dest is too small, provided dest does not begin inside of src. (Refuted without that: overlapping spans are accepted and dest gets other elements.) The operators of byte act bit by bit; shifts to the left by up to 24 and to the right by up to 31 are the arithmetic ones. (Refuted for larger shifts to the left: byte(255) << 25 is undefined before C++20.) An action given to finally() is run exactly when the last owner of the guard is destroyed, however often the guard is moved, and once all guards are gone every action has been run as often as it was given.", "quantifier": "all integer types and values, all arrays, spans and indices, all bytes and shift counts, all programs that make, move and destroy guards", "why_tests_cant": "The types and values are unbounded families with corner cases at the ends of the ranges; chains of moves have any length.", "anchors": ["src/gsl/narrow:29-64 narrow", "src/gsl/util:98-127 final_action, finally", "src/gsl/util:141-173 at", "src/gsl/algorithm:40-55 copy", "src/gsl/byte:99-163 operators"]}
{"id": "C53", "title": "Sponge objects in any order of calls: exactly which bytes every call shows", "statement": "For every program that constructs, feeds, finalizes, resets, reads, copies, moves and assigns SHA-3, SHAKE, cSHAKE or TupleHash objects in any order (also addData after finalize, repeated finalize, use of moved-from objects), every read-out shows exactly what a small description says that keeps for each object its output length, the bytes that went into the sponge (data, paddings, zero blocks of squeezing) and a digest that is empty or complete. Hence: whatever is read at any moment comes from an empty digest or from the output of the standard's sponge for some input; after any history reset() makes a SHA-3 or SHAKE object good again; a moved-from SHA-3 or SHAKE object has lost its digest but not what it absorbed: finalized again it shows the digest of the data, followed by the padding if it had been finalized before.", "quantifier": "all programs with lengths that are ints (TupleHash: bit lengths that are ints), strings below 2^56 bits, data below 2^64 bytes; debug and release; all six sponge types, both cSHAKE and both TupleHash classes", "why_tests_cant": "The order of calls is unbounded, and what a second finalize() or a moved-from object yields depends on all earlier calls.", "anchors": ["src/sha3.h:266-275 members of Keccak", "src/sha3.h:309-350 reset, finalize", "src/cshake.h:146-253 constructor, copies, moves, reset, finalize", "src/tuple_hash.h:137-196 constructor, reset, finalize, nextData"]}
{"id": "C54", "title": "Merkle-Damgard objects in any order of calls: exactly which bytes every call shows", "statement": "For every program over objects of one of the 22 Merkle-Damgard classes (HAS-160, MD4, MD5, RIPEMD, SHA-1, SHA-2, SM3, Tiger, Whirlpool) that adds data, finalizes, resets, reads and copies in any order (also addData after finalize, repeated finalize, read-outs before finalize), every read-out shows exactly what a small description says that keeps for each object the bytes that went in and a believed length. Hence: one finalize gives the standard's digest; a read-out before finalize does not depend on the bytes of the incomplete block; data added after finalize and a second finalize give the digest of the padded message continued, but with a length field that counts the incomplete block twice (and, in the classes with a 128-bit counter, the message eight times), so that it is a digest of the hash function exactly for messages of whole blocks in the 64-bit classes and for the empty message in the others; after any history reset() makes the object good again.", "quantifier": "all programs with spans below 2^64 bytes each, total length unlimited; all 22 classes (the four short Tiger classes without read-outs, see C11); debug and release", "why_tests_cant": "The order of calls is unbounded, and what a second finalize() yields depends on all earlier calls and on a counter that wraps at 2^64 or 2^128.", "anchors": ["src/sha1.h:290-327 reset, finalize", "src/sha1.h:443-530 addDataImpl", "src/sha2_512.h:200 Uint128::operator*", "src/sha2_512.h:390-430 reset, finalize", "src/whirlpool.h:637-675 reset, finalize"]}
{"id": "C55", "title": "CRC-32, FNV, MD2, SipHash, BLAKE and BLAKE2 objects in any order of calls: exactly which bytes every call shows", "statement": "For every program over objects of one of the 15 classes CRC_32, FNV32/64 (0, 1, 1a), MD2, SipHash, Blake1 (4), Blake2 and Blake2s that adds data, finalizes, resets, reads and copies in any order (also addData after finalize, repeated finalize, read-outs before finalize), every read-out shows exactly what a small description says that keeps for each object a register and the bytes that wait for their block. Hence: one finalize gives the standard's value; after any history reset() makes the object behave like a new one, except for FNV-0, whose reset() can be left out of every program without changing a read-out; finalize() of the FNV classes can be left out everywhere; in CRC_32 two finalize() calls in a row can be left out everywhere; MD2 finalized, fed and finalized again shows the digest of the padded message, its checksum and the new data; a read-out before finalize does not depend on the waiting bytes; and a SipHash object that has taken fewer than eight bytes shows the constant 0f1c1c0309061d0a whatever the key.", "quantifier": "all programs with spans below 2^64 bytes each, total length unlimited; all 15 classes, all SipHash keys; debug and release", "why_tests_cant": "The order of calls is unbounded, and what a second finalize() or an early read-out yields depends on all earlier calls, on the key and on counters that wrap.", "anchors": ["src/crc_32.h:730-750 reset, finalize", "src/fnv.h:147-185 reset, finalize", "src/md2.h:279-305 reset, finalize", "src/siphash.h:305-350 reset, finalize", "src/blake1_256.h:296-340 reset, finalize", "src/blake2.h:362-385 reset, finalize"]}
{"id": "C56", "title": "std::swap exchanges two hash objects: what follows goes on as with the names exchanged", "statement": "Take any program on objects of one class, then any sequence of std::swap calls between them (a move construction and two move assignments through a temporary; sorting, reversing and shuffling are such sequences), then any program. Everything shown, undefined behaviour included, is what the program without the swaps shows when the objects' names are exchanged accordingly. This holds for all 43 classes used as values and for SHA-3, Keccak and SHAKE objects of any lengths, swapping an object with itself included. For CSHAKE and TUPLE_HASH objects it holds in every program for which the interface promises something, but not in general: a swap exchanges what the objects show, not the old sponge that a CSHAKE object keeps after a move assignment, so that a copy assignment that was harmless before the swap dereferences a null pointer after it.", "quantifier": "all programs before and after, all sequences of swaps, all classes, lengths, names and customizations; debug and release", "why_tests_cant": "Programs and swap sequences are unbounded; the failing case needs a particular history of moves before the swap and a particular assignment after it.", "anchors": ["src/cshake.h:188-234 copy and move operations", "src/cshake.h:337-344 CSHAKEAlias", "src/sha3.h:606-628 KeccakAlias, SHAKEAlias", "src/tuple_hash.h:236-243 TupleHashAlias"]}
{"id": "C57", "title": "SHA-3, SHAKE and cSHAKE objects of different messages compare equal only behind an inner collision, and such messages exist", "statement": "Let two objects of one SHA3/SHAKE class be fed any messages in any chunks and finalized. If operator== holds, the messages are the same, or the blocks before the last ones are different block lists after which Keccak's state agrees in the capacity part (the last 1600 - 8 rate bits, which no input reaches). In particular messages that differ only within one block of the rate are never equal as objects. Conversely, two inputs with the same capacity part suffice: whatever block follows the first one, there is a block behind the second one such that with any common remainder the objects compare equal and show the same digest; and for every class there are different messages whose objects compare equal and show the same digest. For CSHAKE_128/CSHAKE_256 objects of one output length: same name, customization and message, or such an inner collision of the padded inputs.", "quantifier": "all messages of any length, chunkings, names, customizations, output lengths, both rates and all six sponge classes; debug and release", "why_tests_cant": "That no pair of messages compares equal for another reason (padding, last block, squeezing, comparison) is a statement on all pairs; no test can find inner collisions of 256 bits and more.", "anchors": ["src/sha3.h Keccak::finalize, extractData, addDataImpl, operator==", "src/cshake.h operator==, finalize"]}
{"id": "C58", "title": "What of the data stays in the memory of a hash object", "statement": "At any point of any program the buffer of a hash object holds exactly the bytes given since the last finalize() or reset() that do not fill a block yet (BLAKE2: that do not precede the last block), followed by zeros; after finalize() and reset() it is all zero. reset() after any calls makes the memory of an object equal to that of a new one (all classes but FNV-0). A finalized object holds nothing about its message but the length and what operator== compares: objects of messages of one length that compare equal have the same memory, whatever the messages were and however they were divided; where the digest shows all compared words, digest and length determine the memory.", "quantifier": "All classes of the library without heap-allocated parts, debug and release builds, all programs over any number of objects (buffer: any order of calls; reset: any reachable object), all messages and divisions.", "why_tests_cant": "The claim is about private memory after every possible history and about all pairs of messages that collide; tests see digests of a few messages, and for most classes no colliding pair is known at all.", "anchors": ["src/sha1.h:81-150", "src/sha1.h:284-330", "src/sha1.h:385-417", "src/blake2.h:441-474", "src/md2.h:279-301", "src/siphash.h:304-336", "src/sha3.h:322-360"]}
{"id": "C59", "title": "What an observer of array indices and branches learns", "statement": "The sequence of array indices and branch directions of a program that uses the library (what a cache or branch-predictor observer sees) depends only on the sizes of the data passed and on the order of the calls, not on the contents of the data, and for SipHash not on the key. This holds for every class without lookup tables and every program without toString(). It fails for CRC-32, MD2, Tiger and Whirlpool, whose indices in one hash computation determine the whole message; for toString(), whose branches tell exactly which hexadecimal digits are letters; and for operator==, whose branches tell exactly how many leading elements agree.", "quantifier": "All 43 classes, debug and release builds, all pairs of programs of the same shape over any number of objects, calls in any order, legal or not; for the tables all pairs of messages of one length; all keys.", "why_tests_cant": "It compares the executions of all pairs of inputs of the same size, step by step; tests see outputs, and a timing measurement sees a few inputs on one machine. That the indices determine the whole message is a statement about all pairs of messages.", "anchors": ["src/crc_32.h:824-883", "src/md2.h:406-440", "src/tiger.h:613-681", "src/whirlpool.h:789-884", "src/sha1.h:231-236", "src/sha1.h:332-349", "src/siphash.h:268-336", "src/sha2_256.h:385-417", "src/sha3.h:405-437"]}
{"id": "C60", "title": "Work proportional to the data", "statement": "There is one number k such that for every class of the library and every client program, the number of array accesses and branches made by the member functions is at most k * (1 + digest size) * (bytes passed + calls made). Every single addData() of n bytes on an object left by any program takes at most k * (1 + n) of them, and every other member call at most k * (1 + digest size), no matter how much data the object has seen. operator== over n elements takes at most 4 n + 1.", "quantifier": "all 43 classes (SHAKE with every digest length, SipHash with every key), debug and release, all programs over any number of objects with calls in any order, legal or not, data of any length and content", "why_tests_cant": "a timing test samples sizes and contents; an input or a cutting into chunks that makes some call superlinear, or slow only after much data, would have to be met by chance", "anchors": ["src/sha1.h:385-417", "src/sha3.h:333-360", "src/blake2.h:441-474", "src/crc_32.h:824-883", "src/md2.h:288-301"]}
{"id": "C61", "title": "cSHAKE and TupleHash show only sizes", "statement": "Two programs on cSHAKE (or TupleHash) objects that differ only in the contents of the names, customization strings and data they pass, not in their lengths, the digest lengths or the calls, show the same sequence of array indices and branch directions, and both end normally, with the same exception, or with the same fault. In particular a customization string used as a key is not visible. toString() is excluded.", "quantifier": "CSHAKE_128, CSHAKE_256, TupleHash_128, TupleHash_256; debug and release; every function in place of std::log2; all pairs of programs of the same shape over any number of objects with constructions, feeding, finalization, resets, copies, moves, assignments and read-outs in any order, legal or not", "why_tests_cant": "it compares the executions of all pairs of inputs of the same sizes, step by step, including those that use moved-from objects or fail; tests see outputs", "anchors": ["src/cshake.h:133-186", "src/cshake.h:188-253", "src/cshake.h:289-331", "src/tuple_hash.h:123-196", "src/sha3.h:333-360"]}
{"id": "C62", "title": "cSHAKE and TupleHash: work proportional to the data", "statement": "There is one number k such that every program on cSHAKE or TupleHash objects makes at most k * (1 + longest digest it asks for) * (bytes of data, names and customization strings + calls) array accesses and branches, also when it ends in an exception or a fault, and every single call on the objects that a program has left behind makes at most k * (1 + longest digest) * (1 + bytes passed).", "quantifier": "CSHAKE_128, CSHAKE_256, TupleHash_128, TupleHash_256; debug and release; every function in place of std::log2; all programs over any number of objects, all arguments, all calls", "why_tests_cant": "a timing test samples sizes and contents; the padding of the customization prefix, the length encodings and the squeezing are loops whose lengths are computed, and one that runs too long for some sizes would have to be met by chance", "anchors": ["src/cshake.h:133-186", "src/cshake.h:245-253", "src/tuple_hash.h:123-196", "src/sha3.h:333-360"]}
{"id": "C63", "title": "HAS-V shows only sizes and does work proportional to the data", "statement": "Two programs on HAS-V objects that differ only in the contents of the data they pass, not in its lengths or in the calls, show the same sequence of array indices and branch directions and end alike; in particular the table of message words is looked up at places that do not depend on the message. There is one number k such that every program makes at most k * (bytes + calls) array accesses and branches, and every addData() of n bytes on an object that a program has left behind makes at most k * (1 + n), every other call at most k. toString(), which calls snprintf, is excluded.", "quantifier": "debug and release; all programs, and pairs of programs of the same shape, over any number of objects with addData, finalize, reset, toArray and toVector in any order, all data", "why_tests_cant": "it compares the executions of all pairs of inputs of the same sizes step by step and bounds the work for all sizes and all ways to cut the data; tests see outputs of a few inputs", "anchors": ["src/unfinished/has_v_320.cpp:90-118", "src/unfinished/has_v_320.cpp:141-189", "src/unfinished/has_v_320.cpp:197-300"]}
{"id": "C64", "title": "What of name, customization string and data stays in the memory of a cSHAKE or TupleHash object", "statement": "reset() leaves the object without any trace of the name, the customization string (which may be a key) and the data: of its two heap objects one does not exist and the other one has an all-zero buffer, an all-zero state and no digest; only the digest length and whether there was a name or customization string, as some constructor call of the program gave them, remain. After finalize() the buffer is all zero and the other heap object does not exist.", "quantifier": "CSHAKE_128, CSHAKE_256, TupleHash_128, TupleHash_256; debug and release; every function in place of std::log2; all programs without move assignment over any number of objects, legal or not. For programs with move assignment the claim is refuted: for all data shorter than a block and all customizations, moving a customized CSHAKE into one without name and customization and calling reset() keeps the data in plain.", "why_tests_cant": "the claim is about private heap memory after all histories and all secrets; tests see digests, and a digest does not show what the unused pointer keeps", "anchors": ["src/cshake.h:118-131", "src/cshake.h:149-186", "src/cshake.h:188-263", "src/tuple_hash.h:140-170", "src/sha3.h:322-360"]}
