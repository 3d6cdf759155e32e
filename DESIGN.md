# Design

Formal model of the header-only C++ hash library **Chocobo1/Hash** (`/repo/src`) in
Rocq/Coq 8.16.1, with proofs of the properties in `properties.jsonl`.

## 1. Layout

    rocq/theories/Base      result monad, loops, arrays, word lemmas (no hash code)
    rocq/theories/Model     the code of /repo/src, function by function, with file:line citations
    rocq/theories/Spec      independent specifications, written from the standards
    rocq/theories/Proof     lemmas that relate Model to Spec
    rocq/theories/Props     property theorems only (statement, `exact lemma`, Print Assumptions)
    rocq/theories/Tests     test vectors (Examples; tests, not proofs)
    tools/                  Python scripts that transcribe unrolled C++ call lists and tables into Model/Gen*.v
    seeded/LOG.jsonl        mutation log

`Spec` never imports `Model`.  `Model` imports from `Spec` only vocabulary that both sides need: what a client program
is (`Client`, `ObjClient`, `Legal`), memories (`Memory`), the command line (`Cli`), and in `Model/Chaining.v` the
names of the algorithm families.  `Model/Gen` is written by the scripts in `tools/` from the text of `/repo/src`.

## 2. How C++ is modelled

* **Outcomes.** Every function that can misbehave returns `res A` with constructors
  `Ok a`, `Throw e` (a C++ exception or failed assert) and `Ub u` (undefined behaviour:
  out-of-bounds access, null dereference, signed overflow, violated span precondition).
  Undefined behaviour is never assumed away: theorems show `Ok`, or exhibit `Ub`.
* **Integers.** `uint8_t/uint32_t/uint64_t` are `N` with explicit truncation in every operation
  that can leave the range (`+`, `<<`, `~`, `*`, `-`, casts). Range invariants are proved where a
  law needs them. `size_t` quantities (span sizes, indices) are `nat`: a span lies in memory, so its size
  is below 2^64 and no model computation on sizes exceeds it, except where noted (leftEncode's `size*8`).
* **Arrays.** C arrays, `std::array` and `Buffer` storage are lists of the declared length; reads and writes go through
  `aget`/`aset`, which return `Ub` out of range.
* **Loops.** `for` loops are folds over `seq`; recursion in `Blake2::addData` is fuel-based with an error outcome.
* **Build modes.** `NDEBUG` is a boolean parameter `dbg`: in debug mode `Buffer::fill`, the
  initializer-list constructor and `assert` are modelled as `Throw`.
* **Object identity.** Hash objects without pointers are values (implicit copy operations). A moved-from `std::vector` (SHA-3) is empty. `CShake` holds two `unique_ptr`s:
  modelled as two `option` fields, dereferencing `None` is `Ub`.
* **Macros/lambdas** used for rounds become Gallina functions; the manually unrolled call sequences
  become lists of call records (register operands, message index, constants), transcribed by `tools/` scripts and run by an interpreter.
* **Shared text.** The library repeats the same `Buffer`, `Uint128`, `addData`, `finalize` skeleton and read-out code in every header.
  Where the text is identical up to names (checked by `tools/check_shared.py`), the model has one parametric definition that cites all copies.

### What is modelled

Every header in `/repo/src` (30 headers, 43 classes counting template instances): constructors, `reset`, all `addData`
overloads (`nextData` of TupleHash), `finalize`, `toArray`, `toVector`, `toString`, `operator T` (unsigned types of 1 to
8 bytes and `bool`), `operator==`, `operator!=`, `std::hash`, copy/move construction and assignment (for SHA-3 also from the base class), the local `Buffer`, `Loader`,
`Uint128`, rotation helpers; the parts of `gsl/span` that these use (`first`, `subspan`, iterators, with their checks);
by itself (C51, C52) the bundled `gsl/span`, `gsl/span_ext`, `gsl/narrow`, `gsl/util`, `gsl/algorithm`, `gsl/byte`; `src/program/main.cpp`; the class of `src/unfinished/has_v_320.cpp`.

### What is not modelled, and simplifications

* The `main` and the disabled `#if 0` branch of `unfinished/has_v_320.cpp`, the tests, the build files, the unused template `t<i>()` of md5.h.
* `gsl/pointers` and `gsl/zstring`, which the library does not use; of `gsl/span` the conversions to bytes and the
  iterator debugging of MSVC.  Elements of spans are numbers; an element type with a throwing or odd assignment is not modelled.
* Compile-time matters: `constexpr`, `static_assert`, overload resolution, which C++ standard is selected.  (Before C++17
  some classes hold tables as non-static const members, which makes `Blake2` and `Blake2s` not assignable; the model
  treats assignment as available.)
* Allocation failure, multi-threading (objects share nothing mutable), running times (C60, C62 and C63 count array accesses and branches).  Of the micro-architecture only what
  array indices and branches show (C59): not recorded there are loops with constant bounds that Model/ has as plain
  functions (clearing a buffer, setting initial values), the carry of a length counter (it depends on lengths only), and
  instructions whose time depends on operands; for HAS-V (C63) the reallocations of its std::vector and snprintf.
* The memory of an object is a record of values; the memory the *caller* passes to `addData` is modelled as addresses
  (`Spec/Memory.v`, `Model/Overloads.v`), where reading an unmapped address is undefined behaviour.
* `std::log2(double)` (used by leftEncode/rightEncode) is a parameter.  Theorems that need its accuracy have the
  hypothesis `log2_accurate` (`Spec/Log2.v`: error below 5/8 of the spacing of doubles), which is shown satisfiable
  (`Proof/Log2Witness.v`).  Doubles are integers with at most 53 significant bits (`Base/Double.v`).
* The command line tool: the file system is an oracle that says what opening and each `read` give; text and binary mode
  are the same (POSIX); `argv` strings contain no NUL; the locale is "C"; running out of memory is not modelled.
* Shared text is modelled once; `tools/check_shared.py` checks that the copies in the headers are the same up to names.

## 3. Specifications

Written from the standards, in a different style from the code (recurrences over lists, arithmetic `mod 2^w`, no unrolling), with constants
derived rather than copied where the standard says how: SHA-2 constants from fractional parts of roots of primes, SHA-512/t IVs by running the IV generation
function, SHA-1/MD4/RIPEMD/HAS-160 constants from square/cube roots, Keccak round constants from the LFSR and rotation offsets from the recurrence, Whirlpool tables from the mini-boxes and
the circulant matrix, CRC tables from the polynomial, BLAKE constants from pi, FNV offset bases from the signature string.

## 4. Properties: what is modelled, how proved

| id | model | proof |
|----|-------|-------|
| C01-C10, C12 | class model (buffer, counter, chaining state), compression function transcription | generic streaming theorem (`Proof/Streaming`) by induction over chunks + per-algorithm refinement of the compression function to the spec |
| C11 | `toArray` loop with bounds-checked result array | `_refuted`: the third 8-byte store runs past the 16/20-byte array |
| C13 | as above, incl. `paddingLen` arithmetic (int in 256/384/512, uint32_t in 224) | proved for messages whose padding fits one block; `_refuted` for the two-block tail (counter handling differs from the specification) |
| C14-C16 | BLAKE2 delayed last block; Keccak sponge | as C01 |
| C17-C18 | CShake/TupleHash with encodings | reduction to the sponge theorem |
| C19-C21 | SipHash, CRC-32 slicing tables, FNV | induction over blocks/bytes; GF(2)-linearity for CRC slicing |
| C22-C25 | generic API histories over the class models | corollaries of one representation theorem per class; `_refuted` for FNV-0 and customized cSHAKE/TupleHash reset |
| C26 | read-out functions | list arithmetic |
| C27-C28 | operator== on modelled state | injectivity of read-out where the digest is the full state; `_refuted` elsewhere |
| C29 | Uint128, 64-bit counters | arithmetic mod 2^64, 2^128 |
| C30 | leftEncode/rightEncode incl. floating-point byte count | arithmetic on powers under the accuracy hypothesis on log2, `_refuted` at 8-byte values (buffer overflow) |
| C31, C35, C38 | encoders, padders | injectivity proofs |
| C32 | squeeze loop | induction over blocks |
| C33 | CShake pointer model | case analysis; `_refuted` for copy assignment across modes |
| C34 | store of objects | induction over interleavings |
| C36 | CRC | polynomial arithmetic over GF(2) |
| C37 | main.cpp decision logic, file oracle | induction over read sizes; `_refuted` clauses |
| C39 | overload wrappers | object representation lists |
| C40 | all class models, programs that are not legal | an invariant per class kept by every call in every state (`Robust`), debug and release compared call by call (`Builds`) |
| C41 | sha3.h m_final, CRC_32 and SHA1 finalize | invariant "the digest is a prefix of what is squeezed"; `_refuted` for CRC_32 and SHA1 |
| C42 | overload for arrays | corollary of C39; `_refuted` for the reading in README.md |
| C43 | unfinished/has_v_320.cpp: rounds (generated call list), std::vector buffer, padding, read-outs | equality with Spec/HasV.v (a description in loop form of what this file computes, not of the published HAS-V); `_refuted` for the quoted vectors |
| C44 | Model/Extension.v: toArray read backwards, then `compression` and `padding` of Model/Chaining.v (not code of the repository, but made of its members) | the digest of `m ++ padding ++ t` is that function of the digest of `m`, its length and `t`; collisions survive continuation |
| C45 | crc_32.h as for C20 | algebra of the digests (Spec: `remainder` over zero bits); existence and uniqueness of the four forcing bytes by running the register backwards |
| C46 | fnv.h as for C21 | invertibility of the step; `filter` of the finalize() calls of a program |
| C47 | the skeletons of Model/Api.v (md_class, md128_class) instantiated with a compression function that also records its block | the same representation theorem for the recording instance and for the class, compared state by state |
| C48 | `operator T` at `bool` (Model/ToBool.v) | first byte; `_refuted` for "true iff the digest is not zero" |
| C49 | Model/KeccakObj.v: `Keccak<R, P>` with its constructor argument, implicit copies and moves, the aliases' conversions | all programs with objects of any lengths; `_refuted` for "a `SHA3_n` variable yields n bits" |
| C50 | Model/CShake.v, Model/TupleHash.v with every order of calls and moved-from objects; table of owners in Spec/Ownership.v | all programs, exact outcome; `_refuted` for "a moved-from object cannot be read" |
| C51 | Model/Span.v: pointers into arrays with undefined behaviour outside, `Expects` ends the process; programs of span and iterator statements | simulation of Spec/View.v (stretches and places) statement by statement; non-interference by a second simulation; `_refuted` for `+= PTRDIFF_MIN` and for reversed pointers |
| C52 | Model/Helpers.v | congruences mod 2^n (narrow), induction over the elements (copy), owners of actions (finally); `_refuted` for overlapping copy and for shifts above 24 |
| C53 | Model/KeccakObj.v, Model/CShake.v, Model/TupleHash.v | simulation of Spec/Tape.v (length, absorbed bytes, digest) stated for all programs with exact outcomes; genuine digests, recovery by reset(), moved-from content as corollaries |
| C54 | Model/Stream.v, Model/Library.v (22 classes) | simulation of Spec/Ledger.v (bytes that went in, believed length) for all programs, through the skeletons md_class and md128_class; standard digest, early read-outs, second finalize(), recovery by reset() as corollaries |
| C55 | Model/Library.v (15 classes: CRC-32, FNV, MD2, SipHash, BLAKE, BLAKE2) | simulation of Spec/Registers.v (register and waiting bytes) for all programs; standard value, reset(), repeated finalize(), early read-outs as corollaries |
| C56 | Model/ObjApi.v, Model/Keccak.v, Model/CShake.v, Model/TupleHash.v, Model/Library.v | commuting a swap past every command (rename), induction on the sequence of swaps; for CSHAKE/TUPLE_HASH through the promised behaviour; counterexample from the exact ownership description (C33) |
| C57 | Model/Keccak.v, Model/CShake.v, Model/ObjEquality.v, Model/Library.v | the state behind the fed blocks is an injective function of the last block and the capacity part (keccak_f_injective); steering a block onto any outer part; pigeonhole for existence |
| C58 | Model/Residue.v (m_buffer and its sizes, per class), Model/Library.v | addData() treats the buffer alike whatever the compression function does, so the buffer is that of a trivial hash; lockstep of two runs on inputs of equal lengths (Proof/Lockstep.v) gives the same buffer and counter; the MD2 passes are invertible, so m_x determines the checksum |
| C59 | Base/Leak.v (outcomes with indices and branches), Model/Leak/ (generated from Model/ by tools/gen_leak.py), Model/LeakLibrary.v | erasing the record gives back Model/ (Proof/LeakErase.v); two runs in lockstep: same trace, related outcomes (Proof/LeakEqual.v, Proof/LeakPrograms.v); for the tables, traces have fixed length once outcomes are Ok, so equal traces can be cut step by step and each index gives a byte back (Proof/LeakTables.v) |
| C60 | Spec/Work.v (size of a program), Model/Leak/, Model/LeakLibrary.v | bounds on the number of events without looking at outcomes (Proof/LeakWork.v; a write behind the end is the last event), the 43 classes with one constant (Proof/LeakLinear.v). Counted is what Base/Leak.v records; straight-line code and constant loops that Model/ has as plain functions are not counted. |
| C61 | Spec/ObjShape.v, Model/Leak/LkCShake.v, LkTupleHash.v (generated), Model/LeakObjects.v | erasure to Model/ObjApi.v (Proof/LeakObjErase.v); lockstep of two programs with a relation on objects that compares flags, null pointers, buffer fills and lengths (Proof/LeakObjEqual.v). Not recorded: value == 0 in the length encodings and the emptiness tests of the constructor, which depend on lengths only. |
| C62 | Spec/ObjShape.v (size of a program, longest digest), Model/LeakObjects.v | the bound of C60 for Keccak under every digest length up to the longest, carried through the selected pointer, the encodings (at most 255 turns whatever std::log2 returns) and the padding (Proof/LeakObjWork.v). |
| C63 | Model/LeakHasV.v, Model/Leak/LkHasV.v (generated from Model/HasV.v; appending to a std::vector writes its elements) | erasure; the lockstep relation and the bound of C59 and C60 for the class with a std::vector buffer, whose length stays below a block (Proof/LeakHasV.v). |
| C64 | Model/CShake.v, Model/TupleHash.v, Model/Keccak.v, Model/ObjApi.v | invariant of all programs without move assignment: at most the pointer selected by m_customized is set, and the Keccak object behind it has a buffer of the rate and the digest length of a constructor call (Proof/ObjResidue.v). Move assignment between the two kinds breaks it: `C64_…_move_refuted`. Memory that the allocator has taken back, and bytes of m_final beyond its size (std::vector::clear keeps the allocation), are not modelled. |

## 5. Trusted base

* the Coq 8.16.1 kernel (and `coqchk`), including the VM for `vm_compute`;
* what `Print Assumptions` prints under each theorem (section 6);
* the reading of the C++ code into `Model/` (cited line by line) and of the standards into `Spec/`.
  As a test of the first, `tools/check_vectors.py` takes the expected digests out of `/repo/tests` and runs the model on them:
  all 413 with messages of at most 2000 bytes agree (run outside the build; the longer ones are skipped).

## 6. Axioms per theorem

`Print Assumptions` stands below each of the 402 theorems in `Props/`; `make` prints "Closed under the global context" for every
one of them: no axiom is used, neither of this development nor of the standard library.  (`coqchk` lists axioms of
`Coq.ssr.ssrunder`, a library that is loaded by tactics of the standard library; no theorem depends on them.)
The list below is written by `tools/axioms.py`.

| file | theorems | names (all closed under the global context) |
|------|----------|------|
| C01_Sha1 | 2 | `C01_sha1`, `C01_sha1_history` |
| C02_Sha256 | 4 | `C02_sha224`, `C02_sha224_history`, `C02_sha256`, `C02_sha256_history` |
| C03_Sha512 | 8 | `C03_sha384`, `C03_sha384_history`, `C03_sha512`, `C03_sha512_history`, `C03_sha512_224`, `C03_sha512_224_history`, `C03_sha512_256`, `C03_sha512_256_history` |
| C04_Md2 | 2 | `C04_md2`, `C04_md2_history` |
| C05_Md4 | 2 | `C05_md4`, `C05_md4_history` |
| C06_Md5 | 2 | `C06_md5`, `C06_md5_history` |
| C07_Ripemd | 8 | `C07_ripemd128`, `C07_ripemd128_history`, `C07_ripemd160`, `C07_ripemd160_history`, `C07_ripemd256`, `C07_ripemd256_history`, `C07_ripemd320`, `C07_ripemd320_history` |
| C08_Has160 | 2 | `C08_has160`, `C08_has160_history` |
| C09_Sm3 | 2 | `C09_sm3`, `C09_sm3_history` |
| C10_Tiger | 4 | `C10_tiger`, `C10_tiger_history`, `C10_tiger2`, `C10_tiger2_history` |
| C11_Tiger | 4 | `C11_tiger1_128_refuted`, `C11_tiger1_160_refuted`, `C11_tiger2_128_refuted`, `C11_tiger2_160_refuted` |
| C12_Whirlpool | 2 | `C12_whirlpool`, `C12_whirlpool_history` |
| C13_Blake | 16 | `C13_blake224_partial`, `C13_blake224_history_partial`, `C13_blake256_partial`, `C13_blake256_history_partial`, `C13_blake384_partial`, `C13_blake384_history_partial`, `C13_blake512_partial`, `C13_blake512_history_partial`, `C13_blake224_refuted`, `C13_blake224_coded`, `C13_blake256_refuted`, `C13_blake256_coded`, `C13_blake384_refuted`, `C13_blake384_coded`, `C13_blake512_refuted`, `C13_blake512_coded` |
| C14_Blake2 | 4 | `C14_blake2b`, `C14_blake2b_history`, `C14_blake2s`, `C14_blake2s_history` |
| C15_Sha3 | 8 | `C15_sha3_224`, `C15_sha3_224_history`, `C15_sha3_256`, `C15_sha3_256_history`, `C15_sha3_384`, `C15_sha3_384_history`, `C15_sha3_512`, `C15_sha3_512_history` |
| C16_Shake | 10 | `C16_shake128`, `C16_shake128_int`, `C16_shake128_history`, `C16_shake128_length`, `C32_shake128`, `C16_shake256`, `C16_shake256_int`, `C16_shake256_history`, `C16_shake256_length`, `C32_shake256` |
| C17_CShake | 12 | `C17_cshake128_partial`, `C17_cshake128_long_refuted`, `C17_cshake128_history`, `C17_cshake128_plain`, `C17_cshake128_negative`, `C32_cshake128`, `C17_cshake256_partial`, `C17_cshake256_long_refuted`, `C17_cshake256_history`, `C17_cshake256_plain`, `C17_cshake256_negative`, `C32_cshake256` |
| C17_NeverWrong | 6 | `C30_left_never_wrong`, `C30_right_never_wrong`, `C17_cshake128_never_wrong`, `C17_cshake256_never_wrong`, `C18_tuplehash128_never_wrong`, `C18_tuplehash256_never_wrong` |
| C18_TupleHash | 10 | `C18_tuplehash128_partial`, `C18_tuplehash128_long_refuted`, `C18_tuplehash128_history`, `C18_tuplehash128_negative`, `C18_tuplehash128_overflow`, `C18_tuplehash256_partial`, `C18_tuplehash256_long_refuted`, `C18_tuplehash256_history`, `C18_tuplehash256_negative`, `C18_tuplehash256_overflow` |
| C19_SipHash | 4 | `C19_siphash`, `C19_siphash_history`, `C19_siphash_key_debug`, `C19_siphash_key_release` |
| C20_Crc32 | 4 | `C20_crc32`, `C20_crc32_history`, `C20_table`, `C20_table_shape` |
| C21_Fnv | 13 | `C21_fnv32_0`, `C21_fnv32_0_history`, `C21_fnv32_1`, `C21_fnv32_1_history`, `C21_fnv32_1a`, `C21_fnv32_1a_history`, `C21_fnv64_0`, `C21_fnv64_0_history`, `C21_fnv64_1`, `C21_fnv64_1_history`, `C21_fnv64_1a`, `C21_fnv64_1a_history`, `C21_offset_bases` |
| C22_Chunks | 5 | `C22_library`, `C22_objects`, `C22_digest`, `C22_cshake128`, `C22_cshake256` |
| C23_CShakeReset | 6 | `C23_cshake128_drops`, `C23_cshake128_refuted`, `C23_tuplehash128_refuted`, `C23_cshake256_drops`, `C23_cshake256_refuted`, `C23_tuplehash256_refuted` |
| C23_Fnv | 4 | `C23_fnv32_0_keeps`, `C23_fnv32_0_refuted`, `C23_fnv64_0_keeps`, `C23_fnv64_0_refuted` |
| C23_Library | 3 | `C23_library`, `C23_cshake128_plain`, `C23_cshake256_plain` |
| C24_Safety | 15 | `C24_library_partial`, `C24_tiger_refuted`, `C24_empty_string_refuted`, `C24_cshake128_partial`, `C24_cshake256_partial`, `C24_tuplehash128_partial`, `C24_tuplehash256_partial`, `C25_library`, `C25_checks_only`, `C25_tiger`, `C25_cshake128_refuted`, `C25_cshake128_partial`, `C25_cshake256_partial`, `C25_tuplehash128_partial`, `C25_tuplehash256_partial` |
| C26_Readouts | 1 | `C26_library` |
| C27_Equality | 19 | `C27_library`, `C27_truncated_partial`, `C27_sponge_partial`, `C27_total`, `C27_sponge_refuted`, `C27_md2_refuted`, `C27_siphash_refuted`, `C27_shake128_refuted`, `C27_shake256_refuted`, `C27_cshake128_partial`, `C27_cshake128_total`, `C27_cshake128_refuted`, `C27_tuplehash128_partial`, `C27_tuplehash128_total`, `C27_cshake256_partial`, `C27_cshake256_total`, `C27_cshake256_refuted`, `C27_tuplehash256_partial`, `C27_tuplehash256_total` |
| C28_StdHash | 8 | `C28_library`, `C28_sponge_partial`, `C28_sha3_refuted`, `C28_shake_refuted`, `C28_cshake128_partial`, `C28_tuplehash128_partial`, `C28_cshake256_partial`, `C28_tuplehash256_partial` |
| C29_Length | 14 | `C29_uint128_add`, `C29_uint128_times8`, `C29_add`, `C29_chunks`, `C29_field64`, `C29_classes64`, `C29_appended64`, `C29_field128`, `C29_classes128`, `C29_appended128`, `C29_blake64`, `C29_blake128`, `C29_blake2b`, `C29_blake2s` |
| C30_Encodings | 9 | `C30_left_encode_partial`, `C30_right_encode_partial`, `C30_left_shape`, `C30_right_shape`, `C30_left_unique`, `C30_right_unique`, `C30_left_encode_refuted`, `C30_right_encode_refuted`, `C30_log2_assumption` |
| C31_TupleStream | 7 | `C31_regroup`, `C31_tuplehash128`, `C31_injective128`, `C31_collision128`, `C31_tuplehash256`, `C31_injective256`, `C31_collision256` |
| C33_CShakeObjects | 10 | `C33_cshake128_partial`, `C33_cshake128_assign_refuted`, `C33_cshake128_moved_refuted`, `C33_tuplehash128_partial`, `C33_tuplehash128_moved_refuted`, `C33_cshake256_partial`, `C33_cshake256_assign_refuted`, `C33_cshake256_moved_refuted`, `C33_tuplehash256_partial`, `C33_tuplehash256_moved_refuted` |
| C34_Copies | 6 | `C34_own_calls`, `C34_own_digest`, `C34_cshake128`, `C34_cshake256`, `C34_tuplehash128`, `C34_tuplehash256` |
| C35_Padding | 13 | `C35_padding`, `C35_blocks`, `C35_collision`, `C35_blake_padding`, `C35_blake_blocks`, `C35_blake_collision`, `C35_blake2_padding`, `C35_blake2_blocks`, `C35_blake2_collision`, `C35_md2_padding`, `C35_md2_blocks`, `C35_md2_collision`, `C35_siphash_padding` |
| C36_Burst | 2 | `C36_burst`, `C36_affine` |
| C37_Cli | 19 | `C37_file_partial`, `C37_sized`, `C37_tuple128_partial`, `C37_tuple256_partial`, `C37_usage`, `C37_not_a_number`, `C37_usage_text`, `C37_cshake128`, `C37_cshake256`, `C37_cshake128_refuted`, `C37_cshake256_refuted`, `C37_not_opened_refuted`, `C37_read_error_refuted`, `C37_errors_ignored`, `C37_tiger_refuted`, `C37_large_length_refuted`, `C37_zero_length_refuted`, `C37_tuple128_refuted`, `C37_tuple256_refuted` |
| C38_Domains | 6 | `C38_domains`, `C38_objects`, `C38_cshake128`, `C38_cshake256`, `C38_cshake128_after_reset`, `C38_cshake256_after_reset` |
| C39_Overloads | 5 | `C39_overloads`, `C39_cshake128`, `C39_cshake256`, `C39_tuple128`, `C39_tuple256` |
| C40_AnyOrder | 2 | `C40_any_order_partial`, `C40_early_text_refuted` |
| C41_Frozen | 3 | `C41_sponge`, `C41_crc_refuted`, `C41_sha1_refuted` |
| C42_Literal | 2 | `C42_literal`, `C42_readme_refuted` |
| C43_HasV | 4 | `C43_digest_partial`, `C43_history_partial`, `C43_text_partial`, `C43_vectors_refuted` |
| C44_Extension | 3 | `C44_continues`, `C44_forged`, `C44_collision` |
| C45_CrcAlgebra | 3 | `C45_combine`, `C45_residue`, `C45_forge` |
| C46_FnvAlgebra | 4 | `C46_one_byte`, `C46_suffix`, `C46_leading_zeros`, `C46_finalize` |
| C47_Once | 1 | `C47_once` |
| C48_Bool | 2 | `C48_first_byte`, `C48_nonzero_refuted` |
| C49_Lengths | 5 | `C49_history`, `C49_fips`, `C49_moved_reset`, `C49_sized`, `C49_length_refuted` |
| C50_Ownership | 5 | `C50_cshake`, `C50_tuplehash`, `C50_careful`, `C50_careful_tuplehash`, `C50_moved_refuted` |
| C51_Span | 4 | `C51_span`, `C51_confined`, `C51_least_distance_refuted`, `C51_reversed_refuted` |
| C52_Helpers | 9 | `C52_narrow`, `C52_at`, `C52_copy`, `C52_copy_overlap_refuted`, `C52_byte_bits`, `C52_byte_shift`, `C52_byte_shift_refuted`, `C52_finally`, `C52_finally_once` |
| C53_Exact | 10 | `C53_sha3`, `C53_cshake`, `C53_tuplehash`, `C53_genuine`, `C53_genuine_cshake`, `C53_genuine_tuplehash`, `C53_recovers`, `C53_moved`, `C53_moved_early`, `C53_moved_late` |
| C54_Programs | 7 | `C54_exact`, `C54_standard`, `C54_early`, `C54_again`, `C54_again_genuine`, `C54_again_field`, `C54_recovers` |
| C55_Registers | 9 | `C55_exact`, `C55_standard`, `C55_recovers`, `C55_fnv0_reset`, `C55_fnv_finalize`, `C55_crc_twice`, `C55_md2_again`, `C55_early`, `C55_siphash_early` |
| C56_Swap | 7 | `C56_values`, `C56_sha3`, `C56_cshake`, `C56_cshake256`, `C56_tuplehash`, `C56_tuplehash256`, `C56_hidden_refuted` |
| C57_Inner | 6 | `C57_equal`, `C57_block`, `C57_reached`, `C57_exist`, `C57_cshake128`, `C57_cshake256` |
| C58_Residue | 4 | `C58_buffer`, `C58_reset`, `C58_same`, `C58_digest` |
| C59_Leakage | 9 | `C59_same_functions`, `C59_same_equality`, `C59_same_constructor`, `C59_library_partial`, `C59_siphash_key_partial`, `C59_siphash_constructor`, `C59_tables_refuted`, `C59_text_refuted`, `C59_equality_refuted` |
| C60_Work | 3 | `C60_program`, `C60_call`, `C60_equality` |
| C61_ObjectTraces | 3 | `C61_erased`, `C61_cshake`, `C61_tuple` |
| C62_ObjectWork | 2 | `C62_program`, `C62_call` |
| C63_HasVTraces | 4 | `C63_erased`, `C63_equal`, `C63_program`, `C63_call` |
| C64_ObjectMemory | 10 | `C64_cshake128_reset`, `C64_cshake256_reset`, `C64_tuple128_reset`, `C64_tuple256_reset`, `C64_cshake128_finalize`, `C64_cshake256_finalize`, `C64_tuple128_finalize`, `C64_tuple256_finalize`, `C64_cshake128_move_refuted`, `C64_cshake256_move_refuted` |
