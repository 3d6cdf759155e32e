(** The memory of hash objects: where the message bytes are. *)
From Coq Require Import List NArith.
From Verif.Model Require Import Buffer Stream Api Library.
Import ListNotations.

(** BLOCK_SIZE, the capacity of m_buffer, and whether complete blocks wait (BLAKE2: addData() keeps the last block for
    finalize(), blake2.h:441-474).  CRC_32 and the FNV classes have no buffer.
    blake1_224.h:246, 248; blake1_256.h:246, 248; blake1_384.h:309, 311; blake1_512.h:309, 311; blake2.h:309, 311;
    blake2s.h:246, 248; has_160.h:246, 248; md2.h:242, 244; md4.h:246, 248; md5.h:246, 248; ripemd_128.h:246, 248;
    ripemd_160.h:246, 248; ripemd_256.h:247, 249; ripemd_320.h:247, 249; sha1.h:246, 248; sha2_224.h:255, 257;
    sha2_256.h:255, 257; sha2_384.h:318, 320; sha2_512.h:318, 320; sha2_512_224.h:318, 320; sha2_512_256.h:318,
    320; sha3.h:269; siphash.h:248, 250; sm3.h:246, 248; tiger.h:253, 255; whirlpool.h:306, 309 *)
Definition buffering (a : alg) : option (nat * nat * bool) :=
  match a with
  | CRC_32 | FNV32_0 | FNV32_1 | FNV32_1a | FNV64_0 | FNV64_1 | FNV64_1a => None
  | Blake2 => Some (128, 128, true)
  | Blake2s => Some (64, 64, true)
  | Blake1_384 | Blake1_512 | SHA2_384 | SHA2_512 | SHA2_512_224 | SHA2_512_256 => Some (128, 256, false)
  | MD2 => Some (16, 32, false)
  | SipHash _ _ => Some (8, 16, false)
  | SHA3_224 => Some (144, 144, false)
  | SHA3_256 => Some (136, 136, false)
  | SHA3_384 => Some (104, 104, false)
  | SHA3_512 => Some (72, 72, false)
  | SHAKE_128 _ => Some (168, 168, false)
  | SHAKE_256 _ => Some (136, 136, false)
  | _ => Some (64, 128, false)
  end%nat.

(** m_buffer *)
Definition buffer (a : alg) (dbg : bool) : Obj (class a dbg) -> option Buffer :=
  match a return Obj (class a dbg) -> option Buffer with
  | CRC_32 | FNV32_0 | FNV32_1 | FNV32_1a | FNV64_0 | FNV64_1 | FNV64_1a => fun _ => None
  | _ => fun x => Some (fst x)
  end.
