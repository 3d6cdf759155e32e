(** The length counters of the classes that have one, by class name. *)
From Coq Require Import List NArith Arith Bool.
From Verif.Base Require Import Res CWord.
From Verif.Model Require Import Buffer Stream Api Counter Library.
Import ListNotations.
Local Open Scope N_scope.

(** m_sizeCounter (sha1.h:249 and the same line of the other headers): what it counts (8: bits, 1: bytes) and its
    width.  The classes without a counter: CRC_32, FNV, MD2, the classes of sha3.h, and SipHash, which
    keeps the length in a uint64_t and is the subject of C19. *)
Definition unit_of (a : alg) : N :=
  match a with Blake1_224 | Blake1_256 | Blake1_384 | Blake1_512 => 8 | _ => 1 end.
Definition width_of (a : alg) : option N :=
  match a with
  | Blake1_224 | Blake1_256 | Blake2s | HAS_160 | MD4 | MD5 | RIPEMD_128 | RIPEMD_160 | RIPEMD_256 | RIPEMD_320
  | SHA1 | SHA2_224 | SHA2_256 | SM3 | Tiger1_128 | Tiger1_160 | Tiger1_192 | Tiger2_128 | Tiger2_160 | Tiger2_192 => Some 64
  | Blake1_384 | Blake1_512 | Blake2 | SHA2_384 | SHA2_512 | SHA2_512_224 | SHA2_512_256 | Whirlpool => Some 128
  | _ => None
  end.

(** the value of m_sizeCounter, as two words where it is a Uint128 *)
Definition val64 (c : N) : N * N := (c, 0).
Definition val128 (u : Uint128) : N * N := (u_lo u, u_hi u).
Definition counter (a : alg) (dbg : bool) : Obj (class a dbg) -> N * N :=
  match a return Obj (class a dbg) -> N * N with
  | Blake1_224 => fun o => val64 (fst (snd o))
  | Blake1_256 => fun o => val64 (fst (snd o))
  | Blake1_384 => fun o => val128 (fst (snd o))
  | Blake1_512 => fun o => val128 (fst (snd o))
  | Blake2 => fun o => val128 (fst (snd o))
  | Blake2s => fun o => val64 (fst (snd o))
  | HAS_160 => fun o => val64 (md_cnt (snd o))
  | MD4 => fun o => val64 (md_cnt (snd o))
  | MD5 => fun o => val64 (md_cnt (snd o))
  | RIPEMD_128 => fun o => val64 (md_cnt (snd o))
  | RIPEMD_160 => fun o => val64 (md_cnt (snd o))
  | RIPEMD_256 => fun o => val64 (md_cnt (snd o))
  | RIPEMD_320 => fun o => val64 (md_cnt (snd o))
  | SHA1 => fun o => val64 (md_cnt (snd o))
  | SHA2_224 => fun o => val64 (md_cnt (snd o))
  | SHA2_256 => fun o => val64 (md_cnt (snd o))
  | SHA2_384 => fun o => val128 (md8_cnt (snd o))
  | SHA2_512 => fun o => val128 (md8_cnt (snd o))
  | SHA2_512_224 => fun o => val128 (md8_cnt (snd o))
  | SHA2_512_256 => fun o => val128 (md8_cnt (snd o))
  | SM3 => fun o => val64 (md_cnt (snd o))
  | Tiger1_128 => fun o => val64 (md_cnt (snd o))
  | Tiger1_160 => fun o => val64 (md_cnt (snd o))
  | Tiger1_192 => fun o => val64 (md_cnt (snd o))
  | Tiger2_128 => fun o => val64 (md_cnt (snd o))
  | Tiger2_160 => fun o => val64 (md_cnt (snd o))
  | Tiger2_192 => fun o => val64 (md_cnt (snd o))
  | Whirlpool => fun o => val128 (md8_cnt (snd o))
  | _ => fun _ => (0, 0)
  end.

(** m_buffer *)
Definition buffer (a : alg) (dbg : bool) : Obj (class a dbg) -> Buffer :=
  match a return Obj (class a dbg) -> Buffer with
  | CRC_32 | FNV32_0 | FNV32_1 | FNV32_1a | FNV64_0 | FNV64_1 | FNV64_1a => fun _ => buf_new 0
  | Blake1_224 => fst | Blake1_256 => fst | Blake1_384 => fst | Blake1_512 => fst | Blake2 => fst | Blake2s => fst
  | HAS_160 => fst | MD2 => fst | MD4 => fst | MD5 => fst
  | RIPEMD_128 => fst | RIPEMD_160 => fst | RIPEMD_256 => fst | RIPEMD_320 => fst
  | SHA1 => fst | SHA2_224 => fst | SHA2_256 => fst | SHA2_384 => fst | SHA2_512 => fst | SHA2_512_224 => fst
  | SHA2_512_256 => fst | SHA3_224 => fst | SHA3_256 => fst | SHA3_384 => fst | SHA3_512 => fst
  | SHAKE_128 _ => fst | SHAKE_256 _ => fst | SipHash _ _ => fst | SM3 => fst
  | Tiger1_128 => fst | Tiger1_160 => fst | Tiger1_192 => fst | Tiger2_128 => fst | Tiger2_160 => fst | Tiger2_192 => fst
  | Whirlpool => fst
  end.

(** BLOCK_SIZE, and the capacity of m_buffer: BLOCK_SIZE * 2 (sha1.h:248), for BLAKE2 BLOCK_SIZE (blake2.h:311) *)
Definition block_size (a : alg) : nat :=
  match a with
  | Blake1_384 | Blake1_512 | Blake2 | SHA2_384 | SHA2_512 | SHA2_512_224 | SHA2_512_256 => 128
  | _ => 64
  end%nat.
Definition capacity (a : alg) : nat := match a with Blake2 | Blake2s => block_size a | _ => 2 * block_size a end%nat.

(** the buffer that holds exactly [data], as Buffer's members leave it *)
Definition held (cap : nat) (data : list N) : Buffer :=
  mkBuffer (data ++ repeat 0 (cap - length data)) (length data).
Definition holding (cap : nat) (b : Buffer) : Prop := exists data, (length data <= cap)%nat /\ b = held cap data.

(** the bytes (or bits) an object has taken in so far: those counted and those waiting in the buffer.
    [between]: the object is between calls - the buffer is within its array, not beyond one block (a full block stays
    in the buffer of BLAKE2 only), with zeros behind its end, and each word of the counter is a 64-bit word. *)
Definition taken (a : alg) (dbg : bool) (x : Obj (class a dbg)) : N :=
  fst (counter a dbg x) + 2 ^ 64 * snd (counter a dbg x) + unit_of a * N.of_nat (buf_size (buffer a dbg x)).
Definition between (a : alg) (dbg : bool) (x : Obj (class a dbg)) : Prop :=
  fst (counter a dbg x) < 2 ^ 64 /\ snd (counter a dbg x) < 2 ^ 64 /\
  holding (capacity a) (buffer a dbg x) /\
  (buf_size (buffer a dbg x) <= block_size a)%nat /\
  (buf_size (buffer a dbg x) = block_size a -> capacity a = block_size a).

(** which classes append the length as 64 bits: the marker byte, and whether the field is big-endian
    (sha1.h:302-327, sha2_256.h:334-359, sm3.h:305-330; md5.h:307-332 and the other little-endian headers; tiger.h:457-482).
    The class given by [md_class] with these parameters is the model of the header: see [instance64] in Proof/Count.v. *)
Definition appends64 (a : alg) : option (N * bool) :=
  match a with
  | SHA1 | SHA2_224 | SHA2_256 | SM3 => Some (128, true)
  | HAS_160 | MD4 | MD5 | RIPEMD_128 | RIPEMD_160 | RIPEMD_256 | RIPEMD_320 | Tiger2_128 | Tiger2_160 | Tiger2_192 => Some (128, false)
  | Tiger1_128 | Tiger1_160 | Tiger1_192 => Some (1, false)
  | _ => None
  end.

(** ... and as 128 bits: block size and size of the field (sha2_512.h:405-430, whirlpool.h:646-671) *)
Definition appends128 (a : alg) : option (nat * nat) :=
  match a with
  | SHA2_384 | SHA2_512 | SHA2_512_224 | SHA2_512_256 => Some (128, 16)%nat
  | Whirlpool => Some (64, 32)%nat
  | _ => None
  end.
