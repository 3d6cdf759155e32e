(** The iteration inside the block hashes: chaining value, compression function, initial value and padding, by class name. *)
From Coq Require Import List NArith Arith Bool.
From Verif.Base Require Import Res.
From Verif.Spec Require Import Words Domain.
From Verif.Model Require Import Buffer Stream Api ObjApi Library.
From Verif.Spec Require Blake Chaining.
From Verif.Model Require Keccak CShake Blake1 Blake2 Has160 Md2 Md4 Md5 Ripemd Sha1 Sha2 Sm3 Tiger Whirlpool.
Import ListNotations.
Local Open Scope N_scope.

(** the type of m_h / m_state: an array (sha1.h:251), in tiger.h:258 of three words only used with constant indices *)
Definition State (a : alg) : Type :=
  match a with
  | Tiger1_128 | Tiger1_160 | Tiger1_192 | Tiger2_128 | Tiger2_160 | Tiger2_192 => (N * N * N)%type
  | _ => list N
  end.

(** its value in an object *)
Definition chaining (a : alg) (dbg : bool) : Obj (class a dbg) -> State a :=
  match a return Obj (class a dbg) -> State a with
  | Blake1_224 => fun o => snd (snd o)
  | Blake1_256 => fun o => snd (snd o)
  | Blake1_384 => fun o => snd (snd o)
  | Blake1_512 => fun o => snd (snd o)
  | Blake2 => fun o => snd (snd o)
  | Blake2s => fun o => snd (snd o)
  | HAS_160 => fun o => md_h (snd o)
  | MD2 => fun o => firstn 16 (Model.Md2.m_x (snd o))
  | MD4 => fun o => md_h (snd o)
  | MD5 => fun o => md_h (snd o)
  | RIPEMD_128 => fun o => md_h (snd o)
  | RIPEMD_160 => fun o => md_h (snd o)
  | RIPEMD_256 => fun o => md_h (snd o)
  | RIPEMD_320 => fun o => md_h (snd o)
  | SHA1 => fun o => md_h (snd o)
  | SHA2_224 => fun o => md_h (snd o)
  | SHA2_256 => fun o => md_h (snd o)
  | SHA2_384 => fun o => md8_h (snd o)
  | SHA2_512 => fun o => md8_h (snd o)
  | SHA2_512_224 => fun o => md8_h (snd o)
  | SHA2_512_256 => fun o => md8_h (snd o)
  | SM3 => fun o => md_h (snd o)
  | Tiger1_128 => fun o => md_h (snd o)
  | Tiger1_160 => fun o => md_h (snd o)
  | Tiger1_192 => fun o => md_h (snd o)
  | Tiger2_128 => fun o => md_h (snd o)
  | Tiger2_160 => fun o => md_h (snd o)
  | Tiger2_192 => fun o => md_h (snd o)
  | Whirlpool => fun o => md8_h (snd o)
  | _ => fun _ => []
  end.

(** the body of the loop of addDataImpl over the blocks, and the value that reset() assigns; for the classes that
    append the length of the message.  sha1.h:284-300, 443-614 and the same members of the other headers; see the
    definitions named here *)
Definition compression (a : alg) : list N -> State a -> res (State a) :=
  match a return list N -> State a -> res (State a) with
  | HAS_160 => Model.Has160.compress
  | MD4 => Model.Md4.compress
  | MD5 => Model.Md5.compress
  | RIPEMD_128 => Model.Ripemd.compress128
  | RIPEMD_160 => Model.Ripemd.compress160
  | RIPEMD_256 => Model.Ripemd.compress256
  | RIPEMD_320 => Model.Ripemd.compress320
  | SHA1 => Model.Sha1.compress
  | SHA2_224 => Model.Sha2.compress32
  | SHA2_256 => Model.Sha2.compress32
  | SHA2_384 => Model.Sha2.compress64
  | SHA2_512 => Model.Sha2.compress64
  | SHA2_512_224 => Model.Sha2.compress64
  | SHA2_512_256 => Model.Sha2.compress64
  | SM3 => Model.Sm3.compress
  | Tiger1_128 => Model.Tiger.compress
  | Tiger1_160 => Model.Tiger.compress
  | Tiger1_192 => Model.Tiger.compress
  | Tiger2_128 => Model.Tiger.compress
  | Tiger2_160 => Model.Tiger.compress
  | Tiger2_192 => Model.Tiger.compress
  | Whirlpool => Model.Whirlpool.compress
  | _ => fun _ h => Ok h
  end.
Definition initial (a : alg) : State a :=
  match a return State a with
  | HAS_160 => Model.Has160.iv
  | MD4 => Model.Md4.iv
  | MD5 => Model.Md5.iv
  | RIPEMD_128 => Model.Ripemd.iv128
  | RIPEMD_160 => Model.Ripemd.iv160
  | RIPEMD_256 => Model.Ripemd.iv256
  | RIPEMD_320 => Model.Ripemd.iv320
  | SHA1 => Model.Sha1.iv
  | SHA2_224 => Model.Sha2.iv224
  | SHA2_256 => Model.Sha2.iv256
  | SHA2_384 => Model.Sha2.iv384
  | SHA2_512 => Model.Sha2.iv512
  | SHA2_512_224 => Model.Sha2.iv512_224
  | SHA2_512_256 => Model.Sha2.iv512_256
  | SM3 => Model.Sm3.iv
  | Tiger1_128 => Model.Tiger.iv
  | Tiger1_160 => Model.Tiger.iv
  | Tiger1_192 => Model.Tiger.iv
  | Tiger2_128 => Model.Tiger.iv
  | Tiger2_160 => Model.Tiger.iv
  | Tiger2_192 => Model.Tiger.iv
  | Whirlpool => Model.Whirlpool.iv
  | _ => []
  end.

(** the padding of those classes: block size, size of the length field, marker byte, encoding of the number of
    bits; and the width of the counter (m_sizeCounter), the field of Whirlpool being wider.
    has_160.h, md4.h, md5.h, ripemd_*.h, sha1.h, sha2_*.h, sm3.h, tiger.h, whirlpool.h: finalize() *)
Definition padding (a : alg) : option (nat * nat * N * (N -> list N)) :=
  match a with
  | SHA1 | SHA2_224 | SHA2_256 | SM3 => Some (64%nat, 8%nat, 128, be_bytes 8)
  | HAS_160 | MD4 | MD5 | RIPEMD_128 | RIPEMD_160 | RIPEMD_256 | RIPEMD_320
  | Tiger2_128 | Tiger2_160 | Tiger2_192 => Some (64%nat, 8%nat, 128, le_bytes 8)
  | Tiger1_128 | Tiger1_160 | Tiger1_192 => Some (64%nat, 8%nat, 1, le_bytes 8)
  | SHA2_384 | SHA2_512 | SHA2_512_224 | SHA2_512_256 => Some (128%nat, 16%nat, 128, be_bytes 16)
  | Whirlpool => Some (64%nat, 32%nat, 128, be_bytes 32)
  | _ => None
  end.
Definition counts (a : alg) : N := match padding a with Some (_, 8%nat, _, _) => 64 | _ => 128 end.

(** an object that was given the chunks one by one and then finalized *)
Definition digested (C : HashClass) (ds : list (list N)) (x : Obj C) : Prop :=
  exists x0, foldM (c_add C) ds (c_new C) = Ok x0 /\ c_finalize C x0 = Ok x.

(** The BLAKE classes: size of a word in bytes, the bit before the length field, the counter of each block as the code
    forms it, the compression function and the initial value (blake1_256.h:296-337, 453-633 and the same lines of the other
    headers; what the code's addDataImpl computes is Blake.compress by C13, with the counter of
    counter_coded when the padding needs a block of its own) *)
Definition blake (a : alg) : option (nat * bool * (nat -> nat -> N) * (list N * N -> State a -> res (State a)) * State a) :=
  match a return option (nat * bool * (nat -> nat -> N) * (list N * N -> State a -> res (State a)) * State a) with
  | Blake1_224 => Some (4%nat, false, Spec.Blake.counter_coded_224, Spec.Chaining.blake_f32, Model.Blake1.iv224)
  | Blake1_256 => Some (4%nat, true, Spec.Blake.counter_coded 4, Spec.Chaining.blake_f32, Model.Blake1.iv256)
  | Blake1_384 => Some (8%nat, false, Spec.Blake.counter_coded 8, Spec.Chaining.blake_f64, Model.Blake1.iv384)
  | Blake1_512 => Some (8%nat, true, Spec.Blake.counter_coded 8, Spec.Chaining.blake_f64, Model.Blake1.iv512)
  | _ => None
  end.
(** The BLAKE2 classes: size of a word in bytes, compression function, initial value (blake2.h, blake2s.h: reset()) *)
Definition blake2 (a : alg) : option (nat * (list N * N * bool -> State a -> res (State a)) * State a) :=
  match a return option (nat * (list N * N * bool -> State a -> res (State a)) * State a) with
  | Blake2 => Some (8%nat, Spec.Chaining.blake2_f64, Model.Blake2.h_reset Model.Blake2.iv_b 64)
  | Blake2s => Some (4%nat, Spec.Chaining.blake2_f32, Model.Blake2.h_reset Model.Blake2.iv_s 32)
  | _ => None
  end.

(** The classes of sha3.h: rate in bytes, function, length of the digest (sha3.h:614-632); m_state (sha3.h:267) *)
Definition sponge_parameters (a : alg) : option (nat * source * nat) :=
  match a with
  | SHA3_224 => Some (144%nat, FromSha3, 28%nat)
  | SHA3_256 => Some (136%nat, FromSha3, 32%nat)
  | SHA3_384 => Some (104%nat, FromSha3, 48%nat)
  | SHA3_512 => Some (72%nat, FromSha3, 64%nat)
  | SHAKE_128 d => Some (168%nat, FromShake, d)
  | SHAKE_256 d => Some (136%nat, FromShake, d)
  | _ => None
  end.
Definition sponge_state (a : alg) (dbg : bool) : Obj (class a dbg) -> option (list N) :=
  match a return Obj (class a dbg) -> option (list N) with
  | SHA3_224 => fun o => Some (Model.Keccak.k_state (snd o))
  | SHA3_256 => fun o => Some (Model.Keccak.k_state (snd o))
  | SHA3_384 => fun o => Some (Model.Keccak.k_state (snd o))
  | SHA3_512 => fun o => Some (Model.Keccak.k_state (snd o))
  | SHAKE_128 d => fun o => Some (Model.Keccak.k_state (snd o))
  | SHAKE_256 d => fun o => Some (Model.Keccak.k_state (snd o))
  | _ => fun _ => None
  end.

(** an object of a class with constructor arguments that was given the chunks and then finalized *)
Definition odigested (C : ObjClass) (a : Args C) (ds : list (list N)) (x : OObj C) : Prop :=
  exists x0 x1, oc_construct C a = Ok x0 /\ foldM (oc_feed C) ds x0 = Ok x1 /\ oc_finalize C x1 = Ok x.
(** m_state of the Keccak object that a cSHAKE object uses (cshake.h:125-128) *)
Definition selected_state (o : Model.CShake.Obj) : option (list N) :=
  option_map (fun k => Model.Keccak.k_state (snd k))
    (if Model.CShake.m_customized o then Model.CShake.m_keccak o else Model.CShake.m_shake o).
