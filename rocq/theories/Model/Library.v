(** The hash classes of the library (all but cSHAKE and TupleHash, whose objects own other
    objects), by their public names, with operator== and operator!=. *)
From Coq Require Import List NArith Arith Bool.
From Verif.Base Require Import Res.
From Verif.Spec Require Import Client Legal.
From Verif.Model Require Import Buffer Stream Api.
From Verif.Model Require Blake1 Blake2 Crc32 Fnv Has160 Keccak Md2 Md4 Md5 Ripemd Sha1 Sha2 SipHash Sm3 Tiger Whirlpool.
Import ListNotations.
Local Open Scope N_scope.

(** the class names: blake1_224.h:635 and so on at the end of each header; sha3.h:614-632,
    fnv.h:319-324, tiger.h:686-692, siphash.h:497.  An object of a SHAKE class is given its
    digest length and a SipHash object its key, as two words. *)
Inductive alg :=
| Blake1_224 | Blake1_256 | Blake1_384 | Blake1_512
| Blake2 | Blake2s
| CRC_32
| FNV32_0 | FNV32_1 | FNV32_1a | FNV64_0 | FNV64_1 | FNV64_1a
| HAS_160
| MD2 | MD4 | MD5
| RIPEMD_128 | RIPEMD_160 | RIPEMD_256 | RIPEMD_320
| SHA1
| SHA2_224 | SHA2_256 | SHA2_384 | SHA2_512 | SHA2_512_224 | SHA2_512_256
| SHA3_224 | SHA3_256 | SHA3_384 | SHA3_512
| SHAKE_128 (digestLength : nat) | SHAKE_256 (digestLength : nat)
| SipHash (k0 k1 : N)
| SM3
| Tiger1_128 | Tiger1_160 | Tiger1_192 | Tiger2_128 | Tiger2_160 | Tiger2_192
| Whirlpool.

Definition class (a : alg) (dbg : bool) : HashClass :=
  match a with
  | Blake1_224 => Model.Blake1.cls224 dbg
  | Blake1_256 => Model.Blake1.cls256 dbg
  | Blake1_384 => Model.Blake1.cls384 dbg
  | Blake1_512 => Model.Blake1.cls512 dbg
  | Blake2 => Model.Blake2.cls_b dbg
  | Blake2s => Model.Blake2.cls_s dbg
  | CRC_32 => Model.Crc32.cls
  | FNV32_0 => Model.Fnv.cls 4 0
  | FNV32_1 => Model.Fnv.cls 4 1
  | FNV32_1a => Model.Fnv.cls 4 2
  | FNV64_0 => Model.Fnv.cls 8 0
  | FNV64_1 => Model.Fnv.cls 8 1
  | FNV64_1a => Model.Fnv.cls 8 2
  | HAS_160 => Model.Has160.cls dbg
  | MD2 => Model.Md2.cls dbg
  | MD4 => Model.Md4.cls dbg
  | MD5 => Model.Md5.cls dbg
  | RIPEMD_128 => Model.Ripemd.cls128 dbg
  | RIPEMD_160 => Model.Ripemd.cls160 dbg
  | RIPEMD_256 => Model.Ripemd.cls256 dbg
  | RIPEMD_320 => Model.Ripemd.cls320 dbg
  | SHA1 => Model.Sha1.cls dbg
  | SHA2_224 => Model.Sha2.cls224 dbg
  | SHA2_256 => Model.Sha2.cls256 dbg
  | SHA2_384 => Model.Sha2.cls384 dbg
  | SHA2_512 => Model.Sha2.cls512 dbg
  | SHA2_512_224 => Model.Sha2.cls512_224 dbg
  | SHA2_512_256 => Model.Sha2.cls512_256 dbg
  | SHA3_224 => Model.Keccak.cls224 dbg
  | SHA3_256 => Model.Keccak.cls256 dbg
  | SHA3_384 => Model.Keccak.cls384 dbg
  | SHA3_512 => Model.Keccak.cls512 dbg
  | SHAKE_128 d => Model.Keccak.shake128 dbg d
  | SHAKE_256 d => Model.Keccak.shake256 dbg d
  | SipHash k0 k1 => Model.SipHash.cls 2 4 dbg k0 k1
  | SM3 => Model.Sm3.cls dbg
  | Tiger1_128 => Model.Tiger.cls 1 16 dbg
  | Tiger1_160 => Model.Tiger.cls 1 20 dbg
  | Tiger1_192 => Model.Tiger.cls 1 24 dbg
  | Tiger2_128 => Model.Tiger.cls 2 16 dbg
  | Tiger2_160 => Model.Tiger.cls 2 20 dbg
  | Tiger2_192 => Model.Tiger.cls 2 24 dbg
  | Whirlpool => Model.Whirlpool.cls dbg
  end.

(** the loop of operator== over an array of [n] elements, from index [i] on      sha1.h:231-236 *)
Fixpoint eq_loop (n i : nat) (l r : list N) : res bool :=
  match n with
  | O => Ok true
  | S k =>
      let! a := aget l i in
      let! b := aget r i in
      if a =? b then eq_loop k (S i) l r else Ok false
  end.
Definition eq_array (n : nat) (l r : list N) : res bool := eq_loop n 0 l r.

(** the array that operator== compares: m_h, m_state, m_v or m_x.  tiger.h and siphash.h use
    only constant indices, so that their arrays are tuples in the model.  The two nested loops
    of sha3.h run over m_state[5][5] in row order, which is how it is laid out here. *)
Definition tuple3 (h : N * N * N) : list N := let '(a, b, c) := h in [a; b; c].
Definition tuple4 (v : Model.SipHash.vec) : list N := let '(Model.SipHash.mkVec a b c d) := v in [a; b; c; d].

Definition md_eq (n : nat) (l r : Buffer * MD (list N)) : res bool := eq_array n (md_h (snd l)) (md_h (snd r)).
Definition md8_eq (n : nat) (l r : Buffer * MD128 (list N)) : res bool := eq_array n (md8_h (snd l)) (md8_h (snd r)).
Definition ctr_eq {A} (n : nat) (l r : Buffer * (A * list N)) : res bool := eq_array n (snd (snd l)) (snd (snd r)).
Definition tiger_eq (l r : Buffer * MD (N * N * N)) : res bool := eq_array 3 (tuple3 (md_h (snd l))) (tuple3 (md_h (snd r))).
Definition keccak_eq (l r : Buffer * Model.Keccak.St) : res bool :=
  eq_array 25 (Model.Keccak.k_state (snd l)) (Model.Keccak.k_state (snd r)).
Definition word_eq (l r : N) : res bool := Ok (l =? r).

(** operator==, a friend of each class.
    blake1_224.h:229-237, blake1_256.h:229-237, blake1_384.h:292-300, blake1_512.h:292-300, blake2.h:292-300,
    blake2s.h:229-237, crc_32.h:129-132, fnv.h:121-124, has_160.h:229-237, md2.h:225-233, md4.h:229-237,
    md5.h:229-237, ripemd_128.h:229-237, ripemd_160.h:229-237, ripemd_256.h:230-238, ripemd_320.h:230-238,
    sha1.h:229-237, sha2_224.h:238-246, sha2_256.h:238-246, sha2_384.h:301-309, sha2_512.h:301-309,
    sha2_512_224.h:301-309, sha2_512_256.h:301-309, sha3.h:234-245, siphash.h:230-238, sm3.h:229-237,
    tiger.h:236-244, whirlpool.h:289-297 *)
Definition equal (a : alg) (dbg : bool) : Obj (class a dbg) -> Obj (class a dbg) -> res bool :=
  match a return Obj (class a dbg) -> Obj (class a dbg) -> res bool with
  | Blake1_224 => ctr_eq 8
  | Blake1_256 => ctr_eq 8
  | Blake1_384 => ctr_eq 8
  | Blake1_512 => ctr_eq 8
  | Blake2 => ctr_eq 8
  | Blake2s => ctr_eq 8
  | CRC_32 => word_eq
  | FNV32_0 => word_eq
  | FNV32_1 => word_eq
  | FNV32_1a => word_eq
  | FNV64_0 => word_eq
  | FNV64_1 => word_eq
  | FNV64_1a => word_eq
  | HAS_160 => md_eq 5
  | MD2 => fun l r => eq_array 48 (Model.Md2.m_x (snd l)) (Model.Md2.m_x (snd r))
  | MD4 => md_eq 4
  | MD5 => md_eq 4
  | RIPEMD_128 => md_eq 4
  | RIPEMD_160 => md_eq 5
  | RIPEMD_256 => md_eq 8
  | RIPEMD_320 => md_eq 10
  | SHA1 => md_eq 5
  | SHA2_224 => md_eq 8
  | SHA2_256 => md_eq 8
  | SHA2_384 => md8_eq 8
  | SHA2_512 => md8_eq 8
  | SHA2_512_224 => md8_eq 8
  | SHA2_512_256 => md8_eq 8
  | SHA3_224 => keccak_eq
  | SHA3_256 => keccak_eq
  | SHA3_384 => keccak_eq
  | SHA3_512 => keccak_eq
  | SHAKE_128 d => keccak_eq
  | SHAKE_256 d => keccak_eq
  | SipHash k0 k1 => fun l r => eq_array 4 (tuple4 (Model.SipHash.s_v (snd l))) (tuple4 (Model.SipHash.s_v (snd r)))
  | SM3 => md_eq 8
  | Tiger1_128 => tiger_eq
  | Tiger1_160 => tiger_eq
  | Tiger1_192 => tiger_eq
  | Tiger2_128 => tiger_eq
  | Tiger2_160 => tiger_eq
  | Tiger2_192 => tiger_eq
  | Whirlpool => md8_eq 8
  end.

(** operator!=: !(left == right)      sha1.h:238-241 and the four lines after each operator== *)
Definition unequal (a : alg) (dbg : bool) (l r : Obj (class a dbg)) : res bool :=
  let! b := equal a dbg l r in Ok (negb b).

(** digest sizes in bytes: std::array<Byte, N> ResultArrayType (sha1.h:198 and so on) or the constructor argument *)
Definition digest_size (a : alg) : nat :=
  match a with
  | Blake1_224 => 28 | Blake1_256 => 32 | Blake1_384 => 48 | Blake1_512 => 64 | Blake2 => 64 | Blake2s => 32
  | CRC_32 => 4 | FNV32_0 => 4 | FNV32_1 => 4 | FNV32_1a => 4 | FNV64_0 => 8 | FNV64_1 => 8 | FNV64_1a => 8
  | HAS_160 => 20 | MD2 => 16 | MD4 => 16 | MD5 => 16
  | RIPEMD_128 => 16 | RIPEMD_160 => 20 | RIPEMD_256 => 32 | RIPEMD_320 => 40
  | SHA1 => 20 | SHA2_224 => 28 | SHA2_256 => 32 | SHA2_384 => 48 | SHA2_512 => 64 | SHA2_512_224 => 28 | SHA2_512_256 => 32
  | SHA3_224 => 28 | SHA3_256 => 32 | SHA3_384 => 48 | SHA3_512 => 64 | SHAKE_128 d => d | SHAKE_256 d => d
  | SipHash _ _ => 8 | SM3 => 32
  | Tiger1_128 => 16 | Tiger1_160 => 20 | Tiger1_192 => 24 | Tiger2_128 => 16 | Tiger2_160 => 20 | Tiger2_192 => 24
  | Whirlpool => 64
  end.

(** the key words of a SipHash object are 64-bit words *)
Definition well_formed (a : alg) : Prop :=
  match a with SipHash k0 k1 => k0 < 2 ^ 64 /\ k1 < 2 ^ 64 | _ => True end.

(** the classes shown elsewhere not to deliver a digest at all (C11), and not to reset (C23) *)
Definition unreadable (a : alg) : bool :=
  match a with Tiger1_128 | Tiger1_160 | Tiger2_128 | Tiger2_160 => true | _ => false end.
Definition fnv0 (a : alg) : bool := match a with FNV32_0 | FNV64_0 => true | _ => false end.

(** the objects that some program, legal or not, has produced at its end *)
Definition Reachable (C : HashClass) (x : Obj C) : Prop :=
  exists p os st i, program_bytes p /\ exec C p (fun _ => c_new C) = Ok (os, st) /\ x = st i.

(** the classes of sha3.h, whose read-out is the vector m_final and not the state that == compares *)
Definition sponge (a : alg) : bool :=
  match a with SHA3_224 | SHA3_256 | SHA3_384 | SHA3_512 | SHAKE_128 _ | SHAKE_256 _ => true | _ => false end.
(** the classes whose digest consists of all words that == compares *)
Definition full (a : alg) : bool :=
  match a with
  | Blake1_256 | Blake1_512 | Blake2 | Blake2s | CRC_32 | FNV32_0 | FNV32_1 | FNV32_1a | FNV64_0 | FNV64_1 | FNV64_1a
  | HAS_160 | MD4 | MD5 | RIPEMD_128 | RIPEMD_160 | RIPEMD_256 | RIPEMD_320 | SHA1 | SHA2_256 | SHA2_512 | SM3
  | Tiger1_192 | Tiger2_192 | Whirlpool => true
  | _ => false
  end.

(** the objects that a program allowed by the interface leaves finalized *)
Definition Finalized (C : HashClass) (x : Obj C) : Prop :=
  exists ne p s os st i, legal ne p (fun _ => false) s /\ s i = true /\ exec C p (fun _ => c_new C) = Ok (os, st) /\ x = st i.

(** the object that has been given [m] and finalized *)
Definition hashed (C : HashClass) (m : list N) (x : Obj C) : Prop :=
  exists x0, c_add C m (c_new C) = Ok x0 /\ c_finalize C x0 = Ok x.
