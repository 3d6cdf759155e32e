(** BLAKE-224, -256, -384, -512 as in "SHA-3 proposal BLAKE", version 1.2 (sections 2.1, 2.2),
    with the zero salt. *)
From Coq Require Import NArith List Arith Bool.
From Verif.Spec Require Import Words Merkle BlakeCore.
From Verif.Spec Require Sha2.
Import ListNotations.
Local Open Scope N_scope.

(** the first digits of the fractional part of pi (checked by tools/pyblake.py) *)
Definition C256 : list N :=
  [0x243F6A88; 0x85A308D3; 0x13198A2E; 0x03707344; 0xA4093822; 0x299F31D0; 0x082EFA98; 0xEC4E6C89;
   0x452821E6; 0x38D01377; 0xBE5466CF; 0x34E90C6C; 0xC0AC29B7; 0xC97C50DD; 0x3F84D5B5; 0xB5470917].
Definition C512 : list N :=
  [0x243F6A8885A308D3; 0x13198A2E03707344; 0xA4093822299F31D0; 0x082EFA98EC4E6C89;
   0x452821E638D01377; 0xBE5466CF34E90C6C; 0xC0AC29B7C97C50DD; 0x3F84D5B5B5470917;
   0x9216D5D98979FB1B; 0xD1310BA698DFB5AC; 0x2FFD72DBD01ADFB7; 0xB8E1AFED6A267E96;
   0xBA7C9045F12C7F99; 0x24A19947B3916CF7; 0x0801F2E2858EFC16; 0x636920D871574E69].

Section Family.
  Variable w : N.                        (* word size in bits *)
  Variable nb : nat.                     (* word size in bytes *)
  Variables r1 r2 r3 r4 : N.             (* rotation distances *)
  Variable C : list N.
  Variable nrounds : nat.
  Definition B : nat := (16 * nb)%nat.   (* block size in bytes *)

  (** the compression function; t is the counter: a number of bits below 2^(2w) *)
  Definition compress (h : list N) (block : list N) (t : N) : list N :=
    let m := be_words nb block in
    let c i := nth i C 0 in
    let t0 := t mod 2 ^ w in
    let t1 := t / 2 ^ w mod 2 ^ w in
    let v := h ++ [c 0%nat; c 1%nat; c 2%nat; c 3%nat; N.lxor t0 (c 4%nat); N.lxor t0 (c 5%nat);
                   N.lxor t1 (c 6%nat); N.lxor t1 (c 7%nat)] in
    let inject r i := let j := sg r (2 * i) in let k := sg r (2 * i + 1) in
                      (N.lxor (nth j m 0) (c k), N.lxor (nth k m 0) (c j)) in
    let v := rounds w r1 r2 r3 r4 inject nrounds v in
    map (fun i => N.lxor (N.lxor (nth i h 0) (nth i v 0)) (nth (i + 8) v 0)) (seq 0 8).

  (** padding: a 1 bit, zero bits, the bit [lastbit] just before the length, the length *)
  Definition marks (lastbit : bool) (z : nat) : list N :=
    if lastbit then
      match z with O => [0x81] | S y => [0x80] ++ repeat 0 y ++ [0x01] end
    else [0x80] ++ repeat 0 z.
  Definition pad (lastbit : bool) (m : list N) : list N :=
    m ++ marks lastbit (zeros B (2 * nb) (length m)) ++ be_bytes (2 * nb) (8 * N.of_nat (length m)).

  (** hashing, given the counter used for block number i *)
  Fixpoint iterate (i : nat) (counter : nat -> N) (blocks : list (list N)) (h : list N) : list N :=
    match blocks with
    | [] => h
    | b :: rest => iterate (S i) counter rest (compress h b (counter i))
    end.
  Definition hash_with (lastbit : bool) (iv : list N) (outlen : nat) (counter : nat -> nat -> N) (m : list N) : list N :=
    firstn outlen (flat_map (be_bytes nb) (iterate 0 (counter (length m)) (pieces B (pad lastbit m)) iv)).

  (** the number of message bits in the first blocks up to and including block i; zero if
      block i has no bit of the message *)
  Definition counter (len i : nat) : N :=
    if (len <=? B * i)%nat then 0 else 8 * N.of_nat (min len (B * (i + 1))).

  Definition blake (lastbit : bool) (iv : list N) (outlen : nat) : list N -> list N :=
    hash_with lastbit iv outlen counter.
End Family.

Definition blake256 := blake 32 4 16 12 8 7 C256 14 true Sha2.IV256 32.
Definition blake224 := blake 32 4 16 12 8 7 C256 14 false Sha2.IV224 28.
Definition blake512 := blake 64 8 32 25 16 11 C512 16 true Sha2.IV512 64.
Definition blake384 := blake 64 8 32 25 16 11 C512 16 false Sha2.IV384 48.

(** the length of the message leaves room for the padding in the block that holds its last byte *)
Definition tail_fits (nb : nat) (m : list N) : Prop := (length m mod (16 * nb) < 14 * nb)%nat.

(** ** the counters that the library uses *)

(** Blake1_256, _384, _512: when the padding needs a block of its own, the block before it
    gets the counter zero *)
Definition counter_coded (nb : nat) (len i : nat) : N :=
  if ((14 * nb <=? len mod (16 * nb)) && (i =? len / (16 * nb)))%nat then 0 else counter nb len i.

(** Blake1_224: in that case a negative number of bits, as a 32-bit unsigned number, is
    added to the counter for both blocks *)
Definition counter_coded_224 (len i : nat) : N :=
  if (56 <=? len mod 64)%nat && (len / 64 <=? i)%nat then
    8 * N.of_nat (64 * (len / 64)) + N.of_nat (i + 1 - len / 64) * (2 ^ 32 - 8 * N.of_nat (64 - len mod 64))
  else counter 4 len i.

Definition blake256_coded := hash_with 32 4 16 12 8 7 C256 14 true Sha2.IV256 32 (counter_coded 4).
Definition blake224_coded := hash_with 32 4 16 12 8 7 C256 14 false Sha2.IV224 28 counter_coded_224.
Definition blake512_coded := hash_with 64 8 32 25 16 11 C512 16 true Sha2.IV512 64 (counter_coded 8).
Definition blake384_coded := hash_with 64 8 32 25 16 11 C512 16 false Sha2.IV384 48 (counter_coded 8).
