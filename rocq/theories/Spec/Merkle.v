(** Merkle-Damgard hashing with length strengthening: the construction common to the
    MD/SHA families (RFC 1321 section 3.1-3.2, FIPS 180-4 section 5.1, ISO 10118-3). *)
From Coq Require Import NArith List Arith.
From Verif.Spec Require Import Words.
Import ListNotations.

(** number of zero bytes between the marker byte and the r-byte length field: the padded
    length len + 1 + zeros + r is the next multiple of B *)
Definition zeros (B r len : nat) : nat := (B - (len + 1 + r) mod B) mod B.

(** marker byte, zeros, length field; [enc] encodes the length in bits into r bytes *)
Definition pad (B r : nat) (marker : N) (enc : N -> list N) (m : list N) : list N :=
  m ++ [marker] ++ repeat 0%N (zeros B r (length m)) ++ enc (8 * N.of_nat (length m))%N.

(** chaining: fold the compression function over the blocks of B bytes *)
Definition chain {H} (B : nat) (compress : H -> list N -> H) (iv : H) (padded : list N) : H :=
  fold_left compress (pieces B padded) iv.
