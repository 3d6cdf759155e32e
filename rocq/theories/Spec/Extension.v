(** Length extension: what a Merkle-Damgard hash with length strengthening appends to a message of [n] bytes, and the
    reading of a digest back into words.  (ISO 10118-3; "extension attack" in FIPS 180-4 implementations, RFC 2104 section 6) *)
From Coq Require Import NArith List Arith.
From Verif.Spec Require Import Words Merkle.
Import ListNotations.

(** the padding of a message of [n] bytes: it depends on the length only *)
Definition suffix (B r : nat) (marker : N) (enc : N -> list N) (n : nat) : list N :=
  [marker] ++ repeat 0%N (zeros B r n) ++ enc (8 * N.of_nat n)%N.
