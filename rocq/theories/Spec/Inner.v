(** Inner collisions of the sponge: different inputs behind which the part of the state that no input reaches is the same. *)
From Coq Require Import List NArith.
From Verif.Spec Require Import Keccak.
Import ListNotations.

(** the state behind some blocks of [rate] bytes (FIPS 202, Algorithm 8, step 6) *)
Definition absorbed (rate : nat) (blocks : list (list N)) : bits :=
  fold_left (fun S b => keccak_f (xor_bits S (bits_of b ++ repeat false (1600 - 8 * rate)))) blocks (repeat false 1600).
(** its last c bits, the capacity *)
Definition inner (rate : nat) (S : bits) : bits := skipn (8 * rate) S.

Definition inner_collision (rate : nat) (A B : list (list N)) : Prop :=
  A <> B /\ inner rate (absorbed rate A) = inner rate (absorbed rate B).
