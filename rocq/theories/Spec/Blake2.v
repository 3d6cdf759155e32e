(** BLAKE2b and BLAKE2s without a key and with the longest output, as in RFC 7693. *)
From Coq Require Import NArith List Arith Bool.
From Verif.Spec Require Import Words BlakeCore.
From Verif.Spec Require Sha2.
Import ListNotations.
Local Open Scope N_scope.

Section Family.
  Variable w : N.                        (* word size in bits *)
  Variable nb : nat.                     (* word size in bytes *)
  Variables r1 r2 r3 r4 : N.             (* rotation distances *)
  Variable nrounds : nat.
  Variable IV : list N.
  Definition B : nat := (16 * nb)%nat.   (* block size in bytes *)

  (** F: t is the number of message bytes so far, f tells whether the block is the last one
      (section 3.2) *)
  Definition compress (h block : list N) (t : N) (f : bool) : list N :=
    let m := le_words nb block in
    let iv i := nth i IV 0 in
    let v := h ++ [iv 0%nat; iv 1%nat; iv 2%nat; iv 3%nat;
                   N.lxor (iv 4%nat) (t mod 2 ^ w); N.lxor (iv 5%nat) (t / 2 ^ w mod 2 ^ w);
                   if f then N.lxor (iv 6%nat) (2 ^ w - 1) else iv 6%nat; iv 7%nat] in
    let inject r i := (nth (sg r (2 * i)) m 0, nth (sg r (2 * i + 1)) m 0) in
    let v := rounds w r1 r2 r3 r4 inject nrounds v in
    map (fun i => N.lxor (N.lxor (nth i h 0) (nth i v 0)) (nth (i + 8) v 0)) (seq 0 8).

  (** the message, filled with zeros up to a whole number of blocks, at least one (section 3.3) *)
  Definition nblocks (len : nat) : nat := Nat.max 1 ((len + B - 1) / B)%nat.
  Definition blocks (m : list N) : list (list N) :=
    pieces B (m ++ repeat 0 (nblocks (length m) * B - length m)).

  Fixpoint iterate (i : nat) (len : N) (bs : list (list N)) (h : list N) : list N :=
    match bs with
    | [] => h
    | [b] => compress h b len true
    | b :: rest => iterate (S i) len rest (compress h b (N.of_nat ((i + 1) * B)) false)
    end.

  (** nn: output length in bytes; no key *)
  Definition h0 (nn : N) : list N :=
    match IV with [] => [] | x :: t => N.lxor x (N.lxor 0x01010000 nn) :: t end.
  Definition blake2 (nn : nat) (m : list N) : list N :=
    firstn nn (flat_map (le_bytes nb) (iterate 0 (N.of_nat (length m)) (blocks m) (h0 (N.of_nat nn)))).
End Family.

Definition blake2b : list N -> list N := blake2 64 8 32 24 16 63 12 Sha2.IV512 64.
Definition blake2s : list N -> list N := blake2 32 4 16 12 8 7 10 Sha2.IV256 32.

(** the longest messages BLAKE2b and BLAKE2s are defined for: 2^128 - 1 and 2^64 - 1 bytes *)
Definition fits_blake2b (m : list N) : Prop := N.of_nat (length m) < 2 ^ 128.
Definition fits_blake2s (m : list N) : Prop := N.of_nat (length m) < 2 ^ 64.
