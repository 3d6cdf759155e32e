(** CRC-32 (ISO 3309, IEEE 802.3), bit by bit, least significant bit of each byte first. *)
From Coq Require Import List NArith Arith Bool.
From Verif.Spec Require Import Words.
Import ListNotations.
Local Open Scope N_scope.

(** x^32 + x^26 + x^23 + x^22 + x^16 + x^12 + x^11 + x^10 + x^8 + x^7 + x^5 + x^4 + x^2 + x + 1:
    the coefficient of x^e is bit 31 - e *)
Definition exponents : list N := [26; 23; 22; 16; 12; 11; 10; 8; 7; 5; 4; 2; 1; 0].
Definition polynomial : N := fold_right N.add 0 (map (fun e => 2 ^ (31 - e)) exponents).

(** one step of the shift register with an incoming bit *)
Definition next (s : N) (bit : bool) : N :=
  if xorb (N.odd s) bit then N.lxor (s / 2) polynomial else s / 2.
Definition remainder (s : N) (bits : list bool) : N := fold_left next bits s.

(** the bits of a byte in transmission order, of a message *)
Definition byte_bits (b : N) : list bool := map (fun i => N.testbit b (N.of_nat i)) (seq 0 8).
Definition bits (m : list N) : list bool := flat_map byte_bits m.

(** the register starts with ones and is complemented at the end *)
Definition crc32 (m : list N) : N := compl 32 (remainder (2 ^ 32 - 1) (bits m)).

(** bytewise exclusive or of two equally long strings *)
Definition xor_bytes (a b : list N) : list N := map (fun p => N.lxor (fst p) (snd p)) (combine a b).
