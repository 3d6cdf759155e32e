(** KECCAK-p[1600, 24], the sponge construction, SHA-3 and SHAKE as in FIPS 202, on bit
    strings. *)
From Coq Require Import List NArith Arith Bool.
From Verif.Spec Require Import Words.
Import ListNotations.

Definition bits := list bool.

(** ** the state array A[x, y, z], 5 x 5 x 64 (section 3.1) *)
Definition state := nat -> nat -> nat -> bool.
Definition of_string (s : bits) : state := fun x y z => nth (64 * (5 * y + x) + z) s false.
Definition to_string (A : state) : bits :=
  map (fun i => A (i / 64 mod 5) (i / 64 / 5) (i mod 64)) (seq 0 1600).

(** ** step mappings (section 3.2) *)

Definition theta (A : state) : state :=
  let C x z := xorb (xorb (xorb (xorb (A x 0 z) (A x 1 z)) (A x 2 z)) (A x 3 z)) (A x 4 z) in
  let D x z := xorb (C ((x + 4) mod 5) z) (C ((x + 1) mod 5) ((z + 63) mod 64)) in
  fun x y z => xorb (A x y z) (D x z).

(** the walk (1, 0), then (x, y) -> (y, (2x + 3y) mod 5); at step t the lane moves by
    (t + 1)(t + 2)/2 positions *)
Fixpoint offset_from (n t x y x0 y0 : nat) : nat :=
  match n with
  | O => 0
  | S k => if (x =? x0) && (y =? y0) then (t + 1) * (t + 2) / 2
           else offset_from k (t + 1) y ((2 * x + 3 * y) mod 5) x0 y0
  end.
Definition offset (x y : nat) : nat := offset_from 24 0 1 0 x y.   (* lane (0, 0) is not on the walk *)
Definition rho (A : state) : state := fun x y z => A x y ((z + (64 - offset x y mod 64)) mod 64).

Definition pi (A : state) : state := fun x y z => A ((x + 3 * y) mod 5) x z.

Definition chi (A : state) : state :=
  fun x y z => xorb (A x y z) (andb (xorb (A ((x + 1) mod 5) y z) true) (A ((x + 2) mod 5) y z)).

(** Algorithm 5 *)
Definition lfsr_step (R : bits) : bits :=
  let R := false :: R in
  let r i := nth i R false in
  firstn 8 [xorb (r 0) (r 8); r 1; r 2; r 3; xorb (r 4) (r 8); xorb (r 5) (r 8); xorb (r 6) (r 8); r 7; r 8].
Definition rc (t : nat) : bool :=
  if (t mod 255 =? 0) then true
  else nth 0 (Nat.iter (t mod 255) lfsr_step [true; false; false; false; false; false; false; false]) false.
(** RC[2^j - 1] = rc(j + 7 ir), all other bits zero *)
Definition RC (ir z : nat) : bool := existsb (fun j => if z =? 2 ^ j - 1 then rc (j + 7 * ir) else false) (seq 0 7).
Definition iota (ir : nat) (A : state) : state :=
  fun x y z => if (x =? 0) && (y =? 0) then xorb (A x y z) (RC ir z) else A x y z.

Definition Rnd (ir : nat) (A : state) : state := iota ir (chi (pi (rho (theta A)))).
(** the state is written out as a string between two rounds, so that the definition can be run *)
Definition keccak_f (s : bits) : bits :=
  fold_left (fun s ir => to_string (Rnd ir (of_string s))) (seq 0 24) s.

(** ** the sponge (section 4) *)

Definition xor_bits (x y : bits) : bits := map (fun p => xorb (fst p) (snd p)) (combine x y).

(** Algorithm 9 *)
Definition pad101 (x m : nat) : bits := [true] ++ repeat false ((x - (m + 2) mod x) mod x) ++ [true].

(** Algorithm 8, steps 7-10: Z is the output so far *)
Fixpoint squeeze (fuel r d : nat) (Z S : bits) : bits :=
  let Z := Z ++ firstn r S in
  if d <=? length Z then firstn d Z
  else match fuel with
       | O => []
       | Datatypes.S k => squeeze k r d Z (keccak_f S)
       end.
Definition sponge (r d : nat) (N : bits) : bits :=
  let P := N ++ pad101 r (length N) in
  let S := fold_left (fun S Pi => keccak_f (xor_bits S (Pi ++ repeat false (1600 - r)))) (pieces r P) (repeat false 1600) in
  squeeze d r d [] S.

(** KECCAK[c](N, d) *)
Definition keccak (c d : nat) (N : bits) : bits := sponge (1600 - c) d N.

(** ** bytes: bit 0 is the first bit (section B.1) *)
Definition byte_bits (b : N) : bits := map (fun i => N.testbit_nat b i) (seq 0 8).
Definition bits_of (m : list N) : bits := flat_map byte_bits m.
Definition bit_value (b : bits) : N := fold_right (fun (x : bool) a => 2 * a + (if x then 1 else 0))%N 0%N b.
Definition bytes_of (s : bits) : list N := map bit_value (pieces 8 s).

(** ** the functions (section 6) *)
Definition sha3 (d : nat) (m : list N) : list N := bytes_of (keccak (2 * d) d (bits_of m ++ [false; true])).
Definition sha3_224 := sha3 224.
Definition sha3_256 := sha3 256.
Definition sha3_384 := sha3 384.
Definition sha3_512 := sha3 512.

(** d: output length in bytes *)
Definition shake128 (d : nat) (m : list N) : list N := bytes_of (keccak 256 (8 * d) (bits_of m ++ [true; true; true; true])).
Definition shake256 (d : nat) (m : list N) : list N := bytes_of (keccak 512 (8 * d) (bits_of m ++ [true; true; true; true])).
