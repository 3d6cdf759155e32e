(** Whirlpool as in ISO/IEC 10118-3 (P. Barreto, V. Rijmen, "The Whirlpool Hashing Function"). *)
From Coq Require Import NArith Arith List.
From Verif.Spec Require Import Words Merkle.
Import ListNotations.
Local Open Scope N_scope.

(** ** GF(2^8) modulo x^8 + x^4 + x^3 + x^2 + 1 *)
Definition xtime (a : N) : N := if 2 * a <? 256 then 2 * a else N.lxor (2 * a) 0x11D.
Fixpoint gmul_bits (n : nat) (a b : N) : N :=
  match n with
  | O => 0
  | Datatypes.S k => N.lxor (if N.odd b then a else 0) (gmul_bits k (xtime a) (b / 2))
  end.
Definition gmul (a b : N) : N := gmul_bits 8 a b.

(** ** the substitution box, built from the mini-boxes E, E^-1 and R *)
Definition E (x : N) : N := nth (N.to_nat x) [0x1; 0xB; 0x9; 0xC; 0xD; 0x6; 0xF; 0x3; 0xE; 0x8; 0x7; 0x4; 0xA; 0x2; 0x5; 0x0] 0.
Definition Einv (y : N) : N :=
  match find (fun x => E x =? y) (map N.of_nat (seq 0 16)) with Some x => x | None => 0 end.
Definition R (x : N) : N := nth (N.to_nat x) [0x7; 0xC; 0xB; 0xD; 0xE; 0x4; 0x9; 0xF; 0x6; 0x3; 0x8; 0xA; 0x2; 0x5; 0x1; 0x0] 0.
Definition S (x : N) : N :=
  let u := E (x / 16) in
  let l := Einv (x mod 16) in
  let r := R (N.lxor u l) in
  16 * E (N.lxor u r) + Einv (N.lxor l r).

(** ** the round function on 8 x 8 matrices of bytes, given as lists of rows *)
Definition at_ (A : list (list N)) (i j : nat) : N := nth j (nth i A []) 0.
Definition matrix (f : nat -> nat -> N) : list (list N) := map (fun i => map (f i) (seq 0 8)) (seq 0 8).
Definition xor_all (l : list N) : N := fold_right N.lxor 0 l.

(** SubBytes *)
Definition gamma (A : list (list N)) : list (list N) := matrix (fun i j => S (at_ A i j)).
(** ShiftColumns: column j moves down by j positions *)
Definition pi (A : list (list N)) : list (list N) := matrix (fun i j => at_ A ((i + 8 - j) mod 8)%nat j).
(** MixRows: multiplication by the circulant matrix cir(1,1,4,1,8,5,2,9) *)
Definition C (k j : nat) : N := nth ((j + 8 - k) mod 8)%nat [1; 1; 4; 1; 8; 5; 2; 9] 0.
Definition theta (A : list (list N)) : list (list N) :=
  matrix (fun i j => xor_all (map (fun k => gmul (at_ A i k) (C k j)) (seq 0 8))).
(** AddRoundKey *)
Definition sigma (K A : list (list N)) : list (list N) := matrix (fun i j => N.lxor (at_ A i j) (at_ K i j)).
Definition rho (K A : list (list N)) : list (list N) := sigma K (theta (pi (gamma A))).

(** round constants, r = 1..10 *)
Definition rc (r : nat) : list (list N) :=
  matrix (fun i j => match i with O => S (N.of_nat (8 * (r - 1) + j)) | _ => 0 end).

(** one round of the key schedule and of the block cipher W *)
Definition round (st : list (list N) * list (list N)) (r : nat) : list (list N) * list (list N) :=
  let K := rho (rc r) (fst st) in (K, rho K (snd st)).
Definition W (K A : list (list N)) : list (list N) :=
  snd (fold_left round (seq 1 10) (K, sigma K A)).

(** Miyaguchi-Preneel *)
Definition compress (H : list (list N)) (block : list N) : list (list N) :=
  let A := pieces 8 block in sigma H (sigma A (W H A)).

Definition iv : list (list N) := matrix (fun _ _ => 0).

(** padding with a 256-bit length field *)
Definition whirlpool (m : list N) : list N :=
  concat (chain 64 compress iv (pad 64 32 0x80 (be_bytes 32) m)).

(** the messages the code's 128-bit counter can account for (ISO/IEC 10118-3 allows 2^256 bits) *)
Definition short_enough (m : list N) : Prop := 8 * N.of_nat (length m) < 2 ^ 128.
