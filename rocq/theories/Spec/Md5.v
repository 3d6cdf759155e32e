(** MD5 as in RFC 1321 (32-bit words, little-endian; length in bits modulo 2^64). *)
From Coq Require Import Arith NArith ZArith List.
From Verif.Spec Require Import Words Merkle.
Import ListNotations.

(** T[i] = the integer part of 4294967296 * abs(sin(i)), i in radians, i = 1 .. 64.
    sin and cos of 1 are summed from their power series, in units of 2^-96; sin and cos of
    larger numbers come from the addition theorem. *)
Section Sine.
  Local Open Scope Z_scope.
  Definition unit_ : Z := 2 ^ 96.
  (** sum of unit/n! (n = 0, 1, ...), the terms going with signs +c +s -c -s *)
  Fixpoint series (fuel : nat) (n : Z) (term c s : Z) : Z * Z :=
    match fuel with
    | O => (c, s)
    | S k => let c := if (n mod 4 =? 0) then c + term else if (n mod 4 =? 2) then c - term else c in
             let s := if (n mod 4 =? 1) then s + term else if (n mod 4 =? 3) then s - term else s in
             series k (n + 1) (term / (n + 1)) c s
    end.
  Definition cs1 : Z * Z := series 40 0 unit_ 0 0.
  Definition plus1 (cs : Z * Z) : Z * Z :=
    let (c, s) := cs in
    let (c1, s1) := cs1 in
    ((c * c1 - s * s1) / unit_, (s * c1 + c * s1) / unit_).
  Definition of_sine (cs : Z * Z) : N := Z.to_N (Z.abs (snd cs) / 2 ^ 64).
  (** (cos i, sin i) for i = 1 .. n *)
  Fixpoint angles (n : nat) (cs : Z * Z) : list (Z * Z) :=
    match n with
    | O => []
    | S k => cs :: angles k (plus1 cs)
    end.
  Definition T : list N := map of_sine (angles 64 cs1).
End Sine.

Local Open Scope N_scope.

Definition F (X Y Z : N) : N := N.lor (N.land X Y) (N.land (compl 32 X) Z).
Definition G (X Y Z : N) : N := N.lor (N.land X Z) (N.land Y (compl 32 Z)).
Definition H (X Y Z : N) : N := N.lxor (N.lxor X Y) Z.
Definition I (X Y Z : N) : N := N.lxor Y (N.lor X (compl 32 Z)).

Definition func (t : nat) : N -> N -> N -> N :=
  match (t / 16)%nat with 0%nat => F | 1%nat => G | 2%nat => H | _ => I end.
(** word used by operation t *)
Definition index (t : nat) : nat :=
  match (t / 16)%nat with
  | 0%nat => t
  | 1%nat => (1 + 5 * t) mod 16
  | 2%nat => (5 + 3 * t) mod 16
  | _ => (7 * t) mod 16
  end%nat.
Definition shift (t : nat) : N :=
  nth (t mod 4) (match (t / 16)%nat with
                 | 0%nat => [7; 12; 17; 22]
                 | 1%nat => [5; 9; 14; 20]
                 | 2%nat => [4; 11; 16; 23]
                 | _ => [6; 10; 15; 21]
                 end) 0.

Definition vars := (N * N * N * N)%type.

(** [ABCD k s i]: A := B + ((A + f(B,C,D) + X[k] + T[i]) <<< s), then the letters rotate *)
Definition step (X : list N) (v : vars) (t : nat) : vars :=
  let '(A, B, C, D) := v in
  (D, add 32 B (ROTL 32 (shift t) (sum 32 [A; func t B C D; nth (index t) X 0; nth t T 0])), B, C).

Definition iv : list N := [0x67452301; 0xefcdab89; 0x98badcfe; 0x10325476].

Definition compress (h : list N) (block : list N) : list N :=
  match h with
  | [AA; BB; CC; DD] =>
      let '(A, B, C, D) := fold_left (step (le_words 4 block)) (seq 0 64) (AA, BB, CC, DD) in
      [add 32 A AA; add 32 B BB; add 32 C CC; add 32 D DD]
  | _ => h
  end.

Definition md5 (m : list N) : list N :=
  flat_map (le_bytes 4) (chain 64 compress iv (pad 64 8 128 (le_bytes 8) m)).
