(** MD4 as in RFC 1320 (32-bit words, little-endian; length in bits modulo 2^64). *)
From Coq Require Import Arith NArith List.
From Verif.Spec Require Import Words Merkle.
Import ListNotations.
Local Open Scope N_scope.

Definition F (X Y Z : N) : N := N.lor (N.land X Y) (N.land (compl 32 X) Z).
Definition G (X Y Z : N) : N := N.lor (N.lor (N.land X Y) (N.land X Z)) (N.land Y Z).
Definition H (X Y Z : N) : N := N.lxor (N.lxor X Y) Z.

(** the 48 operations: round function, additive constant, word index, shift *)
Definition func (t : nat) : N -> N -> N -> N :=
  match (t / 16)%nat with 0%nat => F | 1%nat => G | _ => H end.
Definition const (t : nat) : N :=
  match (t / 16)%nat with 0%nat => 0 | 1%nat => 0x5a827999 | _ => 0x6ed9eba1 end.
Definition order : list nat :=
  [0; 1; 2; 3; 4; 5; 6; 7; 8; 9; 10; 11; 12; 13; 14; 15;
   0; 4; 8; 12; 1; 5; 9; 13; 2; 6; 10; 14; 3; 7; 11; 15;
   0; 8; 4; 12; 2; 10; 6; 14; 1; 9; 5; 13; 3; 11; 7; 15]%nat.
Definition shift (t : nat) : N :=
  nth (t mod 4) (match (t / 16)%nat with
                 | 0%nat => [3; 7; 11; 19]
                 | 1%nat => [3; 5; 9; 13]
                 | _ => [3; 9; 11; 15]
                 end) 0.

Definition vars := (N * N * N * N)%type.

(** [ABCD k s]: A := (A + f(B,C,D) + X[k] + const) <<< s; the four letters then rotate
    (RFC 1320 writes the rotation as [ABCD], [DABC], [CDAB], [BCDA]). *)
Definition step (X : list N) (v : vars) (t : nat) : vars :=
  let '(A, B, C, D) := v in
  (D, ROTL 32 (shift t) (sum 32 [A; func t B C D; nth (nth t order 0%nat) X 0; const t]), B, C).

Definition iv : list N := [0x67452301; 0xefcdab89; 0x98badcfe; 0x10325476].

Definition compress (h : list N) (block : list N) : list N :=
  match h with
  | [AA; BB; CC; DD] =>
      let '(A, B, C, D) := fold_left (step (le_words 4 block)) (seq 0 48) (AA, BB, CC, DD) in
      [add 32 A AA; add 32 B BB; add 32 C CC; add 32 D DD]
  | _ => h
  end.

Definition md4 (m : list N) : list N :=
  flat_map (le_bytes 4) (chain 64 compress iv (pad 64 8 128 (le_bytes 8) m)).
