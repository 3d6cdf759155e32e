(** HAS-160 (TTAS.KO-12.0011): 32-bit words, little-endian, 80 steps in four rounds. *)
From Coq Require Import NArith List Arith.
From Verif.Spec Require Import Words Merkle.
Import ListNotations.
Local Open Scope N_scope.

(** Boolean functions, constants and the second rotation, by round *)
Definition f (k : nat) (x y z : N) : N :=
  match k with
  | 0%nat => N.lor (N.land x y) (N.land (compl 32 x) z)
  | 2%nat => N.lxor y (N.lor x (compl 32 z))
  | _ => N.lxor (N.lxor x y) z
  end.
Definition K (k : nat) : N := nth k [0; 0x5A827999; 0x6ED9EBA1; 0x8F1BBCDC] 0.
Definition s2 (k : nat) : N := nth k [10; 17; 25; 30] 0.
(** first rotation, by position in the round *)
Definition s1 (i : nat) : N :=
  nth i [5; 11; 7; 15; 6; 13; 8; 14; 7; 12; 9; 11; 8; 15; 6; 12; 9; 14; 5; 13] 0.

(** Round k takes the message words in the order of this permutation ... *)
Definition perm (k i : nat) : nat :=
  match k with
  | 0%nat => i
  | 1%nat => ((3 * i + 3) mod 16)%nat
  | 2%nat => ((9 * i + 12) mod 16)%nat
  | _ => ((11 * i + 7) mod 16)%nat
  end.
Definition msg (X : list N) (k i : nat) : N := nth (perm k i) X 0.
(** ... in four groups of four; the xor of each group is a further word. *)
Definition group (X : list N) (k q : nat) : N :=
  fold_left N.lxor (map (fun i => msg X k (4 * q + i)) [1; 2; 3]%nat) (msg X k (4 * q)).
(** The twenty words of a round: each group of four preceded by an xor word, that of the
    third, fourth, first and second group respectively. *)
Definition word (X : list N) (k i : nat) : N :=
  let q := (i / 5)%nat in
  match (i mod 5)%nat with
  | 0%nat => group X k ((q + 2) mod 4)
  | S r => msg X k (4 * q + r)
  end.

Definition vars := (N * N * N * N * N)%type.
Definition step (X : list N) (v : vars) (t : nat) : vars :=
  let '(a, b, c, d, e) := v in
  let k := (t / 20)%nat in
  let i := (t mod 20)%nat in
  (sum 32 [ROTL 32 (s1 i) a; f k b c d; e; word X k i; K k], a, ROTL 32 (s2 k) b, c, d).

Definition compress (h : list N) (block : list N) : list N :=
  match h with
  | [h0; h1; h2; h3; h4] =>
      let X := le_words 4 block in
      let '(a, b, c, d, e) := fold_left (step X) (seq 0 80) (h0, h1, h2, h3, h4) in
      [add 32 h0 a; add 32 h1 b; add 32 h2 c; add 32 h3 d; add 32 h4 e]
  | _ => h
  end.

Definition iv : list N := [0x67452301; 0xEFCDAB89; 0x98BADCFE; 0x10325476; 0xC3D2E1F0].

Definition has160 (m : list N) : list N :=
  flat_map (le_bytes 4) (chain 64 compress iv (pad 64 8 128 (le_bytes 8) m)).
