(** RIPEMD-160, RIPEMD-128 and the extensions RIPEMD-320 and RIPEMD-256, after Dobbertin,
    Bosselaers and Preneel, "RIPEMD-160: A strengthened version of RIPEMD" and the authors'
    pseudo-code for the extensions (32-bit words, little-endian; length in bits modulo 2^64). *)
From Coq Require Import Arith NArith List.
From Verif.Spec Require Import Words Merkle.
Import ListNotations.
Local Open Scope N_scope.

(** nonlinear functions *)
Definition f (j : nat) (x y z : N) : N :=
  match j with
  | 1%nat => N.lxor (N.lxor x y) z
  | 2%nat => N.lor (N.land x y) (N.land (compl 32 x) z)
  | 3%nat => N.lxor (N.lor x (compl 32 y)) z
  | 4%nat => N.lor (N.land x z) (N.land y (compl 32 z))
  | _ => N.lxor x (N.lor y (compl 32 z))
  end.

(** message word order: the permutations rho and pi; round k of the left line uses rho^k,
    of the right line rho^k after pi *)
Definition rho (i : nat) : nat := nth i [7; 4; 13; 1; 10; 6; 15; 3; 12; 0; 9; 5; 2; 14; 11; 8]%nat 0%nat.
Definition pi (i : nat) : nat := ((9 * i + 5) mod 16)%nat.
Definition word_left (t : nat) : nat := Nat.iter (t / 16)%nat rho (t mod 16)%nat.
Definition word_right (t : nat) : nat := Nat.iter (t / 16)%nat rho (pi (t mod 16)%nat).

(** rotations, by round and message word (the same for both lines) *)
Definition shifts : list (list N) :=
  [[11; 14; 15; 12; 5; 8; 7; 9; 11; 13; 14; 15; 6; 7; 9; 8];
   [12; 13; 11; 15; 6; 9; 9; 7; 12; 15; 11; 13; 7; 8; 7; 7];
   [13; 15; 14; 11; 7; 7; 6; 8; 13; 14; 13; 12; 5; 5; 6; 9];
   [14; 11; 12; 14; 8; 6; 5; 5; 15; 12; 15; 14; 9; 9; 8; 6];
   [15; 12; 13; 13; 9; 5; 8; 6; 14; 11; 12; 11; 8; 6; 5; 5]].
Definition shift (t w : nat) : N := nth w (nth (t / 16) shifts []) 0.

(** constants: integer parts of 2^30 times square roots and cube roots of 2, 3, 5, 7; the
    right line of the last round has none *)
Definition K_left (t : nat) : N := nth (t / 16) [0; 0x5A827999; 0x6ED9EBA1; 0x8F1BBCDC; 0xA953FD4E] 0.
Definition K_right5 (t : nat) : N := nth (t / 16) [0x50A28BE6; 0x5C4DD124; 0x6D703EF3; 0x7A6D76E9; 0] 0.
Definition K_right4 (t : nat) : N := nth (t / 16) [0x50A28BE6; 0x5C4DD124; 0x6D703EF3; 0] 0.

(** ** lines of four registers (RIPEMD-128, RIPEMD-256) *)

Definition vars4 := (N * N * N * N)%type.
Definition op4 (v : vars4) (fn : N -> N -> N -> N) (x k s : N) : vars4 :=
  let '(A, B, C, D) := v in
  (D, ROTL 32 s (sum 32 [A; fn B C D; x; k]), B, C).
Definition left4 (X : list N) (v : vars4) (t : nat) : vars4 :=
  let w := word_left t in
  op4 v (f (1 + t / 16)) (nth w X 0) (K_left t) (shift t w).
Definition right4 (X : list N) (v : vars4) (t : nat) : vars4 :=
  let w := word_right t in
  op4 v (f (4 - t / 16)) (nth w X 0) (K_right4 t) (shift t w).

(** ** lines of five registers (RIPEMD-160, RIPEMD-320) *)

Definition vars5 := (N * N * N * N * N)%type.
Definition op5 (v : vars5) (fn : N -> N -> N -> N) (x k s : N) : vars5 :=
  let '(A, B, C, D, E) := v in
  (E, add 32 (ROTL 32 s (sum 32 [A; fn B C D; x; k])) E, B, ROTL 32 10 C, D).
Definition left5 (X : list N) (v : vars5) (t : nat) : vars5 :=
  let w := word_left t in
  op5 v (f (1 + t / 16)) (nth w X 0) (K_left t) (shift t w).
Definition right5 (X : list N) (v : vars5) (t : nat) : vars5 :=
  let w := word_right t in
  op5 v (f (5 - t / 16)) (nth w X 0) (K_right5 t) (shift t w).

(** both lines, round by round, with an exchange after each round *)
Definition lines {V} (left right : V -> nat -> V) (exchange : nat -> V * V -> V * V)
    (rounds : nat) (v : V * V) : V * V :=
  fold_left (fun v k =>
    exchange k (fold_left left (seq (16 * k) 16) (fst v), fold_left right (seq (16 * k) 16) (snd v)))
    (seq 0 rounds) v.

Definition no_exchange {V} (k : nat) (v : V * V) : V * V := v.
(** RIPEMD-256: A after round 1, B after round 2, C, D *)
Definition exchange4 (k : nat) (v : vars4 * vars4) : vars4 * vars4 :=
  let '((A, B, C, D), (A', B', C', D')) := v in
  match k with
  | 0%nat => ((A', B, C, D), (A, B', C', D'))
  | 1%nat => ((A, B', C, D), (A', B, C', D'))
  | 2%nat => ((A, B, C', D), (A', B', C, D'))
  | _ => ((A, B, C, D'), (A', B', C', D))
  end.
(** RIPEMD-320: B after round 1, D after round 2, A, C, E *)
Definition exchange5 (k : nat) (v : vars5 * vars5) : vars5 * vars5 :=
  let '((A, B, C, D, E), (A', B', C', D', E')) := v in
  match k with
  | 0%nat => ((A, B', C, D, E), (A', B, C', D', E'))
  | 1%nat => ((A, B, C, D', E), (A', B', C', D, E'))
  | 2%nat => ((A', B, C, D, E), (A, B', C', D', E'))
  | 3%nat => ((A, B, C', D, E), (A', B', C, D', E'))
  | _ => ((A, B, C, D, E'), (A', B', C', D', E))
  end.

(** ** compression functions *)

Definition compress128 (h : list N) (block : list N) : list N :=
  match h with
  | [h0; h1; h2; h3] =>
      let X := le_words 4 block in
      let '((A, B, C, D), (A', B', C', D')) :=
        lines (left4 X) (right4 X) no_exchange 4 ((h0, h1, h2, h3), (h0, h1, h2, h3)) in
      [sum 32 [h1; C; D']; sum 32 [h2; D; A']; sum 32 [h3; A; B']; sum 32 [h0; B; C']]
  | _ => h
  end.

Definition compress160 (h : list N) (block : list N) : list N :=
  match h with
  | [h0; h1; h2; h3; h4] =>
      let X := le_words 4 block in
      let '((A, B, C, D, E), (A', B', C', D', E')) :=
        lines (left5 X) (right5 X) no_exchange 5 ((h0, h1, h2, h3, h4), (h0, h1, h2, h3, h4)) in
      [sum 32 [h1; C; D']; sum 32 [h2; D; E']; sum 32 [h3; E; A']; sum 32 [h4; A; B']; sum 32 [h0; B; C']]
  | _ => h
  end.

Definition compress256 (h : list N) (block : list N) : list N :=
  match h with
  | [h0; h1; h2; h3; h4; h5; h6; h7] =>
      let X := le_words 4 block in
      let '((A, B, C, D), (A', B', C', D')) :=
        lines (left4 X) (right4 X) exchange4 4 ((h0, h1, h2, h3), (h4, h5, h6, h7)) in
      [add 32 h0 A; add 32 h1 B; add 32 h2 C; add 32 h3 D;
       add 32 h4 A'; add 32 h5 B'; add 32 h6 C'; add 32 h7 D']
  | _ => h
  end.

Definition compress320 (h : list N) (block : list N) : list N :=
  match h with
  | [h0; h1; h2; h3; h4; h5; h6; h7; h8; h9] =>
      let X := le_words 4 block in
      let '((A, B, C, D, E), (A', B', C', D', E')) :=
        lines (left5 X) (right5 X) exchange5 5 ((h0, h1, h2, h3, h4), (h5, h6, h7, h8, h9)) in
      [add 32 h0 A; add 32 h1 B; add 32 h2 C; add 32 h3 D; add 32 h4 E;
       add 32 h5 A'; add 32 h6 B'; add 32 h7 C'; add 32 h8 D'; add 32 h9 E']
  | _ => h
  end.

Definition iv128 : list N := [0x67452301; 0xEFCDAB89; 0x98BADCFE; 0x10325476].
Definition iv160 : list N := [0x67452301; 0xEFCDAB89; 0x98BADCFE; 0x10325476; 0xC3D2E1F0].
Definition iv256 : list N :=
  [0x67452301; 0xEFCDAB89; 0x98BADCFE; 0x10325476; 0x76543210; 0xFEDCBA98; 0x89ABCDEF; 0x01234567].
Definition iv320 : list N :=
  [0x67452301; 0xEFCDAB89; 0x98BADCFE; 0x10325476; 0xC3D2E1F0;
   0x76543210; 0xFEDCBA98; 0x89ABCDEF; 0x01234567; 0x3C2D1E0F].

Definition hash (compress : list N -> list N -> list N) (iv m : list N) : list N :=
  flat_map (le_bytes 4) (chain 64 compress iv (pad 64 8 128 (le_bytes 8) m)).
Definition ripemd128 : list N -> list N := hash compress128 iv128.
Definition ripemd160 : list N -> list N := hash compress160 iv160.
Definition ripemd256 : list N -> list N := hash compress256 iv256.
Definition ripemd320 : list N -> list N := hash compress320 iv320.
