(** What BLAKE (SHA-3 proposal BLAKE, version 1.2, section 2) and BLAKE2 (RFC 7693,
    sections 2.7 and 3.1) have in common: the permutations and the function G. *)
From Coq Require Import NArith List Arith.
From Verif.Spec Require Import Words.
Import ListNotations.
Local Open Scope N_scope.

(** the permutations sigma_0 .. sigma_9; round r uses sigma_(r mod 10) *)
Definition sigma : list (list nat) :=
  [[ 0;  1;  2;  3;  4;  5;  6;  7;  8;  9; 10; 11; 12; 13; 14; 15];
   [14; 10;  4;  8;  9; 15; 13;  6;  1; 12;  0;  2; 11;  7;  5;  3];
   [11;  8; 12;  0;  5;  2; 15; 13; 10; 14;  3;  6;  7;  1;  9;  4];
   [ 7;  9;  3;  1; 13; 12; 11; 14;  2;  6;  5; 10;  4;  0; 15;  8];
   [ 9;  0;  5;  7;  2;  4; 10; 15; 14;  1; 11; 12;  6;  8;  3; 13];
   [ 2; 12;  6; 10;  0; 11;  8;  3;  4; 13;  7;  5; 15; 14;  1;  9];
   [12;  5;  1; 15; 14; 13;  4; 10;  0;  7;  6;  3;  9;  2;  8; 11];
   [13; 11;  7; 14; 12;  1;  3;  9;  5;  0; 15;  4;  8;  6;  2; 10];
   [ 6; 15; 14;  9; 11;  3;  0;  8; 12;  2; 13;  7;  1;  4; 10;  5];
   [10;  2;  8;  4;  7;  6;  1;  5; 15; 11;  9; 14;  3; 12; 13;  0]]%nat.
Definition sg (r i : nat) : nat := nth i (nth (r mod 10)%nat sigma []) 0%nat.

(** the words of the 4 x 4 state that G_i works on: columns, then diagonals *)
Definition cells : list (nat * nat * nat * nat) :=
  [(0, 4, 8, 12); (1, 5, 9, 13); (2, 6, 10, 14); (3, 7, 11, 15);
   (0, 5, 10, 15); (1, 6, 11, 12); (2, 7, 8, 13); (3, 4, 9, 14)]%nat.
Definition cell (i : nat) : nat * nat * nat * nat := nth i cells (0, 0, 0, 0)%nat.

(** replace element i *)
Fixpoint put (i : nat) (x : N) (l : list N) : list N :=
  match l, i with
  | [], _ => []
  | _ :: t, O => x :: t
  | h :: t, S j => h :: put j x t
  end.

(** G with rotation distances r1..r4 and the two words x, y injected *)
Definition mix (w r1 r2 r3 r4 x y : N) (q : nat * nat * nat * nat) (v : list N) : list N :=
  let '(ia, ib, ic, id) := q in
  let a := nth ia v 0 in let b := nth ib v 0 in let c := nth ic v 0 in let d := nth id v 0 in
  let a := sum w [a; b; x] in
  let d := ROTR w r1 (N.lxor d a) in
  let c := add w c d in
  let b := ROTR w r2 (N.lxor b c) in
  let a := sum w [a; b; y] in
  let d := ROTR w r3 (N.lxor d a) in
  let c := add w c d in
  let b := ROTR w r4 (N.lxor b c) in
  put id d (put ic c (put ib b (put ia a v))).

(** n rounds; [inject r i] gives the two words for G_i of round r *)
Definition rounds (w r1 r2 r3 r4 : N) (inject : nat -> nat -> N * N) (n : nat) (v : list N) : list N :=
  fold_left (fun v r =>
    fold_left (fun v i => let (x, y) := inject r i in mix w r1 r2 r3 r4 x y (cell i) v) (seq 0 8) v) (seq 0 n) v.
