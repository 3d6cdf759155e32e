(** SM3 (GB/T 32905-2016): 32-bit words, big-endian. *)
From Coq Require Import NArith List Arith.
From Verif.Spec Require Import Words Merkle.
Import ListNotations.
Local Open Scope N_scope.

Definition T (j : nat) : N := if Nat.ltb j 16 then 0x79cc4519 else 0x7a879d8a.
Definition FF (j : nat) (x y z : N) : N :=
  if Nat.ltb j 16 then N.lxor (N.lxor x y) z
  else N.lor (N.lor (N.land x y) (N.land x z)) (N.land y z).
Definition GG (j : nat) (x y z : N) : N :=
  if Nat.ltb j 16 then N.lxor (N.lxor x y) z
  else N.lor (N.land x y) (N.land (compl 32 x) z).
Definition P0 (x : N) : N := N.lxor (N.lxor x (ROTL 32 9 x)) (ROTL 32 17 x).
Definition P1 (x : N) : N := N.lxor (N.lxor x (ROTL 32 15 x)) (ROTL 32 23 x).

(** message expansion: W_0 .. W_67, W'_j = W_j xor W_(j+4) *)
Definition next_word (W : list N) : N :=
  N.lxor (N.lxor (P1 (N.lxor (N.lxor (back W 16) (back W 9)) (ROTL 32 15 (back W 3))))
                 (ROTL 32 7 (back W 13))) (back W 6).
Definition expand (M : list N) : list N := extend next_word 52 M.

Definition vars := ((N * N * N * N) * (N * N * N * N))%type.
Definition step (W : list N) (v : vars) (j : nat) : vars :=
  let '((A, B, C, D), (E, F, G, H)) := v in
  let SS1 := ROTL 32 7 (sum 32 [ROTL 32 12 A; E; ROTL 32 (N.of_nat (j mod 32)) (T j)]) in
  let SS2 := N.lxor SS1 (ROTL 32 12 A) in
  let TT1 := sum 32 [FF j A B C; D; SS2; N.lxor (nth j W 0) (nth (j + 4) W 0)] in
  let TT2 := sum 32 [GG j E F G; H; SS1; nth j W 0] in
  ((TT1, A, ROTL 32 9 B, C), (P0 TT2, E, ROTL 32 19 F, G)).

Definition feed_forward (h : list N) (v : vars) : list N :=
  let '((A, B, C, D), (E, F, G, H)) := v in map (fun '(x, y) => N.lxor x y) (combine [A; B; C; D; E; F; G; H] h).

Definition compress (h : list N) (block : list N) : list N :=
  match h with
  | [h0; h1; h2; h3; h4; h5; h6; h7] =>
      feed_forward h (fold_left (step (expand (be_words 4 block))) (seq 0 64) ((h0, h1, h2, h3), (h4, h5, h6, h7)))
  | _ => h
  end.

Definition iv : list N :=
  [0x7380166f; 0x4914b2b9; 0x172442d7; 0xda8a0600; 0xa96f30bc; 0x163138aa; 0xe38dee4d; 0xb0fb0e4e].

Definition sm3 (m : list N) : list N :=
  flat_map (be_bytes 4) (chain 64 compress iv (pad 64 8 128 (be_bytes 8) m)).
