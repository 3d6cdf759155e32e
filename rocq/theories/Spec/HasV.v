(** What HAS_V_320 computes, as a short description: blocks of 32 words, two lines of five
    variables that are exchanged after each of five rounds of twenty steps.  The
    construction is that of HAS-V (Park, Hwang, Lee 2000); the constants and functions are
    those of the source file, which does not agree with the published function. *)
From Coq Require Import NArith List Arith.
From Verif.Spec Require Import Words Merkle.
Import ListNotations.
Local Open Scope N_scope.

(** Boolean functions *)
Definition f (k : nat) (x y z u : N) : N :=
  let xor := fold_right N.lxor 0 in
  match k with
  | 0%nat => xor [N.land x y; N.land (compl 32 x) z; N.land y u; N.land z u]
  | 1%nat => xor [N.land x z; y; u]
  | 2%nat => xor [N.land x y; N.land (compl 32 x) u; z]
  | 3%nat => xor [N.land y z; x; u]
  | _ => xor [N.land x z; N.land (compl 32 x) y; N.land z u; N.land y u]
  end.

(** the left line uses the functions 0 .. 4 in the five rounds, the right line 4 .. 0 *)
Definition K_left (r : nat) : N := nth r [0; 0x5A827999; 0x6ED9EBA1; 0x8F1BBCDC; 0xA953FD4E] 0.
Definition K_right (r : nat) : N := nth r [0xA953FD4E; 0x8F1BBCDC; 0; 0x5A827999; 0x6ED9EBA1] 0.

(** rotation, by position in the round *)
Definition s1 (i : nat) : N :=
  nth i [5; 11; 7; 13; 15; 6; 13; 9; 5; 11; 7; 12; 8; 15; 13; 8; 15; 6; 7; 14] 0.

(** Round r takes the 16 words of a line in this order, ... *)
Definition perm (r i : nat) : nat :=
  match r with
  | 0%nat => i
  | 1%nat => ((3 * i + 3) mod 16)%nat
  | 2%nat => ((9 * i + 12) mod 16)%nat
  | 3%nat => ((11 * i + 7) mod 16)%nat
  | _ => nth i [15; 9; 5; 3; 12; 8; 6; 2; 13; 11; 7; 1; 14; 10; 4; 0]%nat 0%nat
  end.
Definition msg (X : list N) (r i : nat) : N := nth (perm r i) X 0.
(** ... in four groups of four; the xor of each group is a further word. *)
Definition group (X : list N) (r q : nat) : N :=
  fold_left N.lxor (map (fun i => msg X r (4 * q + i)) [1; 2; 3]%nat) (msg X r (4 * q)).
(** The twenty words of a round: each group of four preceded by an xor word, that of the
    third, fourth, first and second group respectively. *)
Definition word (X : list N) (r i : nat) : N :=
  let q := (i / 5)%nat in
  match (i mod 5)%nat with
  | 0%nat => group X r ((q + 2) mod 4)
  | S k => msg X r (4 * q + k)
  end.

Definition vars := (N * N * N * N * N)%type.
Definition step (X : list N) (r g : nat) (k : N) (v : vars) (i : nat) : vars :=
  let '(a, b, c, d, e) := v in
  (sum 32 [ROTL 32 (s1 i) a; f g b c d e; word X r i; k], a, ROTL 32 30 b, c, d).

(** one round of both lines, then the exchange *)
Definition round (X Y : list N) (v : vars * vars) (r : nat) : vars * vars :=
  (fold_left (step Y r (4 - r) (K_right r)) (seq 0 20) (snd v),
   fold_left (step X r r (K_left r)) (seq 0 20) (fst v)).

Definition listed (v : vars) : list N := let '(a, b, c, d, e) := v in [a; b; c; d; e].
Definition compress (h : list N) (block : list N) : list N :=
  match h with
  | [h0; h1; h2; h3; h4; h5; h6; h7; h8; h9] =>
      let W := le_words 4 block in
      let v := fold_left (round (firstn 16 W) (skipn 16 W)) (seq 0 5) ((h0, h1, h2, h3, h4), (h5, h6, h7, h8, h9)) in
      map (fun p => add 32 (fst p) (snd p)) (combine h (listed (fst v) ++ listed (snd v)))
  | _ => h
  end.

Definition iv : list N :=
  [0x67452301; 0xEFCDAB89; 0x98BADCFE; 0x10325476; 0xC3D2E1F0;
   0x8796A5B4; 0x4B5A6978; 0x0F1E2D3C; 0xA0B1C2D3; 0x68794E5F].

(** Padding: a marker byte, zeros, the digest size in bytes and the message length in bits. *)
Definition has_v (m : list N) : list N :=
  flat_map (le_bytes 4) (chain 128 compress iv (pad 128 9 128 (fun bits => 40 :: le_bytes 8 bits) m)).
