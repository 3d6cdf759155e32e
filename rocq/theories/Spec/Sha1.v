(** SHA-1 as in FIPS 180-4, sections 4.1.1, 4.2.1, 5.1.1, 5.3.1, 6.1 (32-bit words,
    big-endian; messages of whole bytes; the length field is the length in bits modulo 2^64). *)
From Coq Require Import NArith List.
From Verif.Spec Require Import Words Merkle.
Import ListNotations.
Local Open Scope N_scope.

Definition Ch (x y z : N) : N := N.lxor (N.land x y) (N.land (compl 32 x) z).
Definition Parity (x y z : N) : N := N.lxor (N.lxor x y) z.
Definition Maj (x y z : N) : N := N.lxor (N.lxor (N.land x y) (N.land x z)) (N.land y z).

Definition f (t : nat) : N -> N -> N -> N :=
  if Nat.ltb t 20 then Ch else if Nat.ltb t 40 then Parity else if Nat.ltb t 60 then Maj else Parity.

Definition K (t : nat) : N :=
  if Nat.ltb t 20 then 0x5a827999 else if Nat.ltb t 40 then 0x6ed9eba1
  else if Nat.ltb t 60 then 0x8f1bbcdc else 0xca62c1d6.

Definition H0 : list N := [0x67452301; 0xefcdab89; 0x98badcfe; 0x10325476; 0xc3d2e1f0].

(** message schedule: W_t = ROTL^1(W_(t-3) xor W_(t-8) xor W_(t-14) xor W_(t-16)) *)
Definition next_word (W : list N) : N :=
  ROTL 32 1 (N.lxor (N.lxor (N.lxor (back W 3) (back W 8)) (back W 14)) (back W 16)).
Definition schedule (M : list N) : list N := extend next_word 64 M.

Definition vars := (N * N * N * N * N)%type.

Definition step (W : list N) (v : vars) (t : nat) : vars :=
  let '(a, b, c, d, e) := v in
  let T := sum 32 [ROTL 32 5 a; f t b c d; e; K t; nth t W 0] in
  (T, a, ROTL 32 30 b, c, d).

Definition compress (h : list N) (block : list N) : list N :=
  match h with
  | [h0; h1; h2; h3; h4] =>
      let W := schedule (be_words 4 block) in
      let '(a, b, c, d, e) := fold_left (step W) (seq 0 80) (h0, h1, h2, h3, h4) in
      [add 32 a h0; add 32 b h1; add 32 c h2; add 32 d h3; add 32 e h4]
  | _ => h
  end.

Definition sha1 (m : list N) : list N :=
  flat_map (be_bytes 4) (chain 64 compress H0 (pad 64 8 128 (be_bytes 8) m)).
