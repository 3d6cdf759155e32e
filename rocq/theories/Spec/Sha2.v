(** The SHA-2 family as in FIPS 180-4: sections 4.1.2, 4.1.3, 4.2.2, 4.2.3, 5.1, 5.3, 6.2-6.7.
    The constants are not copied but computed from their definitions (roots of primes). *)
From Coq Require Import NArith List Arith.
From Verif.Spec Require Import Words Merkle.
Import ListNotations.
Local Open Scope N_scope.

(** ** constants *)

(** a number below 21^2 is prime if no smaller number from 2 to 20 divides it *)
Definition is_prime (n : N) : bool :=
  forallb (fun d => (n <=? d) || negb (n mod d =? 0))%bool (map N.of_nat (seq 2 19)).
(** the primes up to 409: the first eighty *)
Definition primes : list N := filter is_prime (map N.of_nat (seq 2 408)).

(** floor of the cube root, bit by bit from bit [k] down *)
Fixpoint cbrt_from (k : nat) (x acc : N) : N :=
  let cand := acc + 2 ^ N.of_nat k in
  let acc' := if cand * cand * cand <=? x then cand else acc in
  match k with O => acc' | S j => cbrt_from j x acc' end.

(** "the first w bits of the fractional part of the square / cube root of p" *)
Definition frac_sqrt (w p : N) : N := N.sqrt (p * 2 ^ (2 * w)) mod 2 ^ w.
Definition frac_cbrt (w p : N) : N := cbrt_from (N.to_nat w + 4) (p * 2 ^ (3 * w)) 0 mod 2 ^ w.

Definition K256 : list N := map (frac_cbrt 32) (firstn 64 primes).
Definition K512 : list N := map (frac_cbrt 64) (firstn 80 primes).

Definition IV256 : list N := map (frac_sqrt 32) (firstn 8 primes).
Definition IV512 : list N := map (frac_sqrt 64) (firstn 8 primes).
Definition IV384 : list N := map (frac_sqrt 64) (firstn 8 (skipn 8 primes)).
(** "the second thirty-two bits of the fractional parts" of the same roots *)
Definition IV224 : list N := map (fun x => x mod 2 ^ 32) IV384.

(** ** functions *)

Section Family.
  Variable w : N.            (* word size in bits *)
  Variable nb : nat.         (* word size in bytes *)
  Variable rounds : nat.
  Variables Sigma0 Sigma1 sigma0 sigma1 : N -> N.
  Variable K : list N.

  Definition Ch (x y z : N) : N := N.lxor (N.land x y) (N.land (compl w x) z).
  Definition Maj (x y z : N) : N := N.lxor (N.lxor (N.land x y) (N.land x z)) (N.land y z).

  Definition next_word (W : list N) : N :=
    sum w [sigma1 (back W 2); back W 7; sigma0 (back W 15); back W 16].
  Definition schedule (M : list N) : list N := extend next_word (rounds - 16) M.

  Definition vars := (N * N * N * N * N * N * N * N)%type.

  Definition step (W : list N) (v : vars) (t : nat) : vars :=
    let '(a, b, c, d, e, f, g, h) := v in
    let T1 := sum w [h; Sigma1 e; Ch e f g; nth t K 0; nth t W 0] in
    let T2 := sum w [Sigma0 a; Maj a b c] in
    (add w T1 T2, a, b, c, add w d T1, e, f, g).

  Definition compress (H : list N) (block : list N) : list N :=
    match H with
    | [h0; h1; h2; h3; h4; h5; h6; h7] =>
        let W := schedule (be_words nb block) in
        let '(a, b, c, d, e, f, g, h) :=
          fold_left (step W) (seq 0 rounds) (h0, h1, h2, h3, h4, h5, h6, h7) in
        [add w a h0; add w b h1; add w c h2; add w d h3;
         add w e h4; add w f h5; add w g h6; add w h h7]
    | _ => H
    end.
End Family.

Definition x3 (a b c : N) : N := N.lxor (N.lxor a b) c.

Definition compress256 : list N -> list N -> list N :=
  compress 32 4 64
    (fun x => x3 (ROTR 32 2 x) (ROTR 32 13 x) (ROTR 32 22 x))
    (fun x => x3 (ROTR 32 6 x) (ROTR 32 11 x) (ROTR 32 25 x))
    (fun x => x3 (ROTR 32 7 x) (ROTR 32 18 x) (SHR 3 x))
    (fun x => x3 (ROTR 32 17 x) (ROTR 32 19 x) (SHR 10 x))
    K256.

Definition compress512 : list N -> list N -> list N :=
  compress 64 8 80
    (fun x => x3 (ROTR 64 28 x) (ROTR 64 34 x) (ROTR 64 39 x))
    (fun x => x3 (ROTR 64 14 x) (ROTR 64 18 x) (ROTR 64 41 x))
    (fun x => x3 (ROTR 64 1 x) (ROTR 64 8 x) (SHR 7 x))
    (fun x => x3 (ROTR 64 19 x) (ROTR 64 61 x) (SHR 6 x))
    K512.

(** ** hash functions *)

Definition digest256 (iv m : list N) : list N :=
  flat_map (be_bytes 4) (chain 64 compress256 iv (pad 64 8 128 (be_bytes 8) m)).
Definition digest512 (iv m : list N) : list N :=
  flat_map (be_bytes 8) (chain 128 compress512 iv (pad 128 16 128 (be_bytes 16) m)).

Definition sha256 (m : list N) : list N := digest256 IV256 m.
Definition sha224 (m : list N) : list N := firstn 28 (digest256 IV224 m).
Definition sha512 (m : list N) : list N := digest512 IV512 m.
Definition sha384 (m : list N) : list N := firstn 48 (digest512 IV384 m).

(** the IV generation function of section 5.3.6: SHA-512 with modified IV on "SHA-512/t" *)
Definition iv_of_t (name : list N) : list N :=
  be_words 8 (digest512 (map (fun x => N.lxor x 0xa5a5a5a5a5a5a5a5) IV512) name).
Definition name_512_224 : list N := [83; 72; 65; 45; 53; 49; 50; 47; 50; 50; 52].   (* "SHA-512/224" *)
Definition name_512_256 : list N := [83; 72; 65; 45; 53; 49; 50; 47; 50; 53; 54].   (* "SHA-512/256" *)

Definition sha512_224 (m : list N) : list N := firstn 28 (digest512 (iv_of_t name_512_224) m).
Definition sha512_256 (m : list N) : list N := firstn 32 (digest512 (iv_of_t name_512_256) m).
