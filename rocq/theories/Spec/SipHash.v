(** SipHash-c-d of J.-P. Aumasson and D. J. Bernstein, "SipHash: a fast short-input PRF", section 2. *)
From Coq Require Import String Ascii List NArith Arith.
From Verif.Spec Require Import Words.
Import ListNotations.
Local Open Scope N_scope.

Definition state := (N * N * N * N)%type.

(** one half of SipRound (figure 2.1): two additions, two rotations, two exclusive ors, and the
    rotation by 32 *)
Definition half_round (r s : N) (v : state) : state :=
  let '(a, b, c, d) := v in
  let a' := add 64 a b in
  let c' := add 64 c d in
  (ROTL 64 32 a', N.lxor (ROTL 64 r b) a', c', N.lxor (ROTL 64 s d) c').
(** the second half exchanges the roles of v0 and v2 *)
Definition swap (v : state) : state := let '(a, b, c, d) := v in (c, b, a, d).
Definition sip_round (v : state) : state := swap (half_round 17 21 (swap (half_round 13 16 v))).

Fixpoint rounds (n : nat) (v : state) : state :=
  match n with
  | O => v
  | S k => rounds k (sip_round v)
  end.

(** initialization: the key is xored to the ASCII string "somepseudorandomlygeneratedbytes" *)
Fixpoint ascii_codes (s : string) : list N :=
  match s with
  | EmptyString => []
  | String c r => N_of_ascii c :: ascii_codes r
  end.
Definition initial (k0 k1 : N) : state :=
  match be_words 8 (ascii_codes "somepseudorandomlygeneratedbytes") with
  | [a; b; c; d] => (N.lxor k0 a, N.lxor k1 b, N.lxor k0 c, N.lxor k1 d)
  | _ => (0, 0, 0, 0)
  end.

(** compression of one 64-bit word *)
Definition absorb (c : nat) (v : state) (m : N) : state :=
  let '(v0, v1, v2, v3) := v in
  let '(w0, w1, w2, w3) := rounds c (v0, v1, v2, N.lxor v3 m) in
  (N.lxor w0 m, w1, w2, w3).

(** the message, zeros and the length modulo 256 fill a whole number of 64-bit words *)
Definition padded (m : list N) : list N :=
  m ++ repeat 0 (7 - length m mod 8)%nat ++ [N.of_nat (length m) mod 256].

Definition finish (d : nat) (v : state) : N :=
  let '(v0, v1, v2, v3) := v in
  let '(w0, w1, w2, w3) := rounds d (v0, v1, N.lxor v2 255, v3) in
  N.lxor w0 (N.lxor w1 (N.lxor w2 w3)).

Definition siphash (c d : nat) (key m : list N) : N :=
  match le_words 8 key with
  | [k0; k1] => finish d (fold_left (absorb c) (le_words 8 (padded m)) (initial k0 k1))
  | _ => 0
  end.
