(** The FNV hash functions (draft-eastlake-fnv), for 32 and 64 bits. *)
From Coq Require Import String Ascii List NArith.
From Verif.Spec Require Import Words.
Import ListNotations.
Local Open Scope N_scope.

(** section 2.1: FNV_Prime is 2^s + 2^8 + b for these s and b *)
Definition prime (w : N) : N := if w =? 32 then 2 ^ 24 + 2 ^ 8 + 0x93 else 2 ^ 40 + 2 ^ 8 + 0xb3.

(** multiply by the prime modulo 2^w and add in an octet, from a given value *)
Definition multiply_first (w : N) (h : N) (m : list N) : N :=
  fold_left (fun h b => N.lxor ((h * prime w) mod 2 ^ w) b) m h.
Definition add_first (w : N) (h : N) (m : list N) : N :=
  fold_left (fun h b => (N.lxor h b * prime w) mod 2 ^ w) m h.

(** the historic FNV-0 starts from 0 *)
Definition fnv0 (w : N) (m : list N) : N := multiply_first w 0 m.

(** section 2.2: offset_basis is the FNV-0 hash of this signature *)
Definition signature : list N := map N_of_ascii (list_ascii_of_string "chongo <Landon Curt Noll> /\../\").
Definition offset_basis (w : N) : N := fnv0 w signature.

Definition fnv1 (w : N) (m : list N) : N := multiply_first w (offset_basis w) m.
Definition fnv1a (w : N) (m : list N) : N := add_first w (offset_basis w) m.
