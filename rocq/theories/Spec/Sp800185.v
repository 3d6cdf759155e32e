(** NIST SP 800-185: cSHAKE and TupleHash on byte strings.  Output lengths are in bytes. *)
From Coq Require Import List NArith Arith Bool.
From Verif.Spec Require Import Words Keccak.
Import ListNotations.
Local Open Scope N_scope.

(** section 2.3.1: the smallest positive n with x < 2^(8n); x is below 2^2040 *)
Definition byte_count (x : N) : nat :=
  match find (fun n => x <? 2 ^ (8 * N.of_nat n)) (seq 1 255) with
  | Some n => n
  | None => 255
  end.
Definition left_encode (x : N) : list N := N.of_nat (byte_count x) :: be_bytes (byte_count x) x.
Definition right_encode (x : N) : list N := be_bytes (byte_count x) x ++ [N.of_nat (byte_count x)].

(** the length of a byte string in bits *)
Definition bit_length (s : list N) : N := 8 * N.of_nat (length s).

(** section 2.3.2 *)
Definition encode_string (s : list N) : list N := left_encode (bit_length s) ++ s.

(** section 2.3.3: zero bytes up to a multiple of w *)
Definition bytepad (x : list N) (w : nat) : list N :=
  let z := left_encode (N.of_nat w) ++ x in
  z ++ repeat 0 ((w - length z mod w) mod w)%nat.

(** section 3.3: cSHAKE(X, L, N, S) *)
Definition cshake_stream (rate : nat) (name custom : list N) (x : list N) : list N :=
  bytepad (encode_string name ++ encode_string custom) rate ++ x.

Definition is_nil {A} (l : list A) : bool := match l with [] => true | _ => false end.

Definition cshake128 (d : nat) (name custom : list N) (x : list N) : list N :=
  if is_nil name && is_nil custom then shake128 d x
  else bytes_of (keccak 256 (8 * d) (bits_of (cshake_stream 168 name custom x) ++ [false; false])).
Definition cshake256 (d : nat) (name custom : list N) (x : list N) : list N :=
  if is_nil name && is_nil custom then shake256 d x
  else bytes_of (keccak 512 (8 * d) (bits_of (cshake_stream 136 name custom x) ++ [false; false])).

(** section 5.3: TupleHash(X, L, S) *)
Definition tuple_name : list N := [84; 117; 112; 108; 101; 72; 97; 115; 104].   (* "TupleHash" *)
Definition tuple_stream (d : nat) (tuple : list (list N)) : list N :=
  flat_map encode_string tuple ++ right_encode (8 * N.of_nat d).
Definition tuplehash128 (d : nat) (custom : list N) (tuple : list (list N)) : list N :=
  cshake128 d tuple_name custom (tuple_stream d tuple).
Definition tuplehash256 (d : nat) (custom : list N) (tuple : list (list N)) : list N :=
  cshake256 d tuple_name custom (tuple_stream d tuple).

(** the strings whose bit length the encodings of the library are promised for:
    SP 800-185 allows up to 2^2040 bits, an object in memory has fewer than 2^64 bytes *)
Definition short (s : list N) : Prop := bytes_ok s /\ bit_length s <= 2 ^ 56 - 2 ^ 8.
