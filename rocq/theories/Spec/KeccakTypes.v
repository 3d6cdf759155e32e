(** The six instances of the sponge that the library offers, for any output length. *)
From Coq Require Import List NArith ZArith.
From Verif.Spec Require Import Keccak ObjClient.
Import ListNotations.

Inductive keccak_type := Sha3_224 | Sha3_256 | Sha3_384 | Sha3_512 | Shake_128 | Shake_256.

(** 1600 minus the capacity, in bits (FIPS 202, sections 6.1 and 6.2) *)
Definition rate (t : keccak_type) : nat :=
  match t with
  | Sha3_224 => 1600 - 448 | Sha3_256 => 1600 - 512 | Sha3_384 => 1600 - 768 | Sha3_512 => 1600 - 1024
  | Shake_128 => 1600 - 256 | Shake_256 => 1600 - 512
  end.
Definition suffix (t : keccak_type) : bits :=
  match t with Shake_128 | Shake_256 => [true; true; true; true] | _ => [false; true] end.

(** d bytes of output for the message m; for SHA-3 with d the length in the name this is SHA3-n(m) *)
Definition output (t : keccak_type) (d : nat) (m : list N) : list N :=
  bytes_of (sponge (rate t) (8 * d) (bits_of m ++ suffix t)).

(** the length in the name, in bytes *)
Definition named_length (t : keccak_type) : option Z :=
  match t with
  | Sha3_224 => Some 28%Z | Sha3_256 => Some 32%Z | Sha3_384 => Some 48%Z | Sha3_512 => Some 64%Z
  | _ => None
  end.

(** ** what is promised of programs: constructor argument = output length in bytes, a C++ int; any object may be reset,
    and assigned to any existing object of the same base class *)
Definition promised (t : keccak_type) (d : Z) (items : list (list N)) : list N := output t (Z.to_nat d) (concat items).
Definition length_ok (d : Z) : Prop := (0 <= d < 2 ^ 31)%Z.
Definition any_reset (_ : Z) : Prop := True.
Definition onto_object (sl : slot Z) (_ : Z) : Prop := sl <> NoObject.
