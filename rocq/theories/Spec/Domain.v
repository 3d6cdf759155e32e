(** The bit strings that SHA3-n, SHAKE and cSHAKE give to the sponge (FIPS 202 section 6, SP 800-185 section 3.3), and
    the blocks these become. *)
From Coq Require Import List NArith Arith Bool.
From Verif.Spec Require Import Words Keccak Sp800185.
Import ListNotations.
Local Open Scope N_scope.

Inductive source := FromSha3 | FromShake | FromCShake (name custom : list N).

(** rate in bytes *)
Definition input (rate : nat) (s : source) (m : list N) : bits :=
  match s with
  | FromSha3 => bits_of m ++ [false; true]
  | FromShake => bits_of m ++ [true; true; true; true]
  | FromCShake name custom =>
      if is_nil name && is_nil custom then bits_of m ++ [true; true; true; true]
      else bits_of (cshake_stream rate name custom m) ++ [false; false]
  end.

Definition fed (rate : nat) (s : source) (m : list N) : list (list N) :=
  let x := input rate s m in map bytes_of (pieces (8 * rate) (x ++ pad101 (8 * rate) (length x))).

(** cSHAKE without name and customization is SHAKE *)
Definition function_of (s : source) : source :=
  match s with
  | FromCShake [] [] => FromShake
  | _ => s
  end.

(** arguments that are byte strings of lengths that can be encoded *)
Definition proper (s : source) : Prop :=
  match s with
  | FromCShake name custom => bytes_ok name /\ bytes_ok custom /\ bit_length name < 2 ^ 2040 /\ bit_length custom < 2 ^ 2040
  | _ => True
  end.
