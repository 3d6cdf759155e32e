(** The size of a client program: a unit for every call and one for every byte of data passed. *)
From Coq Require Import List NArith.
From Verif.Spec Require Import Client.
Import ListNotations.

Definition cmd_size (c : cmd) : nat :=
  match c with
  | On _ (AddData d) => S (length d)
  | _ => 1
  end.
Definition program_size (p : list cmd) : nat := list_sum (map cmd_size p).
