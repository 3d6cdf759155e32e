(** What an object keeps of the data it was given: the bytes that do not fill a block yet. *)
From Coq Require Import List NArith Arith.
From Verif.Spec Require Import Words Client Ledger.
Import ListNotations.

(** the bytes given to an object since it was new, reset or finalized *)
Definition given : kind := mkKind (list N) [] (fun d x => x ++ d) (fun _ => []) (fun _ => []) (fun _ => []).

(** the part of them behind the complete blocks of [B] bytes; with [late] (BLAKE2, whose last block is different) a
    complete block waits until there is more data *)
Definition waiting (late : bool) (B : nat) (m : list N) : list N :=
  if late then skipn ((length m - 1) / B * B) m else skipn (length m / B * B) m.
