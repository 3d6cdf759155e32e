(** operator T with T = bool, which is an unsigned type in the sense of the static_assert. *)
From Coq Require Import List NArith Arith.
From Verif.Base Require Import Res.
From Verif.Model Require Import Buffer Stream.
Import ListNotations.
Local Open Scope N_scope.

(** conversion of an int to bool [conv.bool] *)
Definition bool_of_int (v : N) : bool := negb (v =? 0).

(** the same loop: sizeof(bool) is 1; ret <<= 8 and ret |= digest[i] compute in int and convert to bool.
    sha1.h:369-383 and the same member of the other headers *)
Definition to_bool (digest : list N) : res bool :=
  for_ 0 (min 1 (length digest)) (fun i ret =>
    let ret := bool_of_int (N.shiftl (N.b2n ret) 8) in
    let! d := aget digest i in
    Ok (bool_of_int (N.lor (N.b2n ret) d))) false.
