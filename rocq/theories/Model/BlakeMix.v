(** The macro blakeMix of blake1_*.h, blake2.h and blake2s.h and the unrolled rounds. *)
From Coq Require Import List NArith Arith Bool.
From Verif.Base Require Import Res CWord.
From Verif.Model Require Import Call.
Import ListNotations.
Local Open Scope N_scope.

(** blakeMix      blake1_256.h:484-492, blake1_512.h:551-559, blake2.h:523-531, blake2s.h:457-465.
    The macro arguments a, b, c, d are four different elements of v at every call; the
    eight assignments then amount to reading the four elements, computing, and storing them
    back.  x and y are the expressions added to a. *)
Definition blakeMix (w r1 r2 r3 r4 x y : N) (vs : list N) : res (list (nat * N)) :=
  match vs with
  | [a; b; c; d] =>
      let a := uadd w (uadd w a b) x in
      let d := rotr w (N.lxor d a) r1 in
      let c := uadd w c d in
      let b := rotr w (N.lxor b c) r2 in
      let a := uadd w (uadd w a b) y in
      let d := rotr w (N.lxor d a) r3 in
      let c := uadd w c d in
      let b := rotr w (N.lxor b c) r4 in
      Ok [(0%nat, a); (1%nat, b); (2%nat, c); (3%nat, d)]
  | _ => Ub OobRead
  end.
