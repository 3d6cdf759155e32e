(** What the theorems about cSHAKE and TupleHash assume of std::log2(double).

    The C++ standard says nothing about its accuracy.  The assumption is that the result is
    off by at most 5/8 of the distance between neighbouring doubles (glibc documents and
    measures less: its log2 stays below 0.55).

    A result p stands for the number p / 2^52 (every double that is 0 or at least 1 is
    such a quotient; log2 of an integer is 0 or at least 1).  log2 d lies between
    (8 p - 5 u) / 2^55 and (8 p + 5 u) / 2^55 exactly if d to the power 2^55 lies between
    2^(8 p - 5 u) and 2^(8 p + 5 u). *)
From Coq Require Import NArith.
From Verif.Base Require Import Double.
Local Open Scope N_scope.

Definition log2_accurate (log2 : N -> N) : Prop :=
  forall d, 1 <= d <= 2 ^ 64 -> representable d ->
  let p := log2 d in
  representable p /\ 2 ^ (8 * p - 5 * ulp p) <= d ^ (2 ^ 55) <= 2 ^ (8 * p + 5 * ulp p).
