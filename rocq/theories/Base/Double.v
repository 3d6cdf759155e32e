(** Non-negative IEEE doubles as integers: a double is an integer multiple of some unit, and
    what matters is that it has at most 53 significant bits.  The exponent range is never
    reached by the values that occur here. *)
From Coq Require Import NArith Bool.
Local Open Scope N_scope.

(** distance between neighbouring doubles just above x (in the same unit as x) *)
Definition ulp (x : N) : N := 2 ^ (N.log2 x - 52).

Definition representable (x : N) : Prop := x mod ulp x = 0.

(** round to nearest, ties to even *)
Definition round53 (x : N) : N :=
  let u := ulp x in
  let q := x / u in
  let r := x mod u in
  if (2 * r <? u) || ((2 * r =? u) && N.even q) then q * u else (q + 1) * u.
