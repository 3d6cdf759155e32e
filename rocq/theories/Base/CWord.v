(** C++ unsigned integer operations on [N], with explicit truncation. *)
From Coq Require Import NArith.
Local Open Scope N_scope.

(** Masks for the widths that occur, so that evaluation does not recompute them. *)
Definition mask (w : N) : N :=
  match w with
  | 8 => 255
  | 32 => 4294967295
  | 64 => 18446744073709551615
  | _ => N.ones w
  end.

(** static_cast to a w-bit unsigned type *)
Definition trunc (w x : N) : N := N.land x (mask w).

Definition uadd (w x y : N) : N := trunc w (x + y).
Definition usub (w x y : N) : N := trunc w (x + (N.shiftl 1 w - trunc w y)).
Definition umul (w x y : N) : N := trunc w (x * y).
Definition ushl (w x s : N) : N := trunc w (N.shiftl x s).
Definition ushr (x s : N) : N := N.shiftr x s.
Definition unot (w x : N) : N := N.lxor x (mask w).

(** ror<R>(x, s) = static_cast<R>(x >> s)      (sha1.h:166-175 and all other headers;
    the same text guarded by CHOCOBO1_HASH_ROR_IMPL) *)
Definition ror (r x s : N) : N := trunc r (N.shiftr x s).

(** rotl(x, s)      (sha1.h:177-187; guarded by CHOCOBO1_HASH_ROTL_IMPL) *)
Definition rotl (w x s : N) : N :=
  match s with
  | 0 => x
  | _ => N.lor (ushl w x s) (ushr x (w - s))
  end.

(** rotr(x, s)      (sha2_256.h:186-196; guarded by CHOCOBO1_HASH_ROTR_IMPL) *)
Definition rotr (w x s : N) : N :=
  match s with
  | 0 => x
  | _ => N.lor (ushr x s) (ushl w x (w - s))
  end.
