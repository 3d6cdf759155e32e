(** Programs on argument-constructed objects that the interface comments allow: the digests are
    left out, only whether they are empty matters (toString needs one byte).  reset() is allowed
    on every object. *)
From Coq Require Import List NArith ZArith.
From Verif.Spec Require Import Client ObjClient.
Import ListNotations.

Definition allowed {A : Type} (empty : A -> bool) (ok_args : A -> Prop) (ok_item : list N -> Prop)
    (may_assign : slot A -> A -> Prop) (p : list (ocmd A)) : Prop :=
  exists os s', orun (fun a _ => if empty a then [] else [0%N]) ok_args ok_item (fun _ => True) may_assign p (fun _ => NoObject) os s'.
