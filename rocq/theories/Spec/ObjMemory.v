(** Programs on CSHAKE and TupleHash objects, as the claims about memory speak of them (C64). *)
From Coq Require Import List NArith ZArith.
From Verif.Spec Require Import ObjClient CShakeArgs.
Import ListNotations.

(** not a move assignment *)
Definition calm {A} (c : ocmd A) : Prop := match c with MoveAssign _ _ => False | _ => True end.

(** the program constructs an object with (c) or without a name or customization string and with digest length len *)
Definition cmade (p : list (ocmd (Z * list N * list N))) (c : bool) (len : nat) : Prop :=
  exists i a, In (Construct i a) p /\ c = customized a /\ len = Z.to_nat (fst (fst a)).

(** the program constructs a TupleHash object with digest length z *)
Definition tmade (p : list (ocmd (Z * list N))) (z : Z) : Prop := exists i c, In (Construct i (z, c)) p.
