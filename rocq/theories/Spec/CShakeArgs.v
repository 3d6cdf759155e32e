(** The promises for cSHAKE and TupleHash objects in the vocabulary of ObjClient. *)
From Coq Require Import List NArith ZArith Bool.
From Verif.Spec Require Import Words ObjClient Sp800185.
Import ListNotations.
Local Open Scope N_scope.

(** ** cSHAKE: digestLength, name, customize *)
Definition cshake128 (a : Z * list N * list N) (m : list N) : list N :=
  let '(l, n, c) := a in Sp800185.cshake128 (Z.to_nat l) n c m.
Definition cshake256 (a : Z * list N * list N) (m : list N) : list N :=
  let '(l, n, c) := a in Sp800185.cshake256 (Z.to_nat l) n c m.

Definition ok_cargs (a : Z * list N * list N) : Prop :=
  let '(l, n, c) := a in (0 <= l)%Z /\ short n /\ short c.

Definition customized (a : Z * list N * list N) : bool := let '(_, n, c) := a in negb (is_nil n && is_nil c).

(** the restricted promise: reset() without name and customization only, copy assignment
    between objects that both have or both lack them, not to moved-from objects *)
Definition may_reset (a : Z * list N * list N) : Prop := customized a = false.
Definition may_assign (t : slot (Z * list N * list N)) (a : Z * list N * list N) : Prop :=
  match t with Live o => customized (o_args o) = customized a | _ => False end.

(** ** TupleHash: digestLength, customize.  The output length in bits is an int. *)
Definition tuplehash128 (a : Z * list N) (t : list (list N)) : list N :=
  let '(l, c) := a in Sp800185.tuplehash128 (Z.to_nat l) c t.
Definition tuplehash256 (a : Z * list N) (t : list (list N)) : list N :=
  let '(l, c) := a in Sp800185.tuplehash256 (Z.to_nat l) c t.

Definition ok_targs (a : Z * list N) : Prop := let '(l, c) := a in (0 <= l < 2 ^ 28)%Z /\ short c.

(** the restricted promise: no reset(), no copy assignment to moved-from objects *)
Definition no_reset (a : Z * list N) : Prop := False.
Definition live_assign (t : slot (Z * list N)) (a : Z * list N) : Prop := match t with Live _ => True | _ => False end.

(** strings whose bit length is close to or beyond 2^56, where the library fails *)
Definition long (s : list N) : Prop := bytes_ok s /\ 2 ^ 56 - 4 <= bit_length s <= 2 ^ 63.

(** ** the full promise, which the library does not keep *)
Definition any_reset {A} (a : A) : Prop := True.
Definition any_assign {A} (t : slot A) (a : A) : Prop := t <> NoObject.

(** objects with digests of no bytes at all *)
Definition cempty (a : Z * list N * list N) : bool := let '(l, _, _) := a in (l <=? 0)%Z.
Definition tempty (a : Z * list N) : bool := let '(l, _) := a in (l <=? 0)%Z.
