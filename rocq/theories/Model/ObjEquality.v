(** Comparison of cSHAKE and TupleHash objects. *)
From Coq Require Import List NArith Bool.
From Verif.Base Require Import Res.
From Verif.Model Require Import Buffer Library.
From Verif.Model Require CShake TupleHash.

(** CShake operator==      cshake.h:111-116 *)
Definition cshake_eq (l r : CShake.Obj) : res bool :=
  if negb (eqb (CShake.m_customized l) (CShake.m_customized r)) then Ok false
  else if CShake.m_customized l then
    let! x := CShake.deref (CShake.m_keccak l) in let! y := CShake.deref (CShake.m_keccak r) in keccak_eq x y
  else
    let! x := CShake.deref (CShake.m_shake l) in let! y := CShake.deref (CShake.m_shake r) in keccak_eq x y.

(** CShake operator!=      cshake.h:117-120 *)
Definition cshake_neq (l r : CShake.Obj) : res bool := let! b := cshake_eq l r in Ok (negb b).

(** TupleHash operator==, operator!=      tuple_hash.h:105-112 *)
Definition tuple_eq (l r : TupleHash.Obj) : res bool := cshake_eq (TupleHash.m_cshake l) (TupleHash.m_cshake r).
Definition tuple_neq (l r : TupleHash.Obj) : res bool := let! b := tuple_eq l r in Ok (negb b).
