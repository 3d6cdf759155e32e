(** Generated by tools/gen_leak.py from Model/TupleHash.v: the same functions with the array indices and branches they show. *)
From Verif.Base Require Import Res CWord.
From Coq Require Import List NArith ZArith Arith Bool.
From Verif.Model Require Import Buffer ObjApi.
From Verif.Model Require CShake.
From Verif.Model Require Import TupleHash.
From Verif.Base Require Import Leak.
From Verif.Model.Leak Require Import LkBuffer LkCShake.
Import ListNotations.
Local Open Scope N_scope.
(** rightEncode      tuple_hash.h:123-133 *)
Definition rightEncode (log2 : N -> N) (dbg : bool) (value : N) : res Buffer :=
  let n := CShake.encodeCount log2 value in
  let! ret := LkCShake.encodeLoop dbg (N.to_nat n) value (buf_new 8) in
  buf_fill dbg n 1 ret.
(** int multiplication *)
Definition imul (x y : Z) : res Z :=
  let z := (x * y)%Z in
  if! ((- 2 ^ 31 <=? z) && (z <? 2 ^ 31))%Z then Ok z else Ub SignedOverflow.
Section TupleHash.
  Variables (log2 : N -> N) (R : nat) (sufS sufK : N) (P : N) (dbg : bool).
  (** addDataImpl      tuple_hash.h:226-230 *)
  Definition addDataImpl (d : list N) (o : Obj) : res Obj :=
    let! c := LkCShake.addData R sufS sufK dbg d (m_cshake o) in Ok (mkObj c (m_digestLength o)).
  (** the constructor      tuple_hash.h:137-143 *)
  Definition construct (digestLength : Z) (customize : list N) : res Obj :=
    let! c := LkCShake.construct log2 R sufS sufK P dbg digestLength name customize in
    Ok (mkObj c digestLength).
  (** reset      tuple_hash.h:145-149 *)
  Definition reset (o : Obj) : res Obj :=
    let! c := LkCShake.reset sufS sufK (m_cshake o) in Ok (mkObj c (m_digestLength o)).
  (** finalize      tuple_hash.h:151-158 *)
  Definition finalize (o : Obj) : res Obj :=
    let! bits := imul (m_digestLength o) 8 in
    let! encoded := rightEncode log2 dbg (to_u64 bits) in
    let! o := addDataImpl (buf_span encoded) o in
    let! c := LkCShake.finalize R sufS sufK dbg (m_cshake o) in
    Ok (mkObj c (m_digestLength o)).
  (** toVector      tuple_hash.h:166-170; toString (160-164) forwards as well, operator T
      (172-186) formats the same bytes *)
  Definition toVector (o : Obj) : res (list N) := LkCShake.toVector (m_cshake o).
  (** nextData      tuple_hash.h:188-196 *)
  Definition nextData (inData : list N) (o : Obj) : res Obj :=
    let! encoded := LkCShake.leftEncode log2 dbg (umul 64 (N.of_nat (length inData)) 8) in
    let! o := addDataImpl (buf_span encoded) o in
    addDataImpl inData o.
End TupleHash.
(** The copy and move operations are the implicit ones: memberwise. *)
Definition copy_construct (o : Obj) : res Obj :=
  let! c := LkCShake.copy_construct (m_cshake o) in Ok (mkObj c (m_digestLength o)).
Definition move_construct (o : Obj) : res (Obj * Obj) :=
  let! (c, c') := LkCShake.move_construct (m_cshake o) in Ok (mkObj c (m_digestLength o), mkObj c' (m_digestLength o)).
Definition copy_assign (this other : Obj) : res Obj :=
  let! c := LkCShake.copy_assign (m_cshake this) (m_cshake other) in Ok (mkObj c (m_digestLength other)).
Definition move_assign (this other : Obj) : res (Obj * Obj) :=
  let! (c, c') := LkCShake.move_assign (m_cshake this) (m_cshake other) in
  Ok (mkObj c (m_digestLength other), mkObj c' (m_digestLength other)).
(** constructor arguments: digestLength, customize *)
Section Class.
  Variables (log2 : N -> N) (R : nat) (sufS sufK : N) (P : N) (dbg : bool).
End Class.
