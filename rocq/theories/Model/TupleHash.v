(** Model of tuple_hash.h: TupleHash<Alg>, TupleHash_128, TupleHash_256. *)
From Coq Require Import List NArith ZArith Arith Bool.
From Verif.Base Require Import Res CWord.
From Verif.Model Require Import Buffer ObjApi.
From Verif.Model Require CShake.
Import ListNotations.
Local Open Scope N_scope.

(** rightEncode      tuple_hash.h:123-133 *)
Definition rightEncode (log2 : N -> N) (dbg : bool) (value : N) : res Buffer :=
  let n := CShake.encodeCount log2 value in
  let! ret := CShake.encodeLoop dbg (N.to_nat n) value (buf_new 8) in
  buf_fill dbg n 1 ret.

(** m_cshake, m_digestLength      tuple_hash.h:117-118 *)
Record Obj := mkObj { m_cshake : CShake.Obj; m_digestLength : Z }.

(** int multiplication *)
Definition imul (x y : Z) : res Z :=
  let z := (x * y)%Z in
  if ((- 2 ^ 31 <=? z) && (z <? 2 ^ 31))%Z then Ok z else Ub SignedOverflow.

(** conversion of an int to uint64_t *)
Definition to_u64 (z : Z) : N := Z.to_N (z mod 2 ^ 64).

(** "TupleHash"      tuple_hash.h:139 *)
Definition name : list N := [84; 117; 112; 108; 101; 72; 97; 115; 104].

Section TupleHash.
  Variables (log2 : N -> N) (R : nat) (sufS sufK : N) (P : N) (dbg : bool).

  (** addDataImpl      tuple_hash.h:226-230 *)
  Definition addDataImpl (d : list N) (o : Obj) : res Obj :=
    let! c := CShake.addData R sufS sufK dbg d (m_cshake o) in Ok (mkObj c (m_digestLength o)).

  (** the constructor      tuple_hash.h:137-143 *)
  Definition construct (digestLength : Z) (customize : list N) : res Obj :=
    let! c := CShake.construct log2 R sufS sufK P dbg digestLength name customize in
    Ok (mkObj c digestLength).

  (** reset      tuple_hash.h:145-149 *)
  Definition reset (o : Obj) : res Obj :=
    let! c := CShake.reset sufS sufK (m_cshake o) in Ok (mkObj c (m_digestLength o)).

  (** finalize      tuple_hash.h:151-158 *)
  Definition finalize (o : Obj) : res Obj :=
    let! bits := imul (m_digestLength o) 8 in
    let! encoded := rightEncode log2 dbg (to_u64 bits) in
    let! o := addDataImpl (buf_span encoded) o in
    let! c := CShake.finalize R sufS sufK dbg (m_cshake o) in
    Ok (mkObj c (m_digestLength o)).

  (** toVector      tuple_hash.h:166-170; toString (160-164) forwards as well, operator T
      (172-186) formats the same bytes *)
  Definition toVector (o : Obj) : res (list N) := CShake.toVector (m_cshake o).

  (** nextData      tuple_hash.h:188-196 *)
  Definition nextData (inData : list N) (o : Obj) : res Obj :=
    let! encoded := CShake.leftEncode log2 dbg (umul 64 (N.of_nat (length inData)) 8) in
    let! o := addDataImpl (buf_span encoded) o in
    addDataImpl inData o.
End TupleHash.

(** The copy and move operations are the implicit ones: memberwise. *)
Definition copy_construct (o : Obj) : res Obj :=
  let! c := CShake.copy_construct (m_cshake o) in Ok (mkObj c (m_digestLength o)).
Definition move_construct (o : Obj) : Obj * Obj :=
  let (c, c') := CShake.move_construct (m_cshake o) in (mkObj c (m_digestLength o), mkObj c' (m_digestLength o)).
Definition copy_assign (this other : Obj) : res Obj :=
  let! c := CShake.copy_assign (m_cshake this) (m_cshake other) in Ok (mkObj c (m_digestLength other)).
Definition move_assign (this other : Obj) : Obj * Obj :=
  let (c, c') := CShake.move_assign (m_cshake this) (m_cshake other) in
  (mkObj c (m_digestLength other), mkObj c' (m_digestLength other)).

(** constructor arguments: digestLength, customize *)
Section Class.
  Variables (log2 : N -> N) (R : nat) (sufS sufK : N) (P : N) (dbg : bool).
  Definition cls : ObjClass :=
    {| Args := Z * list N;
       OObj := Obj;
       oc_construct := fun a => let '(l, c) := a in construct log2 R sufS sufK P dbg l c;
       oc_feed := nextData log2 R sufS sufK dbg;
       oc_finalize := finalize log2 R sufS sufK dbg;
       oc_reset := reset sufS sufK;
       oc_vector := toVector;
       oc_copy := copy_construct;
       oc_move := move_construct;
       oc_assign := copy_assign;
       oc_massign := move_assign |}.
End Class.

(** TupleHash_128, TupleHash_256      tuple_hash.h:244-245 with cshake.h:345-346 *)
Definition cls128 (log2 : N -> N) (dbg : bool) := cls log2 (1344 / 8) 0x1F 0x04 (1344 / 8) dbg.
Definition cls256 (log2 : N -> N) (dbg : bool) := cls log2 (1088 / 8) 0x1F 0x04 (1088 / 8) dbg.
