(** Generated by tools/gen_leak.py from Model/Fnv.v: the same functions with the array indices and branches they show. *)
From Verif.Base Require Import Res CWord.
From Coq Require Import List NArith Arith Bool.
From Verif.Model Require Import Buffer Stream Api ObjApi.
From Verif.Model Require Import Fnv.
From Verif.Base Require Import Leak.
From Verif.Model.Leak Require Import LkBuffer LkStream.
Import ListNotations.
Local Open Scope N_scope.
(** [size] = sizeof(DigestType) is 4 or 8 and [variant] is 0, 1 or 2 for the six aliases      fnv.h:319-324 *)
Section FNVHash.
  Variables (size : nat) (variant : nat).
  Definition width : N := 8 * N.of_nat size.
  (** the object: m_hash      fnv.h:133 *)
  Definition Obj : Type := N.
  (** reset()      fnv.h:147-175 *)
  Definition reset (m_hash : Obj) : Obj :=
    if (1 <=? variant)%nat then
      match size with
      | 4%nat => 0x811c9dc5
      | 8%nat => trunc width 0xcbf29ce484222325
      | _ => m_hash
      end
    else m_hash.
  (** FNVHash(): m_hash = 0; reset()      fnv.h:133, 138-144 *)
  Definition new : Obj := reset 0.
  (** multiplyPrime      fnv.h:275-300 *)
  Definition multiplyPrime (m_hash : N) : N :=
    match size with
    | 4%nat => umul width m_hash 0x01000193
    | 8%nat => umul width m_hash (trunc width 0x00000100000001b3)
    | _ => m_hash
    end.
  (** body of the loop over the bytes      fnv.h:304-313 *)
  Definition step (m_hash dataPart : N) : N :=
    let m_hash := if (variant <=? 1)%nat then N.lxor (multiplyPrime m_hash) dataPart else m_hash in
    if (variant =? 2)%nat then multiplyPrime (N.lxor m_hash dataPart) else m_hash.
  (** addDataImpl(data)      fnv.h:273-315 *)
  Definition addDataImpl (data : list N) (m_hash : Obj) : res Obj := foldM (fun b h => Ok (step h b)) data m_hash.
  (** finalize()      fnv.h:178-181 *)
  Definition finalize (m_hash : Obj) : res Obj := Ok m_hash.
  (** toArray()      fnv.h:211-219 *)
  Definition toArray (m_hash : Obj) : res (list N) := store_array size (word_bytes_be size m_hash).
End FNVHash.
