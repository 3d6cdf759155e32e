(** Objects of sha3.h with their constructors, copies and moves: Keccak<R, P>, and the aliases SHA3_n and SHAKE_n
    that derive from it and convert from it. *)
From Coq Require Import List NArith ZArith Arith.
From Verif.Base Require Import Res.
From Verif.Spec Require Import KeccakTypes.
From Verif.Model Require Import Buffer Stream ObjApi.
From Verif.Model Require Keccak.
Import ListNotations.

(** what the implicit move operations leave in their source: arrays and integers are copied, the vector m_final is
    moved from.  A moved-from vector is empty after construction; after assignment the standard leaves it
    unspecified, common implementations empty it      sha3.h:266-275 *)
Definition moved_from (o : Buffer * Keccak.St) : Buffer * Keccak.St :=
  (fst o, Keccak.mkSt (Keccak.k_state (snd o)) [] (Keccak.k_len (snd o))).

(** Keccak<R, P> (sha3.h:200-276).  Variables of type KeccakAlias<Keccak<R, P>, n> and SHAKEAlias<Keccak<R, P>> are the same objects:
    the aliases add no member, their constructors call Base(n), Base(d), Base(other), and their assignment operators
    Base::operator=      sha3.h:604-630 *)
Definition keccak_objects (R : nat) (P : N) (dbg : bool) : ObjClass :=
  {| Args := Z; OObj := Buffer * Keccak.St;
     oc_construct := Keccak.construct R;
     oc_feed := Keccak.addData R dbg;
     oc_finalize := Keccak.finalize R P dbg;
     oc_reset := fun o => Ok (Keccak.reset o);
     oc_vector := Keccak.toVector;
     oc_copy := Ok;
     oc_move := fun o => (o, moved_from o);
     oc_assign := fun _ o => Ok o;
     oc_massign := fun _ o => (o, moved_from o) |}.

(** the template arguments of the six types      sha3.h:614-617, 629-630 *)
Definition template (t : keccak_type) : nat * N :=
  match t with
  | Sha3_224 => (1152 / 8, 0x06%N) | Sha3_256 => (1088 / 8, 0x06%N)
  | Sha3_384 => (832 / 8, 0x06%N) | Sha3_512 => (576 / 8, 0x06%N)
  | Shake_128 => (1344 / 8, 0x1F%N) | Shake_256 => (1088 / 8, 0x1F%N)
  end.
(** the template argument N of KeccakAlias, with which its constructor calls Base(N)      sha3.h:608, 614-617 *)
Definition alias_length (t : keccak_type) : option Z :=
  match t with
  | Sha3_224 => Some (224 / 8)%Z | Sha3_256 => Some (256 / 8)%Z
  | Sha3_384 => Some (384 / 8)%Z | Sha3_512 => Some (512 / 8)%Z
  | _ => None
  end.
Definition objects (t : keccak_type) (dbg : bool) : ObjClass := keccak_objects (fst (template t)) (snd (template t)) dbg.
