(** The public interface that all hash classes share, and the execution of a client
    program on the modelled objects. *)
From Coq Require Import List NArith Arith Bool.
From Verif.Base Require Import Res.
From Verif.Model Require Import Stream.
From Verif.Spec Require Import Client.
Import ListNotations.

(** A hash class: its object type, default (or given) construction, and its members.
    toArray stands for toVector in sha3.h, which has no toArray.  Copying an object copies
    all its fields: none of the classes modelled with this record declares a copy
    constructor or copy assignment and all their fields are arrays and integers
    (the classes with unique_ptr members, cshake.h and tuple_hash.h, have their own model). *)
Record HashClass := mkClass {
  Obj : Type;
  c_new : Obj;
  c_add : list N -> Obj -> res Obj;
  c_finalize : Obj -> res Obj;
  c_reset : Obj -> Obj;
  c_array : Obj -> res (list N)
}.

Section Run.
  Variable C : HashClass.

  (** one member call.  toVector copies the array (sha1.h:348-352), toString and operator T
      (sha1.h:329-346, 370-383) format it; std::hash converts the object to size_t. *)
  Definition exec_op (o : op) (x : Obj C) : res (Obj C * option obs) :=
    match o with
    | AddData d => let! y := c_add C d x in Ok (y, None)
    | Finalize => let! y := c_finalize C x in Ok (y, None)
    | Reset => Ok (c_reset C x, None)
    | ToArray => let! d := c_array C x in Ok (x, Some (OBytes d))
    | ToVector => let! d := c_array C x in Ok (x, Some (OBytes d))
    | ToString => let! d := c_array C x in let! s := to_string d in Ok (x, Some (OChars s))
    | ToUint n => let! d := c_array C x in let! v := to_uint n d in Ok (x, Some (ONum v))
    | StdHash => let! d := c_array C x in let! v := std_hash d in Ok (x, Some (ONum v))
    end.

  Definition store := nat -> Obj C.
  Definition put (s : store) (i : nat) (x : Obj C) : store := fun j => if j =? i then x else s j.

  Fixpoint exec (p : list cmd) (s : store) : res (list obs * store) :=
    match p with
    | [] => Ok ([], s)
    | On i o :: rest =>
        let! r := exec_op o (s i) in
        let! t := exec rest (put s i (fst r)) in
        Ok (match snd r with Some w => w :: fst t | None => fst t end, snd t)
    | CopyTo i j :: rest => exec rest (put s i (s j))
    end.

  (** calls on one object *)
  Fixpoint exec_ops (ops : list op) (x : Obj C) : res (Obj C) :=
    match ops with
    | [] => Ok x
    | o :: rest => let! r := exec_op o x in exec_ops rest (fst r)
    end.

  (** the common use: feed the chunks to a new object, finalize, read *)
  Definition hash_chunks (chunks : list (list N)) : res (list N) :=
    let! x := foldM (c_add C) chunks (c_new C) in
    let! x := c_finalize C x in
    c_array C x.

  (** the same with an object at hand *)
  Definition hash_from (x : Obj C) (chunks : list (list N)) : res (list N) :=
    let! x := foldM (c_add C) chunks x in
    let! x := c_finalize C x in
    c_array C x.
End Run.

(** The classes with a 64-bit length counter and twice the block size of buffer:
    constructor = reset()      sha1.h:284-300; the other members as in Stream.
    [iv], [compress], [arr] are the class's constants, loop body and toArray. *)
Definition md_class {H} (B : nat) (dbg : bool) (padbyte : N)
    (write_len : N -> Buffer.Buffer -> res Buffer.Buffer)
    (compress : list N -> H -> res H) (iv : H) (arr : H -> res (list N)) : HashClass :=
  let impl := md_impl B dbg compress in
  {| Obj := Buffer.Buffer * MD H;
     c_new := (Buffer.buf_new (2 * B), mkMD 0%N iv);
     c_add := addData (MD H) B (2 * B) dbg impl;
     c_finalize := md_finalize B dbg padbyte write_len impl;
     c_reset := fun o => (Buffer.buf_clear (fst o), mkMD 0%N iv);
     c_array := fun o => arr (md_h (snd o)) |}.

(** The same with a Uint128 counter      sha2_512.h:392-403 *)
Definition md128_class {H} (B reserve : nat) (dbg : bool)
    (compress : list N -> H -> res H) (iv : H) (arr : H -> res (list N)) : HashClass :=
  let impl := md128_impl B dbg compress in
  {| Obj := Buffer.Buffer * MD128 H;
     c_new := (Buffer.buf_new (2 * B), mkMD128 Buffer.u128_zero iv);
     c_add := addData (MD128 H) B (2 * B) dbg impl;
     c_finalize := md128_finalize B reserve dbg impl;
     c_reset := fun o => (Buffer.buf_clear (fst o), mkMD128 Buffer.u128_zero iv);
     c_array := fun o => arr (md8_h (snd o)) |}.

(** Any class with the shared addData: Buffer of [cap] bytes, other fields set to [s0] by
    reset() and the constructor. *)
Definition stream_class {St} (B cap : nat) (dbg : bool) (impl : list N -> St -> res St) (s0 : St)
    (finalize : Buffer.Buffer * St -> res (Buffer.Buffer * St)) (arr : St -> res (list N)) : HashClass :=
  {| Obj := Buffer.Buffer * St;
     c_new := (Buffer.buf_new cap, s0);
     c_add := addData St B cap dbg impl;
     c_finalize := finalize;
     c_reset := fun o => (Buffer.buf_clear (fst o), s0);
     c_array := fun o => arr (snd o) |}.
