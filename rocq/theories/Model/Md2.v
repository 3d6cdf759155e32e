(** Model of md2.h. *)
From Coq Require Import List NArith Arith Bool.
From Verif.Base Require Import Res CWord.
From Verif.Model Require Import Buffer Stream Api.
From Verif.Model.Gen Require Import Md2Tables.
Import ListNotations.
Local Open Scope N_scope.

(** m_x, m_checksum, m_checksumL      md2.h:244-248 *)
Record St := mkSt { m_x : list N; m_checksum : list N; m_checksumL : N }.

(** the state after reset()      md2.h:279-286 *)
Definition init : St := mkSt (repeat 0 48) (repeat 0 16) 0.

Definition subst (i : N) : res N := aget piSubst (N.to_nat i).

(** the checksum loop      md2.h:416-420 *)
Definition checksum_loop (m : list N) (s : list N * N) : res (list N * N) :=
  for_ 0 16 (fun j (s : list N * N) =>
    let (c, L) := s in
    let! cj := aget c j in
    let! mj := aget m j in
    let! p := subst (N.lxor mj L) in
    let v := trunc 8 (N.lxor cj p) in
    let! c := aset c j v in
    Ok (c, v)) s.

(** m_x[j + 16] = m[j]; m_x[j + 32] = m_x[j + 16] ^ m_x[j]      md2.h:423-427 *)
Definition copy_loop (m : list N) (x : list N) : res (list N) :=
  for_ 0 16 (fun j x =>
    let! mj := aget m j in
    let! x := aset x (j + 16) mj in
    let! a := aget x (j + 16) in
    let! b := aget x j in
    aset x (j + 32) (N.lxor a b)) x.

(** the 18 rounds      md2.h:429-438 *)
Definition round_loop (s : list N * N) : res (list N * N) :=
  for_ 0 18 (fun j (s : list N * N) =>
    let! s := for_ 0 48 (fun k (s : list N * N) =>
      let (x, t) := s in
      let! p := subst t in
      let! xk := aget x k in
      let v := N.lxor xk p in
      let! x := aset x k v in
      Ok (x, v)) s in
    Ok (fst s, trunc 8 (snd s + N.of_nat j))) s.

(** the loop body of addDataImpl      md2.h:410-439.  m is a span of 16 bytes at the block. *)
Definition compress (mem : list N) (s : St) : res St :=
  let m := firstn 16 mem in
  let! c := checksum_loop m (m_checksum s, m_checksumL s) in
  let! x := copy_loop m (m_x s) in
  let! r := round_loop (x, 0) in
  Ok (mkSt (fst r) (fst c) (snd c)).

(** addDataImpl      md2.h:406-440 (no assert, no length counter) *)
Definition addDataImpl (data : list N) (s : St) : res St := block_loop St 16 compress data s.

(** finalize()      md2.h:288-301 *)
Definition finalize (dbg : bool) (o : Buffer * St) : res (Buffer * St) :=
  let (buf, s) := o in
  let len := (16 - buf_size buf mod 16)%nat in
  let! buf := buf_fill dbg (trunc 8 (N.of_nat len)) len buf in
  let! s := addDataImpl (buf_span buf) s in
  let buf := buf_clear buf in
  let! s := addDataImpl (m_checksum s) s in
  Ok (buf, s).

(** toArray()      md2.h:328-331 *)
Definition toArray (s : St) : res (list N) := mapM (aget (m_x s)) (seq 0 16).

Definition cls (dbg : bool) : HashClass :=
  stream_class 16 32 dbg addDataImpl init (finalize dbg) toArray.
