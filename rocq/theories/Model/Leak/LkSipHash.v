(** Generated by tools/gen_leak.py from Model/SipHash.v: the same functions with the array indices and branches they show. *)
From Verif.Base Require Import Res CWord.
From Coq Require Import List NArith Arith Bool.
From Verif.Model Require Import Buffer Stream Api ObjApi.
From Verif.Model Require Import SipHash.
From Verif.Base Require Import Leak.
From Verif.Model.Leak Require Import LkBuffer LkStream.
Import ListNotations.
Local Open Scope N_scope.
(** for (int c = 0; c < n; ++c) sipRound();      siphash.h:470-471, 332-333 *)
Definition sipRounds (n : nat) (s : vec) : res vec := for_ 0 n (fun _ s => Ok (sipRound s)) s.
(** the body of the loop in addDataImpl      siphash.h:467-472 *)
Definition compress (C : nat) (m : list N) (s : vec) : res vec :=
  let! m0 := load_le 8 m 0 in
  let 'mkVec a b c d := s in
  let! s := sipRounds C (mkVec a b c (N.lxor d m0)) in
  let! m0 := load_le 8 m 0 in
  let 'mkVec a b c d := s in
  Ok (mkVec (N.lxor a m0) b c d).
(** addDataImpl(data)      siphash.h:458-474 *)
Definition addDataImpl (C : nat) (dbg : bool) (data : list N) (s : St) : res St :=
  let! _ := assert_aligned 8 dbg data in
  let cnt := uadd 8 (s_cnt s) (trunc 8 (N.of_nat (length data))) in
  let! v := block_loop vec 8 (compress C) data (s_v s) in
  Ok (mkSt cnt (s_k0 s) (s_k1 s) v).
(** SipHash(key): in a release build the assertion is absent and the two loads read key[0..15]
    whatever its size      siphash.h:291-302 *)
Definition construct (dbg : bool) (key : list N) : res Obj :=
  if! dbg && negb (length key =? 16)%nat then Throw AssertFail
  else
    let! k0 := load_le 8 key 0 in
    let! k1 := load_le 8 key 1 in
    Ok (reset (buf_new 16, mkSt 0 k0 k1 (mkVec 0 0 0 0))).
(** finalize()      siphash.h:316-336.  BLOCK_SIZE - 1 - m_buffer.size() is a 64-bit unsigned
    expression converted to int. *)
Definition finalize (C D : nat) (dbg : bool) (o : Obj) : res Obj :=
  let (buf, s) := o in
  let cnt := uadd 8 (s_cnt s) (trunc 8 (N.of_nat (buf_size buf))) in
  if! (7 <? buf_size buf)%nat then Ub OobWrite    (* the length would wrap to a huge or negative count *)
  else
    let len := (7 - buf_size buf)%nat in
    let! buf := buf_fill dbg 0 len buf in
    let! buf := buf_fill dbg cnt 1 buf in
    let! s := addDataImpl C dbg (buf_span buf) (mkSt cnt (s_k0 s) (s_k1 s) (s_v s)) in
    let buf := buf_clear buf in
    let 'mkVec a b c d := s_v s in
    let! v := sipRounds D (mkVec a b (N.lxor c 0xff) d) in
    Ok (buf, mkSt (s_cnt s) (s_k0 s) (s_k1 s) v).
(** toArray()      siphash.h:365-377 *)
Definition toArray (o : Obj) : res (list N) :=
  let 'mkVec a b c d := s_v (snd o) in
  store_array 8 (word_bytes_be 8 (N.lxor (N.lxor (N.lxor a b) c) d)).
