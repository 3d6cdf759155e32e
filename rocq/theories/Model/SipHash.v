(** Model of siphash.h. *)
From Coq Require Import List NArith Arith Bool.
From Verif.Base Require Import Res CWord.
From Verif.Model Require Import Buffer Stream Api ObjApi.
Import ListNotations.
Local Open Scope N_scope.

(** m_state[4].  The code uses only the constant indices 0 to 3. *)
Record vec := mkVec { v0 : N; v1 : N; v2 : N; v3 : N }.

(** m_sizeCounter (uint8_t), m_key[2], m_state[4]      siphash.h:250-253 *)
Record St := mkSt { s_cnt : N; s_k0 : N; s_k1 : N; s_v : vec }.

(** sipRound()      siphash.h:476-493 *)
Definition sipRound (s : vec) : vec :=
  let 'mkVec a b c d := s in
  let a := uadd 64 a b in
  let c := uadd 64 c d in
  let b := rotl 64 b 13 in
  let d := rotl 64 d 16 in
  let b := N.lxor b a in
  let d := N.lxor d c in
  let a := rotl 64 a 32 in
  let c := uadd 64 c b in
  let a := uadd 64 a d in
  let b := rotl 64 b 17 in
  let d := rotl 64 d 21 in
  let b := N.lxor b c in
  let d := N.lxor d a in
  let c := rotl 64 c 32 in
  mkVec a b c d.

(** for (int c = 0; c < n; ++c) sipRound();      siphash.h:470-471, 332-333 *)
Definition sipRounds (n : nat) (s : vec) : res vec := for_ 0 n (fun _ s => Ok (sipRound s)) s.

(** the state set by reset()      siphash.h:310-313 *)
Definition reset_vec (k0 k1 : N) : vec :=
  mkVec (N.lxor k0 0x736f6d6570736575) (N.lxor k1 0x646f72616e646f6d)
        (N.lxor k0 0x6c7967656e657261) (N.lxor k1 0x7465646279746573).
Definition start (k0 k1 : N) : St := mkSt 0 k0 k1 (reset_vec k0 k1).

(** the body of the loop in addDataImpl      siphash.h:467-472 *)
Definition compress (C : nat) (m : list N) (s : vec) : res vec :=
  let! m0 := load_le 8 m 0 in
  let 'mkVec a b c d := s in
  let! s := sipRounds C (mkVec a b c (N.lxor d m0)) in
  let! m0 := load_le 8 m 0 in
  let 'mkVec a b c d := s in
  Ok (mkVec (N.lxor a m0) b c d).

(** addDataImpl(data)      siphash.h:458-474 *)
Definition addDataImpl (C : nat) (dbg : bool) (data : list N) (s : St) : res St :=
  let! _ := assert_aligned 8 dbg data in
  let cnt := uadd 8 (s_cnt s) (trunc 8 (N.of_nat (length data))) in
  let! v := block_loop vec 8 (compress C) data (s_v s) in
  Ok (mkSt cnt (s_k0 s) (s_k1 s) v).

Definition Obj : Type := Buffer * St.

(** reset(): uses the object's own key      siphash.h:304-314 *)
Definition reset (o : Obj) : Obj := (buf_clear (fst o), start (s_k0 (snd o)) (s_k1 (snd o))).

(** SipHash(key): in a release build the assertion is absent and the two loads read key[0..15]
    whatever its size      siphash.h:291-302 *)
Definition construct (dbg : bool) (key : list N) : res Obj :=
  if dbg && negb (length key =? 16)%nat then Throw AssertFail
  else
    let! k0 := load_le 8 key 0 in
    let! k1 := load_le 8 key 1 in
    Ok (reset (buf_new 16, mkSt 0 k0 k1 (mkVec 0 0 0 0))).

(** addData(Span<const Byte>)      siphash.h:394-427 *)
Definition add (C : nat) (dbg : bool) : list N -> Obj -> res Obj := addData St 8 16 dbg (addDataImpl C dbg).

(** finalize()      siphash.h:316-336.  BLOCK_SIZE - 1 - m_buffer.size() is a 64-bit unsigned
    expression converted to int. *)
Definition finalize (C D : nat) (dbg : bool) (o : Obj) : res Obj :=
  let (buf, s) := o in
  let cnt := uadd 8 (s_cnt s) (trunc 8 (N.of_nat (buf_size buf))) in
  if (7 <? buf_size buf)%nat then Ub OobWrite    (* the length would wrap to a huge or negative count *)
  else
    let len := (7 - buf_size buf)%nat in
    let! buf := buf_fill dbg 0 len buf in
    let! buf := buf_fill dbg cnt 1 buf in
    let! s := addDataImpl C dbg (buf_span buf) (mkSt cnt (s_k0 s) (s_k1 s) (s_v s)) in
    let buf := buf_clear buf in
    let 'mkVec a b c d := s_v s in
    let! v := sipRounds D (mkVec a b (N.lxor c 0xff) d) in
    Ok (buf, mkSt (s_cnt s) (s_k0 s) (s_k1 s) v).

(** toArray()      siphash.h:365-377 *)
Definition toArray (o : Obj) : res (list N) :=
  let 'mkVec a b c d := s_v (snd o) in
  store_array 8 (word_bytes_be 8 (N.lxor (N.lxor (N.lxor a b) c) d)).

(** SipHash<C, D>; the library names SipHash<2, 4>      siphash.h:497 *)
Definition obj_class (C D : nat) (dbg : bool) : ObjClass :=
  value_class (construct dbg) (add C dbg) (finalize C D dbg) (fun o => Ok (reset o)) toArray.

(** the objects with one and the same key *)
Definition cls (C D : nat) (dbg : bool) (k0 k1 : N) : HashClass :=
  {| Api.Obj := Obj; c_new := (buf_new 16, start k0 k1); c_add := add C dbg; c_finalize := finalize C D dbg;
     c_reset := reset; c_array := toArray |}.
