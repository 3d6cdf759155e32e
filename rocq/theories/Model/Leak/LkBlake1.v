(** Generated by tools/gen_leak.py from Model/Blake1.v: the same functions with the array indices and branches they show. *)
From Verif.Base Require Import Res CWord.
From Coq Require Import List NArith Arith Bool ZArith.
From Verif.Model Require Import Buffer Stream Api Call BlakeMix.
From Verif.Model Require Import Counter.
From Verif.Model.Gen Require Import Blake1Tables.
From Verif.Model.Gen Require Blake1_224Calls Blake1_256Calls Blake1_384Calls Blake1_512Calls.
From Verif.Model Require Import Blake1.
From Verif.Base Require Import Leak.
From Verif.Model.Leak Require Import LkBuffer LkStream LkCall LkBlakeMix.
Import ListNotations.
Local Open Scope N_scope.
Section Core.
  Variable w : N.
  (* uint32_t or uint64_t *)
  Variable nb : nat.
  (* sizeof of it *)
  Variables r1 r2 r3 r4 : N.
  Variable cTable : list N.
  Variable F : Type.
  Variable calls : list (call F).
  Variable K : Counter.
  Variable narrow : bool.
  (* nonPaddingBits has type uint32_t instead of int *)
  Variable lastbit : bool.
  (* m_buffer[m_buffer.size() - 9] |= 1 is present *)
  Variable dbg : bool.
  Definition BLOCK_SIZE : nat := (16 * nb)%nat.
  (** blakeMix(v[a], v[b], v[c], v[d], m[x], m[y], cTable[k1], cTable[k2])      blake1_256.h:495-619 *)
  Definition exec_call (m : list N) (c : call F) (v : list N) : res (list N) :=
    match c_args c with
    | [x; y; k1; k2] =>
        let! mx := load_be nb m (N.to_nat x) in
        let! my := load_be nb m (N.to_nat y) in
        let! c1 := aget cTable (N.to_nat k1) in
        let! c2 := aget cTable (N.to_nat k2) in
        call_regs (blakeMix w r1 r2 r3 r4 (N.lxor mx c1) (N.lxor my c2)) (c_regs c) v
    | _ => Ub OobRead
    end.
  (** (BLOCK_SIZE - paddingLen) * 8 as an int or a uint32_t      blake1_256.h:469, blake1_224.h:467 *)
  Definition nonPaddingBits (paddingLen : nat) : Z :=
    let z := ((Z.of_nat BLOCK_SIZE - Z.of_nat paddingLen) * 8)%Z in
    if narrow then (z mod 2 ^ 32)%Z else z.
  (** the loop body of addDataImpl      blake1_256.h:459-632, blake1_512.h:526-717
      (+= converts the number of bits to uint64_t) *)
  Definition compress (paddingLen : nat) (mem : list N) (s : ctr K * list N) : res (ctr K * list N) :=
    let (cnt, h) := s in
    let! hs := mapM (aget h) (seq 0 8) in
    let! cs := mapM (aget cTable) (seq 0 8) in
    let v := hs ++ cs in
    let bits := nonPaddingBits paddingLen in
    let cnt := k_add K cnt (Z.to_N (bits mod 2 ^ 64)) in
    let! v :=
      if! (0 <? bits)%Z then
        let t0 := k_lo K cnt in
        let t1 := k_hi K cnt in
        let! x := aget v 12 in let! v := aset v 12 (N.lxor x t0) in
        let! x := aget v 13 in let! v := aset v 13 (N.lxor x t0) in
        let! x := aget v 14 in let! v := aset v 14 (N.lxor x t1) in
        let! x := aget v 15 in aset v 15 (N.lxor x t1)
      else Ok v in
    let! v := foldM (exec_call mem) calls v in
    let! h := for_ 0 8 (fun i h =>
      let! hi := aget h i in
      let! vi := aget v i in
      let! vj := aget v (i + 8) in
      aset h i (N.lxor hi (N.lxor vi vj))) h in
    Ok (cnt, h).
  (** addDataImpl      blake1_256.h:453-633 *)
  Definition impl (paddingLen : nat) (data : list N) (s : ctr K * list N) : res (ctr K * list N) :=
    let! _ := assert_aligned BLOCK_SIZE dbg data in
    block_loop _ BLOCK_SIZE (compress paddingLen) data s.
  (** m_buffer[m_buffer.size() - (2 nb + 1)] |= 1      blake1_256.h:324, blake1_512.h:391 *)
  Definition set_lastbit (b : Buffer) : res Buffer :=
    if! lastbit then
      let! x := buf_get_from_end (2 * nb + 1) b in
      buf_set_from_end (2 * nb + 1) 0 (N.lor x 1) b
    else Ok b.
  (** the two halves of the length, big-endian      blake1_256.h:327-331, blake1_512.h:394-398 *)
  Definition write_len (lo hi : N) (b : Buffer) : res Buffer :=
    for_ 0 nb (fun i b =>
      let! b := buf_set_from_end (2 * nb) i (ror 8 hi (8 * N.of_nat (nb - 1 - i))) b in
      buf_set_from_end nb i (ror 8 lo (8 * N.of_nat (nb - 1 - i))) b) b.
  (** finalize()      blake1_256.h:311-337, blake1_224.h:311-335, blake1_384.h:378-402,
      blake1_512.h:378-404 *)
  Definition finalize (o : Buffer * (ctr K * list N)) : res (Buffer * (ctr K * list N)) :=
    let (buf, s) := o in
    let bits := k_add K (fst s) (N.of_nat (buf_size buf) * 8) in
    let! buf := buf_fill dbg 128 1 buf in
    let len := pad_len BLOCK_SIZE (2 * nb) (buf_size buf) in
    let! buf := buf_fill dbg 0 (len + 2 * nb) buf in
    let! buf := set_lastbit buf in
    let! buf := write_len (k_lo K bits) (k_hi K bits) buf in
    let! s := impl (len + 2 * nb + 1) (buf_span buf) s in
    Ok (buf_clear buf, s).
  (** toArray(): the first [n] words, big-endian      blake1_256.h:364-378, blake1_224.h:362-376 *)
  Definition toArray (size n : nat) (s : ctr K * list N) : res (list N) :=
    store_array size (flat_map (word_bytes_be nb) (firstn n (snd s))).
End Core.
