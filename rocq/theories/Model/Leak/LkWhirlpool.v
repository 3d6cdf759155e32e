(** Generated by tools/gen_leak.py from Model/Whirlpool.v: the same functions with the array indices and branches they show. *)
From Verif.Base Require Import Res CWord.
From Coq Require Import List NArith Arith Bool.
From Verif.Model Require Import Buffer Stream Api.
From Verif.Model.Gen Require Import WhirlpoolTables.
From Verif.Model Require Import Whirlpool.
From Verif.Base Require Import Leak.
From Verif.Model.Leak Require Import LkBuffer LkStream.
Import ListNotations.
Local Open Scope N_scope.
(** cTable[k][i] *)
Definition cT (k : nat) (i : N) : res N := let! row := aget cTable k in aget row (N.to_nat i).
(** func      whirlpool.h:825-835 *)
Definition func (x : list N) (a b c d e f g h : nat) : res N :=
  let! xa := aget x a in let! p0 := cT 0 (ror 8 xa 56) in
  let! xb := aget x b in let! p1 := cT 1 (ror 8 xb 48) in
  let! xc := aget x c in let! p2 := cT 2 (ror 8 xc 40) in
  let! xd := aget x d in let! p3 := cT 3 (ror 8 xd 32) in
  let! xe := aget x e in let! p4 := cT 4 (ror 8 xe 24) in
  let! xf := aget x f in let! p5 := cT 5 (ror 8 xf 16) in
  let! xg := aget x g in let! p6 := cT 6 (ror 8 xg 8) in
  let! xh := aget x h in let! p7 := cT 7 (ror 8 xh 0) in
  Ok (N.lxor (N.lxor (N.lxor (N.lxor (N.lxor (N.lxor (N.lxor p0 p1) p2) p3) p4) p5) p6) p7).
(** round; the state is (roundKey, state)      whirlpool.h:819-877 *)
Definition round (r : nat) (st : list N * list N) : res (list N * list N) :=
  let (roundKey, state) := st in
  let! k0 := func roundKey 0 7 6 5 4 3 2 1 in
  let! rc := aget roundConstant r in
  let! k1 := func roundKey 1 0 7 6 5 4 3 2 in
  let! k2 := func roundKey 2 1 0 7 6 5 4 3 in
  let! k3 := func roundKey 3 2 1 0 7 6 5 4 in
  let! k4 := func roundKey 4 3 2 1 0 7 6 5 in
  let! k5 := func roundKey 5 4 3 2 1 0 7 6 in
  let! k6 := func roundKey 6 5 4 3 2 1 0 7 in
  let! k7 := func roundKey 7 6 5 4 3 2 1 0 in
  let k0 := N.lxor k0 rc in
  let! s0 := func state 0 7 6 5 4 3 2 1 in
  let! s1 := func state 1 0 7 6 5 4 3 2 in
  let! s2 := func state 2 1 0 7 6 5 4 3 in
  let! s3 := func state 3 2 1 0 7 6 5 4 in
  let! s4 := func state 4 3 2 1 0 7 6 5 in
  let! s5 := func state 5 4 3 2 1 0 7 6 in
  let! s6 := func state 6 5 4 3 2 1 0 7 in
  let! s7 := func state 7 6 5 4 3 2 1 0 in
  Ok ([k0; k1; k2; k3; k4; k5; k6; k7],
      [N.lxor s0 k0; N.lxor s1 k1; N.lxor s2 k2; N.lxor s3 k3;
       N.lxor s4 k4; N.lxor s5 k5; N.lxor s6 k6; N.lxor s7 k7]).
(** the loop body of addDataImpl      whirlpool.h:789-884 *)
Definition compress (m : list N) (h : list N) : res (list N) :=
  let! ks := for_ 0 8 (fun j (ks : list N * list N) =>
      let! hj := aget h j in
      let! k := aset (fst ks) j hj in
      let! mj := load_be 8 m j in
      let! kj := aget k j in
      let! s := aset (snd ks) j (N.lxor mj kj) in
      Ok (k, s)) (repeat 0 8, repeat 0 8) in
  let! ks := for_ 0 10 round ks in
  for_ 0 8 (fun j h =>
    let! sj := aget (snd ks) j in
    let! hj := aget h j in
    let! mj := load_be 8 m j in
    aset h j (N.lxor (N.lxor sj hj) mj)) h.
(** toArray()      whirlpool.h:698-712 *)
Definition toArray (h : list N) : res (list N) := store_array 64 (flat_map (word_bytes_be 8) h).
