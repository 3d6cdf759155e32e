(** Generated by tools/gen_leak.py from Model/Crc32.v: the same functions with the array indices and branches they show. *)
From Verif.Base Require Import Res CWord.
From Coq Require Import List NArith Arith Bool.
From Verif.Model Require Import Buffer Stream Api.
From Verif.Model.Gen Require Import Crc32Table.
From Verif.Model Require Import Crc32.
From Verif.Base Require Import Leak.
From Verif.Model.Leak Require Import LkBuffer LkStream.
Import ListNotations.
Local Open Scope N_scope.
(** crc32LUT[k][i] *)
Definition lut (k : nat) (i : N) : res N := let! row := aget crc32LUT k in aget row (N.to_nat i).
(** the slicing step for one block of 16 bytes      crc_32.h:851-873 *)
Definition block (mem : list N) (m_h : N) : res N :=
  let! m0 := load_le 4 mem 0 in
  let a := N.lxor m0 m_h in
  let! b := load_le 4 mem 1 in
  let! c := load_le 4 mem 2 in
  let! d := load_le 4 mem 3 in
  let! t0 := lut 0 (ror 8 d 24) in
  let! t1 := lut 1 (ror 8 d 16) in
  let! t2 := lut 2 (ror 8 d 8) in
  let! t3 := lut 3 (ror 8 d 0) in
  let! t4 := lut 4 (ror 8 c 24) in
  let! t5 := lut 5 (ror 8 c 16) in
  let! t6 := lut 6 (ror 8 c 8) in
  let! t7 := lut 7 (ror 8 c 0) in
  let! t8 := lut 8 (ror 8 b 24) in
  let! t9 := lut 9 (ror 8 b 16) in
  let! t10 := lut 10 (ror 8 b 8) in
  let! t11 := lut 11 (ror 8 b 0) in
  let! t12 := lut 12 (ror 8 a 24) in
  let! t13 := lut 13 (ror 8 a 16) in
  let! t14 := lut 14 (ror 8 a 8) in
  let! t15 := lut 15 (ror 8 a 0) in
  Ok (fold_left N.lxor [t1; t2; t3; t4; t5; t6; t7; t8; t9; t10; t11; t12; t13; t14; t15] t0).
(** the step for one of the remaining bytes      crc_32.h:880 *)
Definition byte (data : list N) (processed : nat) (m_h : N) : res N :=
  let! x := aget data processed in
  let! t := lut 0 (N.lxor (ror 8 m_h 0) x) in
  Ok (N.lxor (ushr m_h 8) t).
(** addDataImpl(data)      crc_32.h:824-883 *)
Definition addDataImpl (data : list N) (m_h : Obj) : res Obj :=
  let! m_h := block_loop N 16 block data m_h in
  let processed := (length data / 16 * 16)%nat in
  for_ processed (length data - processed) (byte data) m_h.
(** finalize()      crc_32.h:736-740 *)
Definition finalize (m_h : Obj) : res Obj := Ok (unot 32 m_h).
(** toArray()      crc_32.h:767-778 *)
Definition toArray (m_h : Obj) : res (list N) := store_array 4 (word_bytes_be 4 m_h).
