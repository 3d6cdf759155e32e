(** Generated by tools/gen_leak.py from Model/Buffer.v: the same functions with the array indices and branches they show. *)
From Verif.Base Require Import Res CWord.
From Coq Require Import List NArith Arith Bool.
From Verif.Model Require Import Buffer.
From Verif.Base Require Import Leak.
Import ListNotations.
(** m_array.at(m_dataEndIdx + count - 1), debug builds only      sha1.h:85-88, 118-121.
    0 - 1 wraps to the largest index, so at() throws as well. *)
Definition buf_check (dbg : bool) (count : nat) (b : Buffer) : res unit :=
  if! dbg then
    if! (1 <=? b_end b + count) && (b_end b + count <=? length (b_arr b)) then Ok tt else Throw OutOfRange
  else Ok tt.
(** m_array[m_dataEndIdx] = value; ++m_dataEndIdx;      sha1.h:92-93, 125-126 *)
Definition buf_put (value : N) (b : Buffer) : res Buffer :=
  let! arr := aset (b_arr b) (b_end b) value in Ok (mkBuffer arr (S (b_end b))).
(** void fill(value, count)      sha1.h:116-128 *)
Definition buf_fill (dbg : bool) (value : N) (count : nat) (b : Buffer) : res Buffer :=
  let! _ := buf_check dbg count b in
  for_ 0 count (fun _ b => buf_put value b) b.
(** Buffer(std::initializer_list<T>)      sha1.h:83-95 *)
Definition buf_of_list (dbg : bool) (cap : nat) (l : list N) : res Buffer :=
  let b := buf_new cap in
  let! _ := buf_check dbg (length l) b in
  foldM buf_put l b.
(** push_back(first, last)      sha1.h:130-137 *)
Definition buf_push_back (dbg : bool) (data : list N) (b : Buffer) : res Buffer :=
  foldM (fun v b => buf_fill dbg v 1 b) data b.
(** Buffer(first, last)      sha1.h:97-104 *)
Definition buf_of_range (dbg : bool) (cap : nat) (data : list N) : res Buffer :=
  foldM (fun v b => buf_fill dbg v 1 b) data (buf_new cap).
(** operator[] used as m_buffer[m_buffer.size() - k + i]      sha1.h:106-109, 319-320.
    The unsigned subtraction wraps; the sum is in range only if size + i >= k. *)
Definition buf_set_from_end (k i : nat) (v : N) (b : Buffer) : res Buffer :=
  if! b_end b + i <? k then Ub OobWrite
  else let! arr := aset (b_arr b) (b_end b + i - k) v in Ok (mkBuffer arr (b_end b)).
(** the same index as an rvalue, for m_buffer[m_buffer.size() - k] |= x *)
Definition buf_get_from_end (k : nat) (b : Buffer) : res N :=
  if! b_end b <? k then Ub OobRead else aget (b_arr b) (b_end b - k).
