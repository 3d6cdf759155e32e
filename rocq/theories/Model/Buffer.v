(** Model of the helper classes shared by the headers: [Buffer] and [Uint128].
    The text of both classes is the same in every header that has them
    (tools/check_shared.py verifies this); lines are cited from sha1.h and sha2_384.h.

    Simplification: an index into an array is a [nat]; [m_dataEndIdx] never gets near the
    limit of its machine type because every write is bounds-checked here first. *)
From Coq Require Import List NArith Arith Bool.
From Verif.Base Require Import Res CWord.
Import ListNotations.

(** class Buffer<T, N>: m_array, m_dataEndIdx      sha1.h:73-163 (fields 160-162).
    [N], the template argument, is the length of [b_arr]. *)
Record Buffer := mkBuffer { b_arr : list N; b_end : nat }.

(** Buffer() = default, and the state after clear()      sha1.h:81, 139-143 *)
Definition buf_new (cap : nat) : Buffer := mkBuffer (repeat 0%N cap) 0.
Definition buf_clear (b : Buffer) : Buffer := buf_new (length (b_arr b)).

(** empty(), size()      sha1.h:145-153 *)
Definition buf_empty (b : Buffer) : bool := b_end b =? 0.
Definition buf_size (b : Buffer) : nat := b_end b.

(** The span {data(), size()}      sha1.h:155-158.  A span longer than the array is
    undefined behaviour as soon as it is read; it cannot arise, because [buf_fill] refuses
    to move the end beyond the array. *)
Definition buf_span (b : Buffer) : list N := firstn (b_end b) (b_arr b).

(** m_array.at(m_dataEndIdx + count - 1), debug builds only      sha1.h:85-88, 118-121.
    0 - 1 wraps to the largest index, so at() throws as well. *)
Definition buf_check (dbg : bool) (count : nat) (b : Buffer) : res unit :=
  if dbg then
    if (1 <=? b_end b + count) && (b_end b + count <=? length (b_arr b)) then Ok tt else Throw OutOfRange
  else Ok tt.

(** m_array[m_dataEndIdx] = value; ++m_dataEndIdx;      sha1.h:92-93, 125-126 *)
Definition buf_put (value : N) (b : Buffer) : res Buffer :=
  let! arr := aset (b_arr b) (b_end b) value in Ok (mkBuffer arr (S (b_end b))).

(** void fill(value, count)      sha1.h:116-128 *)
Definition buf_fill (dbg : bool) (value : N) (count : nat) (b : Buffer) : res Buffer :=
  let! _ := buf_check dbg count b in
  for_ 0 count (fun _ b => buf_put value b) b.

(** Buffer(std::initializer_list<T>)      sha1.h:83-95 *)
Definition buf_of_list (dbg : bool) (cap : nat) (l : list N) : res Buffer :=
  let b := buf_new cap in
  let! _ := buf_check dbg (length l) b in
  foldM buf_put l b.

(** push_back(first, last)      sha1.h:130-137 *)
Definition buf_push_back (dbg : bool) (data : list N) (b : Buffer) : res Buffer :=
  foldM (fun v b => buf_fill dbg v 1 b) data b.

(** Buffer(first, last)      sha1.h:97-104 *)
Definition buf_of_range (dbg : bool) (cap : nat) (data : list N) : res Buffer :=
  foldM (fun v b => buf_fill dbg v 1 b) data (buf_new cap).

(** operator[] used as m_buffer[m_buffer.size() - k + i]      sha1.h:106-109, 319-320.
    The unsigned subtraction wraps; the sum is in range only if size + i >= k. *)
Definition buf_set_from_end (k i : nat) (v : N) (b : Buffer) : res Buffer :=
  if b_end b + i <? k then Ub OobWrite
  else let! arr := aset (b_arr b) (b_end b + i - k) v in Ok (mkBuffer arr (b_end b)).

(** the same index as an rvalue, for m_buffer[m_buffer.size() - k] |= x *)
Definition buf_get_from_end (k : nat) (b : Buffer) : res N :=
  if b_end b <? k then Ub OobRead else aget (b_arr b) (b_end b - k).

(** class Uint128: m_lo, m_hi      sha2_384.h:177-235 *)
Record Uint128 := mkU128 { u_lo : N; u_hi : N }.

(** Uint128() and operator=(0)      sha2_384.h:180-191 *)
Definition u128_zero : Uint128 := mkU128 0 0.

(** operator+=      sha2_384.h:212-220; operator+ (193-198) is += on a copy *)
Definition u128_add (u : Uint128) (n : N) : Uint128 :=
  let newLo := uadd 64 (u_lo u) n in
  mkU128 newLo (if (newLo <? u_lo u)%N then uadd 64 (u_hi u) 1 else u_hi u).

(** operator*, which changes the object itself and returns it      sha2_384.h:200-210.
    The assertion n == 8 holds at every call (the argument is the literal 8). *)
Definition u128_mul8 (u : Uint128) : Uint128 :=
  let msb := trunc 8 (ushr (u_lo u) 61) in
  mkU128 (ushl 64 (u_lo u) 3) (N.lor (ushl 64 (u_hi u) 3) msb).
