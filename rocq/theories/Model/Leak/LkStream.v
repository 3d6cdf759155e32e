(** Generated by tools/gen_leak.py from Model/Stream.v: the same functions with the array indices and branches they show. *)
From Verif.Base Require Import Res CWord.
From Coq Require Import List NArith Arith Bool.
From Verif.Model Require Import Buffer.
From Verif.Model Require Import Stream.
From Verif.Base Require Import Leak.
From Verif.Model.Leak Require Import LkBuffer.
Import ListNotations.
(** ** Spans *)
(** span::first(n): requires n <= size() *)
Definition span_first (n : nat) (d : list N) : res (list N) :=
  if! n <=? length d then Ok (firstn n d) else Ub SpanPre.
(** span::subspan(n): requires n <= size() *)
Definition span_subspan (n : nat) (d : list N) : res (list N) :=
  if! n <=? length d then Ok (skipn n d) else Ub SpanPre.
(** ** addData *)
Section AddData.
  (** the part of the object that is not m_buffer *)
  Variable St : Type.
  (** BLOCK_SIZE, the capacity of m_buffer, and whether NDEBUG is undefined *)
  Variables (B cap : nat) (dbg : bool).
  (** addDataImpl *)
  Variable impl : list N -> St -> res St.
  (** the part after the first if      sha1.h:402-416 *)
  Definition addData_tail (data : list N) (buf : Buffer) (s : St) : res (Buffer * St) :=
    let dataSize := length data in
    if! dataSize <? B then
      let! buf := buf_of_range dbg cap data in Ok (buf, s)
    else
      let len := dataSize - dataSize mod B in
      let! d := span_first len data in
      let! s := impl d s in
      if! len <? dataSize then
        let! buf := buf_of_range dbg cap (skipn len data) in Ok (buf, s)
      else Ok (buf, s).
  (** addData(Span<const Byte>)      sha1.h:385-417 (same text in 23 headers; sha3.h:405-437
      differs only in the name R for BLOCK_SIZE).
      BLOCK_SIZE - m_buffer.size() is unsigned: if the buffer held more than BLOCK_SIZE
      bytes it would wrap to a huge value and the minimum would be data.size(). *)
  Definition addData (inData : list N) (o : Buffer * St) : res (Buffer * St) :=
    let (buf, s) := o in
    if! negb (buf_empty buf) then
      let len := if buf_size buf <=? B then min (B - buf_size buf) (length inData) else length inData in
      let! buf := buf_push_back dbg (firstn len inData) buf in
      if! buf_size buf <? B then Ok (buf, s)
      else
        let! s := impl (buf_span buf) s in
        let buf := buf_clear buf in
        let! data := span_subspan len inData in
        addData_tail data buf s
    else addData_tail inData buf s.
End AddData.
(** ** Block loop *)
Section Impl.
  Variable H : Type.
  Variables (B : nat) (dbg : bool).
  (** the body of the loop in addDataImpl; it gets the memory that starts at the block
      (the span from the block's first byte to the end of the span) *)
  Variable compress : list N -> H -> res H.
  (** assert((data.size() % BLOCK_SIZE) == 0)      sha1.h:445 *)
  Definition assert_aligned (data : list N) : res unit :=
    if! dbg && negb (length data mod B =? 0) then Throw AssertFail else Ok tt.
  (** for (i = 0, iend = data.size() / BLOCK_SIZE; i < iend; ++i)      sha1.h:449-451 *)
  Definition block_loop (data : list N) (h : H) : res H :=
    for_ 0 (length data / B) (fun i h => compress (skipn (i * B) data) h) h.
End Impl.
(** addDataImpl: assert, m_sizeCounter += data.size(), block loop      sha1.h:443-451 *)
Definition md_impl {H} (B : nat) (dbg : bool) (compress : list N -> H -> res H)
    (data : list N) (s : MD H) : res (MD H) :=
  let! _ := assert_aligned B dbg data in
  let cnt := uadd 64 (md_cnt s) (N.of_nat (length data)) in
  let! h := block_loop H B compress data (md_h s) in
  Ok (mkMD cnt h).
Definition md128_impl {H} (B : nat) (dbg : bool) (compress : list N -> H -> res H)
    (data : list N) (s : MD128 H) : res (MD128 H) :=
  let! _ := assert_aligned B dbg data in
  let cnt := u128_add (md8_cnt s) (N.of_nat (length data)) in
  let! h := block_loop H B compress data (md8_h s) in
  Ok (mkMD128 cnt h).
(** the two 32-bit halves of the length, big-endian      sha1.h:315-321 *)
Definition write_len_be (bits : N) (b : Buffer) : res Buffer :=
  let L := ror 32 bits 0 in
  let Hi := ror 32 bits 32 in
  for_ 0 4 (fun i b =>
    let! b := buf_set_from_end 8 i (ror 8 Hi (8 * (3 - N.of_nat i))) b in
    buf_set_from_end 4 i (ror 8 L (8 * (3 - N.of_nat i))) b) b.
(** little-endian      md5.h:320-326 *)
Definition write_len_le (bits : N) (b : Buffer) : res Buffer :=
  let L := ror 32 bits 0 in
  let Hi := ror 32 bits 32 in
  for_ 0 4 (fun i b =>
    let! b := buf_set_from_end 8 i (ror 8 L (8 * N.of_nat i)) b in
    buf_set_from_end 4 i (ror 8 Hi (8 * N.of_nat i)) b) b.
(** the two 64-bit halves of a Uint128, big-endian      sha2_512.h:417-424 *)
Definition write_len_be128 (bits : Uint128) (b : Buffer) : res Buffer :=
  for_ 0 8 (fun i b =>
    let! b := buf_set_from_end 16 i (ror 8 (u_hi bits) (8 * (7 - N.of_nat i))) b in
    buf_set_from_end 8 i (ror 8 (u_lo bits) (8 * (7 - N.of_nat i))) b) b.
(** finalize with a 64-bit length      sha1.h:302-327, md5.h:307-332, tiger.h:457-482
    ([padbyte] is 1 << 7, for Tiger version 1 it is 1; [write_len] one of the above) *)
Definition md_finalize {H} (B : nat) (dbg : bool) (padbyte : N) (write_len : N -> Buffer -> res Buffer)
    (impl : list N -> MD H -> res (MD H)) (o : Buffer * MD H) : res (Buffer * MD H) :=
  let (buf, s) := o in
  let cnt := uadd 64 (md_cnt s) (N.of_nat (buf_size buf)) in
  let! buf := buf_fill dbg padbyte 1 buf in
  let len := pad_len B 8 (buf_size buf) in
  let! buf := buf_fill dbg 0 (len + 8) buf in
  let bits := umul 64 cnt 8 in
  let! buf := write_len bits buf in
  let! s := impl (buf_span buf) (mkMD cnt (md_h s)) in
  Ok (buf_clear buf, s).
(** finalize with a 128-bit length in a field of [reserve] bytes      sha2_512.h:405-430
    (reserve = 16), whirlpool.h:646-671 (reserve = 32).
    m_sizeCounter * 8 changes m_sizeCounter itself. *)
Definition md128_finalize {H} (B reserve : nat) (dbg : bool)
    (impl : list N -> MD128 H -> res (MD128 H)) (o : Buffer * MD128 H) : res (Buffer * MD128 H) :=
  let (buf, s) := o in
  let cnt := u128_add (md8_cnt s) (N.of_nat (buf_size buf)) in
  let! buf := buf_fill dbg 128 1 buf in
  let len := pad_len B reserve (buf_size buf) in
  let! buf := buf_fill dbg 0 (len + reserve) buf in
  let cnt := u128_mul8 cnt in
  let! buf := write_len_be128 cnt buf in
  let! s := impl (buf_span buf) (mkMD128 cnt (md8_h s)) in
  Ok (buf_clear buf, s).
(** ** Loader *)
(** bytes nb*idx .. nb*idx+nb-1 of the memory at ptr      sha1.h:271 *)
Definition load_bytes (nb : nat) (mem : list N) (idx : nat) : res (list N) :=
  mapM (aget mem) (seq (nb * idx) nb).
(** Loader<T>::operator[], big-endian      sha1.h:267-276, sha2_512.h:363-376 *)
Definition load_be (nb : nat) (mem : list N) (idx : nat) : res N :=
  let! l := load_bytes nb mem idx in Ok (or_be (8 * N.of_nat nb) l).
(** Loader<T>::operator[], little-endian      md5.h:267-276 *)
Definition load_le (nb : nat) (mem : list N) (idx : nat) : res N :=
  let! l := load_bytes nb mem idx in Ok (or_le (8 * N.of_nat nb) 0 l).
(** ResultArrayType ret {}; then *(retPtr++) = b for each byte b      sha1.h:359-366 *)
Definition store_array (size : nat) (bytes : list N) : res (list N) :=
  let! r := foldM (fun b (st : list N * nat) =>
              let! a := aset (fst st) (snd st) b in Ok (a, S (snd st))) bytes (repeat 0%N size, 0) in
  Ok (fst r).
(** operator T for an unsigned T of nbytes bytes      sha1.h:370-383 *)
Definition to_uint (nbytes : nat) (digest : list N) : res N :=
  for_ 0 (min nbytes (length digest)) (fun i ret =>
    let! d := aget digest i in
    Ok (N.lor (ushl (8 * N.of_nat nbytes) ret 8) d)) 0%N.
(** std::hash<X>()(object): size_t is the return type, so the object is converted to an
    unsigned type of 8 bytes      sha1.h:623-630 *)
Definition std_hash (digest : list N) : res N := to_uint 8 digest.

(** one hexadecimal digit: (upper < 10) ? (upper + '0') : (upper - 10 + 'a')      sha1.h:338-343 *)
Definition hex_digit (x : N) : res N := if! (x <? 10)%N then Ok (x + 48)%N else Ok (x - 10 + 97)%N.

(** toString()      sha1.h:329-346 *)
Definition to_string (digest : list N) : res (list N) :=
  match digest with
  | [] => Ub EmptyFront
  | _ => foldM (fun c s =>
      let! u := hex_digit (ror 8 c 4) in
      let! l := hex_digit (N.land c 15) in
      Ok (s ++ [u; l])) digest []
  end.
