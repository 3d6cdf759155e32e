(** The block hashes with a record of what their compression function is called on. *)
From Coq Require Import List NArith Arith Bool.
From Verif.Base Require Import Res.
From Verif.Spec Require Import Words.
From Verif.Model Require Import Buffer Stream Api Library Chaining.
Import ListNotations.
Local Open Scope N_scope.

(** the body of the loop of addDataImpl (sha1.h:443-614 and the same member of the other headers), that also writes
    down the block it was entered with.  It only sees the memory from the position of the loop on, as the code does; the block is
    the first blockSize bytes *)
Definition traced {H : Type} (B : nat) (f : list N -> H -> res H) (mem : list N) (h : H * list (list N)) :
    res (H * list (list N)) :=
  let! h' := f mem (fst h) in Ok (h', snd h ++ [firstn B mem]).

(** the class of Model/Sha1.v etc. with this body, everything else as it is there: the same addData(), finalize()
    and addDataImpl() of Model/Api.v.  That it is the same computation is part of the theorem *)
Definition traced_class (a : alg) (dbg : bool) : HashClass :=
  match a with
  | SHA1 | SHA2_224 | SHA2_256 | SM3 =>
      md_class 64 dbg 128 write_len_be (traced 64 (compression a)) (initial a, []) (fun _ => Ok [])
  | Tiger1_128 | Tiger1_160 | Tiger1_192 =>
      md_class 64 dbg 1 write_len_le (traced 64 (compression a)) (initial a, []) (fun _ => Ok [])
  | SHA2_384 | SHA2_512 | SHA2_512_224 | SHA2_512_256 =>
      md128_class 128 16 dbg (traced 128 (compression a)) (initial a, []) (fun _ => Ok [])
  | Whirlpool => md128_class 64 32 dbg (traced 64 (compression a)) (initial a, []) (fun _ => Ok [])
  | _ => md_class 64 dbg 128 write_len_le (traced 64 (compression a)) (initial a, []) (fun _ => Ok [])
  end.

(** the record, next to the chaining value *)
Definition trace (a : alg) (dbg : bool) : Obj (traced_class a dbg) -> State a * list (list N) :=
  match a return Obj (traced_class a dbg) -> State a * list (list N) with
  | SHA2_384 => fun o => md8_h (snd o)
  | SHA2_512 => fun o => md8_h (snd o)
  | SHA2_512_224 => fun o => md8_h (snd o)
  | SHA2_512_256 => fun o => md8_h (snd o)
  | Whirlpool => fun o => md8_h (snd o)
  | _ => fun o => md_h (snd o)
  end.

(** the bytes in m_buffer (sha1.h:248, 145-153) *)
Definition waiting (a : alg) (dbg : bool) : Obj (class a dbg) -> list N :=
  match a return Obj (class a dbg) -> list N with
  | HAS_160 => fun o => buf_span (fst o)
  | MD4 => fun o => buf_span (fst o)
  | MD5 => fun o => buf_span (fst o)
  | RIPEMD_128 => fun o => buf_span (fst o)
  | RIPEMD_160 => fun o => buf_span (fst o)
  | RIPEMD_256 => fun o => buf_span (fst o)
  | RIPEMD_320 => fun o => buf_span (fst o)
  | SHA1 => fun o => buf_span (fst o)
  | SHA2_224 => fun o => buf_span (fst o)
  | SHA2_256 => fun o => buf_span (fst o)
  | SHA2_384 => fun o => buf_span (fst o)
  | SHA2_512 => fun o => buf_span (fst o)
  | SHA2_512_224 => fun o => buf_span (fst o)
  | SHA2_512_256 => fun o => buf_span (fst o)
  | SM3 => fun o => buf_span (fst o)
  | Tiger1_128 => fun o => buf_span (fst o)
  | Tiger1_160 => fun o => buf_span (fst o)
  | Tiger1_192 => fun o => buf_span (fst o)
  | Tiger2_128 => fun o => buf_span (fst o)
  | Tiger2_160 => fun o => buf_span (fst o)
  | Tiger2_192 => fun o => buf_span (fst o)
  | Whirlpool => fun o => buf_span (fst o)
  | _ => fun _ => []
  end.
