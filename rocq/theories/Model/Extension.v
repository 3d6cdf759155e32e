(** The digest of a longer message from a digest alone.  There is no such function in the repository; what it is made of
    are the members of the classes: toArray read backwards, the loop body of addDataImpl, and the padding. *)
From Coq Require Import List NArith Arith Bool.
From Verif.Base Require Import Res.
From Verif.Spec Require Import Words Merkle Extension.
From Verif.Model Require Import Stream Api Library Chaining.
Import ListNotations.
Local Open Scope N_scope.

(** toArray(), which writes all words of m_h / m_state in the order of the array, backwards.
    big-endian: sha1.h:353-369, sha2_256.h:385-401, sm3.h:356-372, sha2_512.h:456-472, whirlpool.h:697-713;
    little-endian: md4.h:352-368, md5.h:358-374, has_160.h:353-369, ripemd_128.h:352-368, ripemd_160.h:353-369,
    ripemd_256.h:357-373, ripemd_320.h:359-375, tiger.h:511-528 *)
Definition words_of (a : alg) (d : list N) : State a :=
  match a return State a with
  | SHA1 => be_words 4 d
  | SHA2_256 => be_words 4 d
  | SM3 => be_words 4 d
  | SHA2_512 => be_words 8 d
  | Whirlpool => be_words 8 d
  | HAS_160 => le_words 4 d
  | MD4 => le_words 4 d
  | MD5 => le_words 4 d
  | RIPEMD_128 => le_words 4 d
  | RIPEMD_160 => le_words 4 d
  | RIPEMD_256 => le_words 4 d
  | RIPEMD_320 => le_words 4 d
  | Tiger1_192 => let w := le_words 8 d in (nth 0 w 0, nth 1 w 0, nth 2 w 0)
  | Tiger2_192 => let w := le_words 8 d in (nth 0 w 0, nth 1 w 0, nth 2 w 0)
  | b => initial b
  end.
(** and forwards *)
Definition bytes_of (a : alg) : State a -> list N :=
  match a return State a -> list N with
  | SHA1 => flat_map (be_bytes 4)
  | SHA2_256 => flat_map (be_bytes 4)
  | SM3 => flat_map (be_bytes 4)
  | SHA2_512 => flat_map (be_bytes 8)
  | Whirlpool => flat_map (be_bytes 8)
  | HAS_160 => flat_map (le_bytes 4)
  | MD4 => flat_map (le_bytes 4)
  | MD5 => flat_map (le_bytes 4)
  | RIPEMD_128 => flat_map (le_bytes 4)
  | RIPEMD_160 => flat_map (le_bytes 4)
  | RIPEMD_256 => flat_map (le_bytes 4)
  | RIPEMD_320 => flat_map (le_bytes 4)
  | Tiger1_192 => fun h => flat_map (le_bytes 8) (tuple3 h)
  | Tiger2_192 => fun h => flat_map (le_bytes 8) (tuple3 h)
  | _ => fun _ => []
  end.

(** from the digest [d] of an unknown message of [n] bytes: the digest of that message, its padding and [t] *)
Definition forged (a : alg) (d : list N) (n : nat) (t : list N) : res (list N) :=
  match padding a with
  | Some (B, r, mk, enc) =>
      let total := (n + length (suffix B r mk enc n) + length t)%nat in
      let! h := foldM (compression a) (pieces B (t ++ suffix B r mk enc total)) (words_of a d) in
      Ok (bytes_of a h)
  | None => Ok []
  end.
