(** C26: all digest read-outs agree. *)
From Coq Require Import String List NArith.
From Verif.Base Require Import Res.
From Verif.Spec Require Import Words Client.
From Verif.Model Require Import Api Library.
From Verif.Tests Require Import Kit.
From Verif.Proof Require LibraryLaws.
Import ListNotations.

(** For every class but the short Tiger ones and every message, the finalized object [y] yields one list [d]
    of [digest_size] bytes through toArray() and toVector(), its hexadecimal text through toString() (if it is
    not empty), the big-endian number of its first bytes through operator T, and std::hash is the conversion to
    8 bytes; reading changes nothing.  [hex_text] and [leading_number] are in Spec/Words.v. *)
Theorem C26_library : forall (a : alg) dbg chunks, well_formed a -> unreadable a = false -> Forall span_ok chunks ->
  exists x y d, foldM (c_add (class a dbg)) chunks (c_new (class a dbg)) = Ok x /\ c_finalize (class a dbg) x = Ok y /\
    length d = digest_size a /\
    exec_op (class a dbg) ToArray y = Ok (y, Some (OBytes d)) /\
    exec_op (class a dbg) ToVector y = Ok (y, Some (OBytes d)) /\
    (d <> [] -> exec_op (class a dbg) ToString y = Ok (y, Some (OChars (hex_text d)))) /\
    (forall n, exec_op (class a dbg) (ToUint n) y = Ok (y, Some (ONum (leading_number n d)))) /\
    exec_op (class a dbg) StdHash y = exec_op (class a dbg) (ToUint 8) y.
Proof. exact Proof.LibraryLaws.library_readouts. Qed.
Print Assumptions C26_library.

Example C26_case : forall st, exec (class MD5 false)
  [On 0 (AddData (text "abc")); On 0 Finalize; On 0 ToVector; On 0 ToString; On 0 (ToUint 1); On 0 (ToUint 4); On 0 (ToUint 8); On 0 StdHash]
  (fun _ => c_new (class MD5 false)) = st -> exists s, st = Ok
  ([OBytes (unhex "900150983cd24fb0d6963f7d28e17f72"); OChars (text "900150983cd24fb0d6963f7d28e17f72");
    ONum 0x90; ONum 0x90015098; ONum 0x900150983cd24fb0; ONum 0x900150983cd24fb0], s).
Proof. intros st <-. eexists. vm_compute. reflexivity. Qed.
(** a digest shorter than the integer type *)
Example C26_case_short : forall st, exec (class CRC_32 false)
  [On 0 (AddData (text "123456789")); On 0 Finalize; On 0 ToString; On 0 (ToUint 8); On 0 StdHash]
  (fun _ => c_new (class CRC_32 false)) = st -> exists s, st = Ok ([OChars (text "cbf43926"); ONum 0xcbf43926; ONum 0xcbf43926], s).
Proof. intros st <-. eexists. vm_compute. reflexivity. Qed.
