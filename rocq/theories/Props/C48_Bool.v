(** C48: a digest in a condition. *)
From Coq Require Import String List NArith Arith.
From Verif.Base Require Import Res.
From Verif.Spec Require Import Words Client.
From Verif.Model Require Import Buffer Stream Api Library ToBool.
From Verif.Tests Require Import Kit.
From Verif.Proof Require LibraryLaws ToBool.
Import ListNotations.
Local Open Scope N_scope.

(** `if (object)`, `bool b = object`: the conversion succeeds and is true exactly if the first byte of the digest is not 0
    (false for an empty digest); the same as for the conversion to an unsigned type of one byte *)
Theorem C48_first_byte : forall (a : alg) dbg chunks, well_formed a -> unreadable a = false -> Forall span_ok chunks ->
  exists d, hash_chunks (class a dbg) chunks = Ok d /\ length d = digest_size a /\
    to_bool d = Ok (negb (nth 0 d 0 =? 0)) /\ to_bool d = Ok (negb (leading_number 1 d =? 0)).
Proof. exact Proof.ToBool.first_byte. Qed.
Print Assumptions C48_first_byte.

(** so it does not say whether the digest is zero, and two objects with different digests can both be "false"
    in conditions *)
Theorem C48_nonzero_refuted : exists (a : alg) dbg chunks d, well_formed a /\ unreadable a = false /\ Forall span_ok chunks /\
  hash_chunks (class a dbg) chunks = Ok d /\ to_bool d = Ok false /\ existsb (fun b => negb (b =? 0)) d = true.
Proof. exact Proof.ToBool.nonzero_refuted. Qed.
Print Assumptions C48_nonzero_refuted.

Example C48_case :
  hash_chunks (class SHA2_256 false) [text "286"] = Ok (unhex "00328ce57bbc14b33bd6695bc8eb32cdf2fb5f3a7d89ec14a42825e15d39df60") /\
  to_bool (unhex "00328ce57bbc14b33bd6695bc8eb32cdf2fb5f3a7d89ec14a42825e15d39df60") = Ok false /\
  hash_chunks (class MD5 false) [text "abc"] = Ok (unhex "900150983cd24fb0d6963f7d28e17f72") /\
  to_bool (unhex "900150983cd24fb0d6963f7d28e17f72") = Ok true.
Proof. do 3 (split; [vm_compute; reflexivity|]). vm_compute. reflexivity. Qed.
