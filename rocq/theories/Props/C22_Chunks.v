(** C22: how the data is cut into addData calls never matters. *)
From Coq Require Import String List NArith ZArith.
From Verif.Base Require Import Res.
From Verif.Spec Require Import Words Client ObjClient Log2 Sp800185 CShakeArgs.
From Verif.Model Require Import Api ObjApi Library.
From Verif.Model Require CShake.
From Verif.Tests Require Import Kit KitObj.
From Verif.Proof Require ObjApi LibraryLaws CShake Log2Witness.
Import ListNotations.

(** every class of Model/Library.v (all but cSHAKE), in any two builds: same digest, or both the same failure *)
Theorem C22_library : forall (a : alg) dbg dbg' xs ys, well_formed a ->
  Forall span_ok xs -> Forall span_ok ys -> concat xs = concat ys ->
  hash_chunks (class a dbg) xs = hash_chunks (class a dbg') ys.
Proof. exact Proof.LibraryLaws.library_chunks. Qed.
Print Assumptions C22_library.

(** even the objects are the same, so no later call can tell the difference *)
Theorem C22_objects : forall (a : alg) dbg xs ys, well_formed a ->
  Forall span_ok xs -> Forall span_ok ys -> concat xs = concat ys ->
  foldM (c_add (class a dbg)) xs (c_new (class a dbg)) = foldM (c_add (class a dbg)) ys (c_new (class a dbg)).
Proof. exact Proof.LibraryLaws.library_same_object. Qed.
Print Assumptions C22_objects.

(** the digest exists (but for the four short Tiger classes, see C11) *)
Theorem C22_digest : forall (a : alg) dbg xs, well_formed a -> unreadable a = false -> Forall span_ok xs ->
  exists d, hash_chunks (class a dbg) xs = Ok d /\ bytes_ok d /\ length d = digest_size a.
Proof. exact Proof.LibraryLaws.library_digest. Qed.
Print Assumptions C22_digest.

(** cSHAKE (name and customization within the limit of C17) *)
Theorem C22_cshake128 : forall lg dbg dbg' a xs ys, log2_accurate lg -> ok_cargs a ->
  Forall span_ok xs -> Forall span_ok ys -> concat xs = concat ys ->
  exists d, ohash (Model.CShake.cls128 lg dbg) a xs = Ok d /\ ohash (Model.CShake.cls128 lg dbg') a ys = Ok d.
Proof.
  intros lg dbg dbg' a xs ys Hl Ha Hx Hy E. exists (cshake128 a (concat xs)). split.
  - exact (Proof.ObjApi.objcorrect_hash _ _ _ _ _ _ (Proof.CShake.cshake128_correct lg dbg Hl) a xs Ha Hx).
  - rewrite E. exact (Proof.ObjApi.objcorrect_hash _ _ _ _ _ _ (Proof.CShake.cshake128_correct lg dbg' Hl) a ys Ha Hy).
Qed.
Print Assumptions C22_cshake128.
Theorem C22_cshake256 : forall lg dbg dbg' a xs ys, log2_accurate lg -> ok_cargs a ->
  Forall span_ok xs -> Forall span_ok ys -> concat xs = concat ys ->
  exists d, ohash (Model.CShake.cls256 lg dbg) a xs = Ok d /\ ohash (Model.CShake.cls256 lg dbg') a ys = Ok d.
Proof.
  intros lg dbg dbg' a xs ys Hl Ha Hx Hy E. exists (cshake256 a (concat xs)). split.
  - exact (Proof.ObjApi.objcorrect_hash _ _ _ _ _ _ (Proof.CShake.cshake256_correct lg dbg Hl) a xs Ha Hx).
  - rewrite E. exact (Proof.ObjApi.objcorrect_hash _ _ _ _ _ _ (Proof.CShake.cshake256_correct lg dbg' Hl) a ys Ha Hy).
Qed.
Print Assumptions C22_cshake256.

(** a long message in pieces of 1, 63, 0, 64, 65 and 107 bytes, and in one *)
Definition pieces : list (list N) :=
  [firstn 1 (counting 300); firstn 63 (skipn 1 (counting 300)); []; firstn 64 (skipn 64 (counting 300));
   firstn 65 (skipn 128 (counting 300)); skipn 193 (counting 300)].
Example C22_case_pieces : Forall span_ok pieces /\ Forall span_ok [counting 300] /\ concat pieces = concat [counting 300].
Proof. split; [spans|]. split; [spans|vm_compute; reflexivity]. Qed.
Example C22_case_keys : well_formed (SipHash 0x0706050403020100 0x0f0e0d0c0b0a0908).
Proof. split; reflexivity. Qed.
Example C22_case : hash_chunks (class SHA1 true) pieces = hash_chunks (class SHA1 false) [counting 300].
Proof. apply C22_library; [exact I|apply C22_case_pieces|apply C22_case_pieces|apply C22_case_pieces]. Qed.
Example C22_case_value : hash_chunks (class CRC_32 true) pieces = hash_chunks (class CRC_32 false) [counting 300] /\
  hash_chunks (class CRC_32 true) pieces = Ok (unhex "3abcfcee").
Proof. split; [apply C22_library; [exact I|apply C22_case_pieces|apply C22_case_pieces|apply C22_case_pieces]|vm_compute; reflexivity]. Qed.
Example C22_case_cshake : exists d,
  ohash (Model.CShake.cls128 Proof.Log2Witness.correct_log2 true) (32%Z, [], text "Email Signature") pieces = Ok d /\
  ohash (Model.CShake.cls128 Proof.Log2Witness.correct_log2 false) (32%Z, [], text "Email Signature") [counting 300] = Ok d.
Proof.
  apply C22_cshake128; [exact Proof.Log2Witness.correct_log2_accurate| |apply C22_case_pieces|apply C22_case_pieces|apply C22_case_pieces].
  split; [discriminate|]. split; shorts.
Qed.
