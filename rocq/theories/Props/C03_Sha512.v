(** C03: SHA2_384, SHA2_512, SHA2_512_224 and SHA2_512_256 compute the functions of FIPS 180-4. *)
From Coq Require Import String List NArith.
From Verif.Base Require Import Res.
From Verif.Spec Require Import Words Client.
From Verif.Model Require Import Api.
From Verif.Tests Require Import Kit.
From Verif.Spec Require Sha2.
From Verif.Model Require Sha2.
From Verif.Proof Require Api.
From Verif.Proof Require Sha2.
Import ListNotations.

(** SHA2_384: any sequence of addData calls, then finalize() and toArray()/toVector(). *)
Theorem C03_sha384 : forall dbg chunks,
  Forall span_ok chunks ->
  hash_chunks (Model.Sha2.cls384 dbg) chunks = Ok (Spec.Sha2.sha384 (concat chunks)).
Proof. exact (fun dbg chunks H => Proof.Api.correct_chunks _ _ _ (Proof.Sha2.sha384_correct dbg) chunks H I). Qed.
Print Assumptions C03_sha384.

(** every program over any number of such objects (addData, finalize, reset, copies, read-outs) *)
Theorem C03_sha384_history : forall dbg p os s',
  arun Spec.Sha2.sha384 (fun _ => True) p (fun _ => afresh) os s' ->
  exists st', exec (Model.Sha2.cls384 dbg) p (fun _ => c_new (Model.Sha2.cls384 dbg)) = Ok (os, st').
Proof. exact (fun dbg => Proof.Api.correct_history _ _ _ (Proof.Sha2.sha384_correct dbg)). Qed.
Print Assumptions C03_sha384_history.

Example C03_sha384_case1 : let chunks := [text "ab"; []; text "c"] in
  Forall span_ok chunks /\ Spec.Sha2.sha384 (concat chunks) =
  unhex "cb00753f45a35e8bb5a03d699ac65007272c32ab0eded1631a8b605a43ff5bed8086072ba1e7cc2358baeca134c825a7".
Proof. digest_case (C03_sha384 true). Qed.

Example C03_sha384_case2 : let chunks := [counting 119; counting 12] in
  Forall span_ok chunks /\ Spec.Sha2.sha384 (concat chunks) =
  unhex "04257d0bfa5ee7ea73712ac78d397b6ecb8cbbfec96553878e8205d349589eece7bc5c5343993c1a50370a17d13fb839".
Proof. digest_case (C03_sha384 false). Qed.

Example C03_sha384_demo : exists os s',
  arun Spec.Sha2.sha384 (fun _ => True) demo (fun _ => afresh) os s' /\
  nth_error os 2 = Some (ONum 0xcb00753f).
Proof. demo_case C03_sha384_case1. Qed.

(** SHA2_512: any sequence of addData calls, then finalize() and toArray()/toVector(). *)
Theorem C03_sha512 : forall dbg chunks,
  Forall span_ok chunks ->
  hash_chunks (Model.Sha2.cls512 dbg) chunks = Ok (Spec.Sha2.sha512 (concat chunks)).
Proof. exact (fun dbg chunks H => Proof.Api.correct_chunks _ _ _ (Proof.Sha2.sha512_correct dbg) chunks H I). Qed.
Print Assumptions C03_sha512.

(** every program over any number of such objects (addData, finalize, reset, copies, read-outs) *)
Theorem C03_sha512_history : forall dbg p os s',
  arun Spec.Sha2.sha512 (fun _ => True) p (fun _ => afresh) os s' ->
  exists st', exec (Model.Sha2.cls512 dbg) p (fun _ => c_new (Model.Sha2.cls512 dbg)) = Ok (os, st').
Proof. exact (fun dbg => Proof.Api.correct_history _ _ _ (Proof.Sha2.sha512_correct dbg)). Qed.
Print Assumptions C03_sha512_history.

Example C03_sha512_case1 : let chunks := [text "ab"; []; text "c"] in
  Forall span_ok chunks /\ Spec.Sha2.sha512 (concat chunks) =
  unhex "ddaf35a193617abacc417349ae20413112e6fa4e89a97ea20a9eeee64b55d39a2192992a274fc1a836ba3c23a3feebbd454d4423643ce80e2a9ac94fa54ca49f".
Proof. digest_case (C03_sha512 true). Qed.

Example C03_sha512_case2 : let chunks := [counting 119; counting 12] in
  Forall span_ok chunks /\ Spec.Sha2.sha512 (concat chunks) =
  unhex "4ecbd68814f3dd20045e50d6ca416a98831a32d44f06bbf259322b1a7f4b559c605a2575ca2bc7019f1f7ef51ca3eac9a8eda8d2e130884ffccb5cbe827dce3c".
Proof. digest_case (C03_sha512 false). Qed.

Example C03_sha512_demo : exists os s',
  arun Spec.Sha2.sha512 (fun _ => True) demo (fun _ => afresh) os s' /\
  nth_error os 2 = Some (ONum 0xddaf35a1).
Proof. demo_case C03_sha512_case1. Qed.

(** SHA2_512_224: any sequence of addData calls, then finalize() and toArray()/toVector(). *)
Theorem C03_sha512_224 : forall dbg chunks,
  Forall span_ok chunks ->
  hash_chunks (Model.Sha2.cls512_224 dbg) chunks = Ok (Spec.Sha2.sha512_224 (concat chunks)).
Proof. exact (fun dbg chunks H => Proof.Api.correct_chunks _ _ _ (Proof.Sha2.sha512_224_correct dbg) chunks H I). Qed.
Print Assumptions C03_sha512_224.

(** every program over any number of such objects (addData, finalize, reset, copies, read-outs) *)
Theorem C03_sha512_224_history : forall dbg p os s',
  arun Spec.Sha2.sha512_224 (fun _ => True) p (fun _ => afresh) os s' ->
  exists st', exec (Model.Sha2.cls512_224 dbg) p (fun _ => c_new (Model.Sha2.cls512_224 dbg)) = Ok (os, st').
Proof. exact (fun dbg => Proof.Api.correct_history _ _ _ (Proof.Sha2.sha512_224_correct dbg)). Qed.
Print Assumptions C03_sha512_224_history.

Example C03_sha512_224_case1 : let chunks := [text "ab"; []; text "c"] in
  Forall span_ok chunks /\ Spec.Sha2.sha512_224 (concat chunks) =
  unhex "4634270f707b6a54daae7530460842e20e37ed265ceee9a43e8924aa".
Proof. digest_case (C03_sha512_224 true). Qed.

Example C03_sha512_224_case2 : let chunks := [counting 119; counting 12] in
  Forall span_ok chunks /\ Spec.Sha2.sha512_224 (concat chunks) =
  unhex "f7bfaeed2439616bb40e4d32b75679cfd91e5697feb97126b078e0eb".
Proof. digest_case (C03_sha512_224 false). Qed.

Example C03_sha512_224_demo : exists os s',
  arun Spec.Sha2.sha512_224 (fun _ => True) demo (fun _ => afresh) os s' /\
  nth_error os 2 = Some (ONum 0x4634270f).
Proof. demo_case C03_sha512_224_case1. Qed.

(** SHA2_512_256: any sequence of addData calls, then finalize() and toArray()/toVector(). *)
Theorem C03_sha512_256 : forall dbg chunks,
  Forall span_ok chunks ->
  hash_chunks (Model.Sha2.cls512_256 dbg) chunks = Ok (Spec.Sha2.sha512_256 (concat chunks)).
Proof. exact (fun dbg chunks H => Proof.Api.correct_chunks _ _ _ (Proof.Sha2.sha512_256_correct dbg) chunks H I). Qed.
Print Assumptions C03_sha512_256.

(** every program over any number of such objects (addData, finalize, reset, copies, read-outs) *)
Theorem C03_sha512_256_history : forall dbg p os s',
  arun Spec.Sha2.sha512_256 (fun _ => True) p (fun _ => afresh) os s' ->
  exists st', exec (Model.Sha2.cls512_256 dbg) p (fun _ => c_new (Model.Sha2.cls512_256 dbg)) = Ok (os, st').
Proof. exact (fun dbg => Proof.Api.correct_history _ _ _ (Proof.Sha2.sha512_256_correct dbg)). Qed.
Print Assumptions C03_sha512_256_history.

Example C03_sha512_256_case1 : let chunks := [text "ab"; []; text "c"] in
  Forall span_ok chunks /\ Spec.Sha2.sha512_256 (concat chunks) =
  unhex "53048e2681941ef99b2e29b76b4c7dabe4c2d0c634fc6d46e0e2f13107e7af23".
Proof. digest_case (C03_sha512_256 true). Qed.

Example C03_sha512_256_case2 : let chunks := [counting 119; counting 12] in
  Forall span_ok chunks /\ Spec.Sha2.sha512_256 (concat chunks) =
  unhex "1f7086dfe6f3797a4b1c374ac0ec8efa609e18c37408a4996a0be3d4eb8b5c77".
Proof. digest_case (C03_sha512_256 false). Qed.

Example C03_sha512_256_demo : exists os s',
  arun Spec.Sha2.sha512_256 (fun _ => True) demo (fun _ => afresh) os s' /\
  nth_error os 2 = Some (ONum 0x53048e26).
Proof. demo_case C03_sha512_256_case1. Qed.
