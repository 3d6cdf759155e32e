(** C02: SHA2_224 and SHA2_256 compute the functions of FIPS 180-4. *)
From Coq Require Import String List NArith.
From Verif.Base Require Import Res.
From Verif.Spec Require Import Words Client.
From Verif.Model Require Import Api.
From Verif.Tests Require Import Kit.
From Verif.Spec Require Sha2.
From Verif.Model Require Sha2.
From Verif.Proof Require Api.
From Verif.Proof Require Sha2.
Import ListNotations.

(** SHA2_224: any sequence of addData calls, then finalize() and toArray()/toVector(). *)
Theorem C02_sha224 : forall dbg chunks,
  Forall span_ok chunks ->
  hash_chunks (Model.Sha2.cls224 dbg) chunks = Ok (Spec.Sha2.sha224 (concat chunks)).
Proof. exact (fun dbg chunks H => Proof.Api.correct_chunks _ _ _ (Proof.Sha2.sha224_correct dbg) chunks H I). Qed.
Print Assumptions C02_sha224.

(** every program over any number of such objects (addData, finalize, reset, copies, read-outs) *)
Theorem C02_sha224_history : forall dbg p os s',
  arun Spec.Sha2.sha224 (fun _ => True) p (fun _ => afresh) os s' ->
  exists st', exec (Model.Sha2.cls224 dbg) p (fun _ => c_new (Model.Sha2.cls224 dbg)) = Ok (os, st').
Proof. exact (fun dbg => Proof.Api.correct_history _ _ _ (Proof.Sha2.sha224_correct dbg)). Qed.
Print Assumptions C02_sha224_history.

Example C02_sha224_case1 : let chunks := [text "ab"; []; text "c"] in
  Forall span_ok chunks /\ Spec.Sha2.sha224 (concat chunks) =
  unhex "23097d223405d8228642a477bda255b32aadbce4bda0b3f7e36c9da7".
Proof. digest_case (C02_sha224 true). Qed.

Example C02_sha224_case2 : let chunks := [counting 55; counting 12] in
  Forall span_ok chunks /\ Spec.Sha2.sha224 (concat chunks) =
  unhex "0906e577ccbd6ffa42f35f38a738e9b70a2eaa8acd5a3c550187cb92".
Proof. digest_case (C02_sha224 false). Qed.

Example C02_sha224_demo : exists os s',
  arun Spec.Sha2.sha224 (fun _ => True) demo (fun _ => afresh) os s' /\
  nth_error os 2 = Some (ONum 0x23097d22).
Proof. demo_case C02_sha224_case1. Qed.

(** SHA2_256: any sequence of addData calls, then finalize() and toArray()/toVector(). *)
Theorem C02_sha256 : forall dbg chunks,
  Forall span_ok chunks ->
  hash_chunks (Model.Sha2.cls256 dbg) chunks = Ok (Spec.Sha2.sha256 (concat chunks)).
Proof. exact (fun dbg chunks H => Proof.Api.correct_chunks _ _ _ (Proof.Sha2.sha256_correct dbg) chunks H I). Qed.
Print Assumptions C02_sha256.

(** every program over any number of such objects (addData, finalize, reset, copies, read-outs) *)
Theorem C02_sha256_history : forall dbg p os s',
  arun Spec.Sha2.sha256 (fun _ => True) p (fun _ => afresh) os s' ->
  exists st', exec (Model.Sha2.cls256 dbg) p (fun _ => c_new (Model.Sha2.cls256 dbg)) = Ok (os, st').
Proof. exact (fun dbg => Proof.Api.correct_history _ _ _ (Proof.Sha2.sha256_correct dbg)). Qed.
Print Assumptions C02_sha256_history.

Example C02_sha256_case1 : let chunks := [text "ab"; []; text "c"] in
  Forall span_ok chunks /\ Spec.Sha2.sha256 (concat chunks) =
  unhex "ba7816bf8f01cfea414140de5dae2223b00361a396177a9cb410ff61f20015ad".
Proof. digest_case (C02_sha256 true). Qed.

Example C02_sha256_case2 : let chunks := [counting 55; counting 12] in
  Forall span_ok chunks /\ Spec.Sha2.sha256 (concat chunks) =
  unhex "3c88fa0a70440c1a7c1889a7d8ca8cb1d7e23f393f5dff47bd1a10c1bcd600c5".
Proof. digest_case (C02_sha256 false). Qed.

Example C02_sha256_demo : exists os s',
  arun Spec.Sha2.sha256 (fun _ => True) demo (fun _ => afresh) os s' /\
  nth_error os 2 = Some (ONum 0xba7816bf).
Proof. demo_case C02_sha256_case1. Qed.
