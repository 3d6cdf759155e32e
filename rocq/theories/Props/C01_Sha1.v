(** C01: SHA_1 computes the SHA-1 of FIPS 180-4. *)
From Coq Require Import String List NArith.
From Verif.Base Require Import Res.
From Verif.Spec Require Import Words Client.
From Verif.Model Require Import Api.
From Verif.Tests Require Import Kit.
From Verif.Spec Require Sha1.
From Verif.Model Require Sha1.
From Verif.Proof Require Api.
From Verif.Proof Require Sha1.
Import ListNotations.

(** SHA_1: any sequence of addData calls, then finalize() and toArray()/toVector(). *)
Theorem C01_sha1 : forall dbg chunks,
  Forall span_ok chunks ->
  hash_chunks (Model.Sha1.cls dbg) chunks = Ok (Spec.Sha1.sha1 (concat chunks)).
Proof. exact (fun dbg chunks H => Proof.Api.correct_chunks _ _ _ (Proof.Sha1.sha1_correct dbg) chunks H I). Qed.
Print Assumptions C01_sha1.

(** every program over any number of such objects (addData, finalize, reset, copies, read-outs) *)
Theorem C01_sha1_history : forall dbg p os s',
  arun Spec.Sha1.sha1 (fun _ => True) p (fun _ => afresh) os s' ->
  exists st', exec (Model.Sha1.cls dbg) p (fun _ => c_new (Model.Sha1.cls dbg)) = Ok (os, st').
Proof. exact (fun dbg => Proof.Api.correct_history _ _ _ (Proof.Sha1.sha1_correct dbg)). Qed.
Print Assumptions C01_sha1_history.

Example C01_sha1_case1 : let chunks := [text "ab"; []; text "c"] in
  Forall span_ok chunks /\ Spec.Sha1.sha1 (concat chunks) =
  unhex "a9993e364706816aba3e25717850c26c9cd0d89d".
Proof. digest_case (C01_sha1 true). Qed.

Example C01_sha1_case2 : let chunks := [counting 55; counting 12] in
  Forall span_ok chunks /\ Spec.Sha1.sha1 (concat chunks) =
  unhex "093d0ac9661d6bcacc1f22397d6791756aff457f".
Proof. digest_case (C01_sha1 false). Qed.

Example C01_sha1_demo : exists os s',
  arun Spec.Sha1.sha1 (fun _ => True) demo (fun _ => afresh) os s' /\
  nth_error os 2 = Some (ONum 0xa9993e36).
Proof. demo_case C01_sha1_case1. Qed.
