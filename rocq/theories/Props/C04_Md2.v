(** C04: MD2 computes the MD2 of RFC 1319. *)
From Coq Require Import String List NArith.
From Verif.Base Require Import Res.
From Verif.Spec Require Import Words Client.
From Verif.Model Require Import Api.
From Verif.Tests Require Import Kit.
From Verif.Spec Require Md2.
From Verif.Model Require Md2.
From Verif.Proof Require Api.
From Verif.Proof Require Md2.
Import ListNotations.

(** MD2: any sequence of addData calls, then finalize() and toArray()/toVector(). *)
Theorem C04_md2 : forall dbg chunks,
  Forall span_ok chunks ->
  hash_chunks (Model.Md2.cls dbg) chunks = Ok (Spec.Md2.md2 (concat chunks)).
Proof. exact (fun dbg chunks H => Proof.Api.correct_chunks _ _ _ (Proof.Md2.md2_correct dbg) chunks H I). Qed.
Print Assumptions C04_md2.

(** every program over any number of such objects (addData, finalize, reset, copies, read-outs) *)
Theorem C04_md2_history : forall dbg p os s',
  arun Spec.Md2.md2 (fun _ => True) p (fun _ => afresh) os s' ->
  exists st', exec (Model.Md2.cls dbg) p (fun _ => c_new (Model.Md2.cls dbg)) = Ok (os, st').
Proof. exact (fun dbg => Proof.Api.correct_history _ _ _ (Proof.Md2.md2_correct dbg)). Qed.
Print Assumptions C04_md2_history.

Example C04_md2_case1 : let chunks := [text "ab"; []; text "c"] in
  Forall span_ok chunks /\ Spec.Md2.md2 (concat chunks) =
  unhex "da853b0d3f88d99b30283a69e6ded6bb".
Proof. digest_case (C04_md2 true). Qed.

Example C04_md2_case2 : let chunks := [text "The quick brown fox jumps over the lazy dog"; text "The quick brown fox jumps over the lazy dogThe quick brown fox jumps over the lazy dog"] in
  Forall span_ok chunks /\ Spec.Md2.md2 (concat chunks) =
  unhex "a7e3d94a42f4cf37aca6ef3fda6882c6".
Proof. digest_case (C04_md2 false). Qed.

Example C04_md2_demo : exists os s',
  arun Spec.Md2.md2 (fun _ => True) demo (fun _ => afresh) os s' /\
  nth_error os 2 = Some (ONum 0xda853b0d).
Proof. demo_case C04_md2_case1. Qed.
