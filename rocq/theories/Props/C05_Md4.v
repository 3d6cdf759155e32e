(** C05: MD4 computes the MD4 of RFC 1320. *)
From Coq Require Import String List NArith.
From Verif.Base Require Import Res.
From Verif.Spec Require Import Words Client.
From Verif.Model Require Import Api.
From Verif.Tests Require Import Kit.
From Verif.Spec Require Md4.
From Verif.Model Require Md4.
From Verif.Proof Require Api.
From Verif.Proof Require Md4.
Import ListNotations.

(** MD4: any sequence of addData calls, then finalize() and toArray()/toVector(). *)
Theorem C05_md4 : forall dbg chunks,
  Forall span_ok chunks ->
  hash_chunks (Model.Md4.cls dbg) chunks = Ok (Spec.Md4.md4 (concat chunks)).
Proof. exact (fun dbg chunks H => Proof.Api.correct_chunks _ _ _ (Proof.Md4.md4_correct dbg) chunks H I). Qed.
Print Assumptions C05_md4.

(** every program over any number of such objects (addData, finalize, reset, copies, read-outs) *)
Theorem C05_md4_history : forall dbg p os s',
  arun Spec.Md4.md4 (fun _ => True) p (fun _ => afresh) os s' ->
  exists st', exec (Model.Md4.cls dbg) p (fun _ => c_new (Model.Md4.cls dbg)) = Ok (os, st').
Proof. exact (fun dbg => Proof.Api.correct_history _ _ _ (Proof.Md4.md4_correct dbg)). Qed.
Print Assumptions C05_md4_history.

Example C05_md4_case1 : let chunks := [text "ab"; []; text "c"] in
  Forall span_ok chunks /\ Spec.Md4.md4 (concat chunks) =
  unhex "a448017aaf21d8525fc10ae87aa6729d".
Proof. digest_case (C05_md4 true). Qed.

Example C05_md4_case2 : let chunks := [text "The quick brown fox jumps over the lazy dog"; text "The quick brown fox jumps over the lazy dogThe quick brown fox jumps over the lazy dog"] in
  Forall span_ok chunks /\ Spec.Md4.md4 (concat chunks) =
  unhex "2edf6465507c0176b90c87d19a7d988e".
Proof. digest_case (C05_md4 false). Qed.

Example C05_md4_demo : exists os s',
  arun Spec.Md4.md4 (fun _ => True) demo (fun _ => afresh) os s' /\
  nth_error os 2 = Some (ONum 0xa448017a).
Proof. demo_case C05_md4_case1. Qed.
