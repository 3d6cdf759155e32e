(** C09: SM3 computes SM3. *)
From Coq Require Import String List NArith.
From Verif.Base Require Import Res.
From Verif.Spec Require Import Words Client.
From Verif.Model Require Import Api.
From Verif.Tests Require Import Kit.
From Verif.Spec Require Sm3.
From Verif.Model Require Sm3.
From Verif.Proof Require Api.
From Verif.Proof Require Sm3.
Import ListNotations.

(** SM3: any sequence of addData calls, then finalize() and toArray()/toVector(). *)
Theorem C09_sm3 : forall dbg chunks,
  Forall span_ok chunks ->
  hash_chunks (Model.Sm3.cls dbg) chunks = Ok (Spec.Sm3.sm3 (concat chunks)).
Proof. exact (fun dbg chunks H => Proof.Api.correct_chunks _ _ _ (Proof.Sm3.sm3_correct dbg) chunks H I). Qed.
Print Assumptions C09_sm3.

(** every program over any number of such objects (addData, finalize, reset, copies, read-outs) *)
Theorem C09_sm3_history : forall dbg p os s',
  arun Spec.Sm3.sm3 (fun _ => True) p (fun _ => afresh) os s' ->
  exists st', exec (Model.Sm3.cls dbg) p (fun _ => c_new (Model.Sm3.cls dbg)) = Ok (os, st').
Proof. exact (fun dbg => Proof.Api.correct_history _ _ _ (Proof.Sm3.sm3_correct dbg)). Qed.
Print Assumptions C09_sm3_history.

Example C09_sm3_case1 : let chunks := [text "ab"; []; text "c"] in
  Forall span_ok chunks /\ Spec.Sm3.sm3 (concat chunks) =
  unhex "66c7f0f462eeedd9d1f2d46bdc10e4e24167c4875cf2f7a2297da02b8f4ba8e0".
Proof. digest_case (C09_sm3 true). Qed.

Example C09_sm3_case2 : let chunks := [text "The quick brown fox jumps over the lazy dog"; text "The quick brown fox jumps over the lazy dogThe quick brown fox jumps over the lazy dog"] in
  Forall span_ok chunks /\ Spec.Sm3.sm3 (concat chunks) =
  unhex "806e7de3d0e9196246d0966b91ca92916532ebdcf5cee8958dca4cf37600aebc".
Proof. digest_case (C09_sm3 false). Qed.

Example C09_sm3_demo : exists os s',
  arun Spec.Sm3.sm3 (fun _ => True) demo (fun _ => afresh) os s' /\
  nth_error os 2 = Some (ONum 0x66c7f0f4).
Proof. demo_case C09_sm3_case1. Qed.
