(** C10: Tiger1_192 and Tiger2_192 compute Tiger and Tiger2. *)
From Coq Require Import String List NArith.
From Verif.Base Require Import Res.
From Verif.Spec Require Import Words Client.
From Verif.Model Require Import Api.
From Verif.Tests Require Import Kit.
From Verif.Spec Require Tiger.
From Verif.Model Require Tiger.
From Verif.Proof Require Api.
From Verif.Proof Require Tiger.
Import ListNotations.

(** Tiger1_192: any sequence of addData calls, then finalize() and toArray()/toVector(). *)
Theorem C10_tiger : forall dbg chunks,
  Forall span_ok chunks ->
  hash_chunks (Model.Tiger.cls 1 24 dbg) chunks = Ok (Spec.Tiger.tiger (concat chunks)).
Proof. exact (fun dbg chunks H => Proof.Api.correct_chunks _ _ _ (Proof.Tiger.tiger_correct dbg) chunks H I). Qed.
Print Assumptions C10_tiger.

(** every program over any number of such objects (addData, finalize, reset, copies, read-outs) *)
Theorem C10_tiger_history : forall dbg p os s',
  arun Spec.Tiger.tiger (fun _ => True) p (fun _ => afresh) os s' ->
  exists st', exec (Model.Tiger.cls 1 24 dbg) p (fun _ => c_new (Model.Tiger.cls 1 24 dbg)) = Ok (os, st').
Proof. exact (fun dbg => Proof.Api.correct_history _ _ _ (Proof.Tiger.tiger_correct dbg)). Qed.
Print Assumptions C10_tiger_history.

Example C10_tiger_case1 : let chunks := [text "ab"; []; text "c"] in
  Forall span_ok chunks /\ Spec.Tiger.tiger (concat chunks) =
  unhex "2aab1484e8c158f2bfb8c5ff41b57a525129131c957b5f93".
Proof. digest_case (C10_tiger true). Qed.

Example C10_tiger_case2 : let chunks := [text "The quick brown fox jumps over the lazy dog"; text "The quick brown fox jumps over the lazy dogThe quick brown fox jumps over the lazy dog"] in
  Forall span_ok chunks /\ Spec.Tiger.tiger (concat chunks) =
  unhex "b68a2822f8f79df4dd12cd7261bce1a022297af27958d304".
Proof. digest_case (C10_tiger false). Qed.

Example C10_tiger_demo : exists os s',
  arun Spec.Tiger.tiger (fun _ => True) demo (fun _ => afresh) os s' /\
  nth_error os 2 = Some (ONum 0x2aab1484).
Proof. demo_case C10_tiger_case1. Qed.

(** Tiger2_192: any sequence of addData calls, then finalize() and toArray()/toVector(). *)
Theorem C10_tiger2 : forall dbg chunks,
  Forall span_ok chunks ->
  hash_chunks (Model.Tiger.cls 2 24 dbg) chunks = Ok (Spec.Tiger.tiger2 (concat chunks)).
Proof. exact (fun dbg chunks H => Proof.Api.correct_chunks _ _ _ (Proof.Tiger.tiger2_correct dbg) chunks H I). Qed.
Print Assumptions C10_tiger2.

(** every program over any number of such objects (addData, finalize, reset, copies, read-outs) *)
Theorem C10_tiger2_history : forall dbg p os s',
  arun Spec.Tiger.tiger2 (fun _ => True) p (fun _ => afresh) os s' ->
  exists st', exec (Model.Tiger.cls 2 24 dbg) p (fun _ => c_new (Model.Tiger.cls 2 24 dbg)) = Ok (os, st').
Proof. exact (fun dbg => Proof.Api.correct_history _ _ _ (Proof.Tiger.tiger2_correct dbg)). Qed.
Print Assumptions C10_tiger2_history.

Example C10_tiger2_case1 : let chunks := [text "ab"; []; text "c"] in
  Forall span_ok chunks /\ Spec.Tiger.tiger2 (concat chunks) =
  unhex "f68d7bc5af4b43a06e048d7829560d4a9415658bb0b1f3bf".
Proof. digest_case (C10_tiger2 true). Qed.

Example C10_tiger2_case2 : let chunks := [text "The quick brown fox jumps over the lazy dog"; text "The quick brown fox jumps over the lazy dogThe quick brown fox jumps over the lazy dog"] in
  Forall span_ok chunks /\ Spec.Tiger.tiger2 (concat chunks) =
  unhex "2ba7384e75cb63b58a52964208fdefc692b932a00c04bcfb".
Proof. digest_case (C10_tiger2 false). Qed.

Example C10_tiger2_demo : exists os s',
  arun Spec.Tiger.tiger2 (fun _ => True) demo (fun _ => afresh) os s' /\
  nth_error os 2 = Some (ONum 0xf68d7bc5).
Proof. demo_case C10_tiger2_case1. Qed.
