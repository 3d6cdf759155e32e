(** C06: MD5 computes the MD5 of RFC 1321. *)
From Coq Require Import String List NArith.
From Verif.Base Require Import Res.
From Verif.Spec Require Import Words Client.
From Verif.Model Require Import Api.
From Verif.Tests Require Import Kit.
From Verif.Spec Require Md5.
From Verif.Model Require Md5.
From Verif.Proof Require Api.
From Verif.Proof Require Md5.
Import ListNotations.

(** MD5: any sequence of addData calls, then finalize() and toArray()/toVector(). *)
Theorem C06_md5 : forall dbg chunks,
  Forall span_ok chunks ->
  hash_chunks (Model.Md5.cls dbg) chunks = Ok (Spec.Md5.md5 (concat chunks)).
Proof. exact (fun dbg chunks H => Proof.Api.correct_chunks _ _ _ (Proof.Md5.md5_correct dbg) chunks H I). Qed.
Print Assumptions C06_md5.

(** every program over any number of such objects (addData, finalize, reset, copies, read-outs) *)
Theorem C06_md5_history : forall dbg p os s',
  arun Spec.Md5.md5 (fun _ => True) p (fun _ => afresh) os s' ->
  exists st', exec (Model.Md5.cls dbg) p (fun _ => c_new (Model.Md5.cls dbg)) = Ok (os, st').
Proof. exact (fun dbg => Proof.Api.correct_history _ _ _ (Proof.Md5.md5_correct dbg)). Qed.
Print Assumptions C06_md5_history.

Example C06_md5_case1 : let chunks := [text "ab"; []; text "c"] in
  Forall span_ok chunks /\ Spec.Md5.md5 (concat chunks) =
  unhex "900150983cd24fb0d6963f7d28e17f72".
Proof. digest_case (C06_md5 true). Qed.

Example C06_md5_case2 : let chunks := [text "The quick brown fox jumps over the lazy dog"; text "The quick brown fox jumps over the lazy dogThe quick brown fox jumps over the lazy dog"] in
  Forall span_ok chunks /\ Spec.Md5.md5 (concat chunks) =
  unhex "4e67db4a7a406b0cfdadd887cde7888e".
Proof. digest_case (C06_md5 false). Qed.

Example C06_md5_demo : exists os s',
  arun Spec.Md5.md5 (fun _ => True) demo (fun _ => afresh) os s' /\
  nth_error os 2 = Some (ONum 0x90015098).
Proof. demo_case C06_md5_case1. Qed.
