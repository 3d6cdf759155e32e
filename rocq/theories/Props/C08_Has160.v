(** C08: HAS_160 computes HAS-160. *)
From Coq Require Import String List NArith.
From Verif.Base Require Import Res.
From Verif.Spec Require Import Words Client.
From Verif.Model Require Import Api.
From Verif.Tests Require Import Kit.
From Verif.Spec Require Has160.
From Verif.Model Require Has160.
From Verif.Proof Require Api.
From Verif.Proof Require Has160.
Import ListNotations.

(** HAS_160: any sequence of addData calls, then finalize() and toArray()/toVector(). *)
Theorem C08_has160 : forall dbg chunks,
  Forall span_ok chunks ->
  hash_chunks (Model.Has160.cls dbg) chunks = Ok (Spec.Has160.has160 (concat chunks)).
Proof. exact (fun dbg chunks H => Proof.Api.correct_chunks _ _ _ (Proof.Has160.has160_correct dbg) chunks H I). Qed.
Print Assumptions C08_has160.

(** every program over any number of such objects (addData, finalize, reset, copies, read-outs) *)
Theorem C08_has160_history : forall dbg p os s',
  arun Spec.Has160.has160 (fun _ => True) p (fun _ => afresh) os s' ->
  exists st', exec (Model.Has160.cls dbg) p (fun _ => c_new (Model.Has160.cls dbg)) = Ok (os, st').
Proof. exact (fun dbg => Proof.Api.correct_history _ _ _ (Proof.Has160.has160_correct dbg)). Qed.
Print Assumptions C08_has160_history.

Example C08_has160_case1 : let chunks := [text "ab"; []; text "c"] in
  Forall span_ok chunks /\ Spec.Has160.has160 (concat chunks) =
  unhex "975e810488cf2a3d49838478124afce4b1c78804".
Proof. digest_case (C08_has160 true). Qed.

Example C08_has160_case2 : let chunks := [text "The quick brown fox jumps over the lazy dog"; text "The quick brown fox jumps over the lazy dogThe quick brown fox jumps over the lazy dog"] in
  Forall span_ok chunks /\ Spec.Has160.has160 (concat chunks) =
  unhex "8a2fb9250c69ef66db41b65f06649554f565c24b".
Proof. digest_case (C08_has160 false). Qed.

Example C08_has160_demo : exists os s',
  arun Spec.Has160.has160 (fun _ => True) demo (fun _ => afresh) os s' /\
  nth_error os 2 = Some (ONum 0x975e8104).
Proof. demo_case C08_has160_case1. Qed.
