(** C07: the four RIPEMD classes compute the RIPEMD functions. *)
From Coq Require Import String List NArith.
From Verif.Base Require Import Res.
From Verif.Spec Require Import Words Client.
From Verif.Model Require Import Api.
From Verif.Tests Require Import Kit.
From Verif.Spec Require Ripemd.
From Verif.Model Require Ripemd.
From Verif.Proof Require Api.
From Verif.Proof Require Ripemd.
Import ListNotations.

(** RIPEMD_128: any sequence of addData calls, then finalize() and toArray()/toVector(). *)
Theorem C07_ripemd128 : forall dbg chunks,
  Forall span_ok chunks ->
  hash_chunks (Model.Ripemd.cls128 dbg) chunks = Ok (Spec.Ripemd.ripemd128 (concat chunks)).
Proof. exact (fun dbg chunks H => Proof.Api.correct_chunks _ _ _ (Proof.Ripemd.ripemd128_correct dbg) chunks H I). Qed.
Print Assumptions C07_ripemd128.

(** every program over any number of such objects (addData, finalize, reset, copies, read-outs) *)
Theorem C07_ripemd128_history : forall dbg p os s',
  arun Spec.Ripemd.ripemd128 (fun _ => True) p (fun _ => afresh) os s' ->
  exists st', exec (Model.Ripemd.cls128 dbg) p (fun _ => c_new (Model.Ripemd.cls128 dbg)) = Ok (os, st').
Proof. exact (fun dbg => Proof.Api.correct_history _ _ _ (Proof.Ripemd.ripemd128_correct dbg)). Qed.
Print Assumptions C07_ripemd128_history.

Example C07_ripemd128_case1 : let chunks := [text "ab"; []; text "c"] in
  Forall span_ok chunks /\ Spec.Ripemd.ripemd128 (concat chunks) =
  unhex "c14a12199c66e4ba84636b0f69144c77".
Proof. digest_case (C07_ripemd128 true). Qed.

Example C07_ripemd128_case2 : let chunks := [text "The quick brown fox jumps over the lazy dog"; text "The quick brown fox jumps over the lazy dogThe quick brown fox jumps over the lazy dog"] in
  Forall span_ok chunks /\ Spec.Ripemd.ripemd128 (concat chunks) =
  unhex "508b5dac78e7aa731d8a4fb8ac4e6d48".
Proof. digest_case (C07_ripemd128 false). Qed.

Example C07_ripemd128_demo : exists os s',
  arun Spec.Ripemd.ripemd128 (fun _ => True) demo (fun _ => afresh) os s' /\
  nth_error os 2 = Some (ONum 0xc14a1219).
Proof. demo_case C07_ripemd128_case1. Qed.

(** RIPEMD_160: any sequence of addData calls, then finalize() and toArray()/toVector(). *)
Theorem C07_ripemd160 : forall dbg chunks,
  Forall span_ok chunks ->
  hash_chunks (Model.Ripemd.cls160 dbg) chunks = Ok (Spec.Ripemd.ripemd160 (concat chunks)).
Proof. exact (fun dbg chunks H => Proof.Api.correct_chunks _ _ _ (Proof.Ripemd.ripemd160_correct dbg) chunks H I). Qed.
Print Assumptions C07_ripemd160.

(** every program over any number of such objects (addData, finalize, reset, copies, read-outs) *)
Theorem C07_ripemd160_history : forall dbg p os s',
  arun Spec.Ripemd.ripemd160 (fun _ => True) p (fun _ => afresh) os s' ->
  exists st', exec (Model.Ripemd.cls160 dbg) p (fun _ => c_new (Model.Ripemd.cls160 dbg)) = Ok (os, st').
Proof. exact (fun dbg => Proof.Api.correct_history _ _ _ (Proof.Ripemd.ripemd160_correct dbg)). Qed.
Print Assumptions C07_ripemd160_history.

Example C07_ripemd160_case1 : let chunks := [text "ab"; []; text "c"] in
  Forall span_ok chunks /\ Spec.Ripemd.ripemd160 (concat chunks) =
  unhex "8eb208f7e05d987a9b044a8e98c6b087f15a0bfc".
Proof. digest_case (C07_ripemd160 true). Qed.

Example C07_ripemd160_case2 : let chunks := [text "The quick brown fox jumps over the lazy dog"; text "The quick brown fox jumps over the lazy dogThe quick brown fox jumps over the lazy dog"] in
  Forall span_ok chunks /\ Spec.Ripemd.ripemd160 (concat chunks) =
  unhex "80407833d8f49264dcf4de5c019b3bf9942cc040".
Proof. digest_case (C07_ripemd160 false). Qed.

Example C07_ripemd160_demo : exists os s',
  arun Spec.Ripemd.ripemd160 (fun _ => True) demo (fun _ => afresh) os s' /\
  nth_error os 2 = Some (ONum 0x8eb208f7).
Proof. demo_case C07_ripemd160_case1. Qed.

(** RIPEMD_256: any sequence of addData calls, then finalize() and toArray()/toVector(). *)
Theorem C07_ripemd256 : forall dbg chunks,
  Forall span_ok chunks ->
  hash_chunks (Model.Ripemd.cls256 dbg) chunks = Ok (Spec.Ripemd.ripemd256 (concat chunks)).
Proof. exact (fun dbg chunks H => Proof.Api.correct_chunks _ _ _ (Proof.Ripemd.ripemd256_correct dbg) chunks H I). Qed.
Print Assumptions C07_ripemd256.

(** every program over any number of such objects (addData, finalize, reset, copies, read-outs) *)
Theorem C07_ripemd256_history : forall dbg p os s',
  arun Spec.Ripemd.ripemd256 (fun _ => True) p (fun _ => afresh) os s' ->
  exists st', exec (Model.Ripemd.cls256 dbg) p (fun _ => c_new (Model.Ripemd.cls256 dbg)) = Ok (os, st').
Proof. exact (fun dbg => Proof.Api.correct_history _ _ _ (Proof.Ripemd.ripemd256_correct dbg)). Qed.
Print Assumptions C07_ripemd256_history.

Example C07_ripemd256_case1 : let chunks := [text "ab"; []; text "c"] in
  Forall span_ok chunks /\ Spec.Ripemd.ripemd256 (concat chunks) =
  unhex "afbd6e228b9d8cbbcef5ca2d03e6dba10ac0bc7dcbe4680e1e42d2e975459b65".
Proof. digest_case (C07_ripemd256 true). Qed.

Example C07_ripemd256_case2 : let chunks := [text "The quick brown fox jumps over the lazy dog"; text "The quick brown fox jumps over the lazy dogThe quick brown fox jumps over the lazy dog"] in
  Forall span_ok chunks /\ Spec.Ripemd.ripemd256 (concat chunks) =
  unhex "6b7f038ccb610c829f4e7a7dcc07dd3f3d3e2d2869b1ffbbd6a3eda828aba861".
Proof. digest_case (C07_ripemd256 false). Qed.

Example C07_ripemd256_demo : exists os s',
  arun Spec.Ripemd.ripemd256 (fun _ => True) demo (fun _ => afresh) os s' /\
  nth_error os 2 = Some (ONum 0xafbd6e22).
Proof. demo_case C07_ripemd256_case1. Qed.

(** RIPEMD_320: any sequence of addData calls, then finalize() and toArray()/toVector(). *)
Theorem C07_ripemd320 : forall dbg chunks,
  Forall span_ok chunks ->
  hash_chunks (Model.Ripemd.cls320 dbg) chunks = Ok (Spec.Ripemd.ripemd320 (concat chunks)).
Proof. exact (fun dbg chunks H => Proof.Api.correct_chunks _ _ _ (Proof.Ripemd.ripemd320_correct dbg) chunks H I). Qed.
Print Assumptions C07_ripemd320.

(** every program over any number of such objects (addData, finalize, reset, copies, read-outs) *)
Theorem C07_ripemd320_history : forall dbg p os s',
  arun Spec.Ripemd.ripemd320 (fun _ => True) p (fun _ => afresh) os s' ->
  exists st', exec (Model.Ripemd.cls320 dbg) p (fun _ => c_new (Model.Ripemd.cls320 dbg)) = Ok (os, st').
Proof. exact (fun dbg => Proof.Api.correct_history _ _ _ (Proof.Ripemd.ripemd320_correct dbg)). Qed.
Print Assumptions C07_ripemd320_history.

Example C07_ripemd320_case1 : let chunks := [text "ab"; []; text "c"] in
  Forall span_ok chunks /\ Spec.Ripemd.ripemd320 (concat chunks) =
  unhex "de4c01b3054f8930a79d09ae738e92301e5a17085beffdc1b8d116713e74f82fa942d64cdbc4682d".
Proof. digest_case (C07_ripemd320 true). Qed.

Example C07_ripemd320_case2 : let chunks := [text "The quick brown fox jumps over the lazy dog"; text "The quick brown fox jumps over the lazy dogThe quick brown fox jumps over the lazy dog"] in
  Forall span_ok chunks /\ Spec.Ripemd.ripemd320 (concat chunks) =
  unhex "b572d7abb2e028ca63a0a987d6c3bff15e6cdd8a18ce08f65b4ecbdbd7fdb0f2fed2788d3b9cd4f9".
Proof. digest_case (C07_ripemd320 false). Qed.

Example C07_ripemd320_demo : exists os s',
  arun Spec.Ripemd.ripemd320 (fun _ => True) demo (fun _ => afresh) os s' /\
  nth_error os 2 = Some (ONum 0xde4c01b3).
Proof. demo_case C07_ripemd320_case1. Qed.
