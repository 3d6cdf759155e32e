(** C15: the SHA3 classes compute the SHA-3 functions of FIPS 202. *)
From Coq Require Import String List NArith.
From Verif.Base Require Import Res.
From Verif.Spec Require Import Words Client.
From Verif.Model Require Import Api.
From Verif.Tests Require Import Kit.
From Verif.Spec Require Keccak.
From Verif.Model Require Keccak.
From Verif.Proof Require Api.
From Verif.Proof Require Keccak.
Import ListNotations.

(** SHA3_224: any sequence of addData calls, then finalize() and toArray()/toVector(). *)
Theorem C15_sha3_224 : forall dbg chunks,
  Forall span_ok chunks ->
  hash_chunks (Model.Keccak.cls224 dbg) chunks = Ok (Spec.Keccak.sha3_224 (concat chunks)).
Proof. exact (fun dbg chunks H => Proof.Api.correct_chunks _ _ _ (Proof.Keccak.sha3_224_correct dbg) chunks H I). Qed.
Print Assumptions C15_sha3_224.

(** every program over any number of such objects (addData, finalize, reset, copies, read-outs) *)
Theorem C15_sha3_224_history : forall dbg p os s',
  arun Spec.Keccak.sha3_224 (fun _ => True) p (fun _ => afresh) os s' ->
  exists st', exec (Model.Keccak.cls224 dbg) p (fun _ => c_new (Model.Keccak.cls224 dbg)) = Ok (os, st').
Proof. exact (fun dbg => Proof.Api.correct_history _ _ _ (Proof.Keccak.sha3_224_correct dbg)). Qed.
Print Assumptions C15_sha3_224_history.

Example C15_sha3_224_case1 : let chunks := [text "ab"; []; text "c"] in
  Forall span_ok chunks /\ Spec.Keccak.sha3_224 (concat chunks) =
  unhex "e642824c3f8cf24ad09234ee7d3c766fc9a3a5168d0c94ad73b46fdf".
Proof. digest_case (C15_sha3_224 true). Qed.

Example C15_sha3_224_case2 : let chunks := [counting 135; counting 12] in
  Forall span_ok chunks /\ Spec.Keccak.sha3_224 (concat chunks) =
  unhex "ad5b19e52078c21eb67adf2f1dd197e22ec357c8cedd09f2c780ea2e".
Proof. digest_case (C15_sha3_224 false). Qed.

Example C15_sha3_224_case3 : let chunks := [counting 143] in
  Forall span_ok chunks /\ Spec.Keccak.sha3_224 (concat chunks) =
  unhex "64d0e8a1be3cf30ef6727b30a6e428f7f068d44634c943d277ad8e7f".
Proof. digest_case (C15_sha3_224 true). Qed.

Example C15_sha3_224_demo : exists os s',
  arun Spec.Keccak.sha3_224 (fun _ => True) demo (fun _ => afresh) os s' /\
  nth_error os 2 = Some (ONum 0xe642824c).
Proof. demo_case C15_sha3_224_case1. Qed.

(** SHA3_256: any sequence of addData calls, then finalize() and toArray()/toVector(). *)
Theorem C15_sha3_256 : forall dbg chunks,
  Forall span_ok chunks ->
  hash_chunks (Model.Keccak.cls256 dbg) chunks = Ok (Spec.Keccak.sha3_256 (concat chunks)).
Proof. exact (fun dbg chunks H => Proof.Api.correct_chunks _ _ _ (Proof.Keccak.sha3_256_correct dbg) chunks H I). Qed.
Print Assumptions C15_sha3_256.

(** every program over any number of such objects (addData, finalize, reset, copies, read-outs) *)
Theorem C15_sha3_256_history : forall dbg p os s',
  arun Spec.Keccak.sha3_256 (fun _ => True) p (fun _ => afresh) os s' ->
  exists st', exec (Model.Keccak.cls256 dbg) p (fun _ => c_new (Model.Keccak.cls256 dbg)) = Ok (os, st').
Proof. exact (fun dbg => Proof.Api.correct_history _ _ _ (Proof.Keccak.sha3_256_correct dbg)). Qed.
Print Assumptions C15_sha3_256_history.

Example C15_sha3_256_case1 : let chunks := [text "ab"; []; text "c"] in
  Forall span_ok chunks /\ Spec.Keccak.sha3_256 (concat chunks) =
  unhex "3a985da74fe225b2045c172d6bd390bd855f086e3e9d525b46bfe24511431532".
Proof. digest_case (C15_sha3_256 true). Qed.

Example C15_sha3_256_case2 : let chunks := [counting 127; counting 12] in
  Forall span_ok chunks /\ Spec.Keccak.sha3_256 (concat chunks) =
  unhex "2ec8a31823d6ffdfcf191301b33a1959d41ebd24d5f56cdfe28179ee89e6f872".
Proof. digest_case (C15_sha3_256 false). Qed.

Example C15_sha3_256_case3 : let chunks := [counting 135] in
  Forall span_ok chunks /\ Spec.Keccak.sha3_256 (concat chunks) =
  unhex "fded8fd9d6551c601eeb3b7c6bc5e5cfd8aad1d015b7e9aaa9c9b9475231d5e2".
Proof. digest_case (C15_sha3_256 true). Qed.

Example C15_sha3_256_demo : exists os s',
  arun Spec.Keccak.sha3_256 (fun _ => True) demo (fun _ => afresh) os s' /\
  nth_error os 2 = Some (ONum 0x3a985da7).
Proof. demo_case C15_sha3_256_case1. Qed.

(** SHA3_384: any sequence of addData calls, then finalize() and toArray()/toVector(). *)
Theorem C15_sha3_384 : forall dbg chunks,
  Forall span_ok chunks ->
  hash_chunks (Model.Keccak.cls384 dbg) chunks = Ok (Spec.Keccak.sha3_384 (concat chunks)).
Proof. exact (fun dbg chunks H => Proof.Api.correct_chunks _ _ _ (Proof.Keccak.sha3_384_correct dbg) chunks H I). Qed.
Print Assumptions C15_sha3_384.

(** every program over any number of such objects (addData, finalize, reset, copies, read-outs) *)
Theorem C15_sha3_384_history : forall dbg p os s',
  arun Spec.Keccak.sha3_384 (fun _ => True) p (fun _ => afresh) os s' ->
  exists st', exec (Model.Keccak.cls384 dbg) p (fun _ => c_new (Model.Keccak.cls384 dbg)) = Ok (os, st').
Proof. exact (fun dbg => Proof.Api.correct_history _ _ _ (Proof.Keccak.sha3_384_correct dbg)). Qed.
Print Assumptions C15_sha3_384_history.

Example C15_sha3_384_case1 : let chunks := [text "ab"; []; text "c"] in
  Forall span_ok chunks /\ Spec.Keccak.sha3_384 (concat chunks) =
  unhex "ec01498288516fc926459f58e2c6ad8df9b473cb0fc08c2596da7cf0e49be4b298d88cea927ac7f539f1edf228376d25".
Proof. digest_case (C15_sha3_384 true). Qed.

Example C15_sha3_384_case2 : let chunks := [counting 95; counting 12] in
  Forall span_ok chunks /\ Spec.Keccak.sha3_384 (concat chunks) =
  unhex "fc0b52c1b50436f483e79f1d81368e46d2783b407b8ef46613960d542a7cd4d41e45b77015e0fd6b7f16dd4faa30da1b".
Proof. digest_case (C15_sha3_384 false). Qed.

Example C15_sha3_384_case3 : let chunks := [counting 103] in
  Forall span_ok chunks /\ Spec.Keccak.sha3_384 (concat chunks) =
  unhex "1f91ee551ad18f268876d1fc262f137fe196580216c5193819a95ec5222537d2a658dd129c3d8080e65ec7460f1f4704".
Proof. digest_case (C15_sha3_384 true). Qed.

Example C15_sha3_384_demo : exists os s',
  arun Spec.Keccak.sha3_384 (fun _ => True) demo (fun _ => afresh) os s' /\
  nth_error os 2 = Some (ONum 0xec014982).
Proof. demo_case C15_sha3_384_case1. Qed.

(** SHA3_512: any sequence of addData calls, then finalize() and toArray()/toVector(). *)
Theorem C15_sha3_512 : forall dbg chunks,
  Forall span_ok chunks ->
  hash_chunks (Model.Keccak.cls512 dbg) chunks = Ok (Spec.Keccak.sha3_512 (concat chunks)).
Proof. exact (fun dbg chunks H => Proof.Api.correct_chunks _ _ _ (Proof.Keccak.sha3_512_correct dbg) chunks H I). Qed.
Print Assumptions C15_sha3_512.

(** every program over any number of such objects (addData, finalize, reset, copies, read-outs) *)
Theorem C15_sha3_512_history : forall dbg p os s',
  arun Spec.Keccak.sha3_512 (fun _ => True) p (fun _ => afresh) os s' ->
  exists st', exec (Model.Keccak.cls512 dbg) p (fun _ => c_new (Model.Keccak.cls512 dbg)) = Ok (os, st').
Proof. exact (fun dbg => Proof.Api.correct_history _ _ _ (Proof.Keccak.sha3_512_correct dbg)). Qed.
Print Assumptions C15_sha3_512_history.

Example C15_sha3_512_case1 : let chunks := [text "ab"; []; text "c"] in
  Forall span_ok chunks /\ Spec.Keccak.sha3_512 (concat chunks) =
  unhex "b751850b1a57168a5693cd924b6b096e08f621827444f70d884f5d0240d2712e10e116e9192af3c91a7ec57647e3934057340b4cf408d5a56592f8274eec53f0".
Proof. digest_case (C15_sha3_512 true). Qed.

Example C15_sha3_512_case2 : let chunks := [counting 63; counting 12] in
  Forall span_ok chunks /\ Spec.Keccak.sha3_512 (concat chunks) =
  unhex "69258af59a90e314766ebe3b88ee91fbbccac5043088edaafef7a2756965aa927662a50a96dc9cb55af6d964ecb0b232c75fcef1934d417724c4c310ec1e7c31".
Proof. digest_case (C15_sha3_512 false). Qed.

Example C15_sha3_512_case3 : let chunks := [counting 71] in
  Forall span_ok chunks /\ Spec.Keccak.sha3_512 (concat chunks) =
  unhex "3ccc850d53a1287af7b4560b2ef0d43eb5d9a80d62a0e9cf1dbc040135921104d4395168e90bfc871773ebb34bca1bd67056e1cc7dc7a48ff7c3167d389f117c".
Proof. digest_case (C15_sha3_512 true). Qed.

Example C15_sha3_512_demo : exists os s',
  arun Spec.Keccak.sha3_512 (fun _ => True) demo (fun _ => afresh) os s' /\
  nth_error os 2 = Some (ONum 0xb751850b).
Proof. demo_case C15_sha3_512_case1. Qed.
