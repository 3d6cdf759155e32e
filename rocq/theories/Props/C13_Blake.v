(** C13: the Blake1 classes compute BLAKE when the padding fits into the last block of the message, and only then. *)
From Coq Require Import String List NArith.
From Verif.Base Require Import Res.
From Verif.Spec Require Import Words Client.
From Verif.Model Require Import Api.
From Verif.Tests Require Import Kit.
From Verif.Spec Require Blake.
From Verif.Model Require Blake1.
From Verif.Proof Require Api.
From Verif.Proof Require Blake1.
From Verif.Proof Require Blake1Tail.
Import ListNotations.

(** Blake1_224, when the padding fits into the last block of the message: any sequence of addData calls, then finalize() and toArray()/toVector(). *)
Theorem C13_blake224_partial : forall dbg chunks,
  Forall span_ok chunks ->
  (Spec.Blake.tail_fits 4) (concat chunks) ->
  hash_chunks (Model.Blake1.cls224 dbg) chunks = Ok (Spec.Blake.blake224 (concat chunks)).
Proof. exact (fun dbg chunks H Hlen => Proof.Api.correct_chunks _ _ _ (Proof.Blake1.blake224_correct dbg) chunks H Hlen). Qed.
Print Assumptions C13_blake224_partial.

(** every program over any number of such objects (addData, finalize, reset, copies, read-outs) *)
Theorem C13_blake224_history_partial : forall dbg p os s',
  arun Spec.Blake.blake224 (Spec.Blake.tail_fits 4) p (fun _ => afresh) os s' ->
  exists st', exec (Model.Blake1.cls224 dbg) p (fun _ => c_new (Model.Blake1.cls224 dbg)) = Ok (os, st').
Proof. exact (fun dbg => Proof.Api.correct_history _ _ _ (Proof.Blake1.blake224_correct dbg)). Qed.
Print Assumptions C13_blake224_history_partial.

Example C13_blake224_case1 : let chunks := [text "ab"; []; text "c"] in
  Forall span_ok chunks /\ Spec.Blake.blake224 (concat chunks) =
  unhex "7c270941a0b4a412db099b710da90112ce49f8510add4f896c07ace4".
Proof. digest_case_dom (C13_blake224_partial true). Qed.

Example C13_blake224_case2 : let chunks := [counting 55; counting 12] in
  Forall span_ok chunks /\ Spec.Blake.blake224 (concat chunks) =
  unhex "b2c8566b6db0350bdcdd20924c71d77431ff2e0445f99f64bf47b181".
Proof. digest_case_dom (C13_blake224_partial false). Qed.

Example C13_blake224_demo : exists os s',
  arun Spec.Blake.blake224 (Spec.Blake.tail_fits 4) demo (fun _ => afresh) os s' /\
  nth_error os 2 = Some (ONum 0x7c270941).
Proof. demo_case C13_blake224_case1. Qed.

(** Blake1_256, when the padding fits into the last block of the message: any sequence of addData calls, then finalize() and toArray()/toVector(). *)
Theorem C13_blake256_partial : forall dbg chunks,
  Forall span_ok chunks ->
  (Spec.Blake.tail_fits 4) (concat chunks) ->
  hash_chunks (Model.Blake1.cls256 dbg) chunks = Ok (Spec.Blake.blake256 (concat chunks)).
Proof. exact (fun dbg chunks H Hlen => Proof.Api.correct_chunks _ _ _ (Proof.Blake1.blake256_correct dbg) chunks H Hlen). Qed.
Print Assumptions C13_blake256_partial.

(** every program over any number of such objects (addData, finalize, reset, copies, read-outs) *)
Theorem C13_blake256_history_partial : forall dbg p os s',
  arun Spec.Blake.blake256 (Spec.Blake.tail_fits 4) p (fun _ => afresh) os s' ->
  exists st', exec (Model.Blake1.cls256 dbg) p (fun _ => c_new (Model.Blake1.cls256 dbg)) = Ok (os, st').
Proof. exact (fun dbg => Proof.Api.correct_history _ _ _ (Proof.Blake1.blake256_correct dbg)). Qed.
Print Assumptions C13_blake256_history_partial.

Example C13_blake256_case1 : let chunks := [text "ab"; []; text "c"] in
  Forall span_ok chunks /\ Spec.Blake.blake256 (concat chunks) =
  unhex "1833a9fa7cf4086bd5fda73da32e5a1d75b4c3f89d5c436369f9d78bb2da5c28".
Proof. digest_case_dom (C13_blake256_partial true). Qed.

Example C13_blake256_case2 : let chunks := [counting 55; counting 12] in
  Forall span_ok chunks /\ Spec.Blake.blake256 (concat chunks) =
  unhex "a2021c68f1779cf2d7d5a1e1aa69cee49045746d1c48af13a56717f577a4fe30".
Proof. digest_case_dom (C13_blake256_partial false). Qed.

Example C13_blake256_demo : exists os s',
  arun Spec.Blake.blake256 (Spec.Blake.tail_fits 4) demo (fun _ => afresh) os s' /\
  nth_error os 2 = Some (ONum 0x1833a9fa).
Proof. demo_case C13_blake256_case1. Qed.

(** Blake1_384, when the padding fits into the last block of the message: any sequence of addData calls, then finalize() and toArray()/toVector(). *)
Theorem C13_blake384_partial : forall dbg chunks,
  Forall span_ok chunks ->
  (Spec.Blake.tail_fits 8) (concat chunks) ->
  hash_chunks (Model.Blake1.cls384 dbg) chunks = Ok (Spec.Blake.blake384 (concat chunks)).
Proof. exact (fun dbg chunks H Hlen => Proof.Api.correct_chunks _ _ _ (Proof.Blake1.blake384_correct dbg) chunks H Hlen). Qed.
Print Assumptions C13_blake384_partial.

(** every program over any number of such objects (addData, finalize, reset, copies, read-outs) *)
Theorem C13_blake384_history_partial : forall dbg p os s',
  arun Spec.Blake.blake384 (Spec.Blake.tail_fits 8) p (fun _ => afresh) os s' ->
  exists st', exec (Model.Blake1.cls384 dbg) p (fun _ => c_new (Model.Blake1.cls384 dbg)) = Ok (os, st').
Proof. exact (fun dbg => Proof.Api.correct_history _ _ _ (Proof.Blake1.blake384_correct dbg)). Qed.
Print Assumptions C13_blake384_history_partial.

Example C13_blake384_case1 : let chunks := [text "ab"; []; text "c"] in
  Forall span_ok chunks /\ Spec.Blake.blake384 (concat chunks) =
  unhex "fcbbe2a60f9d4bfabf2e018cc3b1628d520d6b325d5e90a8d196f3948811a952823349236daf0c49be6a214ede021aaa".
Proof. digest_case_dom (C13_blake384_partial true). Qed.

Example C13_blake384_case2 : let chunks := [counting 119; counting 12] in
  Forall span_ok chunks /\ Spec.Blake.blake384 (concat chunks) =
  unhex "e88bdfc99dc594bf4bcb29258cef7d4ef7c127f8b1230c37c58dbf5c273b46412fe1d3a800885089428e8779805bd646".
Proof. digest_case_dom (C13_blake384_partial false). Qed.

Example C13_blake384_demo : exists os s',
  arun Spec.Blake.blake384 (Spec.Blake.tail_fits 8) demo (fun _ => afresh) os s' /\
  nth_error os 2 = Some (ONum 0xfcbbe2a6).
Proof. demo_case C13_blake384_case1. Qed.

(** Blake1_512, when the padding fits into the last block of the message: any sequence of addData calls, then finalize() and toArray()/toVector(). *)
Theorem C13_blake512_partial : forall dbg chunks,
  Forall span_ok chunks ->
  (Spec.Blake.tail_fits 8) (concat chunks) ->
  hash_chunks (Model.Blake1.cls512 dbg) chunks = Ok (Spec.Blake.blake512 (concat chunks)).
Proof. exact (fun dbg chunks H Hlen => Proof.Api.correct_chunks _ _ _ (Proof.Blake1.blake512_correct dbg) chunks H Hlen). Qed.
Print Assumptions C13_blake512_partial.

(** every program over any number of such objects (addData, finalize, reset, copies, read-outs) *)
Theorem C13_blake512_history_partial : forall dbg p os s',
  arun Spec.Blake.blake512 (Spec.Blake.tail_fits 8) p (fun _ => afresh) os s' ->
  exists st', exec (Model.Blake1.cls512 dbg) p (fun _ => c_new (Model.Blake1.cls512 dbg)) = Ok (os, st').
Proof. exact (fun dbg => Proof.Api.correct_history _ _ _ (Proof.Blake1.blake512_correct dbg)). Qed.
Print Assumptions C13_blake512_history_partial.

Example C13_blake512_case1 : let chunks := [text "ab"; []; text "c"] in
  Forall span_ok chunks /\ Spec.Blake.blake512 (concat chunks) =
  unhex "14266c7c704a3b58fb421ee69fd005fcc6eeff742136be67435df995b7c986e7cbde4dbde135e7689c354d2bc5b8d260536c554b4f84c118e61efc576fed7cd3".
Proof. digest_case_dom (C13_blake512_partial true). Qed.

Example C13_blake512_case2 : let chunks := [counting 119; counting 12] in
  Forall span_ok chunks /\ Spec.Blake.blake512 (concat chunks) =
  unhex "0a99c8f117e3b5716e915484050227cfa3aa8cca61d926b3433ec265d8b3baeffb3b25779daa75be47c8392c6b645a4a0cd5a7b45875e04706715de93fb9c479".
Proof. digest_case_dom (C13_blake512_partial false). Qed.

Example C13_blake512_demo : exists os s',
  arun Spec.Blake.blake512 (Spec.Blake.tail_fits 8) demo (fun _ => afresh) os s' /\
  nth_error os 2 = Some (ONum 0x14266c7c).
Proof. demo_case C13_blake512_case1. Qed.

(** Blake1_224 is not BLAKE-224: a message of 56 zero bytes gets another digest. *)
Theorem C13_blake224_refuted : exists m, span_ok m /\ forall dbg,
  hash_chunks (Model.Blake1.cls224 dbg) [m] <> Ok (Spec.Blake.blake224 m).
Proof. exact (ex_intro _ (repeat 0%N 56) (conj (Proof.Blake1Tail.zeros_span 56 eq_refl) Proof.Blake1Tail.blake224_refuted)). Qed.
Print Assumptions C13_blake224_refuted.

(** what Blake1_224 computes instead: BLAKE-224 with other counter values in the last two blocks *)
Theorem C13_blake224_coded : forall dbg chunks,
  Forall span_ok chunks ->
  hash_chunks (Model.Blake1.cls224 dbg) chunks = Ok (Spec.Blake.blake224_coded (concat chunks)).
Proof. exact (fun dbg chunks H => Proof.Api.correct_chunks _ _ _ (Proof.Blake1.coded224_correct dbg) chunks H I). Qed.
Print Assumptions C13_blake224_coded.

(** Blake1_256 is not BLAKE-256: a message of 56 zero bytes gets another digest. *)
Theorem C13_blake256_refuted : exists m, span_ok m /\ forall dbg,
  hash_chunks (Model.Blake1.cls256 dbg) [m] <> Ok (Spec.Blake.blake256 m).
Proof. exact (ex_intro _ (repeat 0%N 56) (conj (Proof.Blake1Tail.zeros_span 56 eq_refl) Proof.Blake1Tail.blake256_refuted)). Qed.
Print Assumptions C13_blake256_refuted.

(** what Blake1_256 computes instead: BLAKE-256 with other counter values in the last two blocks *)
Theorem C13_blake256_coded : forall dbg chunks,
  Forall span_ok chunks ->
  hash_chunks (Model.Blake1.cls256 dbg) chunks = Ok (Spec.Blake.blake256_coded (concat chunks)).
Proof. exact (fun dbg chunks H => Proof.Api.correct_chunks _ _ _ (Proof.Blake1.coded256_correct dbg) chunks H I). Qed.
Print Assumptions C13_blake256_coded.

(** Blake1_384 is not BLAKE-384: a message of 112 zero bytes gets another digest. *)
Theorem C13_blake384_refuted : exists m, span_ok m /\ forall dbg,
  hash_chunks (Model.Blake1.cls384 dbg) [m] <> Ok (Spec.Blake.blake384 m).
Proof. exact (ex_intro _ (repeat 0%N 112) (conj (Proof.Blake1Tail.zeros_span 112 eq_refl) Proof.Blake1Tail.blake384_refuted)). Qed.
Print Assumptions C13_blake384_refuted.

(** what Blake1_384 computes instead: BLAKE-384 with other counter values in the last two blocks *)
Theorem C13_blake384_coded : forall dbg chunks,
  Forall span_ok chunks ->
  hash_chunks (Model.Blake1.cls384 dbg) chunks = Ok (Spec.Blake.blake384_coded (concat chunks)).
Proof. exact (fun dbg chunks H => Proof.Api.correct_chunks _ _ _ (Proof.Blake1.coded384_correct dbg) chunks H I). Qed.
Print Assumptions C13_blake384_coded.

(** Blake1_512 is not BLAKE-512: a message of 112 zero bytes gets another digest. *)
Theorem C13_blake512_refuted : exists m, span_ok m /\ forall dbg,
  hash_chunks (Model.Blake1.cls512 dbg) [m] <> Ok (Spec.Blake.blake512 m).
Proof. exact (ex_intro _ (repeat 0%N 112) (conj (Proof.Blake1Tail.zeros_span 112 eq_refl) Proof.Blake1Tail.blake512_refuted)). Qed.
Print Assumptions C13_blake512_refuted.

(** what Blake1_512 computes instead: BLAKE-512 with other counter values in the last two blocks *)
Theorem C13_blake512_coded : forall dbg chunks,
  Forall span_ok chunks ->
  hash_chunks (Model.Blake1.cls512 dbg) chunks = Ok (Spec.Blake.blake512_coded (concat chunks)).
Proof. exact (fun dbg chunks H => Proof.Api.correct_chunks _ _ _ (Proof.Blake1.coded512_correct dbg) chunks H I). Qed.
Print Assumptions C13_blake512_coded.
