(** C14: Blake2 and Blake2s compute the unkeyed BLAKE2b-512 and BLAKE2s-256 of RFC 7693. *)
From Coq Require Import String List NArith.
From Verif.Base Require Import Res.
From Verif.Spec Require Import Words Client.
From Verif.Model Require Import Api.
From Verif.Tests Require Import Kit.
From Verif.Spec Require Blake2.
From Verif.Model Require Blake2.
From Verif.Proof Require Api.
From Verif.Proof Require Blake2.
Import ListNotations.

(** Blake2: any sequence of addData calls, then finalize() and toArray()/toVector(). *)
Theorem C14_blake2b : forall dbg chunks,
  Forall span_ok chunks ->
  Spec.Blake2.fits_blake2b (concat chunks) ->
  hash_chunks (Model.Blake2.cls_b dbg) chunks = Ok (Spec.Blake2.blake2b (concat chunks)).
Proof. exact (fun dbg chunks H Hlen => Proof.Api.correct_chunks _ _ _ (Proof.Blake2.blake2b_correct dbg) chunks H Hlen). Qed.
Print Assumptions C14_blake2b.

(** every program over any number of such objects (addData, finalize, reset, copies, read-outs) *)
Theorem C14_blake2b_history : forall dbg p os s',
  arun Spec.Blake2.blake2b Spec.Blake2.fits_blake2b p (fun _ => afresh) os s' ->
  exists st', exec (Model.Blake2.cls_b dbg) p (fun _ => c_new (Model.Blake2.cls_b dbg)) = Ok (os, st').
Proof. exact (fun dbg => Proof.Api.correct_history _ _ _ (Proof.Blake2.blake2b_correct dbg)). Qed.
Print Assumptions C14_blake2b_history.

Example C14_blake2b_case1 : let chunks := [text "ab"; []; text "c"] in
  Forall span_ok chunks /\ Spec.Blake2.blake2b (concat chunks) =
  unhex "ba80a53f981c4d0d6a2797b69f12f6e94c212f14685ac4b74b12bb6fdbffa2d17d87c5392aab792dc252d5de4533cc9518d38aa8dbf1925ab92386edd4009923".
Proof. digest_case_dom (C14_blake2b true). Qed.

Example C14_blake2b_case2 : let chunks := [counting 119; counting 12] in
  Forall span_ok chunks /\ Spec.Blake2.blake2b (concat chunks) =
  unhex "625878e6fdee869f2de669a4e5a9f8c1b8eada45269bfa166db03c2edbfe9b72fd7fa68eed5910be28f1a7125e4a6de56a019b0b7534b545ff67ac50c01bbaac".
Proof. digest_case_dom (C14_blake2b false). Qed.

Example C14_blake2b_case3 : let chunks := [counting 128; []; counting 128] in
  Forall span_ok chunks /\ Spec.Blake2.blake2b (concat chunks) =
  unhex "309124a72f97eec6b1ff20117ba136cbe82fa8c8515f0ceb597ac1126f481138c17811ba0a29fd5ba54a317745bc95e12f1661a73664b118e9dcbb9f1bc6d2be".
Proof. digest_case_dom (C14_blake2b true). Qed.

Example C14_blake2b_demo : exists os s',
  arun Spec.Blake2.blake2b Spec.Blake2.fits_blake2b demo (fun _ => afresh) os s' /\
  nth_error os 2 = Some (ONum 0xba80a53f).
Proof. demo_case C14_blake2b_case1. Qed.

(** Blake2s: any sequence of addData calls, then finalize() and toArray()/toVector(). *)
Theorem C14_blake2s : forall dbg chunks,
  Forall span_ok chunks ->
  Spec.Blake2.fits_blake2s (concat chunks) ->
  hash_chunks (Model.Blake2.cls_s dbg) chunks = Ok (Spec.Blake2.blake2s (concat chunks)).
Proof. exact (fun dbg chunks H Hlen => Proof.Api.correct_chunks _ _ _ (Proof.Blake2.blake2s_correct dbg) chunks H Hlen). Qed.
Print Assumptions C14_blake2s.

(** every program over any number of such objects (addData, finalize, reset, copies, read-outs) *)
Theorem C14_blake2s_history : forall dbg p os s',
  arun Spec.Blake2.blake2s Spec.Blake2.fits_blake2s p (fun _ => afresh) os s' ->
  exists st', exec (Model.Blake2.cls_s dbg) p (fun _ => c_new (Model.Blake2.cls_s dbg)) = Ok (os, st').
Proof. exact (fun dbg => Proof.Api.correct_history _ _ _ (Proof.Blake2.blake2s_correct dbg)). Qed.
Print Assumptions C14_blake2s_history.

Example C14_blake2s_case1 : let chunks := [text "ab"; []; text "c"] in
  Forall span_ok chunks /\ Spec.Blake2.blake2s (concat chunks) =
  unhex "508c5e8c327c14e2e1a72ba34eeb452f37458b209ed63a294d999b4c86675982".
Proof. digest_case_dom (C14_blake2s true). Qed.

Example C14_blake2s_case2 : let chunks := [counting 55; counting 12] in
  Forall span_ok chunks /\ Spec.Blake2.blake2s (concat chunks) =
  unhex "9feffa4226082bb8f7aa5aae250b929898053f05ab2be652d955acb27154aa25".
Proof. digest_case_dom (C14_blake2s false). Qed.

Example C14_blake2s_case3 : let chunks := [counting 64; []; counting 64] in
  Forall span_ok chunks /\ Spec.Blake2.blake2s (concat chunks) =
  unhex "fced48cafb64d95d9d173dd4b817a52a9c67f2e42f2dab1b8c8445bd5724cfad".
Proof. digest_case_dom (C14_blake2s true). Qed.

Example C14_blake2s_demo : exists os s',
  arun Spec.Blake2.blake2s Spec.Blake2.fits_blake2s demo (fun _ => afresh) os s' /\
  nth_error os 2 = Some (ONum 0x508c5e8c).
Proof. demo_case C14_blake2s_case1. Qed.
