(** C12: Whirlpool computes Whirlpool (ISO/IEC 10118-3) on every message shorter than 2^128 bits. *)
From Coq Require Import String List NArith.
From Verif.Base Require Import Res.
From Verif.Spec Require Import Words Client.
From Verif.Model Require Import Api.
From Verif.Tests Require Import Kit.
From Verif.Spec Require Whirlpool.
From Verif.Model Require Whirlpool.
From Verif.Proof Require Api.
From Verif.Proof Require Whirlpool.
Import ListNotations.

(** Whirlpool: any sequence of addData calls, then finalize() and toArray()/toVector(). *)
Theorem C12_whirlpool : forall dbg chunks,
  Forall span_ok chunks ->
  Spec.Whirlpool.short_enough (concat chunks) ->
  hash_chunks (Model.Whirlpool.cls dbg) chunks = Ok (Spec.Whirlpool.whirlpool (concat chunks)).
Proof. exact (fun dbg chunks H Hlen => Proof.Api.correct_chunks _ _ _ (Proof.Whirlpool.correct dbg) chunks H Hlen). Qed.
Print Assumptions C12_whirlpool.

(** every program over any number of such objects (addData, finalize, reset, copies, read-outs) *)
Theorem C12_whirlpool_history : forall dbg p os s',
  arun Spec.Whirlpool.whirlpool Spec.Whirlpool.short_enough p (fun _ => afresh) os s' ->
  exists st', exec (Model.Whirlpool.cls dbg) p (fun _ => c_new (Model.Whirlpool.cls dbg)) = Ok (os, st').
Proof. exact (fun dbg => Proof.Api.correct_history _ _ _ (Proof.Whirlpool.correct dbg)). Qed.
Print Assumptions C12_whirlpool_history.

Example C12_whirlpool_case1 : let chunks := [text "ab"; []; text "c"] in
  Forall span_ok chunks /\ Spec.Whirlpool.whirlpool (concat chunks) =
  unhex "4e2448a4c6f486bb16b6562c73b4020bf3043e3a731bce721ae1b303d97e6d4c7181eebdb6c57e277d0e34957114cbd6c797fc9d95d8b582d225292076d4eef5".
Proof. digest_case_dom (C12_whirlpool true). Qed.

Example C12_whirlpool_case2 : let chunks := [text "The quick brown fox jumps over the lazy dog"; text "The quick brown fox jumps over the lazy dogThe quick brown fox jumps over the lazy dog"] in
  Forall span_ok chunks /\ Spec.Whirlpool.whirlpool (concat chunks) =
  unhex "b542bf13643b644826ed9854f0049dcb9d1bb53c3b041ad4c417203b1d2c43a891a93dc42dc77e2042ed612abc08dcab20d2c25cae02754d7032498689c3b013".
Proof. digest_case_dom (C12_whirlpool false). Qed.

Example C12_whirlpool_demo : exists os s',
  arun Spec.Whirlpool.whirlpool Spec.Whirlpool.short_enough demo (fun _ => afresh) os s' /\
  nth_error os 2 = Some (ONum 0x4e2448a4).
Proof. demo_case C12_whirlpool_case1. Qed.
