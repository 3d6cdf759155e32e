(** C11: reading a Tiger/128 or Tiger/160 digest writes past the end of the result array. *)
From Coq Require Import String List NArith.
From Verif.Base Require Import Res.
From Verif.Spec Require Import Words Client.
From Verif.Model Require Import Api.
From Verif.Tests Require Import Kit.
From Verif.Spec Require Tiger.
From Verif.Model Require Tiger.
From Verif.Proof Require Tiger.
Import ListNotations.

(** Tiger1_128: for every message the read-out performs an out-of-bounds write, so no
    message yields the 16-byte digest. *)
Theorem C11_tiger1_128_refuted : forall dbg chunks,
  Forall span_ok chunks ->
  hash_chunks (Model.Tiger.cls 1 16 dbg) chunks = Ub OobWrite /\
  hash_chunks (Model.Tiger.cls 1 16 dbg) chunks <> Ok (Spec.Tiger.truncated 16 Spec.Tiger.tiger (concat chunks)).
Proof. exact (fun dbg chunks H => Proof.Tiger.short_refuted 1 16 dbg chunks _ (Proof.Tiger.lt24 16 eq_refl) H). Qed.
Print Assumptions C11_tiger1_128_refuted.

Example C11_tiger1_128_case : let chunks := [text "ab"; []; text "c"] in
  Forall span_ok chunks /\ hash_chunks (Model.Tiger.cls 1 16 false) chunks = Ub OobWrite.
Proof. split; [spans|exact (proj1 (C11_tiger1_128_refuted false [text "ab"; []; text "c"] ltac:(spans)))]. Qed.

(** Tiger1_160: for every message the read-out performs an out-of-bounds write, so no
    message yields the 20-byte digest. *)
Theorem C11_tiger1_160_refuted : forall dbg chunks,
  Forall span_ok chunks ->
  hash_chunks (Model.Tiger.cls 1 20 dbg) chunks = Ub OobWrite /\
  hash_chunks (Model.Tiger.cls 1 20 dbg) chunks <> Ok (Spec.Tiger.truncated 20 Spec.Tiger.tiger (concat chunks)).
Proof. exact (fun dbg chunks H => Proof.Tiger.short_refuted 1 20 dbg chunks _ (Proof.Tiger.lt24 20 eq_refl) H). Qed.
Print Assumptions C11_tiger1_160_refuted.

Example C11_tiger1_160_case : let chunks := [text "ab"; []; text "c"] in
  Forall span_ok chunks /\ hash_chunks (Model.Tiger.cls 1 20 false) chunks = Ub OobWrite.
Proof. split; [spans|exact (proj1 (C11_tiger1_160_refuted false [text "ab"; []; text "c"] ltac:(spans)))]. Qed.

(** Tiger2_128: for every message the read-out performs an out-of-bounds write, so no
    message yields the 16-byte digest. *)
Theorem C11_tiger2_128_refuted : forall dbg chunks,
  Forall span_ok chunks ->
  hash_chunks (Model.Tiger.cls 2 16 dbg) chunks = Ub OobWrite /\
  hash_chunks (Model.Tiger.cls 2 16 dbg) chunks <> Ok (Spec.Tiger.truncated 16 Spec.Tiger.tiger2 (concat chunks)).
Proof. exact (fun dbg chunks H => Proof.Tiger.short_refuted 2 16 dbg chunks _ (Proof.Tiger.lt24 16 eq_refl) H). Qed.
Print Assumptions C11_tiger2_128_refuted.

Example C11_tiger2_128_case : let chunks := [text "ab"; []; text "c"] in
  Forall span_ok chunks /\ hash_chunks (Model.Tiger.cls 2 16 false) chunks = Ub OobWrite.
Proof. split; [spans|exact (proj1 (C11_tiger2_128_refuted false [text "ab"; []; text "c"] ltac:(spans)))]. Qed.

(** Tiger2_160: for every message the read-out performs an out-of-bounds write, so no
    message yields the 20-byte digest. *)
Theorem C11_tiger2_160_refuted : forall dbg chunks,
  Forall span_ok chunks ->
  hash_chunks (Model.Tiger.cls 2 20 dbg) chunks = Ub OobWrite /\
  hash_chunks (Model.Tiger.cls 2 20 dbg) chunks <> Ok (Spec.Tiger.truncated 20 Spec.Tiger.tiger2 (concat chunks)).
Proof. exact (fun dbg chunks H => Proof.Tiger.short_refuted 2 20 dbg chunks _ (Proof.Tiger.lt24 20 eq_refl) H). Qed.
Print Assumptions C11_tiger2_160_refuted.

Example C11_tiger2_160_case : let chunks := [text "ab"; []; text "c"] in
  Forall span_ok chunks /\ hash_chunks (Model.Tiger.cls 2 20 false) chunks = Ub OobWrite.
Proof. split; [spans|exact (proj1 (C11_tiger2_160_refuted false [text "ab"; []; text "c"] ltac:(spans)))]. Qed.
