(** C19: SipHash<c, d> computes SipHash-c-d. *)
From Coq Require Import String List NArith.
From Verif.Base Require Import Res.
From Verif.Spec Require Import Words Client ObjClient.
From Verif.Model Require Import Api ObjApi.
From Verif.Tests Require Import Kit KitValue.
From Verif.Spec Require SipHash.
From Verif.Model Require SipHash.
From Verif.Proof Require ObjApi SipHash.
Import ListNotations.

(** SipHash<c, d>: construct with a key, any sequence of addData calls, finalize(), toArray(). *)
Theorem C19_siphash : forall c d dbg key chunks,
  length key = 16 -> bytes_ok key -> Forall span_ok chunks ->
  ohash (Model.SipHash.obj_class c d dbg) key chunks = Ok (be_bytes 8 (Spec.SipHash.siphash c d key (concat chunks))).
Proof. exact Proof.SipHash.siphash_hash. Qed.
Print Assumptions C19_siphash.

(** every program over any number of objects with any keys *)
Theorem C19_siphash_history : forall c d dbg p os s',
  orun (fun key l => be_bytes 8 (Spec.SipHash.siphash c d key (concat l)))
    (fun key => length key = 16 /\ bytes_ok key) span_ok (fun _ => True) (fun sl _ => sl <> NoObject)
    p (fun _ => NoObject) os s' ->
  exists st', oexec (Model.SipHash.obj_class c d dbg) p (fun _ => None) = Ok (os, st').
Proof. exact (fun c d dbg => Proof.ObjApi.objcorrect_history _ _ _ _ _ _ (Proof.SipHash.siphash_correct c d dbg)). Qed.
Print Assumptions C19_siphash_history.

(** the key must have 16 bytes: with any other size a debug build stops in the constructor, and
    with a shorter key a release build reads past its end *)
Theorem C19_siphash_key_debug : forall c d key chunks,
  length key <> 16 -> ohash (Model.SipHash.obj_class c d true) key chunks = Throw AssertFail.
Proof. exact Proof.SipHash.hash_wrong_key_debug. Qed.
Print Assumptions C19_siphash_key_debug.
Theorem C19_siphash_key_release : forall c d key chunks,
  length key < 16 -> ohash (Model.SipHash.obj_class c d false) key chunks = Ub OobRead.
Proof. exact Proof.SipHash.hash_short_key_release. Qed.
Print Assumptions C19_siphash_key_release.

(** the vector of appendix A of the SipHash paper *)
Example C19_siphash_case1 : let key := counting 16 in let chunks := [counting 9; []; map (N.add 9) (counting 6)] in
  length key = 16 /\ bytes_ok key /\ Forall span_ok chunks /\
  be_bytes 8 (Spec.SipHash.siphash 2 4 key (concat chunks)) = unhex "a129ca6149be45e5".
Proof.
  cbv zeta. split; [reflexivity|]. split; [apply span_okb_ok; vm_compute; reflexivity|]. split; [spans|].
  refine (ocase_of (Model.SipHash.obj_class 2 4 true) (fun key m => be_bytes 8 (Spec.SipHash.siphash 2 4 key m)) _ _ _ (C19_siphash 2 4 true _ _ _ _ _) _).
  - reflexivity.
  - apply span_okb_ok; vm_compute; reflexivity.
  - spans.
  - vm_compute; reflexivity.
Qed.

(** longer than 255 bytes, so that the length byte wraps *)
Example C19_siphash_case2 : let key := counting 16 in let chunks := [counting 300] in
  length key = 16 /\ bytes_ok key /\ Forall span_ok chunks /\
  be_bytes 8 (Spec.SipHash.siphash 2 4 key (concat chunks)) = unhex "4b0b710db6117839".
Proof.
  cbv zeta. split; [reflexivity|]. split; [apply span_okb_ok; vm_compute; reflexivity|]. split; [spans|].
  refine (ocase_of (Model.SipHash.obj_class 2 4 false) (fun key m => be_bytes 8 (Spec.SipHash.siphash 2 4 key m)) _ _ _ (C19_siphash 2 4 false _ _ _ _ _) _).
  - reflexivity.
  - apply span_okb_ok; vm_compute; reflexivity.
  - spans.
  - vm_compute; reflexivity.
Qed.

(** SipHash-4-8 *)
Example C19_siphash_case3 : let key := counting 16 in let chunks := [counting 9; []; map (N.add 9) (counting 6)] in
  length key = 16 /\ bytes_ok key /\ Forall span_ok chunks /\
  be_bytes 8 (Spec.SipHash.siphash 4 8 key (concat chunks)) = unhex "83d389d57da9a6e0".
Proof.
  cbv zeta. split; [reflexivity|]. split; [apply span_okb_ok; vm_compute; reflexivity|]. split; [spans|].
  refine (ocase_of (Model.SipHash.obj_class 4 8 true) (fun key m => be_bytes 8 (Spec.SipHash.siphash 4 8 key m)) _ _ _ (C19_siphash 4 8 true _ _ _ _ _) _).
  - reflexivity.
  - apply span_okb_ok; vm_compute; reflexivity.
  - spans.
  - vm_compute; reflexivity.
Qed.

(** a program with copies and moves that meets the hypothesis of C19_siphash_history *)
Example C19_siphash_program : exists os s',
  orun (fun key l => be_bytes 8 (Spec.SipHash.siphash 2 4 key (concat l)))
    (fun key => length key = 16 /\ bytes_ok key) span_ok (fun _ => True) (fun sl _ => sl <> NoObject)
    (value_program (counting 16) (repeat 0%N 16)) (fun _ => NoObject) os s' /\ exists out, nth_error os 0 = Some (OBytes out).
Proof.
  destruct (value_program_runs (fun key l => be_bytes 8 (Spec.SipHash.siphash 2 4 key (concat l)))
    (fun key => length key = 16 /\ bytes_ok key) (fun _ => True) (counting 16) (repeat 0%N 16)) as (os & s' & H & E).
  - split; [reflexivity|apply span_okb_ok; vm_compute; reflexivity].
  - split; [reflexivity|apply span_okb_ok; vm_compute; reflexivity].
  - intros l E. apply (f_equal (@length N)) in E. rewrite Proof.Words.be_bytes_length in E. discriminate.
  - exists os, s'. split; [exact H|]. eexists. exact E.
Qed.
