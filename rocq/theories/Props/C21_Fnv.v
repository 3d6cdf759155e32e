(** C21: the six FNV classes compute FNV-0, FNV-1 and FNV-1a of 32 and 64 bits. *)
From Coq Require Import String List NArith.
From Verif.Base Require Import Res.
From Verif.Spec Require Import Words Client ObjClient.
From Verif.Model Require Import Api ObjApi.
From Verif.Tests Require Import Kit KitValue.
From Verif.Spec Require Fnv.
From Verif.Model Require Fnv.
From Verif.Proof Require Api ObjApi Fnv Words.
Import ListNotations.

(** FNV32_0: any sequence of addData calls, then finalize() and toArray()/toVector() *)
Theorem C21_fnv32_0 : forall chunks,
  Forall span_ok chunks ->
  hash_chunks (Model.Fnv.cls 4 0) chunks = Ok (be_bytes 4 (Spec.Fnv.fnv0 32 (concat chunks))).
Proof. exact (fun chunks _ => Proof.Fnv.chunks 4 0 (or_introl eq_refl) ltac:(repeat constructor) chunks). Qed.
Print Assumptions C21_fnv32_0.

(** programs over FNV32_0 objects that do not call reset() (see C23_fnv32_0_refuted) *)
Theorem C21_fnv32_0_history : forall p os s',
  orun (fun (_ : unit) l => be_bytes 4 (Spec.Fnv.fnv0 32 (concat l))) (fun _ => True) span_ok (fun _ => 1 <= 0) (fun sl _ => sl <> NoObject)
    p (fun _ => NoObject) os s' ->
  exists st', oexec (Model.Fnv.obj_class 4 0) p (fun _ => None) = Ok (os, st').
Proof. exact (Proof.ObjApi.objcorrect_history _ _ _ _ _ _ (Proof.Fnv.obj_correct 4 0 (or_introl eq_refl) ltac:(repeat constructor))). Qed.
Print Assumptions C21_fnv32_0_history.

Example C21_fnv32_0_case1 : let chunks := [text "ab"; []; text "c"] in
  Forall span_ok chunks /\ be_bytes 4 (Spec.Fnv.fnv0 32 (concat chunks)) = unhex "84f09160".
Proof. cbv zeta. refine (case_of _ (fun m => be_bytes 4 (Spec.Fnv.fnv0 32 m)) _ _ (C21_fnv32_0 _) _ _); [spans | vm_compute; reflexivity]. Qed.
Example C21_fnv32_0_case2 : let chunks := [text "The quick brown fox jumps "; text "over the lazy dog"] in
  Forall span_ok chunks /\ be_bytes 4 (Spec.Fnv.fnv0 32 (concat chunks)) = unhex "89074759".
Proof. cbv zeta. refine (case_of _ (fun m => be_bytes 4 (Spec.Fnv.fnv0 32 m)) _ _ (C21_fnv32_0 _) _ _); [spans | vm_compute; reflexivity]. Qed.
Example C21_fnv32_0_case3 : let chunks := [Spec.Fnv.signature] in
  Forall span_ok chunks /\ be_bytes 4 (Spec.Fnv.fnv0 32 (concat chunks)) = unhex "811c9dc5".
Proof. cbv zeta. refine (case_of _ (fun m => be_bytes 4 (Spec.Fnv.fnv0 32 m)) _ _ (C21_fnv32_0 _) _ _); [spans | vm_compute; reflexivity]. Qed.
Example C21_fnv32_0_program : exists os s',
  orun (fun (_ : unit) l => be_bytes 4 (Spec.Fnv.fnv0 32 (concat l))) (fun _ => True) span_ok (fun _ => 1 <= 0) (fun sl _ => sl <> NoObject)
    (value_program tt tt) (fun _ => NoObject) os s' /\ exists out, nth_error os 0 = Some (OBytes out).
Proof.
  destruct (value_program_runs (fun (_ : unit) l => be_bytes 4 (Spec.Fnv.fnv0 32 (concat l))) (fun _ => True) (fun _ => 1 <= 0) tt tt I I) as (os & s' & H & E).
  - intros l E. apply (f_equal (@length N)) in E. rewrite Proof.Words.be_bytes_length in E. discriminate.
  - exists os, s'. split; [exact H|]. eexists. exact E.
Qed.

(** FNV32_1: any sequence of addData calls, then finalize() and toArray()/toVector() *)
Theorem C21_fnv32_1 : forall chunks,
  Forall span_ok chunks ->
  hash_chunks (Model.Fnv.cls 4 1) chunks = Ok (be_bytes 4 (Spec.Fnv.fnv1 32 (concat chunks))).
Proof. exact (fun chunks _ => Proof.Fnv.chunks 4 1 (or_introl eq_refl) ltac:(repeat constructor) chunks). Qed.
Print Assumptions C21_fnv32_1.

Theorem C21_fnv32_1_history : forall p os s',
  arun (fun m => be_bytes 4 (Spec.Fnv.fnv1 32 m)) (fun _ => True) p (fun _ => afresh) os s' ->
  exists st', exec (Model.Fnv.cls 4 1) p (fun _ => c_new (Model.Fnv.cls 4 1)) = Ok (os, st').
Proof. exact (Proof.Api.correct_history _ _ _ (Proof.Fnv.correct 4 1 (or_introl eq_refl) ltac:(repeat constructor) ltac:(repeat constructor))). Qed.
Print Assumptions C21_fnv32_1_history.

Example C21_fnv32_1_case1 : let chunks := [text "ab"; []; text "c"] in
  Forall span_ok chunks /\ be_bytes 4 (Spec.Fnv.fnv1 32 (concat chunks)) = unhex "439c2f4b".
Proof. cbv zeta. refine (case_of _ (fun m => be_bytes 4 (Spec.Fnv.fnv1 32 m)) _ _ (C21_fnv32_1 _) _ _); [spans | vm_compute; reflexivity]. Qed.
Example C21_fnv32_1_case2 : let chunks := [text "The quick brown fox jumps "; text "over the lazy dog"] in
  Forall span_ok chunks /\ be_bytes 4 (Spec.Fnv.fnv1 32 (concat chunks)) = unhex "e9c86c6e".
Proof. cbv zeta. refine (case_of _ (fun m => be_bytes 4 (Spec.Fnv.fnv1 32 m)) _ _ (C21_fnv32_1 _) _ _); [spans | vm_compute; reflexivity]. Qed.
Example C21_fnv32_1_demo : exists os s',
  arun (fun m => be_bytes 4 (Spec.Fnv.fnv1 32 m)) (fun _ => True) demo (fun _ => afresh) os s' /\
  nth_error os 2 = Some (ONum 0x439c2f4b).
Proof. exact (demo_shown (fun m => be_bytes 4 (Spec.Fnv.fnv1 32 m)) (fun _ => True) _ _ (proj2 C21_fnv32_1_case1) I I ltac:(discriminate) ltac:(vm_compute; reflexivity)). Qed.

(** FNV32_1a: any sequence of addData calls, then finalize() and toArray()/toVector() *)
Theorem C21_fnv32_1a : forall chunks,
  Forall span_ok chunks ->
  hash_chunks (Model.Fnv.cls 4 2) chunks = Ok (be_bytes 4 (Spec.Fnv.fnv1a 32 (concat chunks))).
Proof. exact (fun chunks _ => Proof.Fnv.chunks 4 2 (or_introl eq_refl) ltac:(repeat constructor) chunks). Qed.
Print Assumptions C21_fnv32_1a.

Theorem C21_fnv32_1a_history : forall p os s',
  arun (fun m => be_bytes 4 (Spec.Fnv.fnv1a 32 m)) (fun _ => True) p (fun _ => afresh) os s' ->
  exists st', exec (Model.Fnv.cls 4 2) p (fun _ => c_new (Model.Fnv.cls 4 2)) = Ok (os, st').
Proof. exact (Proof.Api.correct_history _ _ _ (Proof.Fnv.correct 4 2 (or_introl eq_refl) ltac:(repeat constructor) ltac:(repeat constructor))). Qed.
Print Assumptions C21_fnv32_1a_history.

Example C21_fnv32_1a_case1 : let chunks := [text "ab"; []; text "c"] in
  Forall span_ok chunks /\ be_bytes 4 (Spec.Fnv.fnv1a 32 (concat chunks)) = unhex "1a47e90b".
Proof. cbv zeta. refine (case_of _ (fun m => be_bytes 4 (Spec.Fnv.fnv1a 32 m)) _ _ (C21_fnv32_1a _) _ _); [spans | vm_compute; reflexivity]. Qed.
Example C21_fnv32_1a_case2 : let chunks := [text "The quick brown fox jumps "; text "over the lazy dog"] in
  Forall span_ok chunks /\ be_bytes 4 (Spec.Fnv.fnv1a 32 (concat chunks)) = unhex "048fff90".
Proof. cbv zeta. refine (case_of _ (fun m => be_bytes 4 (Spec.Fnv.fnv1a 32 m)) _ _ (C21_fnv32_1a _) _ _); [spans | vm_compute; reflexivity]. Qed.
Example C21_fnv32_1a_demo : exists os s',
  arun (fun m => be_bytes 4 (Spec.Fnv.fnv1a 32 m)) (fun _ => True) demo (fun _ => afresh) os s' /\
  nth_error os 2 = Some (ONum 0x1a47e90b).
Proof. exact (demo_shown (fun m => be_bytes 4 (Spec.Fnv.fnv1a 32 m)) (fun _ => True) _ _ (proj2 C21_fnv32_1a_case1) I I ltac:(discriminate) ltac:(vm_compute; reflexivity)). Qed.

(** FNV64_0: any sequence of addData calls, then finalize() and toArray()/toVector() *)
Theorem C21_fnv64_0 : forall chunks,
  Forall span_ok chunks ->
  hash_chunks (Model.Fnv.cls 8 0) chunks = Ok (be_bytes 8 (Spec.Fnv.fnv0 64 (concat chunks))).
Proof. exact (fun chunks _ => Proof.Fnv.chunks 8 0 (or_intror eq_refl) ltac:(repeat constructor) chunks). Qed.
Print Assumptions C21_fnv64_0.

(** programs over FNV64_0 objects that do not call reset() (see C23_fnv64_0_refuted) *)
Theorem C21_fnv64_0_history : forall p os s',
  orun (fun (_ : unit) l => be_bytes 8 (Spec.Fnv.fnv0 64 (concat l))) (fun _ => True) span_ok (fun _ => 1 <= 0) (fun sl _ => sl <> NoObject)
    p (fun _ => NoObject) os s' ->
  exists st', oexec (Model.Fnv.obj_class 8 0) p (fun _ => None) = Ok (os, st').
Proof. exact (Proof.ObjApi.objcorrect_history _ _ _ _ _ _ (Proof.Fnv.obj_correct 8 0 (or_intror eq_refl) ltac:(repeat constructor))). Qed.
Print Assumptions C21_fnv64_0_history.

Example C21_fnv64_0_case1 : let chunks := [text "ab"; []; text "c"] in
  Forall span_ok chunks /\ be_bytes 8 (Spec.Fnv.fnv0 64 (concat chunks)) = unhex "014984000117d8a0".
Proof. cbv zeta. refine (case_of _ (fun m => be_bytes 8 (Spec.Fnv.fnv0 64 m)) _ _ (C21_fnv64_0 _) _ _); [spans | vm_compute; reflexivity]. Qed.
Example C21_fnv64_0_case2 : let chunks := [text "The quick brown fox jumps "; text "over the lazy dog"] in
  Forall span_ok chunks /\ be_bytes 8 (Spec.Fnv.fnv0 64 (concat chunks)) = unhex "1f7224b4c8a7bbb9".
Proof. cbv zeta. refine (case_of _ (fun m => be_bytes 8 (Spec.Fnv.fnv0 64 m)) _ _ (C21_fnv64_0 _) _ _); [spans | vm_compute; reflexivity]. Qed.
Example C21_fnv64_0_case3 : let chunks := [Spec.Fnv.signature] in
  Forall span_ok chunks /\ be_bytes 8 (Spec.Fnv.fnv0 64 (concat chunks)) = unhex "cbf29ce484222325".
Proof. cbv zeta. refine (case_of _ (fun m => be_bytes 8 (Spec.Fnv.fnv0 64 m)) _ _ (C21_fnv64_0 _) _ _); [spans | vm_compute; reflexivity]. Qed.
Example C21_fnv64_0_program : exists os s',
  orun (fun (_ : unit) l => be_bytes 8 (Spec.Fnv.fnv0 64 (concat l))) (fun _ => True) span_ok (fun _ => 1 <= 0) (fun sl _ => sl <> NoObject)
    (value_program tt tt) (fun _ => NoObject) os s' /\ exists out, nth_error os 0 = Some (OBytes out).
Proof.
  destruct (value_program_runs (fun (_ : unit) l => be_bytes 8 (Spec.Fnv.fnv0 64 (concat l))) (fun _ => True) (fun _ => 1 <= 0) tt tt I I) as (os & s' & H & E).
  - intros l E. apply (f_equal (@length N)) in E. rewrite Proof.Words.be_bytes_length in E. discriminate.
  - exists os, s'. split; [exact H|]. eexists. exact E.
Qed.

(** FNV64_1: any sequence of addData calls, then finalize() and toArray()/toVector() *)
Theorem C21_fnv64_1 : forall chunks,
  Forall span_ok chunks ->
  hash_chunks (Model.Fnv.cls 8 1) chunks = Ok (be_bytes 8 (Spec.Fnv.fnv1 64 (concat chunks))).
Proof. exact (fun chunks _ => Proof.Fnv.chunks 8 1 (or_intror eq_refl) ltac:(repeat constructor) chunks). Qed.
Print Assumptions C21_fnv64_1.

Theorem C21_fnv64_1_history : forall p os s',
  arun (fun m => be_bytes 8 (Spec.Fnv.fnv1 64 m)) (fun _ => True) p (fun _ => afresh) os s' ->
  exists st', exec (Model.Fnv.cls 8 1) p (fun _ => c_new (Model.Fnv.cls 8 1)) = Ok (os, st').
Proof. exact (Proof.Api.correct_history _ _ _ (Proof.Fnv.correct 8 1 (or_intror eq_refl) ltac:(repeat constructor) ltac:(repeat constructor))). Qed.
Print Assumptions C21_fnv64_1_history.

Example C21_fnv64_1_case1 : let chunks := [text "ab"; []; text "c"] in
  Forall span_ok chunks /\ be_bytes 8 (Spec.Fnv.fnv1 64 (concat chunks)) = unhex "d8dcca186bafadcb".
Proof. cbv zeta. refine (case_of _ (fun m => be_bytes 8 (Spec.Fnv.fnv1 64 m)) _ _ (C21_fnv64_1 _) _ _); [spans | vm_compute; reflexivity]. Qed.
Example C21_fnv64_1_case2 : let chunks := [text "The quick brown fox jumps "; text "over the lazy dog"] in
  Forall span_ok chunks /\ be_bytes 8 (Spec.Fnv.fnv1 64 (concat chunks)) = unhex "a8b2f3117de37ace".
Proof. cbv zeta. refine (case_of _ (fun m => be_bytes 8 (Spec.Fnv.fnv1 64 m)) _ _ (C21_fnv64_1 _) _ _); [spans | vm_compute; reflexivity]. Qed.
Example C21_fnv64_1_demo : exists os s',
  arun (fun m => be_bytes 8 (Spec.Fnv.fnv1 64 m)) (fun _ => True) demo (fun _ => afresh) os s' /\
  nth_error os 2 = Some (ONum 0xd8dcca18).
Proof. exact (demo_shown (fun m => be_bytes 8 (Spec.Fnv.fnv1 64 m)) (fun _ => True) _ _ (proj2 C21_fnv64_1_case1) I I ltac:(discriminate) ltac:(vm_compute; reflexivity)). Qed.

(** FNV64_1a: any sequence of addData calls, then finalize() and toArray()/toVector() *)
Theorem C21_fnv64_1a : forall chunks,
  Forall span_ok chunks ->
  hash_chunks (Model.Fnv.cls 8 2) chunks = Ok (be_bytes 8 (Spec.Fnv.fnv1a 64 (concat chunks))).
Proof. exact (fun chunks _ => Proof.Fnv.chunks 8 2 (or_intror eq_refl) ltac:(repeat constructor) chunks). Qed.
Print Assumptions C21_fnv64_1a.

Theorem C21_fnv64_1a_history : forall p os s',
  arun (fun m => be_bytes 8 (Spec.Fnv.fnv1a 64 m)) (fun _ => True) p (fun _ => afresh) os s' ->
  exists st', exec (Model.Fnv.cls 8 2) p (fun _ => c_new (Model.Fnv.cls 8 2)) = Ok (os, st').
Proof. exact (Proof.Api.correct_history _ _ _ (Proof.Fnv.correct 8 2 (or_intror eq_refl) ltac:(repeat constructor) ltac:(repeat constructor))). Qed.
Print Assumptions C21_fnv64_1a_history.

Example C21_fnv64_1a_case1 : let chunks := [text "ab"; []; text "c"] in
  Forall span_ok chunks /\ be_bytes 8 (Spec.Fnv.fnv1a 64 (concat chunks)) = unhex "e71fa2190541574b".
Proof. cbv zeta. refine (case_of _ (fun m => be_bytes 8 (Spec.Fnv.fnv1a 64 m)) _ _ (C21_fnv64_1a _) _ _); [spans | vm_compute; reflexivity]. Qed.
Example C21_fnv64_1a_case2 : let chunks := [text "The quick brown fox jumps "; text "over the lazy dog"] in
  Forall span_ok chunks /\ be_bytes 8 (Spec.Fnv.fnv1a 64 (concat chunks)) = unhex "f3f9b7f5e7e47110".
Proof. cbv zeta. refine (case_of _ (fun m => be_bytes 8 (Spec.Fnv.fnv1a 64 m)) _ _ (C21_fnv64_1a _) _ _); [spans | vm_compute; reflexivity]. Qed.
Example C21_fnv64_1a_demo : exists os s',
  arun (fun m => be_bytes 8 (Spec.Fnv.fnv1a 64 m)) (fun _ => True) demo (fun _ => afresh) os s' /\
  nth_error os 2 = Some (ONum 0xe71fa219).
Proof. exact (demo_shown (fun m => be_bytes 8 (Spec.Fnv.fnv1a 64 m)) (fun _ => True) _ _ (proj2 C21_fnv64_1a_case1) I I ltac:(discriminate) ltac:(vm_compute; reflexivity)). Qed.

(** the offset bases the code uses are the FNV-0 hashes of the signature *)
Theorem C21_offset_bases : c_new (Model.Fnv.cls 4 1) = Spec.Fnv.offset_basis 32 /\ c_new (Model.Fnv.cls 4 2) = Spec.Fnv.offset_basis 32 /\
  c_new (Model.Fnv.cls 8 1) = Spec.Fnv.offset_basis 64 /\ c_new (Model.Fnv.cls 8 2) = Spec.Fnv.offset_basis 64.
Proof. exact Proof.Fnv.bases. Qed.
Print Assumptions C21_offset_bases.
