(** C20: CRC_32 computes the bit-by-bit CRC of the IEEE 802.3 polynomial. *)
From Coq Require Import String List NArith.
From Verif.Base Require Import Res.
From Verif.Spec Require Import Words Client.
From Verif.Model Require Import Api.
From Verif.Tests Require Import Kit.
From Verif.Spec Require Crc32.
From Verif.Model Require Crc32.
From Verif.Model.Gen Require Crc32Table.
From Verif.Proof Require Api Crc32.
Import ListNotations.

(** any sequence of addData calls, then finalize() and toArray()/toVector() *)
Theorem C20_crc32 : forall chunks,
  Forall span_ok chunks ->
  hash_chunks Model.Crc32.cls chunks = Ok (be_bytes 4 (Spec.Crc32.crc32 (concat chunks))).
Proof. exact (fun chunks H => Proof.Api.correct_chunks _ _ _ Proof.Crc32.crc32_correct chunks H I). Qed.
Print Assumptions C20_crc32.

(** every program over any number of such objects (addData, finalize, reset, copies, read-outs) *)
Theorem C20_crc32_history : forall p os s',
  arun (fun m => be_bytes 4 (Spec.Crc32.crc32 m)) (fun _ => True) p (fun _ => afresh) os s' ->
  exists st', exec Model.Crc32.cls p (fun _ => c_new Model.Crc32.cls) = Ok (os, st').
Proof. exact (Proof.Api.correct_history _ _ _ Proof.Crc32.crc32_correct). Qed.
Print Assumptions C20_crc32_history.

(** every entry of the sixteen tables: the register after a byte and k zero bytes *)
Theorem C20_table : forall k i, k < 16 -> i < 256 ->
  nth i (nth k Model.Gen.Crc32Table.crc32LUT []) 0%N =
  Spec.Crc32.remainder 0 (Spec.Crc32.byte_bits (N.of_nat i) ++ repeat false (8 * k)).
Proof. exact Proof.Crc32.table_entry. Qed.
Print Assumptions C20_table.
Theorem C20_table_shape : length Model.Gen.Crc32Table.crc32LUT = 16 /\
  Forall (fun row => length row = 256) Model.Gen.Crc32Table.crc32LUT.
Proof. exact Proof.Crc32.table_shape. Qed.
Print Assumptions C20_table_shape.

(** the polynomial as it is usually written *)
Example C20_polynomial : Spec.Crc32.polynomial = 0xEDB88320%N.
Proof. vm_compute. reflexivity. Qed.

Example C20_crc32_case1 : let chunks := [text "ab"; []; text "c"] in
  Forall span_ok chunks /\ be_bytes 4 (Spec.Crc32.crc32 (concat chunks)) = unhex "352441c2".
Proof. cbv zeta. refine (case_of _ (fun m => be_bytes 4 (Spec.Crc32.crc32 m)) _ _ (C20_crc32 _) _ _); [spans | vm_compute; reflexivity]. Qed.
Example C20_crc32_case2 : let chunks := [text "The quick brown fox jumps over "; text "the lazy dog"] in
  Forall span_ok chunks /\ be_bytes 4 (Spec.Crc32.crc32 (concat chunks)) = unhex "414fa339".
Proof. cbv zeta. refine (case_of _ (fun m => be_bytes 4 (Spec.Crc32.crc32 m)) _ _ (C20_crc32 _) _ _); [spans | vm_compute; reflexivity]. Qed.
Example C20_crc32_case3 : let chunks := [counting 37; counting 21] in
  Forall span_ok chunks /\ be_bytes 4 (Spec.Crc32.crc32 (concat chunks)) = unhex "330fc36b".
Proof. cbv zeta. refine (case_of _ (fun m => be_bytes 4 (Spec.Crc32.crc32 m)) _ _ (C20_crc32 _) _ _); [spans | vm_compute; reflexivity]. Qed.
Example C20_crc32_demo : exists os s',
  arun (fun m => be_bytes 4 (Spec.Crc32.crc32 m)) (fun _ => True) demo (fun _ => afresh) os s' /\
  nth_error os 2 = Some (ONum 0x352441c2).
Proof. exact (demo_shown (fun m => be_bytes 4 (Spec.Crc32.crc32 m)) (fun _ => True) _ _ (proj2 C20_crc32_case1) I I ltac:(discriminate) ltac:(vm_compute; reflexivity)). Qed.
