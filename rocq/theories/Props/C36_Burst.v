(** C36: CRC_32 detects every burst error of up to 32 bits, and is affine. *)
From Coq Require Import String List NArith.
From Verif.Base Require Import Res.
From Verif.Spec Require Import Words Client.
From Verif.Model Require Import Api.
From Verif.Tests Require Import Kit.
From Verif.Spec Require Crc32.
From Verif.Model Require Crc32.
From Verif.Proof Require Crc32.
Import ListNotations.

(** Two messages, each added in chunks of any sizes, whose bits (least significant bit of each
    byte first) differ only in a window of at most 32 positions get different digests. *)
Theorem C36_burst : forall xs ys before a b after,
  Forall span_ok xs -> Forall span_ok ys ->
  Spec.Crc32.bits (concat xs) = before ++ a ++ after ->
  Spec.Crc32.bits (concat ys) = before ++ b ++ after ->
  length a = length b -> length a <= 32 -> a <> b ->
  hash_chunks Model.Crc32.cls xs <> hash_chunks Model.Crc32.cls ys.
Proof. exact Proof.Crc32.burst_digest. Qed.
Print Assumptions C36_burst.

Theorem C36_affine : forall x y z dx dy dz,
  span_ok x -> span_ok y -> span_ok z -> length x = length y -> length y = length z ->
  hash_chunks Model.Crc32.cls [x] = Ok dx -> hash_chunks Model.Crc32.cls [y] = Ok dy -> hash_chunks Model.Crc32.cls [z] = Ok dz ->
  hash_chunks Model.Crc32.cls [Spec.Crc32.xor_bytes x (Spec.Crc32.xor_bytes y z)] =
  Ok (Spec.Crc32.xor_bytes dx (Spec.Crc32.xor_bytes dy dz)).
Proof. exact Proof.Crc32.affine_digest. Qed.
Print Assumptions C36_affine.

(** a burst of exactly 32 bits that is not aligned to bytes *)
Example C36_burst_case :
  let x := text "The quick brown fox" in
  let y := [84; 104; 101; 32; 241; 138; 150; 156; 108; 32; 98; 114; 111; 119; 110; 32; 102; 111; 120]%N in
  span_ok x /\ span_ok y /\
  exists before a b after, Spec.Crc32.bits x = before ++ a ++ after /\ Spec.Crc32.bits y = before ++ b ++ after /\
    length a = length b /\ length a = 32 /\ a <> b.
Proof.
  cbv zeta. split; [apply span_okb_ok; vm_compute; reflexivity|]. split; [apply span_okb_ok; vm_compute; reflexivity|].
  exists (firstn 37 (Spec.Crc32.bits (text "The quick brown fox"))).
  exists (firstn 32 (skipn 37 (Spec.Crc32.bits (text "The quick brown fox")))).
  exists (firstn 32 (skipn 37 (Spec.Crc32.bits [84; 104; 101; 32; 241; 138; 150; 156; 108; 32; 98; 114; 111; 119; 110; 32; 102; 111; 120]%N))).
  exists (skipn 69 (Spec.Crc32.bits (text "The quick brown fox"))).
  vm_compute. repeat split; try reflexivity; discriminate.
Qed.
Example C36_affine_case :
  hash_chunks Model.Crc32.cls [text "abc"] = Ok (unhex "352441c2") /\
  span_ok (text "abc") /\ span_ok (text "xyz") /\ span_ok [1; 2; 255]%N.
Proof. split; [vm_compute; reflexivity|]. repeat split; try (apply span_okb_ok; vm_compute; reflexivity); reflexivity. Qed.
