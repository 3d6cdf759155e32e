(** C18: TupleHash of NIST SP 800-185.  Generated by tools/gen_cshake_props.py. *)
From Coq Require Import String List NArith ZArith Lia.
From Verif.Base Require Import Res.
From Verif.Spec Require Import Words Client ObjClient Log2 CShakeArgs.
From Verif.Model Require Import Api ObjApi.
From Verif.Tests Require Import Kit KitObj.
From Verif.Spec Require Keccak Sp800185.
From Verif.Model Require Keccak CShake TupleHash.
From Verif.Proof Require ObjApi Keccak CShake TupleHash Log2Witness.
Import ListNotations.
Local Open Scope N_scope.


(** ** TupleHash_128 *)

Theorem C18_tuplehash128_partial : forall lg dbg (length : Z) custom tuple,
  log2_accurate lg -> (0 <= length < 2 ^ 28)%Z -> Sp800185.short custom -> Forall Sp800185.short tuple ->
  ohash (Model.TupleHash.cls128 lg dbg) (length, custom) tuple = Ok (Sp800185.tuplehash128 (Z.to_nat length) custom tuple).
Proof. exact Proof.TupleHash.tuplehash128_hash. Qed.
Print Assumptions C18_tuplehash128_partial.

(** the missing part: strings of 9 * 10^15 bytes and more do not work *)
Theorem C18_tuplehash128_long_refuted : forall lg dbg (length : Z) custom tuple,
  log2_accurate lg -> (0 <= length)%Z -> long custom ->
  ohash (Model.TupleHash.cls128 lg dbg) (length, custom) tuple = if dbg then Throw OutOfRange else Ub OobWrite.
Proof. exact Proof.TupleHash.tuplehash128_long. Qed.
Print Assumptions C18_tuplehash128_long_refuted.

(** every program over any number of such objects, without reset() and assignments to moved-from objects *)
Theorem C18_tuplehash128_history : forall lg dbg p os s', log2_accurate lg ->
  orun tuplehash128 ok_targs Sp800185.short no_reset live_assign p (fun _ => NoObject) os s' ->
  exists st', oexec (Model.TupleHash.cls128 lg dbg) p (fun _ => None) = Ok (os, st').
Proof. exact (fun lg dbg p os s' H => Proof.ObjApi.objcorrect_history _ _ _ _ _ _ (Proof.TupleHash.tuplehash128_correct lg dbg H) p os s'). Qed.
Print Assumptions C18_tuplehash128_history.

(** the other digest lengths: the constructor throws, or finalize() overflows an int *)
Theorem C18_tuplehash128_negative : forall lg dbg (length : Z) custom tuple, (length < 0)%Z ->
  ohash (Model.TupleHash.cls128 lg dbg) (length, custom) tuple = Throw LengthError.
Proof. exact Proof.TupleHash.tuplehash128_negative. Qed.
Print Assumptions C18_tuplehash128_negative.
Theorem C18_tuplehash128_overflow : forall lg dbg (length : Z) custom tuple,
  log2_accurate lg -> (2 ^ 28 <= length)%Z -> Sp800185.short custom -> Forall Sp800185.short tuple ->
  ohash (Model.TupleHash.cls128 lg dbg) (length, custom) tuple = Ub SignedOverflow.
Proof. exact Proof.TupleHash.tuplehash128_too_long. Qed.
Print Assumptions C18_tuplehash128_overflow.

(** the samples of NIST *)
Example C18_tuplehash128_case1 : Sp800185.tuplehash128 32 [] [counting 3; [16; 17; 18; 19; 20; 21]] = unhex "c5d8786c1afb9b82111ab34b65b2c0048fa64e6d48e263264ce1707d3ffc8ed1".
Proof. apply (Proof.CShake.via_keccak128 true); [one_span|vm_compute; reflexivity]. Qed.
Example C18_tuplehash128_case2 :
  Sp800185.tuplehash128 32 (text "My Tuple App") [counting 3; [16; 17; 18; 19; 20; 21]; [32; 33; 34; 35; 36; 37; 38; 39; 40]] = unhex "e60f202c89a2631eda8d4c588ca5fd07f39e5151998deccf973adb3804bb6e84".
Proof. apply (Proof.CShake.via_keccak128 false); [one_span|vm_compute; reflexivity]. Qed.

(** an object meeting all hypotheses *)
Example C18_tuplehash128_object :
  ohash (Model.TupleHash.cls128 Proof.Log2Witness.correct_log2 true) (32%Z, []) [counting 3; [16; 17; 18; 19; 20; 21]] = Ok (unhex "c5d8786c1afb9b82111ab34b65b2c0048fa64e6d48e263264ce1707d3ffc8ed1").
Proof.
  rewrite <- C18_tuplehash128_case1.
  apply (C18_tuplehash128_partial _ true 32); [exact Proof.Log2Witness.correct_log2_accurate|lia|shorts|repeat constructor; shorts].
Qed.

(** ** TupleHash_256 *)

Theorem C18_tuplehash256_partial : forall lg dbg (length : Z) custom tuple,
  log2_accurate lg -> (0 <= length < 2 ^ 28)%Z -> Sp800185.short custom -> Forall Sp800185.short tuple ->
  ohash (Model.TupleHash.cls256 lg dbg) (length, custom) tuple = Ok (Sp800185.tuplehash256 (Z.to_nat length) custom tuple).
Proof. exact Proof.TupleHash.tuplehash256_hash. Qed.
Print Assumptions C18_tuplehash256_partial.

(** the missing part: strings of 9 * 10^15 bytes and more do not work *)
Theorem C18_tuplehash256_long_refuted : forall lg dbg (length : Z) custom tuple,
  log2_accurate lg -> (0 <= length)%Z -> long custom ->
  ohash (Model.TupleHash.cls256 lg dbg) (length, custom) tuple = if dbg then Throw OutOfRange else Ub OobWrite.
Proof. exact Proof.TupleHash.tuplehash256_long. Qed.
Print Assumptions C18_tuplehash256_long_refuted.

(** every program over any number of such objects, without reset() and assignments to moved-from objects *)
Theorem C18_tuplehash256_history : forall lg dbg p os s', log2_accurate lg ->
  orun tuplehash256 ok_targs Sp800185.short no_reset live_assign p (fun _ => NoObject) os s' ->
  exists st', oexec (Model.TupleHash.cls256 lg dbg) p (fun _ => None) = Ok (os, st').
Proof. exact (fun lg dbg p os s' H => Proof.ObjApi.objcorrect_history _ _ _ _ _ _ (Proof.TupleHash.tuplehash256_correct lg dbg H) p os s'). Qed.
Print Assumptions C18_tuplehash256_history.

(** the other digest lengths: the constructor throws, or finalize() overflows an int *)
Theorem C18_tuplehash256_negative : forall lg dbg (length : Z) custom tuple, (length < 0)%Z ->
  ohash (Model.TupleHash.cls256 lg dbg) (length, custom) tuple = Throw LengthError.
Proof. exact Proof.TupleHash.tuplehash256_negative. Qed.
Print Assumptions C18_tuplehash256_negative.
Theorem C18_tuplehash256_overflow : forall lg dbg (length : Z) custom tuple,
  log2_accurate lg -> (2 ^ 28 <= length)%Z -> Sp800185.short custom -> Forall Sp800185.short tuple ->
  ohash (Model.TupleHash.cls256 lg dbg) (length, custom) tuple = Ub SignedOverflow.
Proof. exact Proof.TupleHash.tuplehash256_too_long. Qed.
Print Assumptions C18_tuplehash256_overflow.

(** the samples of NIST *)
Example C18_tuplehash256_case1 : Sp800185.tuplehash256 64 [] [counting 3; [16; 17; 18; 19; 20; 21]] = unhex "cfb7058caca5e668f81a12a20a2195ce97a925f1dba3e7449a56f82201ec607311ac2696b1ab5ea2352df1423bde7bd4bb78c9aed1a853c78672f9eb23bbe194".
Proof. apply (Proof.CShake.via_keccak256 true); [one_span|vm_compute; reflexivity]. Qed.
Example C18_tuplehash256_case2 :
  Sp800185.tuplehash256 64 (text "My Tuple App") [counting 3; [16; 17; 18; 19; 20; 21]; [32; 33; 34; 35; 36; 37; 38; 39; 40]] = unhex "45000be63f9b6bfd89f54717670f69a9bc763591a4f05c50d68891a744bcc6e7d6d5b5e82c018da999ed35b0bb49c9678e526abd8e85c13ed254021db9e790ce".
Proof. apply (Proof.CShake.via_keccak256 false); [one_span|vm_compute; reflexivity]. Qed.

(** an object meeting all hypotheses *)
Example C18_tuplehash256_object :
  ohash (Model.TupleHash.cls256 Proof.Log2Witness.correct_log2 true) (64%Z, []) [counting 3; [16; 17; 18; 19; 20; 21]] = Ok (unhex "cfb7058caca5e668f81a12a20a2195ce97a925f1dba3e7449a56f82201ec607311ac2696b1ab5ea2352df1423bde7bd4bb78c9aed1a853c78672f9eb23bbe194").
Proof.
  rewrite <- C18_tuplehash256_case1.
  apply (C18_tuplehash256_partial _ true 64); [exact Proof.Log2Witness.correct_log2_accurate|lia|shorts|repeat constructor; shorts].
Qed.
