(** C30: the integer encodings of SP 800-185, whose byte count the library computes with
    floating-point numbers. *)
From Coq Require Import String List NArith ZArith Lia.
From Verif.Base Require Import Res Double.
From Verif.Spec Require Import Words Log2.
From Verif.Spec Require Sp800185.
From Verif.Model Require Import Buffer.
From Verif.Model Require CShake TupleHash.
From Verif.Proof Require Encode Log2Witness.
Import ListNotations.
Local Open Scope N_scope.

(** The full statement would allow every 64-bit value.  Proved up to 2^56 - 2^8: *)
Theorem C30_left_encode_partial : forall lg dbg v, log2_accurate lg -> v <= 2 ^ 56 - 2 ^ 8 ->
  exists b, Model.CShake.leftEncode lg dbg v = Ok b /\ buf_span b = Sp800185.left_encode v.
Proof. exact Proof.Encode.left_ok. Qed.
Print Assumptions C30_left_encode_partial.
Theorem C30_right_encode_partial : forall lg dbg v, log2_accurate lg -> v <= 2 ^ 56 - 2 ^ 8 ->
  exists b, Model.TupleHash.rightEncode lg dbg v = Ok b /\ buf_span b = Sp800185.right_encode v.
Proof. exact Proof.Encode.right_ok. Qed.
Print Assumptions C30_right_encode_partial.

(** in words: the count is the smallest positive number of bytes that holds the value, and the other
    bytes are the value in big-endian order *)
Theorem C30_left_shape : forall lg dbg v, log2_accurate lg -> v <= 2 ^ 56 - 2 ^ 8 ->
  exists b n digits, Model.CShake.leftEncode lg dbg v = Ok b /\ buf_span b = n :: digits /\
    length digits = N.to_nat n /\ be_value digits = v /\ bytes_ok digits /\
    1 <= n /\ v < 256 ^ n /\ (forall k, 1 <= k -> v < 256 ^ k -> n <= k).
Proof. exact Proof.Encode.left_shape. Qed.
Print Assumptions C30_left_shape.
Theorem C30_right_shape : forall lg dbg v, log2_accurate lg -> v <= 2 ^ 56 - 2 ^ 8 ->
  exists b n digits, Model.TupleHash.rightEncode lg dbg v = Ok b /\ buf_span b = digits ++ [n] /\
    length digits = N.to_nat n /\ be_value digits = v /\ bytes_ok digits /\
    1 <= n /\ v < 256 ^ n /\ (forall k, 1 <= k -> v < 256 ^ k -> n <= k).
Proof. exact Proof.Encode.right_shape. Qed.
Print Assumptions C30_right_shape.

(** decodable from the front, and from the back *)
Theorem C30_left_unique : forall lg dbg v v' b b' rest rest', log2_accurate lg ->
  v <= 2 ^ 56 - 2 ^ 8 -> v' <= 2 ^ 56 - 2 ^ 8 ->
  Model.CShake.leftEncode lg dbg v = Ok b -> Model.CShake.leftEncode lg dbg v' = Ok b' ->
  buf_span b ++ rest = buf_span b' ++ rest' -> v = v' /\ rest = rest'.
Proof. exact Proof.Encode.left_unique. Qed.
Print Assumptions C30_left_unique.
Theorem C30_right_unique : forall lg dbg v v' b b' before before', log2_accurate lg ->
  v <= 2 ^ 56 - 2 ^ 8 -> v' <= 2 ^ 56 - 2 ^ 8 ->
  Model.TupleHash.rightEncode lg dbg v = Ok b -> Model.TupleHash.rightEncode lg dbg v' = Ok b' ->
  before ++ buf_span b = before' ++ buf_span b' -> v = v' /\ before = before'.
Proof. exact Proof.Encode.right_unique. Qed.
Print Assumptions C30_right_unique.

(** from 2^56 - 4 on (where log2 rounds up to 56 at the latest) the 8-byte buffer is too small *)
Theorem C30_left_encode_refuted : forall lg dbg v, log2_accurate lg -> 2 ^ 56 - 4 <= v <= 2 ^ 63 ->
  Model.CShake.leftEncode lg dbg v = if dbg then Throw OutOfRange else Ub OobWrite.
Proof. exact (fun lg dbg v H => Proof.Encode.leftEncode_overflow lg dbg H v). Qed.
Print Assumptions C30_left_encode_refuted.
Theorem C30_right_encode_refuted : forall lg dbg v, log2_accurate lg -> 2 ^ 56 - 4 <= v <= 2 ^ 63 ->
  Model.TupleHash.rightEncode lg dbg v = if dbg then Throw OutOfRange else Ub OobWrite.
Proof. exact (fun lg dbg v H => Proof.Encode.rightEncode_overflow lg dbg H v). Qed.
Print Assumptions C30_right_encode_refuted.

(** the assumption on std::log2 can be met: by the correctly rounded logarithm *)
Theorem C30_log2_assumption : exists lg, log2_accurate lg.
Proof. exact (ex_intro _ Proof.Log2Witness.correct_log2 Proof.Log2Witness.correct_log2_accurate). Qed.
Print Assumptions C30_log2_assumption.

Example C30_case1 : exists b, Model.CShake.leftEncode Proof.Log2Witness.correct_log2 true (2 ^ 48 - 1) = Ok b /\ buf_span b = [6; 255; 255; 255; 255; 255; 255].
Proof.
  destruct (C30_left_encode_partial Proof.Log2Witness.correct_log2 true (2 ^ 48 - 1) Proof.Log2Witness.correct_log2_accurate) as (b & E & S).
  - discriminate.
  - exists b. split; [exact E|]. rewrite S. reflexivity.
Qed.
Example C30_case2 : exists b, Model.TupleHash.rightEncode Proof.Log2Witness.correct_log2 false (2 ^ 48) = Ok b /\ buf_span b = [1; 0; 0; 0; 0; 0; 0; 7].
Proof.
  destruct (C30_right_encode_partial Proof.Log2Witness.correct_log2 false (2 ^ 48) Proof.Log2Witness.correct_log2_accurate) as (b & E & S).
  - discriminate.
  - exists b. split; [exact E|]. rewrite S. reflexivity.
Qed.
Example C30_case3 : Model.CShake.leftEncode Proof.Log2Witness.correct_log2 false (2 ^ 56 - 1) = Ub OobWrite.
Proof. apply (C30_left_encode_refuted _ false); [exact Proof.Log2Witness.correct_log2_accurate|split; discriminate]. Qed.
