(** C31: the input of TupleHash is encoded unambiguously.  Generated by tools/gen_cshake_props.py. *)
From Coq Require Import String List NArith ZArith Lia.
From Verif.Base Require Import Res.
From Verif.Spec Require Import Words Client ObjClient Log2 CShakeArgs.
From Verif.Model Require Import Api ObjApi.
From Verif.Tests Require Import Kit KitObj.
From Verif.Spec Require Keccak Sp800185.
From Verif.Model Require Keccak CShake TupleHash.
From Verif.Proof Require ObjApi Keccak CShake TupleHash Log2Witness.
Import ListNotations.
Local Open Scope N_scope.

(** moving bytes between neighbouring elements changes the stream *)
Theorem C31_regroup : forall (d : nat) custom before x y z after, N.of_nat d < 2 ^ 61 -> y <> [] ->
  Forall (fun s => Sp800185.bit_length s < 2 ^ 2040) (custom :: before ++ [x ++ y; z; x; y ++ z] ++ after) ->
  Sp800185.cshake_stream 168 Sp800185.tuple_name custom (Sp800185.tuple_stream d (before ++ [x ++ y; z] ++ after)) <>
  Sp800185.cshake_stream 168 Sp800185.tuple_name custom (Sp800185.tuple_stream d (before ++ [x; y ++ z] ++ after)).
Proof. exact (Proof.TupleHash.regroup 168 ltac:(lia)). Qed.
Print Assumptions C31_regroup.
Example C31_regroup_case :
  Sp800185.cshake_stream 168 Sp800185.tuple_name [] (Sp800185.tuple_stream 32 [text "ab"; text "c"]) <>
  Sp800185.cshake_stream 168 Sp800185.tuple_name [] (Sp800185.tuple_stream 32 [text "a"; text "bc"]).
Proof. apply (C31_regroup 32 [] [] (text "a") (text "b") (text "c") []); [reflexivity|discriminate|repeat constructor]. Qed.

(** what TupleHash_128 hashes is the encoded byte stream *)
Theorem C31_tuplehash128 : forall lg dbg (length : Z) custom tuple,
  log2_accurate lg -> (0 <= length < 2 ^ 28)%Z -> Sp800185.short custom -> Forall Sp800185.short tuple ->
  ohash (Model.TupleHash.cls128 lg dbg) (length, custom) tuple =
  Ok (Spec.Keccak.bytes_of (Spec.Keccak.keccak 256 (8 * Z.to_nat length)
       (Spec.Keccak.bits_of (Sp800185.cshake_stream 168 Sp800185.tuple_name custom (Sp800185.tuple_stream (Z.to_nat length) tuple)) ++ [false; false]))).
Proof. exact Proof.TupleHash.tuplehash128_hash. Qed.
Print Assumptions C31_tuplehash128.

(** and different inputs give different streams *)
Theorem C31_injective128 : forall (d d' : nat) custom custom' tuple tuple',
  N.of_nat d < 2 ^ 61 -> N.of_nat d' < 2 ^ 61 ->
  Forall (fun s => Sp800185.bit_length s < 2 ^ 2040) (custom :: tuple) ->
  Forall (fun s => Sp800185.bit_length s < 2 ^ 2040) (custom' :: tuple') ->
  Sp800185.cshake_stream 168 Sp800185.tuple_name custom (Sp800185.tuple_stream d tuple) =
  Sp800185.cshake_stream 168 Sp800185.tuple_name custom' (Sp800185.tuple_stream d' tuple') ->
  d = d' /\ custom = custom' /\ tuple = tuple'.
Proof. exact (Proof.TupleHash.stream_inj 168 ltac:(lia)). Qed.
Print Assumptions C31_injective128.

(** so objects given different input can only agree if two different streams collide in the sponge *)
Theorem C31_collision128 : forall lg dbg dbg' (length : Z) custom custom' tuple tuple' out,
  log2_accurate lg -> (0 <= length < 2 ^ 28)%Z -> Sp800185.short custom -> Sp800185.short custom' ->
  Forall Sp800185.short tuple -> Forall Sp800185.short tuple' ->
  (custom, tuple) <> (custom', tuple') ->
  ohash (Model.TupleHash.cls128 lg dbg) (length, custom) tuple = Ok out ->
  ohash (Model.TupleHash.cls128 lg dbg') (length, custom') tuple' = Ok out ->
  exists s s', s <> s' /\
    Spec.Keccak.bytes_of (Spec.Keccak.keccak 256 (8 * Z.to_nat length) (Spec.Keccak.bits_of s ++ [false; false])) = out /\
    Spec.Keccak.bytes_of (Spec.Keccak.keccak 256 (8 * Z.to_nat length) (Spec.Keccak.bits_of s' ++ [false; false])) = out.
Proof. exact Proof.TupleHash.tuplehash128_collision. Qed.
Print Assumptions C31_collision128.

(** what TupleHash_256 hashes is the encoded byte stream *)
Theorem C31_tuplehash256 : forall lg dbg (length : Z) custom tuple,
  log2_accurate lg -> (0 <= length < 2 ^ 28)%Z -> Sp800185.short custom -> Forall Sp800185.short tuple ->
  ohash (Model.TupleHash.cls256 lg dbg) (length, custom) tuple =
  Ok (Spec.Keccak.bytes_of (Spec.Keccak.keccak 512 (8 * Z.to_nat length)
       (Spec.Keccak.bits_of (Sp800185.cshake_stream 136 Sp800185.tuple_name custom (Sp800185.tuple_stream (Z.to_nat length) tuple)) ++ [false; false]))).
Proof. exact Proof.TupleHash.tuplehash256_hash. Qed.
Print Assumptions C31_tuplehash256.

(** and different inputs give different streams *)
Theorem C31_injective256 : forall (d d' : nat) custom custom' tuple tuple',
  N.of_nat d < 2 ^ 61 -> N.of_nat d' < 2 ^ 61 ->
  Forall (fun s => Sp800185.bit_length s < 2 ^ 2040) (custom :: tuple) ->
  Forall (fun s => Sp800185.bit_length s < 2 ^ 2040) (custom' :: tuple') ->
  Sp800185.cshake_stream 136 Sp800185.tuple_name custom (Sp800185.tuple_stream d tuple) =
  Sp800185.cshake_stream 136 Sp800185.tuple_name custom' (Sp800185.tuple_stream d' tuple') ->
  d = d' /\ custom = custom' /\ tuple = tuple'.
Proof. exact (Proof.TupleHash.stream_inj 136 ltac:(lia)). Qed.
Print Assumptions C31_injective256.

(** so objects given different input can only agree if two different streams collide in the sponge *)
Theorem C31_collision256 : forall lg dbg dbg' (length : Z) custom custom' tuple tuple' out,
  log2_accurate lg -> (0 <= length < 2 ^ 28)%Z -> Sp800185.short custom -> Sp800185.short custom' ->
  Forall Sp800185.short tuple -> Forall Sp800185.short tuple' ->
  (custom, tuple) <> (custom', tuple') ->
  ohash (Model.TupleHash.cls256 lg dbg) (length, custom) tuple = Ok out ->
  ohash (Model.TupleHash.cls256 lg dbg') (length, custom') tuple' = Ok out ->
  exists s s', s <> s' /\
    Spec.Keccak.bytes_of (Spec.Keccak.keccak 512 (8 * Z.to_nat length) (Spec.Keccak.bits_of s ++ [false; false])) = out /\
    Spec.Keccak.bytes_of (Spec.Keccak.keccak 512 (8 * Z.to_nat length) (Spec.Keccak.bits_of s' ++ [false; false])) = out.
Proof. exact Proof.TupleHash.tuplehash256_collision. Qed.
Print Assumptions C31_collision256.
