(** C16: SHAKE_128 and SHAKE_256 compute the SHAKE functions of FIPS 202, for every output length.
    C32: a shorter output is a prefix of a longer one. *)
From Coq Require Import String List NArith ZArith Lia.
From Verif.Base Require Import Res.
From Verif.Spec Require Import Words Client.
From Verif.Model Require Import Api.
From Verif.Tests Require Import Kit.
From Verif.Spec Require Keccak.
From Verif.Model Require Keccak.
From Verif.Proof Require Api.
From Verif.Proof Require Keccak.
From Verif.Proof Require KeccakOut.
From Verif.Proof Require Shake.
Import ListNotations.

Lemma ok_inj {A} (x y : A) : Ok x = Ok y -> x = y.
Proof. intros E. now injection E. Qed.

(** SHAKE_128(d): any sequence of addData calls, then finalize() and toVector(). *)
Theorem C16_shake128 : forall dbg d chunks,
  Forall span_ok chunks ->
  hash_chunks (Model.Keccak.shake128 dbg d) chunks = Ok (Spec.Keccak.shake128 d (concat chunks)).
Proof. exact (fun dbg d chunks H => Proof.Api.correct_chunks _ _ _ (Proof.Keccak.shake128_correct dbg d) chunks H I). Qed.
Print Assumptions C16_shake128.

(** the same from the constructor on, which takes an int: lengths that are not negative work, the
    others make the constructor throw *)
Theorem C16_shake128_int : forall dbg (length : Z) chunks,
  Forall span_ok chunks ->
  (let! x := Model.Keccak.construct (1344 / 8) length in hash_from (Model.Keccak.shake128 dbg 0) x chunks) =
  if (0 <=? length)%Z then Ok (Spec.Keccak.shake128 (Z.to_nat length) (concat chunks)) else Throw LengthError.
Proof. exact Proof.Shake.shake128_int. Qed.
Print Assumptions C16_shake128_int.

(** every program over any number of such objects (addData, finalize, reset, copies, read-outs) *)
Theorem C16_shake128_history : forall dbg d p os s',
  arun (Spec.Keccak.shake128 d) (fun _ => True) p (fun _ => afresh) os s' ->
  exists st', exec (Model.Keccak.shake128 dbg d) p (fun _ => c_new (Model.Keccak.shake128 dbg d)) = Ok (os, st').
Proof. exact (fun dbg d => Proof.Api.correct_history _ _ _ (Proof.Keccak.shake128_correct dbg d)). Qed.
Print Assumptions C16_shake128_history.

(** the vector read out has exactly the requested number of bytes *)
Theorem C16_shake128_length : forall dbg d chunks,
  Forall span_ok chunks ->
  exists out, hash_chunks (Model.Keccak.shake128 dbg d) chunks = Ok out /\ length out = d.
Proof. exact Proof.Shake.shake128_length. Qed.
Print Assumptions C16_shake128_length.

(** objects fed the same message, whatever the chunks and the build: the output of length a is the
    beginning of the output of length b *)
Theorem C32_shake128 : forall dbg dbg' a b chunks chunks',
  Forall span_ok chunks -> Forall span_ok chunks' -> concat chunks = concat chunks' -> a <= b ->
  exists out out', hash_chunks (Model.Keccak.shake128 dbg b) chunks = Ok out /\
    hash_chunks (Model.Keccak.shake128 dbg' a) chunks' = Ok out' /\ out' = firstn a out.
Proof. exact Proof.Shake.shake128_prefix. Qed.
Print Assumptions C32_shake128.

Example C16_shake128_case1 : let chunks := [text "ab"; []; text "c"] in
  Forall span_ok chunks /\ Spec.Keccak.shake128 32 (concat chunks) =
  unhex "5881092dd818bf5cf8a3ddb793fbcba74097d5c526a6d35f97b83351940f2cc8".
Proof. digest_case (C16_shake128 true 32). Qed.

Example C16_shake128_case2 : let chunks := [counting 159; counting 12] in
  Forall span_ok chunks /\ Spec.Keccak.shake128 173 (concat chunks) =
  unhex "839df92a4508a61ed76020532f6cb013e0253458fa5f2d91b86ba23a354474e1cb95ae10803cf521cad3428e9fd823e41b05caac881466b83de03454bb8e41d0084d5459a93a528c386368dffbf1fd5b9e76bb3bf45bc74e2dee5e9a411a4b592fdc4ea4c276b38ac7f3fbd4319f632334f217e7bd63b463b2b7f4f21f228ed5eba0b31fe7d7428edaea0519c6ba136bfa682a0881fc4bc121f3f1fd486ea65dbfaddd0130845210b2a8a8fa17".
Proof. digest_case (C16_shake128 false 173). Qed.

Example C16_shake128_case3 : let chunks := [counting 167] in
  Forall span_ok chunks /\ Spec.Keccak.shake128 168 (concat chunks) =
  unhex "1e552791cc4e93a0d4a8dc47ae49228c2faa869e40e628f6ace477aec3f1ca7aefe1c1245cf82c265168ad2985121aedd72335ae1187a36742c746cf2b40cb30b7c994c5ea9e44c40f2014686bc7ab0237ad3973e48dd88d48c8bc8b28be98c7729a946670a0788211c3b239fdcb95d51b6120463c631286817cda1dbc9f3e3c376e40fc2d6ba3d4df72d12177de6efccb84dd15f9f2687065b8ad00217c27e75b7d11c5214b731e".
Proof. digest_case (C16_shake128 true 168). Qed.

Example C16_shake128_demo : exists os s',
  arun (Spec.Keccak.shake128 32) (fun _ => True) demo (fun _ => afresh) os s' /\
  nth_error os 2 = Some (ONum 0x5881092d).
Proof. demo_case C16_shake128_case1. Qed.

(** the int theorem at a negative length, and the prefix theorem across a block boundary *)
Example C16_shake128_int_case :
  (let! x := Model.Keccak.construct (1344 / 8) (-1) in hash_from (Model.Keccak.shake128 true 0) x [text "abc"]) = Throw LengthError.
Proof. exact (C16_shake128_int true (-1) [text "abc"] ltac:(spans)). Qed.
Example C32_shake128_case :
  firstn 40 (Spec.Keccak.shake128 173 (concat [counting 159; counting 12])) = Spec.Keccak.shake128 40 (concat [counting 159; counting 12]).
Proof.
  destruct (C32_shake128 true false 40 173 [counting 159; counting 12] [counting 159; counting 12]) as (o & o' & H & H' & ->);
    [spans|spans|reflexivity|lia|].
  rewrite C16_shake128 in H by spans. rewrite C16_shake128 in H' by spans.
  apply ok_inj in H. apply ok_inj in H'. rewrite <- H in H'. symmetry. exact H'.
Qed.

(** SHAKE_256(d): any sequence of addData calls, then finalize() and toVector(). *)
Theorem C16_shake256 : forall dbg d chunks,
  Forall span_ok chunks ->
  hash_chunks (Model.Keccak.shake256 dbg d) chunks = Ok (Spec.Keccak.shake256 d (concat chunks)).
Proof. exact (fun dbg d chunks H => Proof.Api.correct_chunks _ _ _ (Proof.Keccak.shake256_correct dbg d) chunks H I). Qed.
Print Assumptions C16_shake256.

(** the same from the constructor on, which takes an int: lengths that are not negative work, the
    others make the constructor throw *)
Theorem C16_shake256_int : forall dbg (length : Z) chunks,
  Forall span_ok chunks ->
  (let! x := Model.Keccak.construct (1088 / 8) length in hash_from (Model.Keccak.shake256 dbg 0) x chunks) =
  if (0 <=? length)%Z then Ok (Spec.Keccak.shake256 (Z.to_nat length) (concat chunks)) else Throw LengthError.
Proof. exact Proof.Shake.shake256_int. Qed.
Print Assumptions C16_shake256_int.

(** every program over any number of such objects (addData, finalize, reset, copies, read-outs) *)
Theorem C16_shake256_history : forall dbg d p os s',
  arun (Spec.Keccak.shake256 d) (fun _ => True) p (fun _ => afresh) os s' ->
  exists st', exec (Model.Keccak.shake256 dbg d) p (fun _ => c_new (Model.Keccak.shake256 dbg d)) = Ok (os, st').
Proof. exact (fun dbg d => Proof.Api.correct_history _ _ _ (Proof.Keccak.shake256_correct dbg d)). Qed.
Print Assumptions C16_shake256_history.

(** the vector read out has exactly the requested number of bytes *)
Theorem C16_shake256_length : forall dbg d chunks,
  Forall span_ok chunks ->
  exists out, hash_chunks (Model.Keccak.shake256 dbg d) chunks = Ok out /\ length out = d.
Proof. exact Proof.Shake.shake256_length. Qed.
Print Assumptions C16_shake256_length.

(** objects fed the same message, whatever the chunks and the build: the output of length a is the
    beginning of the output of length b *)
Theorem C32_shake256 : forall dbg dbg' a b chunks chunks',
  Forall span_ok chunks -> Forall span_ok chunks' -> concat chunks = concat chunks' -> a <= b ->
  exists out out', hash_chunks (Model.Keccak.shake256 dbg b) chunks = Ok out /\
    hash_chunks (Model.Keccak.shake256 dbg' a) chunks' = Ok out' /\ out' = firstn a out.
Proof. exact Proof.Shake.shake256_prefix. Qed.
Print Assumptions C32_shake256.

Example C16_shake256_case1 : let chunks := [text "ab"; []; text "c"] in
  Forall span_ok chunks /\ Spec.Keccak.shake256 32 (concat chunks) =
  unhex "483366601360a8771c6863080cc4114d8db44530f8f1e1ee4f94ea37e78b5739".
Proof. digest_case (C16_shake256 true 32). Qed.

Example C16_shake256_case2 : let chunks := [counting 127; counting 12] in
  Forall span_ok chunks /\ Spec.Keccak.shake256 141 (concat chunks) =
  unhex "508a810feba9b69ebf37815b8e7f5c1a66edc724f0465668a9ae76b6affc8b51fd8d2e202812379e3137fe945cbf2a7f9dff0dd53f33e95dba244616c32e04ac1198b813d9c3f89ecce18b45941aefc95eb75e07e861ff75f2b3a642556dbb500fb6b03911a62506074ae226470ad809ebfaf777ae47f6b1140ab1bd2733d247b2a3895894baf0375bce78358a".
Proof. digest_case (C16_shake256 false 141). Qed.

Example C16_shake256_case3 : let chunks := [counting 135] in
  Forall span_ok chunks /\ Spec.Keccak.shake256 136 (concat chunks) =
  unhex "c45dae624ad8a2f5aa7bac9d7557737fd91c96eedb70a6be5574d57a844eade07f4056bf081a1098101cea8132188c422136feb4687d1e2209f3fd28bedfb8f4468cba8501763511f507c9c14537403bf7804a89607b4c3f5afd484ec0c411c61e61d8784b2a0cb281ef9f44a4e32732adaba131875b0e34d587d1e63fea83b177a04230d041b8f9".
Proof. digest_case (C16_shake256 true 136). Qed.

Example C16_shake256_demo : exists os s',
  arun (Spec.Keccak.shake256 32) (fun _ => True) demo (fun _ => afresh) os s' /\
  nth_error os 2 = Some (ONum 0x48336660).
Proof. demo_case C16_shake256_case1. Qed.

(** the int theorem at a negative length, and the prefix theorem across a block boundary *)
Example C16_shake256_int_case :
  (let! x := Model.Keccak.construct (1088 / 8) (-1) in hash_from (Model.Keccak.shake256 true 0) x [text "abc"]) = Throw LengthError.
Proof. exact (C16_shake256_int true (-1) [text "abc"] ltac:(spans)). Qed.
Example C32_shake256_case :
  firstn 40 (Spec.Keccak.shake256 141 (concat [counting 127; counting 12])) = Spec.Keccak.shake256 40 (concat [counting 127; counting 12]).
Proof.
  destruct (C32_shake256 true false 40 141 [counting 127; counting 12] [counting 127; counting 12]) as (o & o' & H & H' & ->);
    [spans|spans|reflexivity|lia|].
  rewrite C16_shake256 in H by spans. rewrite C16_shake256 in H' by spans.
  apply ok_inj in H. apply ok_inj in H'. rewrite <- H in H'. symmetry. exact H'.
Qed.
