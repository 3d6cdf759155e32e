(** C17: cSHAKE of NIST SP 800-185.  C32: shorter outputs are prefixes of longer ones.
    Generated by tools/gen_cshake_props.py. *)
From Coq Require Import String List NArith ZArith Lia.
From Verif.Base Require Import Res.
From Verif.Spec Require Import Words Client ObjClient Log2 CShakeArgs.
From Verif.Model Require Import Api ObjApi.
From Verif.Tests Require Import Kit KitObj.
From Verif.Spec Require Keccak Sp800185.
From Verif.Model Require Keccak CShake TupleHash.
From Verif.Proof Require ObjApi Keccak CShake TupleHash Log2Witness.
Import ListNotations.
Local Open Scope N_scope.


(** ** CSHAKE_128 *)

(** Constructor, any sequence of addData calls, finalize(), toVector(): names and customizations of
    at most 2^56 - 2^8 bits.  std::log2 is assumed accurate to 5/8 of an ulp. *)
Theorem C17_cshake128_partial : forall lg dbg (length : Z) name custom chunks,
  log2_accurate lg -> (0 <= length)%Z -> Sp800185.short name -> Sp800185.short custom -> Forall span_ok chunks ->
  ohash (Model.CShake.cls128 lg dbg) (length, name, custom) chunks =
  Ok (Sp800185.cshake128 (Z.to_nat length) name custom (concat chunks)).
Proof. exact Proof.CShake.cshake128_hash. Qed.
Print Assumptions C17_cshake128_partial.

(** the missing part: longer ones do not work (9 * 10^15 bytes and more) *)
Theorem C17_cshake128_long_refuted : forall lg dbg (length : Z) name custom chunks,
  log2_accurate lg -> (0 <= length)%Z -> long name \/ Sp800185.short name /\ long custom ->
  ohash (Model.CShake.cls128 lg dbg) (length, name, custom) chunks = if dbg then Throw OutOfRange else Ub OobWrite.
Proof. exact Proof.CShake.cshake128_long. Qed.
Print Assumptions C17_cshake128_long_refuted.

(** every program over any number of such objects (see Spec/ObjClient.v and Spec/CShakeArgs.v) *)
Theorem C17_cshake128_history : forall lg dbg p os s', log2_accurate lg ->
  orun (fun a l => cshake128 a (concat l)) ok_cargs span_ok may_reset may_assign p (fun _ => NoObject) os s' ->
  exists st', oexec (Model.CShake.cls128 lg dbg) p (fun _ => None) = Ok (os, st').
Proof. exact (fun lg dbg p os s' H => Proof.ObjApi.objcorrect_history _ _ _ _ _ _ (Proof.CShake.cshake128_correct lg dbg H) p os s'). Qed.
Print Assumptions C17_cshake128_history.

(** without name and customization the object is a SHAKE object *)
Theorem C17_cshake128_plain : forall lg dbg (length : Z) chunks,
  log2_accurate lg -> (0 <= length)%Z -> Forall span_ok chunks ->
  ohash (Model.CShake.cls128 lg dbg) (length, [], []) chunks = hash_chunks (Model.Keccak.shake128 dbg (Z.to_nat length)) chunks.
Proof.
  exact (fun lg dbg length chunks Hlg Hl H => eq_trans
    (Proof.CShake.cshake128_hash lg dbg length [] [] chunks Hlg Hl (conj (Forall_nil _) (N.le_0_l _)) (conj (Forall_nil _) (N.le_0_l _)) H)
    (eq_sym (Proof.Api.correct_chunks _ _ _ (Proof.Keccak.shake128_correct dbg (Z.to_nat length)) chunks H I))).
Qed.
Print Assumptions C17_cshake128_plain.

Theorem C17_cshake128_negative : forall lg dbg (length : Z) name custom chunks, (length < 0)%Z ->
  ohash (Model.CShake.cls128 lg dbg) (length, name, custom) chunks = Throw LengthError.
Proof. exact Proof.CShake.cshake128_negative. Qed.
Print Assumptions C17_cshake128_negative.

(** the output of length a is the beginning of the output of length b *)
Theorem C32_cshake128 : forall lg dbg dbg' (a b : Z) name custom chunks chunks',
  log2_accurate lg -> (0 <= a <= b)%Z -> Sp800185.short name -> Sp800185.short custom ->
  Forall span_ok chunks -> Forall span_ok chunks' -> concat chunks = concat chunks' ->
  exists out out', ohash (Model.CShake.cls128 lg dbg) (b, name, custom) chunks = Ok out /\
    ohash (Model.CShake.cls128 lg dbg') (a, name, custom) chunks' = Ok out' /\
    length out = Z.to_nat b /\ out' = firstn (Z.to_nat a) out.
Proof. exact Proof.CShake.cshake128_prefix_objects. Qed.
Print Assumptions C32_cshake128.

(** the samples of NIST *)
Example C17_cshake128_case1 : Sp800185.cshake128 32 [] (text "Email Signature") [0; 1; 2; 3] = unhex "c1c36925b6409a04f1b504fcbca9d82b4017277cb5ed2b2065fc1d3814d5aaf5".
Proof. apply (Proof.CShake.via_keccak128 true); [one_span|vm_compute; reflexivity]. Qed.
Example C17_cshake128_case2 : Sp800185.cshake128 32 [] (text "Email Signature") (counting 200) = unhex "c5221d50e4f822d96a2e8881a961420f294b7b24fe3d2094baed2c6524cc166b".
Proof. apply (Proof.CShake.via_keccak128 false); [one_span|vm_compute; reflexivity]. Qed.

(** an object meeting all hypotheses *)
Example C17_cshake128_object :
  ohash (Model.CShake.cls128 Proof.Log2Witness.correct_log2 true) (32%Z, [], text "Email Signature") [[0]; [1; 2]; []; [3]] = Ok (unhex "c1c36925b6409a04f1b504fcbca9d82b4017277cb5ed2b2065fc1d3814d5aaf5").
Proof.
  rewrite <- C17_cshake128_case1.
  apply (C17_cshake128_partial _ true 32); [exact Proof.Log2Witness.correct_log2_accurate|lia|shorts|shorts|spans].
Qed.

(** the same with copies, moves and assignments between several objects *)
Example C17_cshake128_program : exists os s',
  orun (fun a l => cshake128 a (concat l)) ok_cargs span_ok may_reset may_assign (cshake_program 32) (fun _ => NoObject) os s' /\
  nth_error os 0 = Some (OBytes (unhex "c1c36925b6409a04f1b504fcbca9d82b4017277cb5ed2b2065fc1d3814d5aaf5")).
Proof.
  destruct (cshake_program_runs (fun a l => cshake128 a (concat l)) 32 ltac:(lia)) as (os & s' & H & E). exists os, s'. split; [exact H|].
  cbv beta in E. rewrite E.
  rewrite (cshake128_eq 32%Z 32%nat [] (text "Email Signature") [[0; 1]; [2; 3]] [0; 1; 2; 3] _ eq_refl eq_refl C17_cshake128_case1). reflexivity.
Qed.

(** ** CSHAKE_256 *)

(** Constructor, any sequence of addData calls, finalize(), toVector(): names and customizations of
    at most 2^56 - 2^8 bits.  std::log2 is assumed accurate to 5/8 of an ulp. *)
Theorem C17_cshake256_partial : forall lg dbg (length : Z) name custom chunks,
  log2_accurate lg -> (0 <= length)%Z -> Sp800185.short name -> Sp800185.short custom -> Forall span_ok chunks ->
  ohash (Model.CShake.cls256 lg dbg) (length, name, custom) chunks =
  Ok (Sp800185.cshake256 (Z.to_nat length) name custom (concat chunks)).
Proof. exact Proof.CShake.cshake256_hash. Qed.
Print Assumptions C17_cshake256_partial.

(** the missing part: longer ones do not work (9 * 10^15 bytes and more) *)
Theorem C17_cshake256_long_refuted : forall lg dbg (length : Z) name custom chunks,
  log2_accurate lg -> (0 <= length)%Z -> long name \/ Sp800185.short name /\ long custom ->
  ohash (Model.CShake.cls256 lg dbg) (length, name, custom) chunks = if dbg then Throw OutOfRange else Ub OobWrite.
Proof. exact Proof.CShake.cshake256_long. Qed.
Print Assumptions C17_cshake256_long_refuted.

(** every program over any number of such objects (see Spec/ObjClient.v and Spec/CShakeArgs.v) *)
Theorem C17_cshake256_history : forall lg dbg p os s', log2_accurate lg ->
  orun (fun a l => cshake256 a (concat l)) ok_cargs span_ok may_reset may_assign p (fun _ => NoObject) os s' ->
  exists st', oexec (Model.CShake.cls256 lg dbg) p (fun _ => None) = Ok (os, st').
Proof. exact (fun lg dbg p os s' H => Proof.ObjApi.objcorrect_history _ _ _ _ _ _ (Proof.CShake.cshake256_correct lg dbg H) p os s'). Qed.
Print Assumptions C17_cshake256_history.

(** without name and customization the object is a SHAKE object *)
Theorem C17_cshake256_plain : forall lg dbg (length : Z) chunks,
  log2_accurate lg -> (0 <= length)%Z -> Forall span_ok chunks ->
  ohash (Model.CShake.cls256 lg dbg) (length, [], []) chunks = hash_chunks (Model.Keccak.shake256 dbg (Z.to_nat length)) chunks.
Proof.
  exact (fun lg dbg length chunks Hlg Hl H => eq_trans
    (Proof.CShake.cshake256_hash lg dbg length [] [] chunks Hlg Hl (conj (Forall_nil _) (N.le_0_l _)) (conj (Forall_nil _) (N.le_0_l _)) H)
    (eq_sym (Proof.Api.correct_chunks _ _ _ (Proof.Keccak.shake256_correct dbg (Z.to_nat length)) chunks H I))).
Qed.
Print Assumptions C17_cshake256_plain.

Theorem C17_cshake256_negative : forall lg dbg (length : Z) name custom chunks, (length < 0)%Z ->
  ohash (Model.CShake.cls256 lg dbg) (length, name, custom) chunks = Throw LengthError.
Proof. exact Proof.CShake.cshake256_negative. Qed.
Print Assumptions C17_cshake256_negative.

(** the output of length a is the beginning of the output of length b *)
Theorem C32_cshake256 : forall lg dbg dbg' (a b : Z) name custom chunks chunks',
  log2_accurate lg -> (0 <= a <= b)%Z -> Sp800185.short name -> Sp800185.short custom ->
  Forall span_ok chunks -> Forall span_ok chunks' -> concat chunks = concat chunks' ->
  exists out out', ohash (Model.CShake.cls256 lg dbg) (b, name, custom) chunks = Ok out /\
    ohash (Model.CShake.cls256 lg dbg') (a, name, custom) chunks' = Ok out' /\
    length out = Z.to_nat b /\ out' = firstn (Z.to_nat a) out.
Proof. exact Proof.CShake.cshake256_prefix_objects. Qed.
Print Assumptions C32_cshake256.

(** the samples of NIST *)
Example C17_cshake256_case1 : Sp800185.cshake256 64 [] (text "Email Signature") [0; 1; 2; 3] = unhex "d008828e2b80ac9d2218ffee1d070c48b8e4c87bff32c9699d5b6896eee0edd164020e2be0560858d9c00c037e34a96937c561a74c412bb4c746469527281c8c".
Proof. apply (Proof.CShake.via_keccak256 true); [one_span|vm_compute; reflexivity]. Qed.
Example C17_cshake256_case2 : Sp800185.cshake256 64 [] (text "Email Signature") (counting 200) = unhex "07dc27b11e51fbac75bc7b3c1d983e8b4b85fb1defaf218912ac86430273091727f42b17ed1df63e8ec118f04b23633c1dfb1574c8fb55cb45da8e25afb092bb".
Proof. apply (Proof.CShake.via_keccak256 false); [one_span|vm_compute; reflexivity]. Qed.

(** an object meeting all hypotheses *)
Example C17_cshake256_object :
  ohash (Model.CShake.cls256 Proof.Log2Witness.correct_log2 true) (64%Z, [], text "Email Signature") [[0]; [1; 2]; []; [3]] = Ok (unhex "d008828e2b80ac9d2218ffee1d070c48b8e4c87bff32c9699d5b6896eee0edd164020e2be0560858d9c00c037e34a96937c561a74c412bb4c746469527281c8c").
Proof.
  rewrite <- C17_cshake256_case1.
  apply (C17_cshake256_partial _ true 64); [exact Proof.Log2Witness.correct_log2_accurate|lia|shorts|shorts|spans].
Qed.

(** the same with copies, moves and assignments between several objects *)
Example C17_cshake256_program : exists os s',
  orun (fun a l => cshake256 a (concat l)) ok_cargs span_ok may_reset may_assign (cshake_program 64) (fun _ => NoObject) os s' /\
  nth_error os 0 = Some (OBytes (unhex "d008828e2b80ac9d2218ffee1d070c48b8e4c87bff32c9699d5b6896eee0edd164020e2be0560858d9c00c037e34a96937c561a74c412bb4c746469527281c8c")).
Proof.
  destruct (cshake_program_runs (fun a l => cshake256 a (concat l)) 64 ltac:(lia)) as (os & s' & H & E). exists os, s'. split; [exact H|].
  cbv beta in E. rewrite E.
  rewrite (cshake256_eq 64%Z 64%nat [] (text "Email Signature") [[0; 1]; [2; 3]] [0; 1; 2; 3] _ eq_refl eq_refl C17_cshake256_case1). reflexivity.
Qed.
