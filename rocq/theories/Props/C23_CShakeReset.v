(** C23 for cSHAKE and TupleHash: reset() forgets name and customization.  Generated by tools/gen_cshake_props.py. *)
From Coq Require Import String List NArith ZArith Lia.
From Verif.Base Require Import Res.
From Verif.Spec Require Import Words Client ObjClient Log2 CShakeArgs.
From Verif.Model Require Import Api ObjApi.
From Verif.Tests Require Import Kit KitObj.
From Verif.Spec Require Keccak Sp800185.
From Verif.Model Require Keccak CShake TupleHash.
From Verif.Proof Require ObjApi Keccak CShake TupleHash Log2Witness.
Import ListNotations.
Local Open Scope N_scope.

From Verif.Proof Require CShakeReset.

(** ** reset() of a customized CSHAKE_128 object: it then computes the bare sponge function *)
Theorem C23_cshake128_drops : forall lg dbg a x y,
  log2_accurate lg -> ok_cargs a -> customized a = true -> span_ok x -> span_ok y ->
  exists st, oexec (Model.CShake.cls128 lg dbg) [Construct 0 a; Feed 0 x; Rst 0; Feed 0 y; Fin 0; Vec 0] (fun _ => None) =
    Ok ([OBytes (Spec.Keccak.bytes_of (Spec.Keccak.keccak 256 (8 * Z.to_nat (fst (fst a))) (Spec.Keccak.bits_of y ++ [false; false])))], st).
Proof. exact Proof.CShake.cshake128_reset_drops. Qed.
Print Assumptions C23_cshake128_drops.

Lemma C23_prefixed128 : cshake128 (8%Z, [], text "Email Signature") [0; 1; 2; 3] = unhex "c1c36925b6409a04".
Proof. apply (Proof.CShake.via_keccak128 true 8); [one_span|vm_compute; reflexivity]. Qed.
Lemma C23_bare128 : Proof.CShake.hashK128 8 [0; 1; 2; 3] = unhex "0cc58f1e632af231".
Proof. apply (Proof.CShake.via_bare128 true 8); [one_span|vm_compute; reflexivity]. Qed.
Lemma C23_tuple_prefixed128 : Sp800185.tuplehash128 8 [] [[0; 1; 2]] = unhex "1fdcd3c1a3a9fa89".
Proof. apply (Proof.CShake.via_keccak128 true 8); [one_span|vm_compute; reflexivity]. Qed.
Lemma C23_tuple_bare128 : Proof.CShake.hashK128 8 (Sp800185.tuple_stream 8 [[0; 1; 2]]) = unhex "bcc23c6d2cb52b33".
Proof. apply (Proof.CShake.via_bare128 true 8); [one_span|vm_compute; reflexivity]. Qed.

(** so reset() does not make it as good as new *)
Theorem C23_cshake128_refuted : forall lg dbg, log2_accurate lg ->
  exists a x y out out' st st', ok_cargs a /\ span_ok x /\ span_ok y /\
    oexec (Model.CShake.cls128 lg dbg) [Construct 0 a; Feed 0 x; Rst 0; Feed 0 y; Fin 0; Vec 0] (fun _ => None) = Ok ([OBytes out], st) /\
    oexec (Model.CShake.cls128 lg dbg) [Construct 0 a; Feed 0 y; Fin 0; Vec 0] (fun _ => None) = Ok ([OBytes out'], st') /\
    out <> out'.
Proof.
  exact (Proof.CShakeReset.cshake128_reset_refuted (8%Z, [], text "Email Signature") [] [0; 1; 2; 3] _ _
    (conj (Zle_0_nat 8) (conj (shortb_ok [] eq_refl) (shortb_ok (text "Email Signature") eq_refl))) eq_refl
    (span_okb_ok [] eq_refl) (span_okb_ok [0; 1; 2; 3] eq_refl) C23_prefixed128 C23_bare128 ltac:(vm_compute; discriminate)).
Qed.
Print Assumptions C23_cshake128_refuted.

Theorem C23_tuplehash128_refuted : forall lg dbg, log2_accurate lg ->
  exists a x y out out' st st', ok_targs a /\ Sp800185.short x /\ Sp800185.short y /\
    oexec (Model.TupleHash.cls128 lg dbg) [Construct 0 a; Feed 0 x; Rst 0; Feed 0 y; Fin 0; Vec 0] (fun _ => None) = Ok ([OBytes out], st) /\
    oexec (Model.TupleHash.cls128 lg dbg) [Construct 0 a; Feed 0 y; Fin 0; Vec 0] (fun _ => None) = Ok ([OBytes out'], st') /\
    out <> out'.
Proof.
  exact (Proof.CShakeReset.tuplehash128_reset_refuted 8%Z [] [] [0; 1; 2] _ _
    (conj (conj (Zle_0_nat 8) eq_refl) (shortb_ok [] eq_refl)) (shortb_ok [] eq_refl) (shortb_ok [0; 1; 2] eq_refl)
    C23_tuple_prefixed128 C23_tuple_bare128 ltac:(vm_compute; discriminate)).
Qed.
Print Assumptions C23_tuplehash128_refuted.

(** ** reset() of a customized CSHAKE_256 object: it then computes the bare sponge function *)
Theorem C23_cshake256_drops : forall lg dbg a x y,
  log2_accurate lg -> ok_cargs a -> customized a = true -> span_ok x -> span_ok y ->
  exists st, oexec (Model.CShake.cls256 lg dbg) [Construct 0 a; Feed 0 x; Rst 0; Feed 0 y; Fin 0; Vec 0] (fun _ => None) =
    Ok ([OBytes (Spec.Keccak.bytes_of (Spec.Keccak.keccak 512 (8 * Z.to_nat (fst (fst a))) (Spec.Keccak.bits_of y ++ [false; false])))], st).
Proof. exact Proof.CShake.cshake256_reset_drops. Qed.
Print Assumptions C23_cshake256_drops.

Lemma C23_prefixed256 : cshake256 (8%Z, [], text "Email Signature") [0; 1; 2; 3] = unhex "d008828e2b80ac9d".
Proof. apply (Proof.CShake.via_keccak256 true 8); [one_span|vm_compute; reflexivity]. Qed.
Lemma C23_bare256 : Proof.CShake.hashK256 8 [0; 1; 2; 3] = unhex "7fade073b9a3384f".
Proof. apply (Proof.CShake.via_bare256 true 8); [one_span|vm_compute; reflexivity]. Qed.
Lemma C23_tuple_prefixed256 : Sp800185.tuplehash256 8 [] [[0; 1; 2]] = unhex "d25e2cb2ca664f4d".
Proof. apply (Proof.CShake.via_keccak256 true 8); [one_span|vm_compute; reflexivity]. Qed.
Lemma C23_tuple_bare256 : Proof.CShake.hashK256 8 (Sp800185.tuple_stream 8 [[0; 1; 2]]) = unhex "fea5425ea8a188de".
Proof. apply (Proof.CShake.via_bare256 true 8); [one_span|vm_compute; reflexivity]. Qed.

(** so reset() does not make it as good as new *)
Theorem C23_cshake256_refuted : forall lg dbg, log2_accurate lg ->
  exists a x y out out' st st', ok_cargs a /\ span_ok x /\ span_ok y /\
    oexec (Model.CShake.cls256 lg dbg) [Construct 0 a; Feed 0 x; Rst 0; Feed 0 y; Fin 0; Vec 0] (fun _ => None) = Ok ([OBytes out], st) /\
    oexec (Model.CShake.cls256 lg dbg) [Construct 0 a; Feed 0 y; Fin 0; Vec 0] (fun _ => None) = Ok ([OBytes out'], st') /\
    out <> out'.
Proof.
  exact (Proof.CShakeReset.cshake256_reset_refuted (8%Z, [], text "Email Signature") [] [0; 1; 2; 3] _ _
    (conj (Zle_0_nat 8) (conj (shortb_ok [] eq_refl) (shortb_ok (text "Email Signature") eq_refl))) eq_refl
    (span_okb_ok [] eq_refl) (span_okb_ok [0; 1; 2; 3] eq_refl) C23_prefixed256 C23_bare256 ltac:(vm_compute; discriminate)).
Qed.
Print Assumptions C23_cshake256_refuted.

Theorem C23_tuplehash256_refuted : forall lg dbg, log2_accurate lg ->
  exists a x y out out' st st', ok_targs a /\ Sp800185.short x /\ Sp800185.short y /\
    oexec (Model.TupleHash.cls256 lg dbg) [Construct 0 a; Feed 0 x; Rst 0; Feed 0 y; Fin 0; Vec 0] (fun _ => None) = Ok ([OBytes out], st) /\
    oexec (Model.TupleHash.cls256 lg dbg) [Construct 0 a; Feed 0 y; Fin 0; Vec 0] (fun _ => None) = Ok ([OBytes out'], st') /\
    out <> out'.
Proof.
  exact (Proof.CShakeReset.tuplehash256_reset_refuted 8%Z [] [] [0; 1; 2] _ _
    (conj (conj (Zle_0_nat 8) eq_refl) (shortb_ok [] eq_refl)) (shortb_ok [] eq_refl) (shortb_ok [0; 1; 2] eq_refl)
    C23_tuple_prefixed256 C23_tuple_bare256 ltac:(vm_compute; discriminate)).
Qed.
Print Assumptions C23_tuplehash256_refuted.
