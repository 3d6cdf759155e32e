(** C33: copies, moves and assignments of cSHAKE and TupleHash objects.  Generated by tools/gen_cshake_props.py. *)
From Coq Require Import String List NArith ZArith Lia.
From Verif.Base Require Import Res.
From Verif.Spec Require Import Words Client ObjClient Log2 CShakeArgs.
From Verif.Model Require Import Api ObjApi.
From Verif.Tests Require Import Kit KitObj.
From Verif.Spec Require Keccak Sp800185.
From Verif.Model Require Keccak CShake TupleHash.
From Verif.Proof Require ObjApi Keccak CShake TupleHash Log2Witness.
Import ListNotations.
Local Open Scope N_scope.

From Verif.Props Require Import C18_TupleHash.

(** ** CSHAKE_128 *)

(** every program with copies, moves, assignments and resets where reset() is only called on objects
    without name and customization, copy assignment only joins objects that both have or both lack
    them, and moved-from objects are only destroyed or move-assigned to *)
Theorem C33_cshake128_partial : forall lg dbg p os s', log2_accurate lg ->
  orun (fun a l => cshake128 a (concat l)) ok_cargs span_ok may_reset may_assign p (fun _ => NoObject) os s' ->
  exists st', oexec (Model.CShake.cls128 lg dbg) p (fun _ => None) = Ok (os, st').
Proof. exact (fun lg dbg p os s' H => Proof.ObjApi.objcorrect_history _ _ _ _ _ _ (Proof.CShake.cshake128_correct lg dbg H) p os s'). Qed.
Print Assumptions C33_cshake128_partial.

(** copy assignment between any two new objects of the two kinds dereferences a null pointer *)
Theorem C33_cshake128_assign_refuted : forall lg dbg a b,
  log2_accurate lg -> ok_cargs a -> ok_cargs b -> customized b <> customized a ->
  oexec (Model.CShake.cls128 lg dbg) [Construct 0 b; Construct 1 a; CopyAssign 0 1] (fun _ => None) = Ub NullDeref.
Proof. exact Proof.CShake.cshake128_assign_refuted. Qed.
Print Assumptions C33_cshake128_assign_refuted.

(** so does copy assignment to an object whose contents were moved to a new object *)
Theorem C33_cshake128_moved_refuted : forall lg dbg a b,
  log2_accurate lg -> ok_cargs a -> ok_cargs b ->
  oexec (Model.CShake.cls128 lg dbg) [Construct 0 b; Construct 1 a; MoveConstruct 2 0; CopyAssign 0 1] (fun _ => None) = Ub NullDeref.
Proof. exact Proof.CShake.cshake128_moved_refuted. Qed.
Print Assumptions C33_cshake128_moved_refuted.

Example C33_cshake128_case :
  oexec (Model.CShake.cls128 Proof.Log2Witness.correct_log2 false)
    [Construct 0 (32%Z, [], []); Construct 1 (32%Z, [], text "Email Signature"); CopyAssign 0 1] (fun _ => None) = Ub NullDeref.
Proof.
  apply (C33_cshake128_assign_refuted _ false (32%Z, [], text "Email Signature") (32%Z, [], []));
    [exact Proof.Log2Witness.correct_log2_accurate|split; [lia|split; shorts]|split; [lia|split; shorts]|discriminate].
Qed.

(** ** TupleHash_128 *)
Theorem C33_tuplehash128_partial : forall lg dbg p os s', log2_accurate lg ->
  orun tuplehash128 ok_targs Sp800185.short no_reset live_assign p (fun _ => NoObject) os s' ->
  exists st', oexec (Model.TupleHash.cls128 lg dbg) p (fun _ => None) = Ok (os, st').
Proof. exact (fun lg dbg p os s' H => Proof.ObjApi.objcorrect_history _ _ _ _ _ _ (Proof.TupleHash.tuplehash128_correct lg dbg H) p os s'). Qed.
Print Assumptions C33_tuplehash128_partial.
Theorem C33_tuplehash128_moved_refuted : forall lg dbg a b,
  log2_accurate lg -> ok_targs a -> ok_targs b ->
  oexec (Model.TupleHash.cls128 lg dbg) [Construct 0 b; Construct 1 a; MoveConstruct 2 0; CopyAssign 0 1] (fun _ => None) = Ub NullDeref.
Proof. exact Proof.TupleHash.tuplehash128_moved_refuted. Qed.
Print Assumptions C33_tuplehash128_moved_refuted.
Example C33_tuplehash128_program : exists os s',
  orun tuplehash128 ok_targs Sp800185.short no_reset live_assign (tuple_program 32) (fun _ => NoObject) os s' /\
  nth_error os 0 = Some (OBytes (unhex "c5d8786c1afb9b82111ab34b65b2c0048fa64e6d48e263264ce1707d3ffc8ed1")).
Proof.
  destruct (tuple_program_runs tuplehash128 32 ltac:(lia)) as (os & s' & H & E). exists os, s'. split; [exact H|].
  rewrite E.
  rewrite (tuplehash128_eq 32%Z 32%nat _ _ _ eq_refl C18_tuplehash128_case1). reflexivity.
Qed.

(** ** CSHAKE_256 *)

(** every program with copies, moves, assignments and resets where reset() is only called on objects
    without name and customization, copy assignment only joins objects that both have or both lack
    them, and moved-from objects are only destroyed or move-assigned to *)
Theorem C33_cshake256_partial : forall lg dbg p os s', log2_accurate lg ->
  orun (fun a l => cshake256 a (concat l)) ok_cargs span_ok may_reset may_assign p (fun _ => NoObject) os s' ->
  exists st', oexec (Model.CShake.cls256 lg dbg) p (fun _ => None) = Ok (os, st').
Proof. exact (fun lg dbg p os s' H => Proof.ObjApi.objcorrect_history _ _ _ _ _ _ (Proof.CShake.cshake256_correct lg dbg H) p os s'). Qed.
Print Assumptions C33_cshake256_partial.

(** copy assignment between any two new objects of the two kinds dereferences a null pointer *)
Theorem C33_cshake256_assign_refuted : forall lg dbg a b,
  log2_accurate lg -> ok_cargs a -> ok_cargs b -> customized b <> customized a ->
  oexec (Model.CShake.cls256 lg dbg) [Construct 0 b; Construct 1 a; CopyAssign 0 1] (fun _ => None) = Ub NullDeref.
Proof. exact Proof.CShake.cshake256_assign_refuted. Qed.
Print Assumptions C33_cshake256_assign_refuted.

(** so does copy assignment to an object whose contents were moved to a new object *)
Theorem C33_cshake256_moved_refuted : forall lg dbg a b,
  log2_accurate lg -> ok_cargs a -> ok_cargs b ->
  oexec (Model.CShake.cls256 lg dbg) [Construct 0 b; Construct 1 a; MoveConstruct 2 0; CopyAssign 0 1] (fun _ => None) = Ub NullDeref.
Proof. exact Proof.CShake.cshake256_moved_refuted. Qed.
Print Assumptions C33_cshake256_moved_refuted.

Example C33_cshake256_case :
  oexec (Model.CShake.cls256 Proof.Log2Witness.correct_log2 false)
    [Construct 0 (32%Z, [], []); Construct 1 (32%Z, [], text "Email Signature"); CopyAssign 0 1] (fun _ => None) = Ub NullDeref.
Proof.
  apply (C33_cshake256_assign_refuted _ false (32%Z, [], text "Email Signature") (32%Z, [], []));
    [exact Proof.Log2Witness.correct_log2_accurate|split; [lia|split; shorts]|split; [lia|split; shorts]|discriminate].
Qed.

(** ** TupleHash_256 *)
Theorem C33_tuplehash256_partial : forall lg dbg p os s', log2_accurate lg ->
  orun tuplehash256 ok_targs Sp800185.short no_reset live_assign p (fun _ => NoObject) os s' ->
  exists st', oexec (Model.TupleHash.cls256 lg dbg) p (fun _ => None) = Ok (os, st').
Proof. exact (fun lg dbg p os s' H => Proof.ObjApi.objcorrect_history _ _ _ _ _ _ (Proof.TupleHash.tuplehash256_correct lg dbg H) p os s'). Qed.
Print Assumptions C33_tuplehash256_partial.
Theorem C33_tuplehash256_moved_refuted : forall lg dbg a b,
  log2_accurate lg -> ok_targs a -> ok_targs b ->
  oexec (Model.TupleHash.cls256 lg dbg) [Construct 0 b; Construct 1 a; MoveConstruct 2 0; CopyAssign 0 1] (fun _ => None) = Ub NullDeref.
Proof. exact Proof.TupleHash.tuplehash256_moved_refuted. Qed.
Print Assumptions C33_tuplehash256_moved_refuted.
Example C33_tuplehash256_program : exists os s',
  orun tuplehash256 ok_targs Sp800185.short no_reset live_assign (tuple_program 64) (fun _ => NoObject) os s' /\
  nth_error os 0 = Some (OBytes (unhex "cfb7058caca5e668f81a12a20a2195ce97a925f1dba3e7449a56f82201ec607311ac2696b1ab5ea2352df1423bde7bd4bb78c9aed1a853c78672f9eb23bbe194")).
Proof.
  destruct (tuple_program_runs tuplehash256 64 ltac:(lia)) as (os & s' & H & E). exists os, s'. split; [exact H|].
  rewrite E.
  rewrite (tuplehash256_eq 64%Z 64%nat _ _ _ eq_refl C18_tuplehash256_case1). reflexivity.
Qed.
