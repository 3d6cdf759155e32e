(** reset() of customized cSHAKE objects and of TupleHash objects. *)
From Coq Require Import List NArith ZArith Arith Bool Lia.
From Verif.Base Require Import Res.
From Verif.Spec Require Import Words Client ObjClient Log2 Sp800185 CShakeArgs.
From Verif.Model Require Import Api ObjApi.
From Verif.Model Require CShake TupleHash.
From Verif.Proof Require Import ObjApi.
From Verif.Proof Require CShake TupleHash.
Import ListNotations.
Module PC := Verif.Proof.CShake.
Module PT := Verif.Proof.TupleHash.

Lemma run_once C hash ok_args ok_item may_reset may_assign a y :
  ObjCorrect C hash ok_args ok_item may_reset may_assign -> ok_args a -> ok_item y ->
  exists st, oexec C [Construct 0 a; Feed 0 y; Fin 0; Vec 0] (fun _ => None) = Ok ([OBytes (hash a [y])], st).
Proof.
  intros H Ha Hy. eapply (objcorrect_history _ _ _ _ _ _ H).
  eapply (or_cons _ _ _ _ _ _ _ _ _ None); [apply os_construct; exact Ha|].
  eapply (or_cons _ _ _ _ _ _ _ _ _ None); [eapply os_feed; [reflexivity|exact Hy]|].
  eapply (or_cons _ _ _ _ _ _ _ _ _ None); [eapply os_fin; reflexivity|].
  eapply (or_cons _ _ _ _ _ _ _ _ _ (Some _)); [eapply os_vec; reflexivity|]. apply or_nil.
Qed.

Theorem cshake128_reset_refuted a x y out out' : ok_cargs a -> customized a = true -> span_ok x -> span_ok y ->
  cshake128 a y = out' -> PC.hashK128 (Z.to_nat (fst (fst a))) y = out -> out <> out' ->
  forall lg dbg, log2_accurate lg ->
  exists a x y out out' st st', ok_cargs a /\ span_ok x /\ span_ok y /\
    oexec (Model.CShake.cls128 lg dbg) [Construct 0 a; Feed 0 x; Rst 0; Feed 0 y; Fin 0; Vec 0] (fun _ => None) = Ok ([OBytes out], st) /\
    oexec (Model.CShake.cls128 lg dbg) [Construct 0 a; Feed 0 y; Fin 0; Vec 0] (fun _ => None) = Ok ([OBytes out'], st') /\
    out <> out'.
Proof.
  intros Ha Hcu Hx Hy E' E Hne lg dbg Hlog.
  destruct (PC.cshake128_reset_drops lg dbg a x y Hlog Ha Hcu Hx Hy) as (st & H).
  destruct (run_once (Model.CShake.cls128 lg dbg) _ _ _ _ _ a y (PC.cshake128_correct lg dbg Hlog) Ha Hy) as (st' & H'). cbv beta in H'.
  rewrite E in H. cbn [concat] in H'. rewrite app_nil_r, E' in H'.
  exists a, x, y, out, out', st, st'. auto 10.
Qed.

Theorem tuplehash128_reset_refuted l c x y out out' : ok_targs (l, c) -> short x -> short y ->
  Sp800185.tuplehash128 (Z.to_nat l) c [y] = out' -> PC.hashK128 (Z.to_nat l) (tuple_stream (Z.to_nat l) [y]) = out -> out <> out' ->
  forall lg dbg, log2_accurate lg ->
  exists a x y out out' st st', ok_targs a /\ short x /\ short y /\
    oexec (Model.TupleHash.cls128 lg dbg) [Construct 0 a; Feed 0 x; Rst 0; Feed 0 y; Fin 0; Vec 0] (fun _ => None) = Ok ([OBytes out], st) /\
    oexec (Model.TupleHash.cls128 lg dbg) [Construct 0 a; Feed 0 y; Fin 0; Vec 0] (fun _ => None) = Ok ([OBytes out'], st') /\
    out <> out'.
Proof.
  intros Ha Hx Hy E' E Hne lg dbg Hlog.
  destruct (PT.tuplehash128_reset_drops lg dbg l c x y Hlog Ha Hx Hy) as (st & H).
  destruct (run_once (Model.TupleHash.cls128 lg dbg) _ _ _ _ _ (l, c) y (PT.tuplehash128_correct lg dbg Hlog) Ha Hy) as (st' & H').
  rewrite E in H. unfold tuplehash128 in H'. rewrite E' in H'.
  exists (l, c), x, y, out, out', st, st'. auto 10.
Qed.

Theorem cshake256_reset_refuted a x y out out' : ok_cargs a -> customized a = true -> span_ok x -> span_ok y ->
  cshake256 a y = out' -> PC.hashK256 (Z.to_nat (fst (fst a))) y = out -> out <> out' ->
  forall lg dbg, log2_accurate lg ->
  exists a x y out out' st st', ok_cargs a /\ span_ok x /\ span_ok y /\
    oexec (Model.CShake.cls256 lg dbg) [Construct 0 a; Feed 0 x; Rst 0; Feed 0 y; Fin 0; Vec 0] (fun _ => None) = Ok ([OBytes out], st) /\
    oexec (Model.CShake.cls256 lg dbg) [Construct 0 a; Feed 0 y; Fin 0; Vec 0] (fun _ => None) = Ok ([OBytes out'], st') /\
    out <> out'.
Proof.
  intros Ha Hcu Hx Hy E' E Hne lg dbg Hlog.
  destruct (PC.cshake256_reset_drops lg dbg a x y Hlog Ha Hcu Hx Hy) as (st & H).
  destruct (run_once (Model.CShake.cls256 lg dbg) _ _ _ _ _ a y (PC.cshake256_correct lg dbg Hlog) Ha Hy) as (st' & H'). cbv beta in H'.
  rewrite E in H. cbn [concat] in H'. rewrite app_nil_r, E' in H'.
  exists a, x, y, out, out', st, st'. auto 10.
Qed.

Theorem tuplehash256_reset_refuted l c x y out out' : ok_targs (l, c) -> short x -> short y ->
  Sp800185.tuplehash256 (Z.to_nat l) c [y] = out' -> PC.hashK256 (Z.to_nat l) (tuple_stream (Z.to_nat l) [y]) = out -> out <> out' ->
  forall lg dbg, log2_accurate lg ->
  exists a x y out out' st st', ok_targs a /\ short x /\ short y /\
    oexec (Model.TupleHash.cls256 lg dbg) [Construct 0 a; Feed 0 x; Rst 0; Feed 0 y; Fin 0; Vec 0] (fun _ => None) = Ok ([OBytes out], st) /\
    oexec (Model.TupleHash.cls256 lg dbg) [Construct 0 a; Feed 0 y; Fin 0; Vec 0] (fun _ => None) = Ok ([OBytes out'], st') /\
    out <> out'.
Proof.
  intros Ha Hx Hy E' E Hne lg dbg Hlog.
  destruct (PT.tuplehash256_reset_drops lg dbg l c x y Hlog Ha Hx Hy) as (st & H).
  destruct (run_once (Model.TupleHash.cls256 lg dbg) _ _ _ _ _ (l, c) y (PT.tuplehash256_correct lg dbg Hlog) Ha Hy) as (st' & H').
  rewrite E in H. unfold tuplehash256 in H'. rewrite E' in H'.
  exists (l, c), x, y, out, out', st, st'. auto 10.
Qed.
