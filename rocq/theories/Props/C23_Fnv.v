(** C23 for FNV32_0 and FNV64_0: reset() does nothing. *)
From Coq Require Import String List NArith.
From Verif.Base Require Import Res.
From Verif.Spec Require Import Words Client.
From Verif.Model Require Import Api.
From Verif.Tests Require Import Kit.
From Verif.Spec Require Fnv.
From Verif.Model Require Fnv.
From Verif.Proof Require Fnv.
Import ListNotations.

(** after reset() an FNV32_0 object still has in it what was added before *)
Theorem C23_fnv32_0_keeps : forall x y, exists st,
  exec (Model.Fnv.cls 4 0) [On 0 (AddData x); On 0 Reset; On 0 (AddData y); On 0 Finalize; On 0 ToArray] (fun _ => c_new (Model.Fnv.cls 4 0)) =
  Ok ([OBytes (be_bytes 4 (Spec.Fnv.fnv0 32 (x ++ y)))], st).
Proof. exact (fun x y => Proof.Fnv.reset_keeps 4 x y (or_introl eq_refl)). Qed.
Print Assumptions C23_fnv32_0_keeps.

(** so a reset object does not behave like a new one *)
Theorem C23_fnv32_0_refuted : exists x y out out' st st', span_ok x /\ span_ok y /\
  exec (Model.Fnv.cls 4 0) [On 0 (AddData x); On 0 Reset; On 0 (AddData y); On 0 Finalize; On 0 ToArray] (fun _ => c_new (Model.Fnv.cls 4 0)) = Ok ([OBytes out], st) /\
  exec (Model.Fnv.cls 4 0) [On 0 (AddData y); On 0 Finalize; On 0 ToArray] (fun _ => c_new (Model.Fnv.cls 4 0)) = Ok ([OBytes out'], st') /\
  out <> out'.
Proof. exact (Proof.Fnv.reset_refuted 4 (or_introl eq_refl)). Qed.
Print Assumptions C23_fnv32_0_refuted.

(** after reset() an FNV64_0 object still has in it what was added before *)
Theorem C23_fnv64_0_keeps : forall x y, exists st,
  exec (Model.Fnv.cls 8 0) [On 0 (AddData x); On 0 Reset; On 0 (AddData y); On 0 Finalize; On 0 ToArray] (fun _ => c_new (Model.Fnv.cls 8 0)) =
  Ok ([OBytes (be_bytes 8 (Spec.Fnv.fnv0 64 (x ++ y)))], st).
Proof. exact (fun x y => Proof.Fnv.reset_keeps 8 x y (or_intror eq_refl)). Qed.
Print Assumptions C23_fnv64_0_keeps.

(** so a reset object does not behave like a new one *)
Theorem C23_fnv64_0_refuted : exists x y out out' st st', span_ok x /\ span_ok y /\
  exec (Model.Fnv.cls 8 0) [On 0 (AddData x); On 0 Reset; On 0 (AddData y); On 0 Finalize; On 0 ToArray] (fun _ => c_new (Model.Fnv.cls 8 0)) = Ok ([OBytes out], st) /\
  exec (Model.Fnv.cls 8 0) [On 0 (AddData y); On 0 Finalize; On 0 ToArray] (fun _ => c_new (Model.Fnv.cls 8 0)) = Ok ([OBytes out'], st') /\
  out <> out'.
Proof. exact (Proof.Fnv.reset_refuted 8 (or_intror eq_refl)). Qed.
Print Assumptions C23_fnv64_0_refuted.

