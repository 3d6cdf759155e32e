(** C28: equal objects have equal std::hash values. *)
From Coq Require Import String List NArith ZArith Lia.
From Verif.Base Require Import Res.
From Verif.Spec Require Import Words Client Legal ObjClient ObjLegal Log2 Sp800185 CShakeArgs.
From Verif.Model Require Import Api ObjApi Library ObjEquality.
From Verif.Model Require CShake TupleHash.
From Verif.Tests Require Import Kit KitObj KitLegal.
From Verif.Proof Require Equality SpongeEq SpongeNeq ObjEq Log2Witness.
Import ListNotations.
Local Open Scope N_scope.

(** All classes but SHA-3 and SHAKE, and all pairs of objects that any programs, legal or not, have left.
    The four short Tiger classes have no working std::hash (C11). *)
Theorem C28_library : forall (a : alg) dbg x y, well_formed a -> sponge a = false -> unreadable a = false ->
  Reachable (class a dbg) x -> Reachable (class a dbg) y -> equal a dbg x y = Ok true ->
  exists v, exec_op (class a dbg) StdHash x = Ok (x, Some (ONum v)) /\ exec_op (class a dbg) StdHash y = Ok (y, Some (ONum v)).
Proof. exact Proof.Equality.library_eq_std. Qed.
Print Assumptions C28_library.

(** unfinalized objects that are equal although they were given different data *)
Example C28_case : forall t, exec (class SHA1 false)
  [On 0 (AddData (text "abc")); On 1 (AddData (text "xy")); On 0 StdHash; On 1 StdHash] (fun _ => c_new (class SHA1 false)) = t ->
  exists st, t = Ok ([ONum 0x67452301efcdab89; ONum 0x67452301efcdab89], st) /\ equal SHA1 false (st 0%nat) (st 1%nat) = Ok true.
Proof. intros t <-. eexists. split; [vm_compute; reflexivity|]. vm_compute. reflexivity. Qed.

(** SHA-3 and SHAKE: finalized objects of the same length *)
Theorem C28_sponge_partial : forall (a : alg) dbg x y, sponge a = true ->
  Finalized (class a dbg) x -> Finalized (class a dbg) y -> equal a dbg x y = Ok true ->
  exists v, exec_op (class a dbg) StdHash x = Ok (x, Some (ONum v)) /\ exec_op (class a dbg) StdHash y = Ok (y, Some (ONum v)).
Proof. exact Proof.SpongeEq.sponge_eq_std. Qed.
Print Assumptions C28_sponge_partial.

(** missing: an object that has absorbed what finalize() would have appended equals the finalized object,
    but its m_final is empty.  The empty message and one block of padding. *)
Theorem C28_sha3_refuted : forall t, exec (class SHA3_256 false)
  [On 0 Finalize; On 1 (AddData ([6] ++ repeat 0 134 ++ [128])); On 0 StdHash; On 1 StdHash] (fun _ => c_new (class SHA3_256 false)) = t ->
  exists st, t = Ok ([ONum 0xa7ffc6f8bf1ed766; ONum 0], st) /\ equal SHA3_256 false (st 0%nat) (st 1%nat) = Ok true.
Proof. intros t <-. eexists. split; [vm_compute; reflexivity|]. vm_compute. reflexivity. Qed.
Print Assumptions C28_sha3_refuted.

(** missing: SHAKE objects of different lengths, both finalized *)
Theorem C28_shake_refuted : forall t u,
  exec (class (SHAKE_128 4) false) [On 0 Finalize; On 0 StdHash] (fun _ => c_new (class (SHAKE_128 4) false)) = t ->
  exec (class (SHAKE_128 8) false) [On 0 Finalize; On 0 StdHash] (fun _ => c_new (class (SHAKE_128 8) false)) = u ->
  exists st su, t = Ok ([ONum 0x7f9c2ba4], st) /\ u = Ok ([ONum 0x7f9c2ba4e88f827d], su) /\ keccak_eq (st 0%nat) (su 0%nat) = Ok true.
Proof.
  intros t u <- <-. eexists. eexists. split; [vm_compute; reflexivity|]. split; [vm_compute; reflexivity|]. vm_compute. reflexivity.
Qed.
Print Assumptions C28_shake_refuted.

(** cSHAKE and TupleHash: two finalized objects of any promised program with the same digest length *)
Theorem C28_cshake128_partial : forall lg dbg, log2_accurate lg -> forall p os s' i j l n c items n' c' items',
  orun (fun a l => cshake128 a (concat l)) ok_cargs span_ok may_reset may_assign p (fun _ => NoObject) os s' ->
  s' i = Live (mkO (l, n, c) items true) -> s' j = Live (mkO (l, n', c') items' true) ->
  exists st x y b, oexec (Model.CShake.cls128 lg dbg) p (fun _ => None) = Ok (os, st) /\ st i = Some x /\ st j = Some y /\
    cshake_eq x y = Ok b /\
    (b = true -> exists v, exec_ocmd (Model.CShake.cls128 lg dbg) (Std i) st = Ok (st, Some (ONum v)) /\
      exec_ocmd (Model.CShake.cls128 lg dbg) (Std j) st = Ok (st, Some (ONum v))).
Proof. exact (fun lg dbg H p os s' i j l n c items n' c' items' Hp Hi Hj => Proof.ObjEq.digest_std (Proof.ObjEq.cshake128_eq_digest lg dbg H p os s' i j l n c items n' c' items' Hp Hi Hj)). Qed.
Print Assumptions C28_cshake128_partial.
Theorem C28_tuplehash128_partial : forall lg dbg, log2_accurate lg -> forall p os s' i j l c items c' items',
  orun tuplehash128 ok_targs short no_reset live_assign p (fun _ => NoObject) os s' ->
  s' i = Live (mkO (l, c) items true) -> s' j = Live (mkO (l, c') items' true) ->
  exists st x y b, oexec (Model.TupleHash.cls128 lg dbg) p (fun _ => None) = Ok (os, st) /\ st i = Some x /\ st j = Some y /\
    tuple_eq x y = Ok b /\
    (b = true -> exists v, exec_ocmd (Model.TupleHash.cls128 lg dbg) (Std i) st = Ok (st, Some (ONum v)) /\
      exec_ocmd (Model.TupleHash.cls128 lg dbg) (Std j) st = Ok (st, Some (ONum v))).
Proof. exact (fun lg dbg H p os s' i j l c items c' items' Hp Hi Hj => Proof.ObjEq.digest_std (Proof.ObjEq.tuplehash128_eq_digest lg dbg H p os s' i j l c items c' items' Hp Hi Hj)). Qed.
Print Assumptions C28_tuplehash128_partial.
Theorem C28_cshake256_partial : forall lg dbg, log2_accurate lg -> forall p os s' i j l n c items n' c' items',
  orun (fun a l => cshake256 a (concat l)) ok_cargs span_ok may_reset may_assign p (fun _ => NoObject) os s' ->
  s' i = Live (mkO (l, n, c) items true) -> s' j = Live (mkO (l, n', c') items' true) ->
  exists st x y b, oexec (Model.CShake.cls256 lg dbg) p (fun _ => None) = Ok (os, st) /\ st i = Some x /\ st j = Some y /\
    cshake_eq x y = Ok b /\
    (b = true -> exists v, exec_ocmd (Model.CShake.cls256 lg dbg) (Std i) st = Ok (st, Some (ONum v)) /\
      exec_ocmd (Model.CShake.cls256 lg dbg) (Std j) st = Ok (st, Some (ONum v))).
Proof. exact (fun lg dbg H p os s' i j l n c items n' c' items' Hp Hi Hj => Proof.ObjEq.digest_std (Proof.ObjEq.cshake256_eq_digest lg dbg H p os s' i j l n c items n' c' items' Hp Hi Hj)). Qed.
Print Assumptions C28_cshake256_partial.
Theorem C28_tuplehash256_partial : forall lg dbg, log2_accurate lg -> forall p os s' i j l c items c' items',
  orun tuplehash256 ok_targs short no_reset live_assign p (fun _ => NoObject) os s' ->
  s' i = Live (mkO (l, c) items true) -> s' j = Live (mkO (l, c') items' true) ->
  exists st x y b, oexec (Model.TupleHash.cls256 lg dbg) p (fun _ => None) = Ok (os, st) /\ st i = Some x /\ st j = Some y /\
    tuple_eq x y = Ok b /\
    (b = true -> exists v, exec_ocmd (Model.TupleHash.cls256 lg dbg) (Std i) st = Ok (st, Some (ONum v)) /\
      exec_ocmd (Model.TupleHash.cls256 lg dbg) (Std j) st = Ok (st, Some (ONum v))).
Proof. exact (fun lg dbg H p os s' i j l c items c' items' Hp Hi Hj => Proof.ObjEq.digest_std (Proof.ObjEq.tuplehash256_eq_digest lg dbg H p os s' i j l c items c' items' Hp Hi Hj)). Qed.
Print Assumptions C28_tuplehash256_partial.
