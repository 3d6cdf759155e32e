(** C62: cSHAKE and TupleHash: work proportional to the data. *)
From Coq Require Import List NArith ZArith Arith Bool.
From Verif.Base Require Import Leak.
From Verif.Base Require Res.
From Verif.Spec Require Import Client ObjClient ObjShape.
From Verif.Model Require Import ObjApi LeakObjects.
From Verif.Model Require CShake TupleHash.
From Verif.Proof Require LeakObjErase LeakObjWork.
Import ListNotations.

(** One number k: a program of c calls that passes n bytes of data, names and customization strings makes at most
    k * (1 + longest digest) * (n + c) array accesses and branches, whatever std::log2 returns, also when the program ends in an
    exception or a fault. *)
Theorem C62_program : exists k, forall (log2 : N -> N) (dbg : bool),
  (forall p, length (trace (seen_c128 log2 dbg p)) <= k * S (longest cshake_digest p) * oprogram_size cshake_size p) /\
  (forall p, length (trace (seen_c256 log2 dbg p)) <= k * S (longest cshake_digest p) * oprogram_size cshake_size p) /\
  (forall p, length (trace (seen_t128 log2 dbg p)) <= k * S (longest tuple_digest p) * oprogram_size tuple_size p) /\
  (forall p, length (trace (seen_t256 log2 dbg p)) <= k * S (longest tuple_digest p) * oprogram_size tuple_size p).
Proof. exact Proof.LeakObjWork.objects_linear. Qed.
Print Assumptions C62_program.

(** No single call is slow on the objects that a program has left behind. *)
Theorem C62_call : exists k, forall (log2 : N -> N) (dbg : bool),
  (forall p os st c, oexec (CShake.cls128 log2 dbg) p (fun _ => None) = Res.Ok (os, st) ->
     length (trace (run_ocmd (CShake.cls128 log2 dbg) (cshake128 log2 dbg) c st)) <= k * S (longest cshake_digest (c :: p)) * ocmd_size cshake_size c) /\
  (forall p os st c, oexec (CShake.cls256 log2 dbg) p (fun _ => None) = Res.Ok (os, st) ->
     length (trace (run_ocmd (CShake.cls256 log2 dbg) (cshake256 log2 dbg) c st)) <= k * S (longest cshake_digest (c :: p)) * ocmd_size cshake_size c) /\
  (forall p os st c, oexec (TupleHash.cls128 log2 dbg) p (fun _ => None) = Res.Ok (os, st) ->
     length (trace (run_ocmd (TupleHash.cls128 log2 dbg) (tuple128 log2 dbg) c st)) <= k * S (longest tuple_digest (c :: p)) * ocmd_size tuple_size c) /\
  (forall p os st c, oexec (TupleHash.cls256 log2 dbg) p (fun _ => None) = Res.Ok (os, st) ->
     length (trace (run_ocmd (TupleHash.cls256 log2 dbg) (tuple256 log2 dbg) c st)) <= k * S (longest tuple_digest (c :: p)) * ocmd_size tuple_size c).
Proof.
  destruct Proof.LeakObjWork.object_calls as [k K]. exists k. intros log2 dbg. destruct (K log2 dbg) as (K1 & K2 & K3 & K4). split; [|split; [|split]]; intros p os st c E.
  - exact (K1 p os st c (eq_trans (Proof.LeakObjErase.er_orun _ _ (Proof.LeakObjErase.cshake_faithful log2 _ _ _ _ dbg) p _) E)).
  - exact (K2 p os st c (eq_trans (Proof.LeakObjErase.er_orun _ _ (Proof.LeakObjErase.cshake_faithful log2 _ _ _ _ dbg) p _) E)).
  - exact (K3 p os st c (eq_trans (Proof.LeakObjErase.er_orun _ _ (Proof.LeakObjErase.tuple_faithful log2 _ _ _ _ dbg) p _) E)).
  - exact (K4 p os st c (eq_trans (Proof.LeakObjErase.er_orun _ _ (Proof.LeakObjErase.tuple_faithful log2 _ _ _ _ dbg) p _) E)).
Qed.
Print Assumptions C62_call.

(** ** Concrete cases *)
Definition prog : list (ocmd (Z * list N * list N)) := [Construct 0 (32%Z, [], [1; 2; 3]%N); Feed 0 [10; 20]%N; Construct 1 (64%Z, [], []); Fin 0; Vec 0].
(** five calls, three bytes of customization, two bytes of data *)
Example C62_size : oprogram_size cshake_size prog = 10. Proof. reflexivity. Qed.
Example C62_longest : longest cshake_digest prog = 64. Proof. reflexivity. Qed.
(** the objects of C62_call exist *)
Example C62_reached : exists st, oexec (CShake.cls128 (fun _ => 0%N) true) [Construct 0 (32%Z, [], []); Feed 0 [5%N]] (fun _ => None) = Res.Ok ([], st).
Proof. eexists. vm_compute. reflexivity. Qed.
