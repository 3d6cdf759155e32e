(** C23: reset() makes an object as good as new. *)
From Coq Require Import String List NArith ZArith.
From Verif.Base Require Import Res.
From Verif.Spec Require Import Words Client Legal ObjClient Log2 CShakeArgs.
From Verif.Model Require Import Api ObjApi Library.
From Verif.Model Require CShake.
From Verif.Tests Require Import Kit KitLegal.
From Verif.Proof Require ObjApi LibraryLaws CShake.
Import ListNotations.

(** After any legal program, on any number of objects: a program [q] that starts by resetting object i
    runs as it does with a new object i, whatever [q] is.  All classes but the two FNV-0 ones (refuted
    in C23_Fnv) and the four short Tiger ones (which have no digests, see C11). *)
Theorem C23_library : forall (a : alg) dbg p os st, well_formed a -> unreadable a = false -> fnv0 a = false ->
  legal_program (digest_size a <> 0) p ->
  exec (class a dbg) p (fun _ => c_new (class a dbg)) = Ok (os, st) ->
  forall i q, exec (class a dbg) (On i Reset :: q) st = exec (class a dbg) q (put (class a dbg) st i (c_new (class a dbg))).
Proof. exact Proof.LibraryLaws.library_reset. Qed.
Print Assumptions C23_library.

(** cSHAKE objects without name and customization (with them: refuted in C23_CShakeReset): after a promised
    program [p], resetting object i and constructing it again give the same results in every promised
    program [q] *)
Theorem C23_cshake128_plain : forall lg dbg p os s1 i a items b q os' s', log2_accurate lg ->
  orun (fun a l => cshake128 a (concat l)) ok_cargs span_ok may_reset may_assign p (fun _ => NoObject) os s1 ->
  s1 i = Live (mkO a items b) -> customized a = false ->
  orun (fun a l => cshake128 a (concat l)) ok_cargs span_ok may_reset may_assign q (oput s1 i (Live (mkO a [] false))) os' s' ->
  exists st st', oexec (Model.CShake.cls128 lg dbg) (p ++ Rst i :: q) (fun _ => None) = Ok (os ++ os', st) /\
    oexec (Model.CShake.cls128 lg dbg) (p ++ Construct i a :: q) (fun _ => None) = Ok (os ++ os', st').
Proof.
  exact (fun lg dbg p os s1 i a items b q os' s' H =>
    Proof.ObjApi.objcorrect_reset _ _ _ _ _ _ (Proof.CShake.cshake128_correct lg dbg H) p os s1 i a items b q os' s').
Qed.
Print Assumptions C23_cshake128_plain.
Theorem C23_cshake256_plain : forall lg dbg p os s1 i a items b q os' s', log2_accurate lg ->
  orun (fun a l => cshake256 a (concat l)) ok_cargs span_ok may_reset may_assign p (fun _ => NoObject) os s1 ->
  s1 i = Live (mkO a items b) -> customized a = false ->
  orun (fun a l => cshake256 a (concat l)) ok_cargs span_ok may_reset may_assign q (oput s1 i (Live (mkO a [] false))) os' s' ->
  exists st st', oexec (Model.CShake.cls256 lg dbg) (p ++ Rst i :: q) (fun _ => None) = Ok (os ++ os', st) /\
    oexec (Model.CShake.cls256 lg dbg) (p ++ Construct i a :: q) (fun _ => None) = Ok (os ++ os', st').
Proof.
  exact (fun lg dbg p os s1 i a items b q os' s' H =>
    Proof.ObjApi.objcorrect_reset _ _ _ _ _ _ (Proof.CShake.cshake256_correct lg dbg H) p os s1 i a items b q os' s').
Qed.
Print Assumptions C23_cshake256_plain.

(** a legal program with copies, a reset and every read-out *)
Example C23_case_legal : legal_program (digest_size SHA2_256 <> 0) demo.
Proof. apply demo_is_legal. discriminate. Qed.
(** an MD5 object that has seen 100 bytes, is finalized, read and reset, hashes "abc" *)
Example C23_case : exists st, exec (class MD5 true)
  [On 0 (AddData (counting 100)); On 0 Finalize; On 0 (ToUint 2); On 0 Reset; On 0 (AddData (text "abc")); On 0 Finalize; On 0 ToString]
  (fun _ => c_new (class MD5 true)) = Ok ([ONum 0x7ace; OChars (text "900150983cd24fb0d6963f7d28e17f72")], st).
Proof. eexists. vm_compute. reflexivity. Qed.
