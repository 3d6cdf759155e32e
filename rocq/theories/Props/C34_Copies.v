(** C34: copies are independent. *)
From Coq Require Import String List NArith ZArith.
From Verif.Base Require Import Res.
From Verif.Spec Require Import Words Client Legal ObjClient Log2 Sp800185 CShakeArgs.
From Verif.Model Require Import Api ObjApi Library.
From Verif.Model Require CShake TupleHash.
From Verif.Tests Require Import Kit KitObj KitLegal.
From Verif.Proof Require Legal ObjApi LibraryLaws CShake TupleHash.
Import ListNotations.

(** Whatever the program (legal or not) and the interleaving, an object ends up as if the calls of its own
    history alone had been made: the calls on it and, before a copy, those on the object it was copied from. *)
Theorem C34_own_calls : forall (a : alg) dbg p os st i,
  exec (class a dbg) p (fun _ => c_new (class a dbg)) = Ok (os, st) ->
  exec_ops (class a dbg) (own_calls p i) (c_new (class a dbg)) = Ok (st i).
Proof. intros a dbg p os st i E. destruct (Proof.Legal.own_history (class a dbg) p _ os st i E) as (j & H). exact H. Qed.
Print Assumptions C34_own_calls.

(** In a legal program its digest is that of a lone object fed the bytes of that history in any chunks *)
Theorem C34_own_digest : forall (a : alg) dbg p i, well_formed a -> unreadable a = false -> fnv0 a = false ->
  legal_program (digest_size a <> 0) (p ++ [On i Finalize]) ->
  exists os st d, exec (class a dbg) (p ++ [On i Finalize]) (fun _ => c_new (class a dbg)) = Ok (os, st) /\
    c_array (class a dbg) (st i) = Ok d /\
    forall chunks, Forall span_ok chunks -> concat chunks = fed (own_calls p i) -> hash_chunks (class a dbg) chunks = Ok d.
Proof. exact Proof.LibraryLaws.library_own_digest. Qed.
Print Assumptions C34_own_digest.

(** cSHAKE and TupleHash objects own their state through a pointer; still, in every promised program with
    constructions, copies, moves and assignments, the digest of a finalized object is that of a lone object with
    its arguments, fed its items *)
Theorem C34_cshake128 : forall lg dbg p os s' i a items, log2_accurate lg ->
  orun (fun a l => cshake128 a (concat l)) ok_cargs span_ok may_reset may_assign p (fun _ => NoObject) os s' -> s' i = Live (mkO a items true) ->
  exists st' y d, oexec (Model.CShake.cls128 lg dbg) p (fun _ => None) = Ok (os, st') /\ st' i = Some y /\
    oc_vector (Model.CShake.cls128 lg dbg) y = Ok d /\ ohash (Model.CShake.cls128 lg dbg) a items = Ok d.
Proof. exact (fun lg dbg p os s' i a items H => Proof.ObjApi.objcorrect_lone _ _ _ _ _ _ (Proof.CShake.cshake128_correct lg dbg H) p os s' i a items). Qed.
Print Assumptions C34_cshake128.
Theorem C34_cshake256 : forall lg dbg p os s' i a items, log2_accurate lg ->
  orun (fun a l => cshake256 a (concat l)) ok_cargs span_ok may_reset may_assign p (fun _ => NoObject) os s' -> s' i = Live (mkO a items true) ->
  exists st' y d, oexec (Model.CShake.cls256 lg dbg) p (fun _ => None) = Ok (os, st') /\ st' i = Some y /\
    oc_vector (Model.CShake.cls256 lg dbg) y = Ok d /\ ohash (Model.CShake.cls256 lg dbg) a items = Ok d.
Proof. exact (fun lg dbg p os s' i a items H => Proof.ObjApi.objcorrect_lone _ _ _ _ _ _ (Proof.CShake.cshake256_correct lg dbg H) p os s' i a items). Qed.
Print Assumptions C34_cshake256.
Theorem C34_tuplehash128 : forall lg dbg p os s' i a items, log2_accurate lg ->
  orun tuplehash128 ok_targs short no_reset live_assign p (fun _ => NoObject) os s' -> s' i = Live (mkO a items true) ->
  exists st' y d, oexec (Model.TupleHash.cls128 lg dbg) p (fun _ => None) = Ok (os, st') /\ st' i = Some y /\
    oc_vector (Model.TupleHash.cls128 lg dbg) y = Ok d /\ ohash (Model.TupleHash.cls128 lg dbg) a items = Ok d.
Proof. exact (fun lg dbg p os s' i a items H => Proof.ObjApi.objcorrect_lone _ _ _ _ _ _ (Proof.TupleHash.tuplehash128_correct lg dbg H) p os s' i a items). Qed.
Print Assumptions C34_tuplehash128.
Theorem C34_tuplehash256 : forall lg dbg p os s' i a items, log2_accurate lg ->
  orun tuplehash256 ok_targs short no_reset live_assign p (fun _ => NoObject) os s' -> s' i = Live (mkO a items true) ->
  exists st' y d, oexec (Model.TupleHash.cls256 lg dbg) p (fun _ => None) = Ok (os, st') /\ st' i = Some y /\
    oc_vector (Model.TupleHash.cls256 lg dbg) y = Ok d /\ ohash (Model.TupleHash.cls256 lg dbg) a items = Ok d.
Proof. exact (fun lg dbg p os s' i a items H => Proof.ObjApi.objcorrect_lone _ _ _ _ _ _ (Proof.TupleHash.tuplehash256_correct lg dbg H) p os s' i a items). Qed.
Print Assumptions C34_tuplehash256.

(** three interleaved objects; what was fed to each *)
Example C34_case_legal : legal_program (digest_size MD5 <> 0) (interleaved ++ [On 2 Finalize]).
Proof. apply interleaved_is_legal. repeat constructor. Qed.
Example C34_case_fed :
  fed (own_calls interleaved 0) = text "z" /\ fed (own_calls interleaved 1) = text "axy" /\ fed (own_calls interleaved 2) = text "abc".
Proof. exact interleaved_fed. Qed.
Example C34_case : forall r, exec (class MD5 true) (interleaved ++ [On 2 Finalize; On 2 ToString]) (fun _ => c_new (class MD5 true)) = r ->
  exists st, r = Ok ([OChars (text "900150983cd24fb0d6963f7d28e17f72")], st).
Proof. intros r <-. eexists. vm_compute. reflexivity. Qed.
(** programs with several cSHAKE and TupleHash objects *)
Example C34_case_cshake : exists os s', orun (fun a l => cshake128 a (concat l)) ok_cargs span_ok may_reset may_assign (cshake_program 32) (fun _ => NoObject) os s' /\
  nth_error os 0 = Some (OBytes (cshake128 (32%Z, [], text "Email Signature") (concat [[0; 1]; [2; 3]]%N))).
Proof. apply (cshake_program_runs (fun a l => cshake128 a (concat l))). discriminate. Qed.
Example C34_case_tuple : exists os s', orun tuplehash256 ok_targs short no_reset live_assign (tuple_program 32) (fun _ => NoObject) os s' /\
  nth_error os 0 = Some (OBytes (tuplehash256 (32%Z, []) [counting 3; [16; 17; 18; 19; 20; 21]%N])).
Proof. apply (tuple_program_runs tuplehash256). split; [discriminate|reflexivity]. Qed.
