(** C41: the digest of a finalized SHA-3 or SHAKE object stays until reset(), and other classes behave differently. *)
From Coq Require Import String List NArith Arith Bool.
From Verif.Base Require Import Res.
From Verif.Spec Require Import Words Client AnyOrder.
From Verif.Spec Require Crc32.
From Verif.Model Require Import Api Library.
From Verif.Tests Require Import Kit.
From Verif.Proof Require Frozen.
Import ListNotations.

(** Whatever is called after the first finalize(), reset() aside, every read-out shows the digest of the message that
    was there at that time: data added later is not in it, not even after another finalize(). *)
Theorem C41_sponge : forall (a : alg) dbg x qs, sponge a = true -> span_ok x -> Forall (leaves (digest_size a)) qs ->
  exists d st, length d = digest_size a /\ hash_chunks (class a dbg) [x] = Ok d /\
    exec (class a dbg) (map (On 0) (AddData x :: Finalize :: qs)) (fun _ => c_new (class a dbg)) = Ok (flat_map (shows d) qs, st).
Proof. exact Proof.Frozen.library_frozen. Qed.
Print Assumptions C41_sponge.

(** CRC_32: each finalize() complements the register, so a second one always gives another value, a third one the first *)
Theorem C41_crc_refuted : forall dbg x, span_ok x -> exists d d' st, hash_chunks (class CRC_32 dbg) [x] = Ok d /\
  d = be_bytes 4 (Spec.Crc32.crc32 x) /\ d' = be_bytes 4 (compl 32 (Spec.Crc32.crc32 x)) /\ d <> d' /\
  exec (class CRC_32 dbg) (map (On 0) [AddData x; Finalize; ToArray; Finalize; ToArray; Finalize; ToArray]) (fun _ => c_new (class CRC_32 dbg)) =
    Ok ([OBytes d; OBytes d'; OBytes d], st).
Proof. exact (fun _ => Proof.Frozen.crc_again). Qed.
Print Assumptions C41_crc_refuted.

(** SHA-1: a second finalize() pads and compresses once more *)
Theorem C41_sha1_refuted : forall dbg, exists d d' st, d <> d' /\
  exec (class SHA1 dbg) (map (On 0) [AddData (text "abc"); Finalize; ToArray; Finalize; ToArray]) (fun _ => c_new (class SHA1 dbg)) =
    Ok ([OBytes d; OBytes d'], st).
Proof.
  exact (fun dbg => match dbg return exists d d' st, d <> d' /\
    exec (class SHA1 dbg) (map (On 0) [AddData (text "abc"); Finalize; ToArray; Finalize; ToArray]) (fun _ => c_new (class SHA1 dbg)) = Ok ([OBytes d; OBytes d'], st) with
    | true => ltac:(do 3 eexists; split; [|vm_compute; reflexivity]; discriminate)
    | false => ltac:(do 3 eexists; split; [|vm_compute; reflexivity]; discriminate)
    end).
Qed.
Print Assumptions C41_sha1_refuted.

Definition afterwards : list op := [ToArray; AddData (counting 300); ToUint 4; Finalize; ToString; AddData (text "x"); StdHash].
Example C41_case_leaves : Forall (leaves (digest_size (SHAKE_256 10))) afterwards.
Proof. repeat constructor; try (apply span_okb_ok; vm_compute; reflexivity). cbn [leaves digest_size]. discriminate. Qed.
(** SHAKE256("abc") in 10 bytes, after all that *)
Example C41_case : exists st,
  exec (class (SHAKE_256 10) true) (map (On 0) (AddData (text "abc") :: Finalize :: afterwards)) (fun _ => c_new (class (SHAKE_256 10) true)) =
  Ok ([OBytes (unhex "483366601360a8771c68"); ONum 0x48336660; OChars (text "483366601360a8771c68"); ONum 0x483366601360a877], st).
Proof. eexists. vm_compute. reflexivity. Qed.
Example C41_case_crc : exists st,
  exec (class CRC_32 true) (map (On 0) [AddData (text "abc"); Finalize; ToArray; Finalize; ToArray; Finalize; ToArray]) (fun _ => c_new (class CRC_32 true)) =
  Ok ([OBytes (unhex "352441c2"); OBytes (unhex "cadbbe3d"); OBytes (unhex "352441c2")], st).
Proof. eexists. vm_compute. reflexivity. Qed.
