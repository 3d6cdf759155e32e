(** C45: CRC_32 of concatenations: combining two digests, the constant of a message followed by its CRC, and the four bytes
    that force any digest. *)
From Coq Require Import String List NArith.
From Verif.Base Require Import Res.
From Verif.Spec Require Import Words.
From Verif.Model Require Import Api.
From Verif.Tests Require Import Kit.
From Verif.Spec Require Crc32.
From Verif.Model Require Crc32.
From Verif.Proof Require Crc32Algebra.
Import ListNotations.

(** The digest of a concatenation from the two digests and the length of the second part: the first one is shifted by as many
    zero bits as the second part has bits. *)
Theorem C45_combine : forall xs ys zs dx dy,
  Forall span_ok xs -> Forall span_ok ys -> Forall span_ok zs -> concat zs = concat xs ++ concat ys ->
  hash_chunks Model.Crc32.cls xs = Ok dx -> hash_chunks Model.Crc32.cls ys = Ok dy ->
  hash_chunks Model.Crc32.cls zs =
    Ok (be_bytes 4 (N.lxor (Spec.Crc32.remainder (be_value dx) (repeat false (8 * length (concat ys)))) (be_value dy))).
Proof. exact Proof.Crc32Algebra.combine. Qed.
Print Assumptions C45_combine.

(** A message followed by four bytes has the digest 2144df1c exactly if these are its CRC, least significant byte first. *)
Theorem C45_residue : forall xs zs d s,
  Forall span_ok xs -> Forall span_ok zs -> length s = 4 -> concat zs = concat xs ++ s ->
  hash_chunks Model.Crc32.cls xs = Ok d ->
  (hash_chunks Model.Crc32.cls zs = Ok [0x21; 0x44; 0xDF; 0x1C]%N <-> s = rev d).
Proof. exact Proof.Crc32Algebra.residue_iff. Qed.
Print Assumptions C45_residue.

(** For every message and every digest exactly one ending of four bytes leads there. *)
Theorem C45_forge : forall m v, bytes_ok m -> bytes_ok v -> length v = 4 -> exists s, bytes_ok s /\ length s = 4 /\
  (forall ds, Forall span_ok ds -> concat ds = m ++ s -> hash_chunks Model.Crc32.cls ds = Ok v) /\
  (forall t ds, bytes_ok t -> length t = 4 -> Forall span_ok ds -> concat ds = m ++ t -> hash_chunks Model.Crc32.cls ds = Ok v -> t = s).
Proof. exact Proof.Crc32Algebra.forge. Qed.
Print Assumptions C45_forge.

(** values from zlib *)
Example C45_combine_case :
  hash_chunks Model.Crc32.cls [text "hello "] = Ok (unhex "ed81f9f6") /\ hash_chunks Model.Crc32.cls [text "world"] = Ok (unhex "3a771143") /\
  N.lxor (Spec.Crc32.remainder 0xed81f9f6 (repeat false 40)) 0x3a771143 = 0x0d4a1185%N /\
  hash_chunks Model.Crc32.cls [text "hello world"] = Ok (unhex "0d4a1185").
Proof. vm_compute. auto. Qed.
Example C45_residue_case :
  hash_chunks Model.Crc32.cls [text "Pay 10 to Alice"] = Ok (unhex "1c0b7257") /\
  hash_chunks Model.Crc32.cls [text "Pay 10 to Alice"; unhex "57720b1c"] = Ok (unhex "2144df1c").
Proof. vm_compute. auto. Qed.
Example C45_forge_case : hash_chunks Model.Crc32.cls [text "Pay 10 to Alice"; unhex "94aa2f1a"] = Ok (unhex "deadbeef").
Proof. vm_compute. reflexivity. Qed.
