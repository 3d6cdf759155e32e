(** SHAKE: constructor argument, output length, prefixes. *)
From Coq Require Import List NArith ZArith Arith Bool Lia.
From Verif.Base Require Import Res.
From Verif.Spec Require Import Words Client.
From Verif.Model Require Import Api.
From Verif.Spec Require Keccak.
From Verif.Model Require Keccak.
From Verif.Proof Require Import Api.
From Verif.Proof Require Keccak KeccakOut.
Import ListNotations.
Module S := Verif.Spec.Keccak.
Module M := Verif.Model.Keccak.

Lemma shake128_sponge d m : S.shake128 d m = S.bytes_of (S.sponge 1344 (8 * d) (S.bits_of m ++ [true; true; true; true])).
Proof. unfold S.shake128, S.keccak. now replace (1600 - 256) with 1344 by reflexivity. Qed.
Lemma shake256_sponge d m : S.shake256 d m = S.bytes_of (S.sponge 1088 (8 * d) (S.bits_of m ++ [true; true; true; true])).
Proof. unfold S.shake256, S.keccak. now replace (1600 - 512) with 1088 by reflexivity. Qed.

Lemma rate128 : 0 < 1344 <= 1600. Proof. lia. Qed.
Lemma rate256 : 0 < 1088 <= 1600. Proof. lia. Qed.

Section Any.
  Variables (cls : bool -> nat -> HashClass) (hash : nat -> list N -> list N) (r : nat) (sfx : S.bits).
  Hypothesis Hr : 0 < r <= 1600.
  Hypothesis Hc : forall dbg d, Correct (cls dbg d) (hash d) (fun _ => True).
  Hypothesis Hs : forall d m, hash d m = S.bytes_of (S.sponge r (8 * d) (S.bits_of m ++ sfx)).

  Lemma any_length dbg d chunks : Forall span_ok chunks ->
    exists out, hash_chunks (cls dbg d) chunks = Ok out /\ length out = d.
  Proof.
    intros H. eexists. split; [apply (correct_chunks _ _ _ (Hc dbg d) chunks H I)|].
    rewrite Hs. now apply KeccakOut.shake_length.
  Qed.

  Lemma any_prefix dbg dbg' a b chunks chunks' :
    Forall span_ok chunks -> Forall span_ok chunks' -> concat chunks = concat chunks' -> a <= b ->
    exists out out', hash_chunks (cls dbg b) chunks = Ok out /\
      hash_chunks (cls dbg' a) chunks' = Ok out' /\ out' = firstn a out.
  Proof.
    intros H H' E Hab. eexists. eexists.
    split; [apply (correct_chunks _ _ _ (Hc dbg b) chunks H I)|].
    split; [apply (correct_chunks _ _ _ (Hc dbg' a) chunks' H' I)|].
    rewrite <- E, !Hs. symmetry. now apply KeccakOut.shake_prefix.
  Qed.
End Any.

Lemma any_int R P dbg (hash : nat -> list N -> list N) : (forall d, Correct (M.cls R P dbg d) (hash d) (fun _ => True)) ->
  forall (length : Z) chunks, Forall span_ok chunks ->
  (let! x := M.construct R length in hash_from (M.cls R P dbg 0) x chunks) =
  if (0 <=? length)%Z then Ok (hash (Z.to_nat length) (concat chunks)) else Throw LengthError.
Proof.
  intros Hc z chunks H. unfold M.construct.
  destruct (Z.ltb_spec z 0), (Z.leb_spec 0 z); try lia; [reflexivity|].
  rewrite bind_ok. apply (correct_chunks _ _ _ (Hc (Z.to_nat z)) chunks H I).
Qed.

Definition shake128_int dbg := any_int (1344 / 8) 0x1F dbg S.shake128 (Keccak.shake128_correct dbg).
Definition shake256_int dbg := any_int (1088 / 8) 0x1F dbg S.shake256 (Keccak.shake256_correct dbg).
Definition shake128_length := any_length M.shake128 S.shake128 1344 _ rate128 Keccak.shake128_correct shake128_sponge.
Definition shake256_length := any_length M.shake256 S.shake256 1088 _ rate256 Keccak.shake256_correct shake256_sponge.
Definition shake128_prefix := any_prefix M.shake128 S.shake128 1344 _ rate128 Keccak.shake128_correct shake128_sponge.
Definition shake256_prefix := any_prefix M.shake256 S.shake256 1088 _ rate256 Keccak.shake256_correct shake256_sponge.
