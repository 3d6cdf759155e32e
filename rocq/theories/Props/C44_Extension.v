(** C44: length extension.  A digest is enough to compute the digest of the message continued behind its padding. *)
From Coq Require Import String List NArith Arith Lia.
From Verif.Base Require Import Res.
From Verif.Spec Require Import Words Merkle Extension.
From Verif.Model Require Import Api Library Chaining Extension.
From Verif.Tests Require Import Kit.
From Verif.Proof Require Extension.
Import ListNotations.
Local Open Scope N_scope.

(** all classes that append the length, the truncated ones included: finalize() leaves in m_h the value from which the
    blocks behind the padding go on *)
Theorem C44_continues : forall (a : alg) dbg B r mk enc ds es x y t, padding a = Some (B, r, mk, enc) ->
  Forall span_ok ds -> Forall span_ok es -> 8 * N.of_nat (length (concat es)) < 2 ^ counts a ->
  digested (class a dbg) ds x -> digested (class a dbg) es y ->
  concat es = concat ds ++ suffix B r mk enc (length (concat ds)) ++ t ->
  foldM (compression a) (pieces B (t ++ suffix B r mk enc (length (concat es)))) (chaining a dbg x) = Ok (chaining a dbg y).
Proof. exact Proof.Extension.glued. Qed.
Print Assumptions C44_continues.

(** MD4, MD5, SHA-1, SHA-256, SHA-512, RIPEMD, HAS-160, SM3, Tiger/192, Whirlpool show all of it.  [forged] is given the
    digest, the number of bytes behind it and the continuation, but no byte of the message. *)
Theorem C44_forged : forall (a : alg) dbg ds es d e t, full a = true -> forall B r mk enc, padding a = Some (B, r, mk, enc) ->
  Forall span_ok ds -> Forall span_ok es -> 8 * N.of_nat (length (concat es)) < 2 ^ counts a ->
  hash_chunks (class a dbg) ds = Ok d -> hash_chunks (class a dbg) es = Ok e ->
  concat es = concat ds ++ suffix B r mk enc (length (concat ds)) ++ t ->
  forged a d (length (concat ds)) t = Ok e.
Proof. exact Proof.Extension.extension. Qed.
Print Assumptions C44_forged.

(** a collision survives any common continuation *)
Theorem C44_collision : forall (a : alg) dbg ds1 ds2 es1 es2 d e1 e2 t, full a = true ->
  forall B r mk enc, padding a = Some (B, r, mk, enc) ->
  Forall span_ok ds1 -> Forall span_ok ds2 -> Forall span_ok es1 -> Forall span_ok es2 ->
  8 * N.of_nat (length (concat es1)) < 2 ^ counts a -> length (concat ds1) = length (concat ds2) ->
  hash_chunks (class a dbg) ds1 = Ok d -> hash_chunks (class a dbg) ds2 = Ok d ->
  hash_chunks (class a dbg) es1 = Ok e1 -> hash_chunks (class a dbg) es2 = Ok e2 ->
  concat es1 = concat ds1 ++ suffix B r mk enc (length (concat ds1)) ++ t ->
  concat es2 = concat ds2 ++ suffix B r mk enc (length (concat ds2)) ++ t -> e1 = e2.
Proof. exact Proof.Extension.kept_collision. Qed.
Print Assumptions C44_collision.

(** a message behind a secret key, authenticated by SHA2_256(key, message): the tag of another message without the key *)
Definition key : list N := text "secret key".
Definition order : list N := text "amount=10".
Definition more : list N := text "&amount=1000".
Definition tag : list N := unhex "5e2d0c9072e0419a3104cf6f3c21cdba30299981d303eae2988899e4c3ba6e27".
Definition tag' : list N := unhex "bdceff39e2e4d32610dab165d3d071738d4d72741210afd9e49a4532025ac1ee".
Definition glue : list N := [128] ++ repeat 0 42 ++ [0; 152].
Example C44_case :
  hash_chunks (class SHA2_256 false) [key; order] = Ok tag /\
  hash_chunks (class SHA2_256 false) [key; order; glue; more] = Ok tag' /\
  forged SHA2_256 tag 19 more = Ok tag'.
Proof.
  assert (hash_chunks (class SHA2_256 false) [key; order] = Ok tag) as E1 by (vm_compute; reflexivity).
  assert (hash_chunks (class SHA2_256 false) [key; order; glue; more] = Ok tag') as E2 by (vm_compute; reflexivity).
  split; [exact E1|]. split; [exact E2|].
  assert (Forall span_ok [key; order]) as S1 by spans. assert (Forall span_ok [key; order; glue; more]) as S2 by spans.
  exact (C44_forged SHA2_256 false [key; order] [key; order; glue; more] tag tag' more eq_refl 64 8 128 (be_bytes 8) eq_refl
    S1 S2 eq_refl E1 E2 eq_refl).
Qed.

(** the collision of X. Wang and H. Yu, continued *)
Definition wang (x1 x2 x3 x4 x5 x6 : string) : list N :=
  unhex ("d131dd02c5e6eec4693d9a0698aff95c2fcab5" ++ x1 ++ "12467eab4004583eb8fb7f8955ad340609f4b30283e4888325" ++ x2 ++
    "415a085125e8f7cdc99fd91dbd" ++ x3 ++ "80373c5bd8823e3156348f5bae6dacd436c919c6dd53e2" ++ x4 ++
    "87da03fd02396306d248cda0e99f33420f577ee8ce54b67080" ++ x5 ++ "0d1ec69821bcb6a8839396f965" ++ x6 ++ "6ff72a70").
Definition wang1 : list N := wang "87" "71" "f2" "b4" "a8" "2b".
Definition wang2 : list N := wang "07" "f1" "72" "34" "28" "ab".
Definition glue5 : list N := [128] ++ repeat 0 55 ++ [0; 4; 0; 0; 0; 0; 0; 0].
Example C44_collision_case : wang1 <> wang2 /\ exists d e,
  hash_chunks (class MD5 false) [wang1] = Ok d /\ hash_chunks (class MD5 false) [wang2] = Ok d /\
  hash_chunks (class MD5 false) [wang1 ++ glue5 ++ text "more"] = Ok e /\
  hash_chunks (class MD5 false) [wang2; glue5; text "more"] = Ok e /\ e = unhex "6c70d6355f4c7f15d97abbc25cd27000".
Proof.
  split; [vm_compute; discriminate|]. exists (unhex "79054025255fb1a26e4bc422aef54eb4"), (unhex "6c70d6355f4c7f15d97abbc25cd27000").
  do 4 (split; [vm_compute; reflexivity|]). reflexivity.
Qed.
