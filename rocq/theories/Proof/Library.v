(** The whole library at once. *)
From Coq Require Import List NArith Arith Bool Lia.
From Verif.Base Require Import Res.
From Verif.Spec Require Import Words Client.
From Verif.Model Require Import Stream Api Library.
From Verif.Proof Require Import Words Blocks Api.
From Verif.Model Require Fnv Keccak.
From Verif.Spec Require Keccak.
From Verif.Proof Require Blake1 Blake2 Crc32 Fnv Has160 Keccak KeccakOut Shake Md2 Md4 Md5 Ripemd Sha1 Sha2 SipHash Sm3 Tiger Whirlpool.
Import ListNotations.

Lemma store_array_length n l d : store_array n l = Ok d -> length d = n.
Proof.
  destruct (Nat.leb_spec (length l) n) as [H|H].
  - rewrite store_array_ok by exact H. intros [= <-]. rewrite app_length, repeat_length. lia.
  - rewrite Tiger.store_array_overflow by exact H. discriminate.
Qed.

Lemma mapM_length {A B} (f : A -> res B) l r : mapM f l = Ok r -> length r = length l.
Proof.
  revert r. induction l as [|x l IH]; intros r; cbn [mapM]; [intros [= <-]; reflexivity|].
  destruct (f x); [|discriminate|discriminate]. rewrite bind_ok. destruct (mapM f l) as [r'| |]; [|discriminate|discriminate].
  rewrite bind_ok. intros [= <-]. cbn [length]. now rewrite (IH _ eq_refl).
Qed.

(** what there is to know about a class: its hash function, and the size of the digest *)
Definition Known (a : alg) : Prop :=
  exists hash, (forall dbg, Correct (class a dbg) hash (fun _ => True)) /\ forall m, length (hash m) = digest_size a.

Lemma known a (hash : list N -> list N) :
  (forall dbg, Correct (class a dbg) hash (fun _ => True)) ->
  (forall m, bytes_ok m -> length (hash m) = digest_size a) -> Known a.
Proof.
  intros HC HL.
  exists (fun m => if forallb (fun b => b <? 256)%N m then hash m else repeat 0%N (digest_size a)). split.
  - intros dbg. apply (correct_ext hash); [|apply HC]. intros m Hm.
    replace (forallb (fun b => b <? 256)%N m) with true; [reflexivity|].
    symmetry. apply forallb_forall. intros x Hx. apply N.ltb_lt. unfold bytes_ok in Hm. rewrite Forall_forall in Hm. now apply Hm.
  - intros m. destruct (forallb _ m) eqn:E; [|apply repeat_length]. apply HL. apply Forall_forall. intros x Hx.
    rewrite forallb_forall in E. apply N.ltb_lt, E, Hx.
Qed.

(** the size, from the read-out function of the model *)
Lemma known_arr a (hash : list N -> list N) :
  (forall dbg, Correct (class a dbg) hash (fun _ => True)) ->
  (forall x d, c_array (class a false) x = Ok d -> length d = digest_size a) -> Known a.
Proof.
  intros HC HA. apply (known a hash HC). intros m Hm. destruct (HC false) as (ab & dn & HI).
  apply (HA (dn m)). now apply (im_read _ _ _ _ _ HI).
Qed.

Ltac by_array H := match goal with |- Known ?a => refine (known_arr a _ H _) end; cbn [class]; let x := fresh "x" in let d := fresh "d" in
  intros x d; exact (store_array_length _ _ d).

Lemma sponge_size r d n m : (0 < r <= 1600)%nat -> n = (8 * d)%nat -> length (Spec.Keccak.bytes_of (Spec.Keccak.sponge r n m)) = d.
Proof. intros Hr ->. now apply KeccakOut.shake_length. Qed.

Lemma sha3_size d b m : (0 < 1600 - 2 * d)%nat -> d = (8 * b)%nat -> length (Spec.Keccak.sha3 d m) = b.
Proof. intros H E. unfold Spec.Keccak.sha3, Spec.Keccak.keccak. apply sponge_size; [lia|exact E]. Qed.

Theorem library_known a : well_formed a -> unreadable a = false -> fnv0 a = false -> Known a.
Proof.
  intros Hs Hu Hf. destruct a; try discriminate Hu; try discriminate Hf.
  - by_array Blake1.coded224_correct.
  - by_array Blake1.coded256_correct.
  - by_array Blake1.coded384_correct.
  - by_array Blake1.coded512_correct.
  - by_array Blake2.blake2b_all.
  - by_array Blake2.blake2s_all.
  - by_array (fun _ : bool => Crc32.crc32_correct).
  - by_array (fun _ : bool => Fnv.correct 4 1 (or_introl eq_refl) (le_S _ _ (le_n 1)) (le_n 1)).
  - by_array (fun _ : bool => Fnv.correct 4 2 (or_introl eq_refl) (le_n 2) (le_S _ _ (le_n 1))).
  - by_array (fun _ : bool => Fnv.correct 8 1 (or_intror eq_refl) (le_S _ _ (le_n 1)) (le_n 1)).
  - by_array (fun _ : bool => Fnv.correct 8 2 (or_intror eq_refl) (le_n 2) (le_S _ _ (le_n 1))).
  - by_array Has160.has160_correct.
  - refine (known_arr MD2 _ Md2.md2_correct _). intros x d E. apply mapM_length in E. exact E.
  - by_array Md4.md4_correct.
  - by_array Md5.md5_correct.
  - by_array Ripemd.ripemd128_correct.
  - by_array Ripemd.ripemd160_correct.
  - by_array Ripemd.ripemd256_correct.
  - by_array Ripemd.ripemd320_correct.
  - by_array Sha1.sha1_correct.
  - by_array Sha2.sha224_correct.
  - by_array Sha2.sha256_correct.
  - by_array Sha2.sha384_correct.
  - by_array Sha2.sha512_correct.
  - refine (known_arr SHA2_512_224 _ Sha2.sha512_224_correct _). intros x d E.
    change (c_array (class SHA2_512_224 false) x) with (Model.Sha2.toArray_512_224 (md8_h (snd x))) in E.
    unfold Model.Sha2.toArray_512_224 in E. destruct (aget (md8_h (snd x)) 3); [|discriminate E|discriminate E].
    rewrite bind_ok in E. exact (store_array_length _ _ d E).
  - by_array Sha2.sha512_256_correct.
  - refine (known SHA3_224 _ Keccak.sha3_224_correct _). intros m _. apply (sha3_size 224 28); [lia|reflexivity].
  - refine (known SHA3_256 _ Keccak.sha3_256_correct _). intros m _. apply (sha3_size 256 32); [lia|reflexivity].
  - refine (known SHA3_384 _ Keccak.sha3_384_correct _). intros m _. apply (sha3_size 384 48); [lia|reflexivity].
  - refine (known SHA3_512 _ Keccak.sha3_512_correct _). intros m _. apply (sha3_size 512 64); [lia|reflexivity].
  - refine (known (SHAKE_128 digestLength) _ (fun dbg => Keccak.shake128_correct dbg digestLength) _).
    intros m _. rewrite Shake.shake128_sponge. apply sponge_size; [cbn; lia|reflexivity].
  - refine (known (SHAKE_256 digestLength) _ (fun dbg => Keccak.shake256_correct dbg digestLength) _).
    intros m _. rewrite Shake.shake256_sponge. apply sponge_size; [cbn; lia|reflexivity].
  - destruct Hs as [H0 H1].
    refine (known_arr (SipHash k0 k1) _ (fun dbg => ex_intro _ _ (ex_intro _ _ (SipHash.implements 2 4 dbg k0 k1 H0 H1))) _).
    intros x d E. change (c_array (class (SipHash k0 k1) false) x) with (Model.SipHash.toArray x) in E.
    unfold Model.SipHash.toArray in E. destruct (Model.SipHash.s_v (snd x)). exact (store_array_length _ _ d E).
  - by_array Sm3.sm3_correct.
  - refine (known_arr Tiger1_192 _ Tiger.tiger_correct _). intros x d E.
    change (c_array (class Tiger1_192 false) x) with (Model.Tiger.toArray 24 (md_h (snd x))) in E.
    unfold Model.Tiger.toArray in E. destruct (md_h (snd x)) as [[a b] c]. exact (store_array_length _ _ d E).
  - refine (known_arr Tiger2_192 _ Tiger.tiger2_correct _). intros x d E.
    change (c_array (class Tiger2_192 false) x) with (Model.Tiger.toArray 24 (md_h (snd x))) in E.
    unfold Model.Tiger.toArray in E. destruct (md_h (snd x)) as [[a b] c]. exact (store_array_length _ _ d E).
  - by_array Whirlpool.coded_correct.
Qed.
