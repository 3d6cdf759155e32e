(** The Merkle-Damgard classes of the library in any order of calls. *)
From Coq Require Import List NArith Arith Bool Lia.
From Verif.Base Require Import Res CWord.
From Verif.Spec Require Import Words Client Merkle AnyOrder.
From Verif.Spec Require Ledger.
From Verif.Spec Require Has160 Md4 Md5 Ripemd Sha1 Sha2 Sm3 Tiger Whirlpool.
From Verif.Model Require Import Buffer Stream Api Library.
From Verif.Model Require Has160 Md4 Md5 Ripemd Sha1 Sha2 Sm3 Tiger Whirlpool.
From Verif.Proof Require Import Words Streaming Blocks Api MD MD128 Class Rounds Ledger.
From Verif.Proof Require Library Has160 Md4 Md5 Ripemd Sha1 Sha2 Sm3 Tiger Whirlpool.
Import ListNotations.

Module SL := Verif.Spec.Ledger.

(** what each of these classes is supposed to be *)
Definition scheme_of (a : alg) : option SL.scheme :=
  match a with
  | HAS_160 => Some SL.has160
  | MD4 => Some SL.md4
  | MD5 => Some SL.md5
  | RIPEMD_128 => Some SL.ripemd128
  | RIPEMD_160 => Some SL.ripemd160
  | RIPEMD_256 => Some SL.ripemd256
  | RIPEMD_320 => Some SL.ripemd320
  | SHA1 => Some SL.sha1
  | SHA2_224 => Some SL.sha224
  | SHA2_256 => Some SL.sha256
  | SHA2_384 => Some SL.sha384
  | SHA2_512 => Some SL.sha512
  | SHA2_512_224 => Some SL.sha512_224
  | SHA2_512_256 => Some SL.sha512_256
  | SM3 => Some SL.sm3
  | Tiger1_128 | Tiger1_160 | Tiger1_192 => Some SL.tiger1
  | Tiger2_128 | Tiger2_160 | Tiger2_192 => Some SL.tiger2
  | Whirlpool => Some SL.whirlpool
  | _ => None
  end.

Lemma some_bytes (l : list N) n : length l = S n -> l <> [].
Proof. intros H ->. discriminate H. Qed.

Lemma words_le k dbg compress iv cf : 0 < k -> words_ok k iv ->
  (forall blk tl h, length blk = 64 -> bytes_ok blk -> words_ok k h -> compress (blk ++ tl) h = Ok (cf h blk) /\ words_ok k (cf h blk)) ->
  exists R, Follows true (SL.ledger_kind (SL.le64 128 (fun d => flat_map (le_bytes 4) (chain 64 cf iv d))))
    (md_class 64 dbg 128 write_len_le compress iv (fun st => store_array (4 * k) (flat_map (word_bytes_le 4) st))) R.
Proof.
  intros Hk Hiv Hc. eexists.
  apply (md_follows 64 dbg 128 write_len_le (le_bytes 8) compress iv _ cf (flat_map (le_bytes 4)) (words_ok k)).
  - lia.
  - reflexivity.
  - reflexivity.
  - apply write_len_le_ok.
  - apply le_bytes_length.
  - apply le_bytes_ok.
  - exact Hiv.
  - intros blk tl h Hh Hl Hb. now apply Hc.
  - intros _ h [Hl _]. rewrite (flat_map_ext _ (le_bytes 4)) by apply word_bytes_le_ok.
    assert (length (flat_map (le_bytes 4) h) = 4 * k) as E by (rewrite (flat_length _ 4), Hl by apply le_bytes_length; reflexivity).
    rewrite store_array_eq by exact E. split; [reflexivity|]. split; [apply bytes_ok_flat_map, le_bytes_ok|].
    destruct k as [|k]; [lia|]. intros Z. rewrite Z in E. discriminate E.
  - reflexivity.
Qed.

Lemma be_follows dbg (compress : list N -> list N -> res (list N)) iv cf arr (out : list N -> list N) (inv : list N -> Prop) : inv iv ->
  (forall blk tl h, inv h -> length blk = 64 -> bytes_ok blk -> compress (blk ++ tl) h = Ok (cf h blk) /\ inv (cf h blk)) ->
  (forall h, inv h -> arr h = Ok (out h) /\ bytes_ok (out h) /\ out h <> []) ->
  exists R, Follows true (SL.ledger_kind (SL.be64 (fun d => out (chain 64 cf iv d)))) (md_class 64 dbg 128 write_len_be compress iv arr) R.
Proof.
  intros Hiv Hc Ha. eexists.
  apply (md_follows 64 dbg 128 write_len_be (be_bytes 8) compress iv _ cf out inv).
  - lia.
  - reflexivity.
  - reflexivity.
  - apply write_len_be_ok.
  - apply be_bytes_length.
  - apply be_bytes_ok.
  - exact Hiv.
  - exact Hc.
  - intros _. exact Ha.
  - reflexivity.
Qed.
Lemma be128_follows dbg iv arr (out : list N -> list N) : Sha2.inv_state 64 iv ->
  (forall h, Sha2.inv_state 64 h -> arr h = Ok (out h) /\ bytes_ok (out h) /\ out h <> []) ->
  exists R, Follows true (SL.ledger_kind (SL.be128 (fun d => out (chain 128 Spec.Sha2.compress512 iv d))))
    (md128_class 128 16 dbg Model.Sha2.compress64 iv arr) R.
Proof.
  intros Hiv Ha. eexists.
  apply (md8_follows 128 16 dbg Model.Sha2.compress64 iv arr Spec.Sha2.compress512 out (Sha2.inv_state 64)).
  - lia.
  - lia.
  - reflexivity.
  - reflexivity.
  - exact Hiv.
  - exact Sha2.compress64_ok.
  - exact Ha.
  - reflexivity.
Qed.

Lemma tiger_follows V size dbg readable : (readable = true -> size = 24) ->
  exists R, Follows readable (SL.ledger_kind (SL.le64 (Tiger.padb V) (fun d => Spec.Tiger.digest (chain 64 Spec.Tiger.compress Spec.Tiger.iv d))))
    (Model.Tiger.cls V size dbg) R.
Proof.
  intros Hr. eexists. unfold Model.Tiger.cls. fold (Tiger.padb V).
  apply (md_follows 64 dbg (Tiger.padb V) write_len_le (le_bytes 8) Model.Tiger.compress Model.Tiger.iv _ Spec.Tiger.compress Spec.Tiger.digest Tiger.v_ok).
  - lia.
  - reflexivity.
  - unfold Tiger.padb. destruct (V =? 1); reflexivity.
  - apply write_len_le_ok.
  - apply le_bytes_length.
  - apply le_bytes_ok.
  - repeat split; reflexivity.
  - intros blk tl h Hh Hl Hb. apply Tiger.compress_ok; assumption.
  - intros E h _. rewrite (Hr E). destruct (Tiger.out192 h) as [E1 E2]. split; [exact E1|]. split; [exact E2|].
    destruct h as [[x y] z]. unfold Spec.Tiger.digest. intros Z. apply (f_equal (@length N)) in Z.
    rewrite !app_length, !le_bytes_length in Z. discriminate Z.
  - reflexivity.
Qed.

Lemma whirlpool_follows dbg : exists R, Follows true (SL.ledger_kind SL.whirlpool) (Model.Whirlpool.cls dbg) R.
Proof.
  eexists. apply (md8_follows 64 32 dbg Model.Whirlpool.compress Model.Whirlpool.iv Model.Whirlpool.toArray Whirlpool.cf
    (fun h => concat (Whirlpool.mat_of h)) Whirlpool.inv_h).
  - lia.
  - lia.
  - intros v Hv. exact (Whirlpool.length_field v Hv).
  - reflexivity.
  - exists Spec.Whirlpool.iv. split; [exact Whirlpool.iv_mat|exact Whirlpool.iv_words].
  - exact Whirlpool.compress_ok.
  - intros h Hh. destruct (Whirlpool.out_ok h Hh) as [E1 E2]. split; [exact E1|]. split; [exact E2|].
    intros Z. rewrite Z in E1. apply Proof.Library.store_array_length in E1. discriminate E1.
  - intros d Hd Ha. rewrite Whirlpool.iv_words.
    destruct (Whirlpool.chain_words d Hd Ha Spec.Whirlpool.iv Whirlpool.iv_mat) as [-> HA]. now rewrite Whirlpool.mat_of_words.
Qed.

Ltac iv_ok := split; [reflexivity|apply Forall_bndb; reflexivity].
Lemma sha2_out w nb size n h : Sha2.inv_state w h -> n <= 8 -> size = nb * n -> 0 < size ->
  Model.Sha2.toArray nb size n h = Ok (firstn size (flat_map (be_bytes nb) h)) /\ bytes_ok (firstn size (flat_map (be_bytes nb) h)) /\
  firstn size (flat_map (be_bytes nb) h) <> [].
Proof.
  intros H1 H2 H3 H4. destruct (Sha2.toArray_ok w nb size n h H1 H2 H3) as [E1 E2]. split; [exact E1|]. split; [exact E2|].
  intros Z. rewrite Z in E1. apply Proof.Library.store_array_length in E1. cbn [length] in E1. lia.
Qed.

Theorem library_follows a S dbg : scheme_of a = Some S ->
  exists R, Follows (negb (unreadable a)) (SL.ledger_kind S) (class a dbg) R.
Proof.
  intros E. destruct a; try discriminate E; injection E as <-; cbn [class unreadable negb].
  - apply (words_le 5 dbg _ _ Spec.Has160.compress); [lia|iv_ok|]. intros. apply Has160.compress_ok; assumption.
  - apply (words_le 4 dbg _ _ Spec.Md4.compress); [lia|iv_ok|]. intros. apply Md4.compress_ok; assumption.
  - apply (words_le 4 dbg _ _ Spec.Md5.compress); [lia|iv_ok|]. intros. apply Md5.compress_ok; assumption.
  - apply (words_le 4 dbg _ _ Spec.Ripemd.compress128); [lia|iv_ok|]. intros. apply Ripemd.compress128_ok; assumption.
  - apply (words_le 5 dbg _ _ Spec.Ripemd.compress160); [lia|iv_ok|]. intros. apply Ripemd.compress160_ok; assumption.
  - apply (words_le 8 dbg _ _ Spec.Ripemd.compress256); [lia|iv_ok|]. intros. apply Ripemd.compress256_ok; assumption.
  - apply (words_le 10 dbg _ _ Spec.Ripemd.compress320); [lia|iv_ok|]. intros. apply Ripemd.compress320_ok; assumption.
  - apply (be_follows dbg Model.Sha1.compress Model.Sha1.iv Spec.Sha1.compress Model.Sha1.toArray (flat_map (be_bytes 4)) Sha1.inv_state); [iv_ok|intros; apply Sha1.compress_ok; assumption|].
    intros h Hh. destruct (Sha1.toArray_ok h Hh) as [E1 E2]. split; [exact E1|]. split; [exact E2|].
    intros Z. rewrite Z in E1. apply Proof.Library.store_array_length in E1. discriminate E1.
  - unfold SL.sha224. rewrite <- Sha2.iv224_ok.
    apply (be_follows dbg Model.Sha2.compress32 Model.Sha2.iv224 Spec.Sha2.compress256 (Model.Sha2.toArray 4 28 7) (fun h => firstn 28 (flat_map (be_bytes 4) h)) (Sha2.inv_state 32)); [iv_ok|exact Sha2.compress32_ok|].
    intros h Hh. apply (sha2_out 32); [exact Hh|lia|reflexivity|lia].
  - unfold SL.sha256. rewrite <- Sha2.iv256_ok.
    apply (be_follows dbg Model.Sha2.compress32 Model.Sha2.iv256 Spec.Sha2.compress256 (Model.Sha2.toArray 4 32 8) (flat_map (be_bytes 4)) (Sha2.inv_state 32)); [iv_ok|exact Sha2.compress32_ok|].
    intros h Hh. rewrite <- (Sha2.firstn_whole 32 h 4) by (try apply Hh; reflexivity). apply (sha2_out 32); [exact Hh|lia|reflexivity|lia].
  - unfold SL.sha384. rewrite <- Sha2.iv384_ok.
    apply (be128_follows dbg Model.Sha2.iv384 (Model.Sha2.toArray 8 48 6) (fun h => firstn 48 (flat_map (be_bytes 8) h))); [iv_ok|].
    intros h Hh. apply (sha2_out 64); [exact Hh|lia|reflexivity|lia].
  - unfold SL.sha512. rewrite <- Sha2.iv512_ok.
    apply (be128_follows dbg Model.Sha2.iv512 (Model.Sha2.toArray 8 64 8) (flat_map (be_bytes 8))); [iv_ok|].
    intros h Hh. rewrite <- (Sha2.firstn_whole 64 h 8) by (try apply Hh; reflexivity). apply (sha2_out 64); [exact Hh|lia|reflexivity|lia].
  - unfold SL.sha512_224. rewrite <- Sha2.iv512_224_ok.
    apply (be128_follows dbg Model.Sha2.iv512_224 Model.Sha2.toArray_512_224 (fun h => firstn 28 (flat_map (be_bytes 8) h))); [iv_ok|].
    intros h Hh. destruct (Sha2.toArray_512_224_ok h Hh) as [E1 E2]. split; [exact E1|]. split; [exact E2|].
    rewrite <- (firstn_skipn 28 (flat_map (be_bytes 8) h)) in E1 |- *. destruct Hh as [Hl _]. intros Z.
    apply (f_equal (@length N)) in Z. rewrite firstn_skipn, firstn_length, (flat_length _ 8), Hl in Z by apply be_bytes_length. discriminate Z.
  - unfold SL.sha512_256. rewrite <- Sha2.iv512_256_ok.
    apply (be128_follows dbg Model.Sha2.iv512_256 (Model.Sha2.toArray 8 32 4) (fun h => firstn 32 (flat_map (be_bytes 8) h))); [iv_ok|].
    intros h Hh. apply (sha2_out 64); [exact Hh|lia|reflexivity|lia].
  - apply (be_follows dbg Model.Sm3.compress Model.Sm3.iv Spec.Sm3.compress Model.Sm3.toArray (flat_map (be_bytes 4)) (words_ok 8)); [iv_ok|intros; apply Sm3.compress_ok; assumption|].
    intros h [Hl _]. unfold Model.Sm3.toArray. rewrite (flat_map_ext _ (be_bytes 4)) by apply word_bytes_be_ok.
    assert (length (flat_map (be_bytes 4) h) = 32) as E by (rewrite (flat_length _ 4), Hl by apply be_bytes_length; reflexivity).
    rewrite store_array_eq by exact E. split; [reflexivity|]. split; [apply bytes_ok_flat_map, be_bytes_ok|exact (some_bytes _ _ E)].
  - apply (tiger_follows 1 16). discriminate.
  - apply (tiger_follows 1 20). discriminate.
  - apply (tiger_follows 1 24). reflexivity.
  - apply (tiger_follows 2 16). discriminate.
  - apply (tiger_follows 2 20). discriminate.
  - apply (tiger_follows 2 24). reflexivity.
  - apply whirlpool_follows.
Qed.

Theorem library_told a S dbg : scheme_of a = Some S -> obeys (negb (unreadable a)) (SL.ledger_kind S) (class a dbg).
Proof. intros E. destruct (library_follows a S dbg E) as (R & F). exact (follows_obeys _ _ _ _ F). Qed.
