From Coq Require Import List NArith Arith Bool Lia ZArith ZifyNat ZifyN.
From Verif.Base Require Import Res CWord.
From Verif.Spec Require Import Words Client Merkle BlakeCore.
From Verif.Spec Require Blake.
From Verif.Model Require Import Buffer Stream Api Call BlakeMix Counter.
From Verif.Model Require Blake1.
From Verif.Proof Require Import Words Streaming Blocks Api StreamClass MD MD128 Rounds Class BlakeMix Blake1.
Import ListNotations.
Local Open Scope N_scope.

(** ** where they are not: a message of 14 words, i.e. whose padding starts a second block *)

(** the standard digest of a two-block message, from two runs of the model's compression
    function with suitable padding lengths *)
Section TwoBlocks.
  Variables (w : N) (nb : nat) (r1 r2 r3 r4 : N) (C : list N) (nrounds : nat).
  Variables (F : Type) (f0 : F) (calls : list (call F)) (K : Counter) (lastbit : bool).
  Variables (val : ctr K -> N) (cok : ctr K -> Prop).
  Hypothesis Hw : w = 8 * N.of_nat nb.
  Hypothesis Hnb : (1 <= nb <= 8)%nat.
  Hypothesis H1 : r1 <= w.
  Hypothesis H2 : r2 <= w.
  Hypothesis H3 : r3 <= w.
  Hypothesis H4 : r4 <= w.
  Hypothesis HCl : length C = 16%nat.
  Hypothesis HCb : Forall (bnd w) C.
  Hypothesis Hcalls : calls = flat_map (fun r => map (mk F f0 r) (seq 0 8)) (seq 0 nrounds).
  Hypothesis Hlo : forall c, cok c -> k_lo K c = val c mod 2 ^ w.
  Hypothesis Hhi : forall c, cok c -> k_hi K c = val c / 2 ^ w mod 2 ^ w.
  Hypothesis Hadd : forall c n, cok c -> n < 2 ^ 64 -> cok (k_add K c n) /\ val (k_add K c n) = (val c + n) mod 2 ^ (2 * w).
  Hypothesis Hzero : cok (k_zero K) /\ val (k_zero K) = 0.
  Hypothesis Hwrite : forall cap x c, cok c -> (length x + 2 * nb <= cap)%nat ->
    M.write_len nb (k_lo K c) (k_hi K c) (canon cap (x ++ repeat 0 (2 * nb))) =
    Ok (canon cap (x ++ be_bytes (2 * nb) (val c))).
  Variables (iv : list N) (b1 b2 h1 h2 : list N) (c1 c2 : ctr K) (cnt : nat -> N) (p : nat).
  Hypothesis Hiv : hok w iv.
  Hypothesis Hb1 : length b1 = (16 * nb)%nat /\ bytes_ok b1.
  Hypothesis Hb2 : length b2 = (16 * nb)%nat /\ bytes_ok b2.
  Hypothesis E1 : M.compress w nb r1 r2 r3 r4 C F calls K false p b1 (k_zero K, iv) = Ok (c1, h1).
  Hypothesis E2 : M.compress w nb r1 r2 r3 r4 C F calls K false (16 * nb) b2 (c1, h1) = Ok (c2, h2).
  Hypothesis Hc1 : cnt 0%nat = tp nb false p (val (k_add K (k_zero K) (inc nb false p))).
  Hypothesis Hc2 : cnt 1%nat = 0.

  Lemma two_blocks : S.iterate w nb r1 r2 r3 r4 C nrounds 0 cnt [b1; b2] iv = h2.
  Proof.
    destruct (compress_value w nb r1 r2 r3 r4 C nrounds F f0 calls K false val cok Hw Hnb H1 H2 H3 H4 HCl HCb Hcalls Hlo Hhi Hadd Hzero Hwrite
      p b1 (k_zero K, iv) (c1, h1) (conj (proj1 Hzero) Hiv) (proj1 Hb1) (proj2 Hb1) E1) as [V1 K1].
    destruct (compress_value w nb r1 r2 r3 r4 C nrounds F f0 calls K false val cok Hw Hnb H1 H2 H3 H4 HCl HCb Hcalls Hlo Hhi Hadd Hzero Hwrite
      (16 * nb)%nat b2 (c1, h1) (c2, h2) K1 (proj1 Hb2) (proj2 Hb2) E2) as [V2 _].
    cbn [fst snd] in *. cbn [S.iterate]. rewrite Hc1, Hc2. rewrite V1.
    unfold tp in V2. unfold bits, M.nonPaddingBits, M.BLOCK_SIZE in V2. rewrite Z.sub_diag in V2. exact V2.
  Qed.
End TwoBlocks.

Lemma forallb_forall_lt l : forallb (fun b => b <? 256) l = true -> forall b, In b l -> byte_ok b.
Proof. rewrite forallb_forall. intros H b Hb. apply N.ltb_lt, H, Hb. Qed.

Definition tail224 : list N := repeat 0 56.
Lemma std224 : exists h c1 c2 h1,
  let bs := pieces 64 (S.pad 4 false tail224) in
  M.compress 32 4 16 12 8 7 S.C256 _ Blake1_224Calls.calls ctr64 false 8 (nth 0 bs []) (k_zero ctr64, M.iv224) = Ok (c1, h1) /\
  M.compress 32 4 16 12 8 7 S.C256 _ Blake1_224Calls.calls ctr64 false 64 (nth 1 bs []) (c1, h1) = Ok (c2, h) /\
  hash_chunks (M.cls224 true) [tail224] = hash_chunks (M.cls224 false) [tail224] /\
  hash_chunks (M.cls224 true) [tail224] <> Ok (firstn 28 (flat_map (be_bytes 4) h)).
Proof.
  do 4 eexists. cbv zeta. split; [vm_compute; reflexivity|]. split; [vm_compute; reflexivity|].
  split; [vm_compute; reflexivity|]. vm_compute. discriminate.
Qed.

Theorem blake224_refuted dbg : hash_chunks (M.cls224 dbg) [tail224] <> Ok (S.blake224 tail224).
Proof.
  destruct std224 as (h & c1 & c2 & h1 & E1 & E2 & Ed & Hne).
  assert (hash_chunks (M.cls224 dbg) [tail224] = hash_chunks (M.cls224 true) [tail224]) as ->
    by (destruct dbg; [reflexivity|symmetry; exact Ed]).
  unfold S.blake224, S.blake, S.hash_with. rewrite <- iv224_ok.
  assert (S.iterate 32 4 16 12 8 7 S.C256 14 0 (S.counter 4 (length tail224)) (pieces (S.B 4) (S.pad 4 false tail224)) M.iv224 = h) as ->; [|exact Hne].
  assert (pieces (S.B 4) (S.pad 4 false tail224) =
    [nth 0 (pieces 64 (S.pad 4 false tail224)) []; nth 1 (pieces 64 (S.pad 4 false tail224)) []]) as ->
    by (vm_compute; reflexivity).
  refine (two_blocks 32 4 16 12 8 7 S.C256 14 _ Blake1_224Calls.blakeMix Blake1_224Calls.calls ctr64
    (fun c => c) cok64 _ _ _ _ _ _ _ _ calls224 ctr64_lo ctr64_hi ctr64_add (conj eq_refl eq_refl) write_len4_ok M.iv224 _ _ h1 h c1 c2 _ 8 _ _ _ E1 E2 _ _).
  - reflexivity.
  - lia.
  - discriminate.
  - discriminate.
  - discriminate.
  - discriminate.
  - reflexivity.
  - apply Forall_bndb. reflexivity.
  - split; [reflexivity|]. apply Forall_bndb. reflexivity.
  - split; [vm_compute; reflexivity|]. apply Forall_forall. apply forallb_forall_lt. vm_compute. reflexivity.
  - split; [vm_compute; reflexivity|]. apply Forall_forall. apply forallb_forall_lt. vm_compute. reflexivity.
  - vm_compute. reflexivity.
  - vm_compute. reflexivity.
Qed.

Definition tail256 : list N := repeat 0 56.
Lemma std256 : exists h c1 c2 h1,
  let bs := pieces 64 (S.pad 4 true tail256) in
  M.compress 32 4 16 12 8 7 S.C256 _ Blake1_256Calls.calls ctr64 false 8 (nth 0 bs []) (k_zero ctr64, M.iv256) = Ok (c1, h1) /\
  M.compress 32 4 16 12 8 7 S.C256 _ Blake1_256Calls.calls ctr64 false 64 (nth 1 bs []) (c1, h1) = Ok (c2, h) /\
  hash_chunks (M.cls256 true) [tail256] = hash_chunks (M.cls256 false) [tail256] /\
  hash_chunks (M.cls256 true) [tail256] <> Ok (firstn 32 (flat_map (be_bytes 4) h)).
Proof.
  do 4 eexists. cbv zeta. split; [vm_compute; reflexivity|]. split; [vm_compute; reflexivity|].
  split; [vm_compute; reflexivity|]. vm_compute. discriminate.
Qed.

Theorem blake256_refuted dbg : hash_chunks (M.cls256 dbg) [tail256] <> Ok (S.blake256 tail256).
Proof.
  destruct std256 as (h & c1 & c2 & h1 & E1 & E2 & Ed & Hne).
  assert (hash_chunks (M.cls256 dbg) [tail256] = hash_chunks (M.cls256 true) [tail256]) as ->
    by (destruct dbg; [reflexivity|symmetry; exact Ed]).
  unfold S.blake256, S.blake, S.hash_with. rewrite <- iv256_ok.
  assert (S.iterate 32 4 16 12 8 7 S.C256 14 0 (S.counter 4 (length tail256)) (pieces (S.B 4) (S.pad 4 true tail256)) M.iv256 = h) as ->; [|exact Hne].
  assert (pieces (S.B 4) (S.pad 4 true tail256) =
    [nth 0 (pieces 64 (S.pad 4 true tail256)) []; nth 1 (pieces 64 (S.pad 4 true tail256)) []]) as ->
    by (vm_compute; reflexivity).
  refine (two_blocks 32 4 16 12 8 7 S.C256 14 _ Blake1_256Calls.blakeMix Blake1_256Calls.calls ctr64
    (fun c => c) cok64 _ _ _ _ _ _ _ _ calls256 ctr64_lo ctr64_hi ctr64_add (conj eq_refl eq_refl) write_len4_ok M.iv256 _ _ h1 h c1 c2 _ 8 _ _ _ E1 E2 _ _).
  - reflexivity.
  - lia.
  - discriminate.
  - discriminate.
  - discriminate.
  - discriminate.
  - reflexivity.
  - apply Forall_bndb. reflexivity.
  - split; [reflexivity|]. apply Forall_bndb. reflexivity.
  - split; [vm_compute; reflexivity|]. apply Forall_forall. apply forallb_forall_lt. vm_compute. reflexivity.
  - split; [vm_compute; reflexivity|]. apply Forall_forall. apply forallb_forall_lt. vm_compute. reflexivity.
  - vm_compute. reflexivity.
  - vm_compute. reflexivity.
Qed.

Definition tail384 : list N := repeat 0 112.
Lemma std384 : exists h c1 c2 h1,
  let bs := pieces 128 (S.pad 8 false tail384) in
  M.compress 64 8 32 25 16 11 S.C512 _ Blake1_384Calls.calls ctr128 false 16 (nth 0 bs []) (k_zero ctr128, M.iv384) = Ok (c1, h1) /\
  M.compress 64 8 32 25 16 11 S.C512 _ Blake1_384Calls.calls ctr128 false 128 (nth 1 bs []) (c1, h1) = Ok (c2, h) /\
  hash_chunks (M.cls384 true) [tail384] = hash_chunks (M.cls384 false) [tail384] /\
  hash_chunks (M.cls384 true) [tail384] <> Ok (firstn 48 (flat_map (be_bytes 8) h)).
Proof.
  do 4 eexists. cbv zeta. split; [vm_compute; reflexivity|]. split; [vm_compute; reflexivity|].
  split; [vm_compute; reflexivity|]. vm_compute. discriminate.
Qed.

Theorem blake384_refuted dbg : hash_chunks (M.cls384 dbg) [tail384] <> Ok (S.blake384 tail384).
Proof.
  destruct std384 as (h & c1 & c2 & h1 & E1 & E2 & Ed & Hne).
  assert (hash_chunks (M.cls384 dbg) [tail384] = hash_chunks (M.cls384 true) [tail384]) as ->
    by (destruct dbg; [reflexivity|symmetry; exact Ed]).
  unfold S.blake384, S.blake, S.hash_with. rewrite <- iv384_ok.
  assert (S.iterate 64 8 32 25 16 11 S.C512 16 0 (S.counter 8 (length tail384)) (pieces (S.B 8) (S.pad 8 false tail384)) M.iv384 = h) as ->; [|exact Hne].
  assert (pieces (S.B 8) (S.pad 8 false tail384) =
    [nth 0 (pieces 128 (S.pad 8 false tail384)) []; nth 1 (pieces 128 (S.pad 8 false tail384)) []]) as ->
    by (vm_compute; reflexivity).
  refine (two_blocks 64 8 32 25 16 11 S.C512 16 _ Blake1_384Calls.blakeMix Blake1_384Calls.calls ctr128
    u128_val u128_ok _ _ _ _ _ _ _ _ calls384 ctr128_lo ctr128_hi ctr128_add (conj (conj eq_refl eq_refl) eq_refl) write_len8_ok M.iv384 _ _ h1 h c1 c2 _ 16 _ _ _ E1 E2 _ _).
  - reflexivity.
  - lia.
  - discriminate.
  - discriminate.
  - discriminate.
  - discriminate.
  - reflexivity.
  - apply Forall_bndb. reflexivity.
  - split; [reflexivity|]. apply Forall_bndb. reflexivity.
  - split; [vm_compute; reflexivity|]. apply Forall_forall. apply forallb_forall_lt. vm_compute. reflexivity.
  - split; [vm_compute; reflexivity|]. apply Forall_forall. apply forallb_forall_lt. vm_compute. reflexivity.
  - vm_compute. reflexivity.
  - vm_compute. reflexivity.
Qed.

Definition tail512 : list N := repeat 0 112.
Lemma std512 : exists h c1 c2 h1,
  let bs := pieces 128 (S.pad 8 true tail512) in
  M.compress 64 8 32 25 16 11 S.C512 _ Blake1_512Calls.calls ctr128 false 16 (nth 0 bs []) (k_zero ctr128, M.iv512) = Ok (c1, h1) /\
  M.compress 64 8 32 25 16 11 S.C512 _ Blake1_512Calls.calls ctr128 false 128 (nth 1 bs []) (c1, h1) = Ok (c2, h) /\
  hash_chunks (M.cls512 true) [tail512] = hash_chunks (M.cls512 false) [tail512] /\
  hash_chunks (M.cls512 true) [tail512] <> Ok (firstn 64 (flat_map (be_bytes 8) h)).
Proof.
  do 4 eexists. cbv zeta. split; [vm_compute; reflexivity|]. split; [vm_compute; reflexivity|].
  split; [vm_compute; reflexivity|]. vm_compute. discriminate.
Qed.

Theorem blake512_refuted dbg : hash_chunks (M.cls512 dbg) [tail512] <> Ok (S.blake512 tail512).
Proof.
  destruct std512 as (h & c1 & c2 & h1 & E1 & E2 & Ed & Hne).
  assert (hash_chunks (M.cls512 dbg) [tail512] = hash_chunks (M.cls512 true) [tail512]) as ->
    by (destruct dbg; [reflexivity|symmetry; exact Ed]).
  unfold S.blake512, S.blake, S.hash_with. rewrite <- iv512_ok.
  assert (S.iterate 64 8 32 25 16 11 S.C512 16 0 (S.counter 8 (length tail512)) (pieces (S.B 8) (S.pad 8 true tail512)) M.iv512 = h) as ->; [|exact Hne].
  assert (pieces (S.B 8) (S.pad 8 true tail512) =
    [nth 0 (pieces 128 (S.pad 8 true tail512)) []; nth 1 (pieces 128 (S.pad 8 true tail512)) []]) as ->
    by (vm_compute; reflexivity).
  refine (two_blocks 64 8 32 25 16 11 S.C512 16 _ Blake1_512Calls.blakeMix Blake1_512Calls.calls ctr128
    u128_val u128_ok _ _ _ _ _ _ _ _ calls512 ctr128_lo ctr128_hi ctr128_add (conj (conj eq_refl eq_refl) eq_refl) write_len8_ok M.iv512 _ _ h1 h c1 c2 _ 16 _ _ _ E1 E2 _ _).
  - reflexivity.
  - lia.
  - discriminate.
  - discriminate.
  - discriminate.
  - discriminate.
  - reflexivity.
  - apply Forall_bndb. reflexivity.
  - split; [reflexivity|]. apply Forall_bndb. reflexivity.
  - split; [vm_compute; reflexivity|]. apply Forall_forall. apply forallb_forall_lt. vm_compute. reflexivity.
  - split; [vm_compute; reflexivity|]. apply Forall_forall. apply forallb_forall_lt. vm_compute. reflexivity.
  - vm_compute. reflexivity.
  - vm_compute. reflexivity.
Qed.

Lemma zeros_span n : N.of_nat n < 2 ^ 64 -> span_ok (repeat 0 n).
Proof. intros H. split; [apply bytes_ok_repeat; reflexivity|]. now rewrite repeat_length. Qed.
