(** operator== of the sponge classes where it disagrees with the digests:
    equal digests of unequal objects (there are more states than digests), and
    equal objects with digests of different lengths. *)
From Coq Require Import List NArith ZArith Arith Bool Lia.
From Verif.Base Require Import Res CWord.
From Verif.Spec Require Import Words Merkle Client Legal.
From Verif.Model Require Import Buffer Stream Api Library.
From Verif.Spec Require Keccak.
From Verif.Model Require Keccak.
From Verif.Proof Require Import Words Streaming Blocks Rounds Api Class Post KeccakF KeccakPerm.
From Verif.Proof Require Import Keccak KeccakOut Equality SpongeEq Pigeonhole.
Import ListNotations.
Local Open Scope N_scope.
Module M := Verif.Model.Keccak.

Lemma implements_hashed C h dom absorb done m : Implements C h dom absorb done -> span_ok m -> dom m ->
  hashed C m (done m) /\ c_array C (done m) = Ok (h m).
Proof.
  intros HI Hm Hd. pose proof (proj1 Hm) as Hb. split; [|apply (im_read _ _ _ _ _ HI); assumption].
  exists (absorb m). rewrite (im_new _ _ _ _ _ HI). split; [|apply (im_fin _ _ _ _ _ HI); assumption].
  rewrite (im_add _ _ _ _ _ HI) by (assumption || constructor). reflexivity.
Qed.

(** an invariant of legal programs holds of the objects of the refinement *)
Lemma implements_kept C h dom absorb done I : Implements C h dom absorb done -> KeptLegal C I ->
  (forall m, bytes_ok m -> I false (absorb m)) /\ (forall m, bytes_ok m -> dom m -> I true (done m)).
Proof.
  intros HI HK.
  assert (forall m, bytes_ok m -> I false (absorb m)) as Ha.
  { intros m. induction m as [|b m IH] using rev_ind; intros Hm.
    - rewrite <- (im_new _ _ _ _ _ HI). apply (kl_new _ _ HK).
    - apply bytes_ok_app in Hm. destruct Hm as [Hm Hb]. apply (kl_add _ _ HK [b] (absorb m) Hb (IH Hm)).
      apply (im_add _ _ _ _ _ HI); [exact Hm|]. split; [exact Hb|]. reflexivity. }
  split; [exact Ha|]. intros m Hm Hd. apply (kl_fin _ _ HK (absorb m) (Ha m Hm)). now apply (im_fin _ _ _ _ _ HI).
Qed.

Lemma le_words_inj8 x y : aligned 8 x -> aligned 8 y -> bytes_ok x -> bytes_ok y -> le_words 8 x = le_words 8 y -> x = y.
Proof.
  intros Ax Ay Bx By E. rewrite <- (bytes_of_bits x Bx), <- (bytes_of_bits y By).
  rewrite <- (lane_bits_words x Ax Bx), <- (lane_bits_words y Ay By). now rewrite E.
Qed.

Section Sponge.
  Variables (q : nat) (P : N) (dbg : bool).
  Hypothesis Hq : (0 < q)%nat.
  Hypothesis Hq25 : (q <= 25)%nat.
  Variable sfx : Spec.Keccak.bits.
  Hypothesis Hs : (length sfx <= 5)%nat.
  Hypothesis HP : Keccak.byte_bits P = sfx ++ [true] ++ repeat false (7 - length sfx).
  Hypothesis HP128 : P < 128.
  Notation R := (8 * q)%nat.
  Notation zeros := (repeat 0 25).

  Lemma step_inj z x y : sok z -> length x = R -> length y = R -> bytes_ok x -> bytes_ok y -> step z x = step z y -> x = y.
  Proof.
    intros Hz Lx Ly Bx By E. assert (aligned 8 x /\ aligned 8 y) as [Ax Ay].
    { unfold aligned. rewrite Lx, Ly, Nat.mul_comm, Nat.mod_mul by lia. auto. }
    apply le_words_inj8; try assumption.
    assert (forall w, length w = R -> bytes_ok w -> sok (xorw (le_words 8 w) z)) as HS.
    { intros w Lw Bw. apply sok_xorw; [now apply (ws_bnd q)|exact Hz]. }
    pose proof (keccak_words_inj (xorw (le_words 8 x) z) (xorw (le_words 8 y) z) (HS x Lx Bx) (HS y Ly By) E) as E'. clear E HS.
    apply (nth_ext _ _ 0 0); [rewrite !(ws_len q) by assumption; reflexivity|]. rewrite (ws_len q) by assumption. intros i Hi.
    apply (f_equal (fun l => nth i l 0)) in E'. unfold xorw in E'.
    assert (forall g : nat -> N, nth i (map g (seq 0 25)) 0 = g i) as Hn.
    { intros g. rewrite (nth_indep _ 0 (g 0%nat)) by (rewrite map_length, seq_length; lia). rewrite map_nth, seq_nth by lia. reflexivity. }
    rewrite !Hn in E'. apply (f_equal (N.lxor (nth i z 0))) in E'. now rewrite <- !N.lxor_assoc, N.lxor_nilpotent, !N.lxor_0_l in E'.
  Qed.

  (** messages of one block *)
  Lemma single_inj d m m' : (d <= R)%nat -> (length m < R)%nat -> length m' = length m -> bytes_ok m -> bytes_ok m' ->
    M.k_state (snd (done q P dbg d m)) = M.k_state (snd (done q P dbg d m')) -> m = m'.
  Proof.
    intros Hd Hl Hl' Hm Hm'. rewrite !(done_state q P dbg Hq Hq25 sfx Hs HP HP128 d) by assumption.
    assert (forall w, (length w < R)%nat -> length (w ++ padding q P w) = R) as L.
    { intros w Hw. rewrite app_length, (padding_length q P Hq Hq25 sfx Hs HP128). unfold fillc. rewrite Nat.mod_small by exact Hw. lia. }
    assert (forall w, length w = R -> forall z, chain R step z w = step z w) as C1.
    { intros w Hw z. unfold chain. replace (pieces R w) with [w]; [reflexivity|]. symmetry. rewrite <- (app_nil_r w) at 1. rewrite pieces_cons by (assumption || lia). reflexivity. }
    rewrite !C1 by (apply L; lia). intros E. apply (step_inj zeros) in E.
    - apply (f_equal (firstn (length m))) in E. rewrite firstn_app, firstn_all, Nat.sub_diag in E. cbn [firstn] in E. rewrite app_nil_r in E.
      rewrite <- Hl' in E. rewrite firstn_app, firstn_all, Nat.sub_diag in E. cbn [firstn] in E. rewrite app_nil_r in E. exact E.
    - apply (inv0 0).
    - apply L, Hl.
    - apply L. lia.
    - apply bytes_ok_app. split; [exact Hm|]. apply (padding_bytes q P Hq Hq25 sfx Hs HP128).
    - apply bytes_ok_app. split; [exact Hm'|]. apply (padding_bytes q P Hq Hq25 sfx Hs HP128).
  Qed.

  Notation cls := (M.cls R P dbg).
  Notation hash := (Keccak.hash q sfx).
  Notation done := (Keccak.done q P dbg).

  Lemma done_hashed d m : span_ok m -> hashed (cls d) m (done d m) /\ c_array (cls d) (done d m) = Ok (hash d m).
  Proof. intros Hm. apply (implements_hashed (cls d) (hash d) (fun _ => True) _ (done d) m (core_implements q P dbg Hq Hq25 sfx Hs HP HP128 d) Hm I). Qed.

  Lemma done_held d m : bytes_ok m -> held q dbg d true (done d m).
  Proof.
    intros Hm. pose proof (implements_kept (cls d) _ _ _ _ _ (core_implements q P dbg Hq Hq25 sfx Hs HP HP128 d) (keccak_held q P dbg d Hq Hq25)) as [_ H].
    exact (H m Hm I).
  Qed.

  Lemma hash_size d m : bytes_ok m -> length (hash d m) = d /\ bytes_ok (hash d m).
  Proof.
    intros Hm. split; [|apply (im_bytes _ _ _ _ _ (core_implements q P dbg Hq Hq25 sfx Hs HP HP128 d) m Hm I)].
    apply shake_length. lia.
  Qed.

  (** digests of d bytes: two messages of d + 1 bytes share one, and the objects differ *)
  Theorem eq_collision d : (d + 1 < R)%nat -> exists m m' x y u, bytes_ok m /\ bytes_ok m' /\ length m = (d + 1)%nat /\ length m' = (d + 1)%nat /\
    hashed (cls d) m x /\ hashed (cls d) m' y /\ c_array (cls d) x = Ok u /\ c_array (cls d) y = Ok u /\ keccak_eq x y = Ok false.
  Proof.
    intros Hd. destruct (collision (d + 1) d (hash d)) as (m & m' & L & B & L' & B' & Hne & E); [lia|intros s _ Hb; now apply hash_size|].
    assert (span_ok m /\ span_ok m') as [Sm Sm'].
    { change (2 ^ 64) with 18446744073709551616 in *. split; (split; [assumption|]); change (2 ^ 64) with 18446744073709551616; lia. }
    destruct (done_hashed d m Sm) as [H1 H2]. destruct (done_hashed d m' Sm') as [H3 H4].
    exists m, m', (done d m), (done d m'), (hash d m). do 6 (split; [assumption|]). split; [assumption|]. split; [rewrite E; assumption|].
    destruct (done_held d m B) as ((K1 & _) & _). destruct (done_held d m' B') as ((K2 & _) & _).
    destruct (eq_array_spec 25 (M.k_state (snd (done d m))) (M.k_state (snd (done d m')))) as (b & Eb & Hb); [exact K1|exact K2|].
    unfold keccak_eq. rewrite Eb. destruct b; [|reflexivity]. exfalso. apply Hne. apply (single_inj d); try assumption; try lia.
    now apply Hb.
  Qed.

  (** two lengths of at most one block: the same message leaves equal objects *)
  Theorem eq_lengths d e m : (d <= R)%nat -> (e <= R)%nat -> span_ok m -> exists x y u v, hashed (cls d) m x /\ hashed (cls e) m y /\
    c_array (cls d) x = Ok u /\ c_array (cls e) y = Ok v /\ length u = d /\ length v = e /\ keccak_eq x y = Ok true.
  Proof.
    intros Hd He Hm. pose proof (proj1 Hm) as Hb. destruct (done_hashed d m Hm) as [H1 H2]. destruct (done_hashed e m Hm) as [H3 H4].
    exists (done d m), (done e m), (hash d m), (hash e m). do 4 (split; [assumption|]).
    split; [now apply hash_size|]. split; [now apply hash_size|].
    destruct (done_held d m Hb) as ((K1 & _) & _). destruct (done_held e m Hb) as ((K2 & _) & _).
    destruct (eq_array_spec 25 (M.k_state (snd (done d m))) (M.k_state (snd (done e m)))) as (b & Eb & Hbt); [exact K1|exact K2|].
    unfold keccak_eq. rewrite Eb. f_equal. apply Hbt.
    rewrite !(done_state q P dbg Hq Hq25 sfx Hs HP HP128) by assumption. reflexivity.
  Qed.
End Sponge.

(** ** the classes *)
Theorem sponge_collision a dbg : sponge a = true -> (digest_size a <= 134)%nat -> exists m m' x y u, bytes_ok m /\ bytes_ok m' /\
  hashed (class a dbg) m x /\ hashed (class a dbg) m' y /\ c_array (class a dbg) x = Ok u /\ c_array (class a dbg) y = Ok u /\
  equal a dbg x y = Ok false.
Proof.
  intros Hs Hd.
  assert (forall q P sfx d, (0 < q)%nat -> (q <= 25)%nat -> (length sfx <= 5)%nat -> Keccak.byte_bits P = sfx ++ [true] ++ repeat false (7 - length sfx) -> P < 128 ->
    (d + 1 < 8 * q)%nat -> exists m m' x y u, bytes_ok m /\ bytes_ok m' /\
    hashed (M.cls (8 * q) P dbg d) m x /\ hashed (M.cls (8 * q) P dbg d) m' y /\ c_array (M.cls (8 * q) P dbg d) x = Ok u /\ c_array (M.cls (8 * q) P dbg d) y = Ok u /\
    keccak_eq x y = Ok false) as H.
  { intros q P sfx d H1 H2 H3 H4 H5 H6. destruct (eq_collision q P dbg H1 H2 sfx H3 H4 H5 d H6) as (m & m' & x & y & u & G1 & G2 & _ & _ & G).
    exists m, m', x, y, u. split; [exact G1|]. split; [exact G2|exact G]. }
  destruct a; try discriminate Hs; cbn [digest_size] in Hd.
  - apply (H 18%nat 6 sfx_sha3 28%nat); try reflexivity; cbn; lia.
  - apply (H 17%nat 6 sfx_sha3 32%nat); try reflexivity; cbn; lia.
  - apply (H 13%nat 6 sfx_sha3 48%nat); try reflexivity; cbn; lia.
  - apply (H 9%nat 6 sfx_sha3 64%nat); try reflexivity; cbn; lia.
  - apply (H 21%nat 31 sfx_shake digestLength); try reflexivity; cbn; lia.
  - apply (H 17%nat 31 sfx_shake digestLength); try reflexivity; cbn; lia.
Qed.

Theorem shake128_lengths dbg d e m : (d <= 168)%nat -> (e <= 168)%nat -> span_ok m -> exists x y u v,
  hashed (class (SHAKE_128 d) dbg) m x /\ hashed (class (SHAKE_128 e) dbg) m y /\
  c_array (class (SHAKE_128 d) dbg) x = Ok u /\ c_array (class (SHAKE_128 e) dbg) y = Ok v /\ length u = d /\ length v = e /\ keccak_eq x y = Ok true.
Proof. apply (eq_lengths 21 31 dbg ltac:(lia) ltac:(lia) sfx_shake); try reflexivity; cbn; lia. Qed.
Theorem shake256_lengths dbg d e m : (d <= 136)%nat -> (e <= 136)%nat -> span_ok m -> exists x y u v,
  hashed (class (SHAKE_256 d) dbg) m x /\ hashed (class (SHAKE_256 e) dbg) m y /\
  c_array (class (SHAKE_256 d) dbg) x = Ok u /\ c_array (class (SHAKE_256 e) dbg) y = Ok v /\ length u = d /\ length v = e /\ keccak_eq x y = Ok true.
Proof. apply (eq_lengths 17 31 dbg ltac:(lia) ltac:(lia) sfx_shake); try reflexivity; cbn; lia. Qed.
