(** The block hashes of the library: what is compressed, and collisions. *)
From Coq Require Import List NArith Arith Bool Lia.
From Verif.Base Require Import Res CWord.
From Verif.Spec Require Import Words Client Merkle Chaining.
From Verif.Spec Require SipHash Blake Blake2 Has160 Md2 Md4 Md5 Ripemd Sha1 Sha2 Sm3 Tiger Whirlpool.
From Verif.Model Require Import Buffer Stream Api Counter Library Chaining.
From Verif.Model Require Blake1 Blake2.
From Verif.Model.Gen Require Blake1_224Calls Blake1_256Calls Blake1_384Calls Blake1_512Calls Blake2Calls Blake2sCalls.
From Verif.Proof Require Import Words Streaming Blocks Api MD MD128 Class Rounds Padding.
From Verif.Proof Require Has160 Md2 Md4 Md5 Ripemd Sha1 Sha2 Sm3 Tiger Whirlpool Blake1 Blake2 SipHash.
Import ListNotations.

Lemma digested_done {C hash dom ab dn} (HI : Implements C hash dom ab dn) ds x :
  Forall span_ok ds -> dom (concat ds) -> digested C ds x -> x = dn (concat ds).
Proof.
  intros Hds Hdom (x0 & E0 & E). rewrite (im_new _ _ _ _ _ HI) in E0.
  rewrite (foldM_absorb HI ds Hds [] (Forall_nil _)) in E0. cbn [app] in E0.
  assert (ab (concat ds) = x0) as <- by congruence.
  rewrite (im_fin _ _ _ _ _ HI) in E; [congruence| |exact Hdom].
  clear -Hds. induction Hds as [|d ds [Hd _] _ IH]; [constructor|]. cbn [concat]. apply Forall_app. split; assumption.
Qed.

Lemma concat_bytes ds : Forall span_ok ds -> bytes_ok (concat ds).
Proof. induction 1 as [|d ds [Hd _] _ IH]; [constructor|]. cbn [concat]. apply Forall_app. split; assumption. Qed.

(** ** the classes with a length field *)

Section Kinds.
  Context {H : Type} (compress : list N -> H -> res H) (iv : H) (cf : H -> list N -> H) (inv : H -> Prop).
  Hypothesis Hiv : inv iv.

  Lemma md_state dbg mk wl enc arr ds x :
    (forall blk tl h, inv h -> length blk = 64 -> bytes_ok blk -> compress (blk ++ tl) h = Ok (cf h blk) /\ inv (cf h blk)) ->
    (mk < 256)%N ->
    (wl = write_len_le /\ enc = le_bytes 8 \/ wl = write_len_be /\ enc = be_bytes 8) ->
    Forall span_ok ds -> digested (md_class 64 dbg mk wl compress iv arr) ds x ->
    md_h (snd x) = chain 64 cf iv (pad 64 8 mk enc (concat ds)).
  Proof.
    intros Hc Hmk Hk Hds Hx.
    assert (Implements (md_class 64 dbg mk wl compress iv (fun _ => Ok [])) (fun m => []) (fun _ => True)
              (md_absorb 64 iv cf) (md_done 64 mk enc iv cf)) as HI.
    { apply (md_implements 64 dbg mk wl enc compress iv (fun _ => Ok []) cf (fun _ => []) inv);
        try assumption; try reflexivity; try lia.
      - destruct Hk as [[-> ->]|[-> ->]]; [apply write_len_le_ok|apply write_len_be_ok].
      - destruct Hk as [[-> ->]|[-> ->]]; [apply le_bytes_length|apply be_bytes_length].
      - destruct Hk as [[-> ->]|[-> ->]]; [apply le_bytes_ok|apply be_bytes_ok].
      - destruct Hk as [[-> ->]|[-> ->]]; [apply (le_bytes_mod 8)|apply (be_bytes_mod 8)].
      - intros h _. split; [reflexivity|constructor]. }
    rewrite (digested_done HI ds x Hds I Hx). reflexivity.
  Qed.

  Lemma md8_state B r dbg enc (dom : list N -> Prop) arr ds x :
    (forall blk tl h, inv h -> length blk = B -> bytes_ok blk -> compress (blk ++ tl) h = Ok (cf h blk) /\ inv (cf h blk)) ->
    r <= B -> 16 <= r -> (N.of_nat (2 * B) < 2 ^ 64)%N ->
    (forall x, length (enc x) = r) -> (forall x, bytes_ok (enc x)) ->
    (forall m, dom m -> enc (8 * N.of_nat (length m))%N = repeat 0%N (r - 16) ++ be_bytes 16 (8 * N.of_nat (length m))) ->
    Forall span_ok ds -> dom (concat ds) -> digested (md128_class B r dbg compress iv arr) ds x ->
    md8_h (snd x) = chain B cf iv (pad B r 128 enc (concat ds)).
  Proof.
    intros Hc HB Hr H64 Hl Hk He Hds Hd Hx.
    assert (Implements (md128_class B r dbg compress iv (fun _ => Ok [])) (fun m => []) dom
              (md8_absorb B iv cf) (md8_done B r enc iv cf)) as HI.
    { apply (md128_implements B r dbg enc dom compress iv (fun _ => Ok []) cf (fun _ => []) inv); try assumption.
      intros h _. split; [reflexivity|constructor]. }
    rewrite (digested_done HI ds x Hds Hd Hx). reflexivity.
  Qed.
End Kinds.

Definition fits (W : N) (m : list N) : Prop := (8 * N.of_nat (length m) < 2 ^ W)%N.

Definition sound (a : alg) (dbg : bool) : Prop :=
  forall B r mk enc, padding a = Some (B, r, mk, enc) ->
  exists (cf : State a -> list N -> State a) (inv : State a -> Prop),
    inv (initial a) /\
    (forall blk tl h, inv h -> length blk = B -> bytes_ok blk -> compression a (blk ++ tl) h = Ok (cf h blk) /\ inv (cf h blk)) /\
    forall ds x, Forall span_ok ds -> fits (counts a) (concat ds) -> digested (class a dbg) ds x ->
      chaining a dbg x = chain B cf (initial a) (pad B r mk enc (concat ds)).

Lemma enc8_le : write_len_le = write_len_le /\ le_bytes 8 = le_bytes 8 \/ write_len_le = write_len_be /\ le_bytes 8 = be_bytes 8.
Proof. left. auto. Qed.
Lemma enc8_be : write_len_be = write_len_le /\ be_bytes 8 = le_bytes 8 \/ write_len_be = write_len_be /\ be_bytes 8 = be_bytes 8.
Proof. right. auto. Qed.


Ltac words := split; [reflexivity|apply Forall_bndb; vm_compute; reflexivity].
Ltac kind64 cf0 inv0 ok k :=
  exists cf0, inv0; split; [|split; [|intros ds x Hds _ Hx; refine (md_state _ _ cf0 inv0 _ _ _ _ _ _ ds x _ eq_refl k Hds Hx)]];
  [first [words|repeat split; reflexivity]|intros; apply ok; assumption|first [words|repeat split; reflexivity]|intros; apply ok; assumption].
Ltac kind512 cf0 :=
  exists cf0, (Sha2.inv_state 64); split; [|split; [|intros ds x Hds _ Hx; refine (md8_state _ _ cf0 (Sha2.inv_state 64) _ 128 16 _ (be_bytes 16) (fun _ => True) _ ds x _ _ _ _ _ _ _ Hds I Hx)]];
  [words|intros; apply Sha2.compress64_ok; assumption|words|intros; apply Sha2.compress64_ok; assumption|lia|lia|reflexivity
  |apply be_bytes_length|apply be_bytes_ok|reflexivity].

Lemma sound_all a dbg : sound a dbg.
Proof.
  intros B r mk enc E. destruct a; try discriminate E; injection E as <- <- <- <-;
    cbn [State initial compression chaining class counts padding].
  - kind64 Spec.Has160.compress (words_ok 5) Has160.compress_ok enc8_le.
  - kind64 Spec.Md4.compress (words_ok 4) Md4.compress_ok enc8_le.
  - kind64 Spec.Md5.compress (words_ok 4) Md5.compress_ok enc8_le.
  - kind64 Spec.Ripemd.compress128 (words_ok 4) Ripemd.compress128_ok enc8_le.
  - kind64 Spec.Ripemd.compress160 (words_ok 5) Ripemd.compress160_ok enc8_le.
  - kind64 Spec.Ripemd.compress256 (words_ok 8) Ripemd.compress256_ok enc8_le.
  - kind64 Spec.Ripemd.compress320 (words_ok 10) Ripemd.compress320_ok enc8_le.
  - kind64 Spec.Sha1.compress Sha1.inv_state Sha1.compress_ok enc8_be.
  - kind64 Spec.Sha2.compress256 (Sha2.inv_state 32) Sha2.compress32_ok enc8_be.
  - kind64 Spec.Sha2.compress256 (Sha2.inv_state 32) Sha2.compress32_ok enc8_be.
  - kind512 Spec.Sha2.compress512.
  - kind512 Spec.Sha2.compress512.
  - kind512 Spec.Sha2.compress512.
  - kind512 Spec.Sha2.compress512.
  - kind64 Spec.Sm3.compress (words_ok 8) Sm3.compress_ok enc8_be.
  - kind64 Spec.Tiger.compress Tiger.v_ok Tiger.compress_ok enc8_le.
  - kind64 Spec.Tiger.compress Tiger.v_ok Tiger.compress_ok enc8_le.
  - kind64 Spec.Tiger.compress Tiger.v_ok Tiger.compress_ok enc8_le.
  - kind64 Spec.Tiger.compress Tiger.v_ok Tiger.compress_ok enc8_le.
  - kind64 Spec.Tiger.compress Tiger.v_ok Tiger.compress_ok enc8_le.
  - kind64 Spec.Tiger.compress Tiger.v_ok Tiger.compress_ok enc8_le.
  - assert (Whirlpool.inv_h Model.Whirlpool.iv) as Hiv
      by (exists Spec.Whirlpool.iv; split; [exact Whirlpool.iv_mat|exact Whirlpool.iv_words]).
    exists Whirlpool.cf, Whirlpool.inv_h. split; [exact Hiv|]. split; [apply Whirlpool.compress_ok|].
    intros ds x Hds Hf Hx.
    refine (md8_state _ _ Whirlpool.cf Whirlpool.inv_h Hiv 64 32 _ (be_bytes 32) (fits 128) _ ds x _ _ _ _ _ _ _ Hds Hf Hx);
      [apply Whirlpool.compress_ok|lia|lia|reflexivity|apply be_bytes_length|apply be_bytes_ok|].
    intros m Hm. apply Whirlpool.length_field, Hm.
Qed.

(** ** the theorems *)

Lemma state_dec a (x y : State a) : {x = y} + {x <> y}.
Proof. destruct a; cbn [State] in *; repeat decide equality. Qed.

Lemma padding_facts a B r mk enc : padding a = Some (B, r, mk, enc) ->
  0 < B /\ r <= B /\ (mk < 256)%N /\ (forall x, length (enc x) = r) /\ (forall x, bytes_ok (enc x)) /\
  (forall x y, (x < 2 ^ counts a)%N -> (y < 2 ^ counts a)%N -> enc x = enc y -> x = y).
Proof.
  assert (forall x, x < 2 ^ 128 -> x < 2 ^ (8 * N.of_nat 32))%N as G.
  { intros x Hx. eapply N.lt_trans; [exact Hx|reflexivity]. }
  assert (forall n x, length (be_bytes n x) = n)%nat as L1 by apply be_bytes_length.
  assert (forall n x, length (le_bytes n x) = n)%nat as L2 by apply le_bytes_length.
  assert (forall n x, bytes_ok (be_bytes n x))%nat as K1 by apply be_bytes_ok.
  assert (forall n x, bytes_ok (le_bytes n x))%nat as K2 by apply le_bytes_ok.
  intros E.
  assert (forall x y, (x < 2 ^ counts a)%N -> (y < 2 ^ counts a)%N -> enc x = enc y -> x = y) as Hi.
  { destruct a; try discriminate E; injection E as <- <- <- <-; unfold counts; cbn [padding]; intros x y Hx Hy;
      first [exact (be_bytes_inj 8 x y Hx Hy)|exact (le_bytes_inj 8 x y Hx Hy)|exact (be_bytes_inj 16 x y Hx Hy)
      |exact (be_bytes_inj 32 x y (G x Hx) (G y Hy))]. }
  assert (0 < B /\ r <= B /\ (mk < 256)%N /\ (forall x, length (enc x) = r) /\ (forall x, bytes_ok (enc x))) as T; [|tauto].
  clear Hi G. destruct a; try discriminate E; injection E as <- <- <- <-;
    (split; [lia|split; [lia|split; [reflexivity|split;
    [first [exact (L1 8)|exact (L2 8)|exact (L1 16)|exact (L1 32)]|first [exact (K1 8)|exact (K2 8)|exact (K1 16)|exact (K1 32)]]]]]).
Qed.

Section Table.
  Variables (a : alg) (B r : nat) (mk : N) (enc : N -> list N).
  Hypothesis E : padding a = Some (B, r, mk, enc).
  Let mid (n : nat) : list N := [mk] ++ repeat 0%N (zeros B r n).
  Lemma mid_ne n : mid n <> []. Proof. discriminate. Qed.

  Theorem padding_injective m1 m2 : fits (counts a) m1 -> fits (counts a) m2 ->
    pad B r mk enc m1 = pad B r mk enc m2 -> m1 = m2.
  Proof.
    intros F1 F2. destruct (padding_facts a B r mk enc E) as (HB & Hr & Hmk & Hl & Hk & Hi).
    apply (pad_inj B r enc (counts a) (pad B r mk enc) mid); auto.
    - intros m. apply pad_shape.
    - exact mid_ne.
    - intros m. now apply pad_aligned.
  Qed.

  Theorem blocks_fed dbg ds x : Forall span_ok ds -> fits (counts a) (concat ds) -> digested (class a dbg) ds x ->
    foldM (compression a) (pieces B (pad B r mk enc (concat ds))) (initial a) = Ok (chaining a dbg x).
  Proof.
    intros Hds F Hx. destruct (padding_facts a B r mk enc E) as (HB & Hr & Hmk & Hl & Hk & Hi).
    destruct (sound_all a dbg B r mk enc E) as (cf & inv & Hiv & Hc & Hs). rewrite (Hs ds x Hds F Hx).
    apply (blocks_fold B (pad B r mk enc) HB) with (inv := inv); auto using concat_bytes.
    - intros m. now apply pad_aligned.
    - intros m Hm. now apply pad_bytes.
  Qed.

  Theorem hash_collision dbg ds1 ds2 x1 x2 :
    Forall span_ok ds1 -> Forall span_ok ds2 -> fits (counts a) (concat ds1) -> fits (counts a) (concat ds2) ->
    digested (class a dbg) ds1 x1 -> digested (class a dbg) ds2 x2 ->
    concat ds1 <> concat ds2 -> chaining a dbg x1 = chaining a dbg x2 ->
    collision (compression a) (initial a) (pieces B (pad B r mk enc (concat ds1))) (pieces B (pad B r mk enc (concat ds2))).
  Proof.
    intros H1 H2 F1 F2 D1 D2 Hne He. destruct (padding_facts a B r mk enc E) as (HB & Hr & Hmk & Hl & Hk & Hi).
    destruct (sound_all a dbg B r mk enc E) as (cf & inv & Hiv & Hc & Hs).
    apply (md_collision B r enc (counts a) (pad B r mk enc) mid HB Hr Hl Hi) with (cf := cf) (inv := inv);
      auto using concat_bytes, state_dec.
    - intros m. apply pad_shape.
    - exact mid_ne.
    - intros m. now apply pad_aligned.
    - intros m Hm. now apply pad_bytes.
    - rewrite <- (Hs ds1 x1), <- (Hs ds2 x2); auto.
  Qed.
End Table.

(** ** BLAKE *)

Lemma seq_tags (cc : nat -> N) k : length (map cc (seq 0 k)) = k.
Proof. now rewrite map_length, seq_length. Qed.

Lemma iterate_fold w nb r1 r2 r3 r4 C n cnt bs : forall k h,
  Spec.Blake.iterate w nb r1 r2 r3 r4 C n k cnt bs h =
  fold_left (fun h bt => Spec.Blake.compress w nb r1 r2 r3 r4 C n h (fst bt) (snd bt)) (combine bs (map cnt (seq k (length bs)))) h.
Proof.
  induction bs as [|b bs IH]; intros k h; [reflexivity|]. cbn [Spec.Blake.iterate length seq map combine fold_left fst snd].
  apply IH.
Qed.

Section BlakePad.
  Variables (nb : nat) (lastbit : bool).
  Hypothesis Hnb : 1 <= nb <= 8.
  Let B := 16 * nb.
  Let mid (n : nat) : list N := Spec.Blake.marks lastbit (zeros B (2 * nb) n).

  Lemma blake_shape m : Spec.Blake.pad nb lastbit m = (m ++ mid (length m)) ++ be_bytes (2 * nb) (8 * N.of_nat (length m)).
  Proof. unfold Spec.Blake.pad. now rewrite <- app_assoc. Qed.
  Lemma blake_mid n : mid n <> [].
  Proof. intros E. apply (f_equal (@length N)) in E. unfold mid in E. rewrite Blake1.marks_length in E. discriminate. Qed.
  Lemma blake_aligned m : aligned B (Spec.Blake.pad nb lastbit m).
  Proof.
    unfold aligned. rewrite blake_shape, !app_length, be_bytes_length. unfold mid. rewrite Blake1.marks_length.
    pose proof (zeros_aligned B (2 * nb) (length m) ltac:(unfold B; lia)) as H.
    replace (length m + Datatypes.S (zeros B (2 * nb) (length m)) + 2 * nb) with (length m + 1 + 2 * nb + zeros B (2 * nb) (length m)) by lia.
    exact H.
  Qed.
  Lemma blake_bytes m : bytes_ok m -> bytes_ok (Spec.Blake.pad nb lastbit m).
  Proof.
    intros Hm. rewrite blake_shape. apply bytes_ok_app. split; [|apply be_bytes_ok]. apply bytes_ok_app. split; [exact Hm|].
    apply Blake1.marks_bytes.
  Qed.
  Lemma blake_inj (W : N) : (W = 8 * N.of_nat (2 * nb))%N ->
    forall x y, (x < 2 ^ W)%N -> (y < 2 ^ W)%N -> be_bytes (2 * nb) x = be_bytes (2 * nb) y -> x = y.
  Proof. intros -> x y. apply be_bytes_inj. Qed.

  Lemma inputs_ins cc m : blake_inputs nb lastbit cc m =
    ins B (Spec.Blake.pad nb lastbit) (fun n k => map (cc n) (seq 0 k)) m.
  Proof. reflexivity. Qed.

  Theorem blake_injective cc m1 m2 : fits (8 * N.of_nat (2 * nb)) m1 -> fits (8 * N.of_nat (2 * nb)) m2 ->
    blake_inputs nb lastbit cc m1 = blake_inputs nb lastbit cc m2 -> m1 = m2.
  Proof.
    intros F1 F2 E.
    apply (pieces_inj B (2 * nb) (be_bytes (2 * nb)) (8 * N.of_nat (2 * nb))%N (Spec.Blake.pad nb lastbit) mid);
      auto using blake_shape, blake_mid, blake_aligned, be_bytes_length, (blake_inj _ eq_refl); try (unfold B; lia).
    assert (map fst (blake_inputs nb lastbit cc m1) = map fst (blake_inputs nb lastbit cc m2)) as G by now rewrite E.
    assert (forall (l : list (list N)) (t : list N), length t = length l -> map fst (combine l t) = l) as K.
    { induction l as [|x l IH]; intros [|y t] Hl; cbn in *; try discriminate; [reflexivity|]. f_equal. apply IH. lia. }
    unfold blake_inputs in G. rewrite !K in G by apply seq_tags. exact G.
  Qed.

  Theorem blake_collision {H : Type} (Hdec : forall x y : H, {x = y} + {x <> y})
    cc (f : list N * N -> H -> res H) (cf : H -> list N * N -> H) iv m1 m2 :
    (forall b h, f b h = Ok (cf h b)) -> bytes_ok m1 -> bytes_ok m2 ->
    fits (8 * N.of_nat (2 * nb)) m1 -> fits (8 * N.of_nat (2 * nb)) m2 -> m1 <> m2 ->
    fold_left cf (blake_inputs nb lastbit cc m1) iv = fold_left cf (blake_inputs nb lastbit cc m2) iv ->
    collision f iv (blake_inputs nb lastbit cc m1) (blake_inputs nb lastbit cc m2).
  Proof.
    intros Hf. rewrite !inputs_ins.
    apply (ins_collision B (2 * nb) (be_bytes (2 * nb)) (8 * N.of_nat (2 * nb))%N (Spec.Blake.pad nb lastbit) mid)
      with (inv := fun _ => True);
      auto using blake_shape, blake_mid, blake_aligned, be_bytes_length, (blake_inj _ eq_refl), N.eq_dec, blake_bytes;
      try (unfold B; lia).
    intros n k. apply seq_tags.
  Qed.
End BlakePad.

Definition blake_sound (a : alg) (dbg : bool) : Prop :=
  forall nb lastbit cc f iv, blake a = Some (nb, lastbit, cc, f, iv) ->
  exists cf, (forall b h, f b h = Ok (cf h b)) /\
    forall ds x, Forall span_ok ds -> digested (class a dbg) ds x ->
      chaining a dbg x = fold_left cf (blake_inputs nb lastbit cc (concat ds)) iv.

Local Notation cf32 := (fun h bt => Spec.Blake.compress 32 4 16 12 8 7 Spec.Blake.C256 14 h (fst bt) (snd bt)).
Local Notation cf64 := (fun h bt => Spec.Blake.compress 64 8 32 25 16 11 Spec.Blake.C512 16 h (fst bt) (snd bt)).

Lemma blake256_state dbg ds x : Forall span_ok ds -> digested (class Blake1_256 dbg) ds x ->
  chaining Blake1_256 dbg x = fold_left cf32 (blake_inputs 4 true (Spec.Blake.counter_coded 4) (concat ds)) Model.Blake1.iv256.
Proof.
  intros Hds Hx.
  assert (exists ab dn, Implements (Model.Blake1.cls256 dbg) (Spec.Blake.hash_with 32 4 16 12 8 7 Spec.Blake.C256 14 true Model.Blake1.iv256 32 (Spec.Blake.counter_coded 4)) (fun _ => True) ab dn /\
    forall m, snd (snd (dn m)) = Spec.Blake.iterate 32 4 16 12 8 7 Spec.Blake.C256 14 0 (Spec.Blake.counter_coded 4 (length m)) (pieces (16 * 4) (Spec.Blake.pad 4 true m)) Model.Blake1.iv256) as (ab & dn & HI & Hs).
  { refine (Blake1.core_state 32 4 16 12 8 7 Spec.Blake.C256 14 _ Blake1_256Calls.blakeMix Blake1_256Calls.calls ctr64 false true dbg
    (fun c => c) Blake1.cok64 _ _ _ _ _ _ _ _ Blake1.calls256 Blake1.ctr64_lo Blake1.ctr64_hi Blake1.ctr64_add (conj eq_refl eq_refl) Blake1.write_len4_ok Model.Blake1.iv256 (Spec.Blake.counter_coded 4) 32 8 _ _ _ _ _); try Blake1.side.
    - intros len j Hj. f_equal. apply Blake1.coded_full; [lia|exact Hj].
    - intros len j. cbv zeta. intros Hj. f_equal. apply (Blake1.coded_tail 4 len j); [lia|exact Hj]. }
  rewrite (digested_done HI ds x Hds I Hx). cbn [chaining]. rewrite Hs. apply iterate_fold.
Qed.
Lemma blake224_state dbg ds x : Forall span_ok ds -> digested (class Blake1_224 dbg) ds x ->
  chaining Blake1_224 dbg x = fold_left cf32 (blake_inputs 4 false (Spec.Blake.counter_coded_224) (concat ds)) Model.Blake1.iv224.
Proof.
  intros Hds Hx.
  assert (exists ab dn, Implements (Model.Blake1.cls224 dbg) (Spec.Blake.hash_with 32 4 16 12 8 7 Spec.Blake.C256 14 false Model.Blake1.iv224 28 (Spec.Blake.counter_coded_224)) (fun _ => True) ab dn /\
    forall m, snd (snd (dn m)) = Spec.Blake.iterate 32 4 16 12 8 7 Spec.Blake.C256 14 0 (Spec.Blake.counter_coded_224 (length m)) (pieces (16 * 4) (Spec.Blake.pad 4 false m)) Model.Blake1.iv224) as (ab & dn & HI & Hs).
  { refine (Blake1.core_state 32 4 16 12 8 7 Spec.Blake.C256 14 _ Blake1_224Calls.blakeMix Blake1_224Calls.calls ctr64 true false dbg
    (fun c => c) Blake1.cok64 _ _ _ _ _ _ _ _ Blake1.calls224 Blake1.ctr64_lo Blake1.ctr64_hi Blake1.ctr64_add (conj eq_refl eq_refl) Blake1.write_len4_ok Model.Blake1.iv224 (Spec.Blake.counter_coded_224) 28 7 _ _ _ _ _); try Blake1.side.
    - intros len j Hj. f_equal. apply Blake1.coded224_full, Hj.
    - intros len j. cbv zeta. intros Hj. f_equal. apply (Blake1.coded224_tail len j), Hj. }
  rewrite (digested_done HI ds x Hds I Hx). cbn [chaining]. rewrite Hs. apply iterate_fold.
Qed.
Lemma blake512_state dbg ds x : Forall span_ok ds -> digested (class Blake1_512 dbg) ds x ->
  chaining Blake1_512 dbg x = fold_left cf64 (blake_inputs 8 true (Spec.Blake.counter_coded 8) (concat ds)) Model.Blake1.iv512.
Proof.
  intros Hds Hx.
  assert (exists ab dn, Implements (Model.Blake1.cls512 dbg) (Spec.Blake.hash_with 64 8 32 25 16 11 Spec.Blake.C512 16 true Model.Blake1.iv512 64 (Spec.Blake.counter_coded 8)) (fun _ => True) ab dn /\
    forall m, snd (snd (dn m)) = Spec.Blake.iterate 64 8 32 25 16 11 Spec.Blake.C512 16 0 (Spec.Blake.counter_coded 8 (length m)) (pieces (16 * 8) (Spec.Blake.pad 8 true m)) Model.Blake1.iv512) as (ab & dn & HI & Hs).
  { refine (Blake1.core_state 64 8 32 25 16 11 Spec.Blake.C512 16 _ Blake1_512Calls.blakeMix Blake1_512Calls.calls ctr128 false true dbg
    u128_val u128_ok _ _ _ _ _ _ _ _ Blake1.calls512 Blake1.ctr128_lo Blake1.ctr128_hi Blake1.ctr128_add (conj (conj eq_refl eq_refl) eq_refl) Blake1.write_len8_ok Model.Blake1.iv512 (Spec.Blake.counter_coded 8) 64 8 _ _ _ _ _); try Blake1.side.
    - intros len j Hj. f_equal. apply Blake1.coded_full; [lia|exact Hj].
    - intros len j. cbv zeta. intros Hj. f_equal. apply (Blake1.coded_tail 8 len j); [lia|exact Hj]. }
  rewrite (digested_done HI ds x Hds I Hx). cbn [chaining]. rewrite Hs. apply iterate_fold.
Qed.
Lemma blake384_state dbg ds x : Forall span_ok ds -> digested (class Blake1_384 dbg) ds x ->
  chaining Blake1_384 dbg x = fold_left cf64 (blake_inputs 8 false (Spec.Blake.counter_coded 8) (concat ds)) Model.Blake1.iv384.
Proof.
  intros Hds Hx.
  assert (exists ab dn, Implements (Model.Blake1.cls384 dbg) (Spec.Blake.hash_with 64 8 32 25 16 11 Spec.Blake.C512 16 false Model.Blake1.iv384 48 (Spec.Blake.counter_coded 8)) (fun _ => True) ab dn /\
    forall m, snd (snd (dn m)) = Spec.Blake.iterate 64 8 32 25 16 11 Spec.Blake.C512 16 0 (Spec.Blake.counter_coded 8 (length m)) (pieces (16 * 8) (Spec.Blake.pad 8 false m)) Model.Blake1.iv384) as (ab & dn & HI & Hs).
  { refine (Blake1.core_state 64 8 32 25 16 11 Spec.Blake.C512 16 _ Blake1_384Calls.blakeMix Blake1_384Calls.calls ctr128 false false dbg
    u128_val u128_ok _ _ _ _ _ _ _ _ Blake1.calls384 Blake1.ctr128_lo Blake1.ctr128_hi Blake1.ctr128_add (conj (conj eq_refl eq_refl) eq_refl) Blake1.write_len8_ok Model.Blake1.iv384 (Spec.Blake.counter_coded 8) 48 6 _ _ _ _ _); try Blake1.side.
    - intros len j Hj. f_equal. apply Blake1.coded_full; [lia|exact Hj].
    - intros len j. cbv zeta. intros Hj. f_equal. apply (Blake1.coded_tail 8 len j); [lia|exact Hj]. }
  rewrite (digested_done HI ds x Hds I Hx). cbn [chaining]. rewrite Hs. apply iterate_fold.
Qed.

Lemma blake_sound_all a dbg : blake_sound a dbg.
Proof.
  intros nb lastbit cc f iv E. destruct a; try discriminate E; apply (f_equal (fun o => match o with Some x => x | None => (nb, lastbit, cc, f, iv) end)) in E;
    pose proof (f_equal snd E) as E5; pose proof (f_equal (fun x => snd (fst x)) E) as E4; pose proof (f_equal (fun x => snd (fst (fst x))) E) as E3;
    pose proof (f_equal (fun x => snd (fst (fst (fst x)))) E) as E2; pose proof (f_equal (fun x => fst (fst (fst (fst x)))) E) as E1;
    cbn [fst snd] in E1, E2, E3, E4, E5; clear E; subst nb lastbit cc f iv.
  - exists cf32. split; [reflexivity|exact (blake224_state dbg)].
  - exists cf32. split; [reflexivity|exact (blake256_state dbg)].
  - exists cf64. split; [reflexivity|exact (blake384_state dbg)].
  - exists cf64. split; [reflexivity|exact (blake512_state dbg)].
Qed.

Lemma blake_facts a nb lastbit cc f iv : blake a = Some (nb, lastbit, cc, f, iv) -> 1 <= nb <= 8.
Proof.
  intros E. destruct a; try discriminate E; apply (f_equal (fun o => match o with Some x => fst (fst (fst (fst x))) | None => 0 end)) in E;
    cbn [fst blake] in E; subst nb; lia.
Qed.

Section BlakeTable.
  Variables (a : alg) (nb : nat) (lastbit : bool) (cc : nat -> nat -> N) (f : list N * N -> State a -> res (State a)) (iv : State a).
  Hypothesis E : blake a = Some (nb, lastbit, cc, f, iv).

  Theorem blake_inputs_injective m1 m2 : fits (16 * N.of_nat nb) m1 -> fits (16 * N.of_nat nb) m2 ->
    blake_inputs nb lastbit cc m1 = blake_inputs nb lastbit cc m2 -> m1 = m2.
  Proof.
    replace (16 * N.of_nat nb)%N with (8 * N.of_nat (2 * nb))%N by lia.
    apply blake_injective, (blake_facts a nb lastbit cc f iv E).
  Qed.
  Theorem blake_fed dbg ds x : Forall span_ok ds -> digested (class a dbg) ds x ->
    foldM f (blake_inputs nb lastbit cc (concat ds)) iv = Ok (chaining a dbg x).
  Proof.
    intros Hds Hx. destruct (blake_sound_all a dbg nb lastbit cc f iv E) as (cf & Hf & Hs). rewrite (Hs ds x Hds Hx).
    generalize (blake_inputs nb lastbit cc (concat ds)). intros l. clear -Hf. revert iv.
    induction l as [|b l IH]; intros h; cbn [foldM fold_left]; [reflexivity|]. rewrite Hf, bind_ok. apply IH.
  Qed.
  Theorem blake_hash_collision dbg ds1 ds2 x1 x2 :
    Forall span_ok ds1 -> Forall span_ok ds2 -> fits (16 * N.of_nat nb) (concat ds1) -> fits (16 * N.of_nat nb) (concat ds2) ->
    digested (class a dbg) ds1 x1 -> digested (class a dbg) ds2 x2 ->
    concat ds1 <> concat ds2 -> chaining a dbg x1 = chaining a dbg x2 ->
    collision f iv (blake_inputs nb lastbit cc (concat ds1)) (blake_inputs nb lastbit cc (concat ds2)).
  Proof.
    intros H1 H2 F1 F2 D1 D2 Hne He. destruct (blake_sound_all a dbg nb lastbit cc f iv E) as (cf & Hf & Hs).
    replace (16 * N.of_nat nb)%N with (8 * N.of_nat (2 * nb))%N in F1, F2 by lia.
    apply (blake_collision nb lastbit (blake_facts a nb lastbit cc f iv E) (state_dec a) cc f cf); auto using concat_bytes.
    rewrite <- (Hs ds1 x1), <- (Hs ds2 x2); auto.
  Qed.
End BlakeTable.

(** ** BLAKE2 *)

Section Blake2In.
  Variable nb : nat.
  Hypothesis Hnb : 1 <= nb <= 8.
  Let B := 16 * nb.
  Let tags (n k i : nat) : N * bool := if i + 1 =? k then (N.of_nat n, true) else (N.of_nat ((i + 1) * B), false).

  Lemma combine3 {X Y Z} (l : list X) (f : nat -> Y) (g : nat -> Z) : forall k,
    combine (combine l (map f (seq k (length l)))) (map g (seq k (length l))) =
    map (fun p => (fst p, fst (snd p), snd (snd p))) (combine l (map (fun i => (f i, g i)) (seq k (length l)))).
  Proof.
    induction l as [|x l IH]; intros k; cbn [length seq map combine]; [reflexivity|]. cbn [fst snd]. f_equal. apply IH.
  Qed.

  Lemma nblocks_pos n : 0 < Spec.Blake2.nblocks nb n. Proof. unfold Spec.Blake2.nblocks. lia. Qed.
  Lemma nblocks_room n : n <= Spec.Blake2.nblocks nb n * B.
  Proof.
    unfold Spec.Blake2.nblocks. change (Spec.Blake2.B nb) with B. assert (0 < B) as HB by (unfold B; lia).
    pose proof (Nat.div_mod (n + B - 1) B ltac:(lia)). pose proof (Nat.mod_upper_bound (n + B - 1) B ltac:(lia)).
    set (q := (n + B - 1) / B) in *. enough (n <= q * B) by nia. nia.
  Qed.
  Lemma padded_length m : length (m ++ repeat 0%N (Spec.Blake2.nblocks nb (length m) * B - length m)) = Spec.Blake2.nblocks nb (length m) * B.
  Proof. rewrite app_length, repeat_length. pose proof (nblocks_room (length m)). lia. Qed.
  Lemma padded_aligned m : aligned B (m ++ repeat 0%N (Spec.Blake2.nblocks nb (length m) * B - length m)).
  Proof. unfold aligned. rewrite padded_length. apply Nat.mod_mul. unfold B. lia. Qed.
  Lemma blocks_length m : length (Spec.Blake2.blocks nb m) = Spec.Blake2.nblocks nb (length m).
  Proof.
    unfold Spec.Blake2.blocks. change (Spec.Blake2.B nb) with B. rewrite pieces_length by (apply padded_aligned || (unfold B; lia)).
    rewrite padded_length. apply Nat.div_mul. unfold B. lia.
  Qed.
  Lemma blocks_inj m1 m2 : length m1 = length m2 -> Spec.Blake2.blocks nb m1 = Spec.Blake2.blocks nb m2 -> m1 = m2.
  Proof.
    unfold Spec.Blake2.blocks. change (Spec.Blake2.B nb) with B. intros El E. apply (f_equal (@concat N)) in E.
    rewrite !concat_pieces in E by (apply padded_aligned || (unfold B; lia)). apply app_len_inj in E; tauto.
  Qed.

  Lemma blake2_inputs_length m : length (blake2_inputs nb m) = Spec.Blake2.nblocks nb (length m).
  Proof. unfold blake2_inputs. rewrite !combine_length, !map_length, !seq_length, blocks_length. lia. Qed.
  Lemma fst_combine3 {X Y Z} (g : nat -> Y * Z) (l : list X) : forall k,
    map (fun p : X * (Y * Z) => fst p) (combine l (map g (seq k (length l)))) = l.
  Proof. induction l as [|x l IH]; intros k; cbn [length seq map combine fst]; [reflexivity|]. f_equal. apply IH. Qed.
  Lemma combine_snoc {X Y} (g : nat -> Y) (l : list X) b : forall k,
    combine (l ++ [b]) (map g (seq k (length l + 1))) = combine l (map g (seq k (length l))) ++ [(b, g (k + length l))].
  Proof.
    induction l as [|x l IH]; intros k; cbn [length seq map combine app Nat.add].
    - now rewrite Nat.add_0_r.
    - f_equal. rewrite IH. now rewrite <- Nat.add_succ_comm.
  Qed.
  Lemma blake2_inputs_blocks m : map (fun x => fst (fst x)) (blake2_inputs nb m) = Spec.Blake2.blocks nb m.
  Proof. unfold blake2_inputs. rewrite combine3, map_map. cbn [fst]. apply fst_combine3. Qed.
  Lemma blake2_inputs_last m : exists p b, blake2_inputs nb m = p ++ [(b, N.of_nat (length m), true)].
  Proof.
    unfold blake2_inputs. rewrite combine3. pose proof (blocks_length m) as Hl. pose proof (nblocks_pos (length m)).
    set (bs := Spec.Blake2.blocks nb m) in *. clearbody bs. destruct bs as [|b bs _] using rev_ind; [cbn [length] in Hl; lia|].
    rewrite app_length. change (length [b]) with 1. rewrite combine_snoc, map_app. eexists. exists b. f_equal.
    cbn [map fst snd Nat.add]. rewrite Nat.eqb_refl. reflexivity.
  Qed.
  Theorem blake2_injective m1 m2 : blake2_inputs nb m1 = blake2_inputs nb m2 -> m1 = m2.
  Proof.
    intros E. destruct (blake2_inputs_last m1) as (p1 & b1 & E1). destruct (blake2_inputs_last m2) as (p2 & b2 & E2).
    assert (length m1 = length m2) as El.
    { rewrite E1, E2 in E. apply app_inj_tail in E as [_ E]. apply (f_equal (fun x => snd (fst x))) in E. cbn [fst snd] in E. lia. }
    apply blocks_inj; [exact El|]. now rewrite <- !blake2_inputs_blocks, E.
  Qed.

  Theorem blake2_collision {H : Type} (Hdec : forall x y : H, {x = y} + {x <> y})
    (f : list N * N * bool -> H -> res H) (cf : H -> list N * N * bool -> H) iv m1 m2 :
    (forall b h, f b h = Ok (cf h b)) -> m1 <> m2 ->
    fold_left cf (blake2_inputs nb m1) iv = fold_left cf (blake2_inputs nb m2) iv ->
    collision f iv (blake2_inputs nb m1) (blake2_inputs nb m2).
  Proof.
    intros Hf Hne E.
    assert (forall x y : list N * N * bool, {x = y} + {x <> y}) as Idec
      by (decide equality; [apply bool_dec|decide equality; [apply N.eq_dec|apply (list_eq_dec N.eq_dec)]]).
    assert (forall b h, True -> True -> f b h = Ok (cf h b) /\ True) as Hf' by auto.
    assert (forall l : list (list N * N * bool), Forall (fun _ => True) l) as G by (intros; apply Forall_forall; auto).
    destruct (Nat.eq_dec (length m1) (length m2)) as [El|Nl].
    - apply (iter_collision f iv cf (fun _ => True) (fun _ => True) I Hf' Hdec Idec); auto.
      + rewrite !blake2_inputs_length. now rewrite El.
      + intros Ep. apply Hne, blake2_injective, Ep.
    - destruct (blake2_inputs_last m1) as (p1 & b1 & E1). destruct (blake2_inputs_last m2) as (p2 & b2 & E2). rewrite E1, E2 in *.
      refine (end_collision f iv cf (fun _ => True) (fun _ => True) I Hf' Hdec Idec _ _ _ _ (G _) (G _) _ E).
      intros Eb. apply (f_equal (fun x => snd (fst x))) in Eb. cbn [fst snd] in Eb. lia.
  Qed.
End Blake2In.

Definition blake2_sound (a : alg) (dbg : bool) : Prop :=
  forall nb f iv, blake2 a = Some (nb, f, iv) ->
  exists cf, (forall b h, f b h = Ok (cf h b)) /\
    forall ds x, Forall span_ok ds -> digested (class a dbg) ds x ->
      chaining a dbg x = fold_left cf (blake2_inputs nb (concat ds)) iv.

Lemma iterate2_fold w nb r1 r2 r3 r4 n IV len bs : forall k h,
  Spec.Blake2.iterate w nb r1 r2 r3 r4 n IV k len bs h =
  fold_left (fun h btf => Spec.Blake2.compress w nb r1 r2 r3 r4 n IV h (fst (fst btf)) (snd (fst btf)) (snd btf))
    (map (fun p => (fst p, fst (snd p), snd (snd p)))
       (combine bs (map (fun i => (if i + 1 =? k + length bs then len else N.of_nat ((i + 1) * (16 * nb)), i + 1 =? k + length bs)) (seq k (length bs))))) h.
Proof.
  induction bs as [|b bs IH]; intros k h; [reflexivity|].
  destruct bs as [|b' bs].
  - cbn [Spec.Blake2.iterate length seq map combine fold_left fst snd]. rewrite Nat.eqb_refl. reflexivity.
  - change (Spec.Blake2.iterate w nb r1 r2 r3 r4 n IV k len (b :: b' :: bs) h) with
      (Spec.Blake2.iterate w nb r1 r2 r3 r4 n IV (S k) len (b' :: bs)
         (Spec.Blake2.compress w nb r1 r2 r3 r4 n IV h b (N.of_nat ((k + 1) * (16 * nb))) false)).
    rewrite IH. set (l := b' :: bs). assert (0 < length l) as Hl by (cbn; lia). clearbody l. clear IH b' bs.
    cbn [length]. rewrite (Nat.add_succ_l k (length l)), <- (Nat.add_succ_r k (length l)).
    cbn [seq map combine fold_left fst snd]. destruct (Nat.eqb_spec (k + 1) (k + S (length l))); [lia|]. reflexivity.
Qed.

Local Notation cf2b := (fun h btf => Spec.Blake2.compress 64 8 32 24 16 63 12 Spec.Sha2.IV512 h (fst (fst btf)) (snd (fst btf)) (snd btf)).
Local Notation cf2s := (fun h btf => Spec.Blake2.compress 32 4 16 12 8 7 10 Spec.Sha2.IV256 h (fst (fst btf)) (snd (fst btf)) (snd btf)).

Lemma inputs2_fold w nb r1 r2 r3 r4 n IV m h :
  Spec.Blake2.iterate w nb r1 r2 r3 r4 n IV 0 (N.of_nat (length m)) (Spec.Blake2.blocks nb m) h =
  fold_left (fun h btf => Spec.Blake2.compress w nb r1 r2 r3 r4 n IV h (fst (fst btf)) (snd (fst btf)) (snd btf)) (blake2_inputs nb m) h.
Proof. rewrite iterate2_fold. unfold blake2_inputs. rewrite combine3. reflexivity. Qed.

Lemma blake2b_state dbg ds x : Forall span_ok ds -> digested (class Blake2 dbg) ds x ->
  chaining Blake2 dbg x = fold_left cf2b (blake2_inputs 8 (concat ds)) (Model.Blake2.h_reset Model.Blake2.iv_b 64).
Proof.
  intros Hds Hx. rewrite <- Blake2.iv_b_ok.
  assert (exists ab dn, Implements (Model.Blake2.cls_b dbg) (Spec.Blake2.blake2 64 8 32 24 16 63 12 Model.Blake2.iv_b 64) (fun _ => True) ab dn /\
    forall m, snd (snd (dn m)) = Spec.Blake2.iterate 64 8 32 24 16 63 12 Model.Blake2.iv_b 0 (N.of_nat (length m)) (Spec.Blake2.blocks 8 m) (Spec.Blake2.h0 Model.Blake2.iv_b (N.of_nat 64))) as (ab & dn & HI & Hs).
  { refine (Blake2.core_state 64 8 32 24 16 63 Model.Blake2.iv_b 12 _ Blake2Calls.blakeMix Blake2Calls.calls ctr128 dbg u128_val u128_ok
    eq_refl _ _ _ _ _ eq_refl _ Blake2.calls_b Blake1.ctr128_lo Blake1.ctr128_hi Blake1.ctr128_add
    (conj (conj eq_refl eq_refl) eq_refl) 64 eq_refl _); try discriminate; [lia|apply Forall_bndb; reflexivity|reflexivity]. }
  rewrite (digested_done HI ds x Hds I Hx). cbn [chaining]. rewrite Hs, inputs2_fold. reflexivity.
Qed.
Lemma blake2s_state dbg ds x : Forall span_ok ds -> digested (class Blake2s dbg) ds x ->
  chaining Blake2s dbg x = fold_left cf2s (blake2_inputs 4 (concat ds)) (Model.Blake2.h_reset Model.Blake2.iv_s 32).
Proof.
  intros Hds Hx. rewrite <- Blake2.iv_s_ok.
  assert (exists ab dn, Implements (Model.Blake2.cls_s dbg) (Spec.Blake2.blake2 32 4 16 12 8 7 10 Model.Blake2.iv_s 32) (fun _ => True) ab dn /\
    forall m, snd (snd (dn m)) = Spec.Blake2.iterate 32 4 16 12 8 7 10 Model.Blake2.iv_s 0 (N.of_nat (length m)) (Spec.Blake2.blocks 4 m) (Spec.Blake2.h0 Model.Blake2.iv_s (N.of_nat 32))) as (ab & dn & HI & Hs).
  { refine (Blake2.core_state 32 4 16 12 8 7 Model.Blake2.iv_s 10 _ Blake2sCalls.blakeMix Blake2sCalls.calls ctr64 dbg (fun c => c) Blake1.cok64
    eq_refl _ _ _ _ _ eq_refl _ Blake2.calls_s Blake1.ctr64_lo Blake1.ctr64_hi Blake1.ctr64_add
    (conj eq_refl eq_refl) 32 eq_refl _); try discriminate; [lia|apply Forall_bndb; reflexivity|reflexivity]. }
  rewrite (digested_done HI ds x Hds I Hx). cbn [chaining]. rewrite Hs, inputs2_fold. reflexivity.
Qed.

Lemma blake2_sound_all a dbg : blake2_sound a dbg.
Proof.
  intros nb f iv E. destruct a; try discriminate E; apply (f_equal (fun o => match o with Some x => x | None => (nb, f, iv) end)) in E;
    pose proof (f_equal snd E) as E5; pose proof (f_equal (fun x => snd (fst x)) E) as E4; pose proof (f_equal (fun x => fst (fst x)) E) as E3;
    cbn [fst snd] in E3, E4, E5; clear E; subst nb f iv.
  - exists cf2b. split; [reflexivity|exact (blake2b_state dbg)].
  - exists cf2s. split; [reflexivity|exact (blake2s_state dbg)].
Qed.
Lemma blake2_facts a nb f iv : blake2 a = Some (nb, f, iv) -> 1 <= nb <= 8.
Proof.
  intros E. destruct a; try discriminate E; apply (f_equal (fun o => match o with Some x => fst (fst x) | None => 0 end)) in E;
    cbn [fst blake2] in E; subst nb; lia.
Qed.

Section Blake2Table.
  Variables (a : alg) (nb : nat) (f : list N * N * bool -> State a -> res (State a)) (iv : State a).
  Hypothesis E : blake2 a = Some (nb, f, iv).

  Theorem blake2_inputs_injective m1 m2 : blake2_inputs nb m1 = blake2_inputs nb m2 -> m1 = m2.
  Proof. apply blake2_injective, (blake2_facts a nb f iv E). Qed.
  Theorem blake2_fed dbg ds x : Forall span_ok ds -> digested (class a dbg) ds x ->
    foldM f (blake2_inputs nb (concat ds)) iv = Ok (chaining a dbg x).
  Proof.
    intros Hds Hx. destruct (blake2_sound_all a dbg nb f iv E) as (cf & Hf & Hs). rewrite (Hs ds x Hds Hx).
    generalize (blake2_inputs nb (concat ds)). intros l. clear -Hf. revert iv.
    induction l as [|b l IH]; intros h; cbn [foldM fold_left]; [reflexivity|]. rewrite Hf, bind_ok. apply IH.
  Qed.
  Theorem blake2_hash_collision dbg ds1 ds2 x1 x2 :
    Forall span_ok ds1 -> Forall span_ok ds2 -> digested (class a dbg) ds1 x1 -> digested (class a dbg) ds2 x2 ->
    concat ds1 <> concat ds2 -> chaining a dbg x1 = chaining a dbg x2 ->
    collision f iv (blake2_inputs nb (concat ds1)) (blake2_inputs nb (concat ds2)).
  Proof.
    intros H1 H2 D1 D2 Hne He. destruct (blake2_sound_all a dbg nb f iv E) as (cf & Hf & Hs).
    apply (blake2_collision nb (blake2_facts a nb f iv E) (state_dec a) f cf); auto.
    rewrite <- (Hs ds1 x1), <- (Hs ds2 x2); auto.
  Qed.
End Blake2Table.

(** ** MD2 *)

Lemma md2_pad_injective m1 m2 : Spec.Md2.pad m1 = Spec.Md2.pad m2 -> m1 = m2.
Proof.
  unfold Spec.Md2.pad. set (i1 := 16 - length m1 mod 16). set (i2 := 16 - length m2 mod 16). intros E.
  assert (0 < i1) as P1 by (pose proof (Nat.mod_upper_bound (length m1) 16 ltac:(lia)); lia).
  assert (0 < i2) as P2 by (pose proof (Nat.mod_upper_bound (length m2) 16 ltac:(lia)); lia).
  assert (forall (x : list N) v k, 0 < k -> last (x ++ repeat v k) 0%N = v) as L.
  { intros x v k Hk. destruct k; [lia|]. replace (S k) with (k + 1) by lia. rewrite repeat_app, app_assoc. apply last_last. }
  assert (i1 = i2) as Ei. { apply (f_equal (fun l => last l 0%N)) in E. rewrite !L in E by assumption. lia. }
  rewrite Ei in E. apply app_end_inj in E; [tauto|reflexivity].
Qed.
Lemma md2_checksum_length p : Forall (fun b => length b = 16) (pieces 16 p) -> length (Spec.Md2.checksum p) = 16.
Proof.
  unfold Spec.Md2.checksum. intros H. assert (length (repeat 0%N 16) = 16) as Hi by reflexivity. revert Hi. generalize (repeat 0%N 16).
  induction H as [|b l Hb Hl IH]; intros c Hc; cbn [fold_left]; [exact Hc|]. apply IH.
  change (Spec.Md2.checksum_block c b) with (Spec.Md2.mix_checksum (last c 0%N) c b). rewrite Md2.mix_length; congruence.
Qed.
Lemma md2_sum_length m : length (Spec.Md2.checksum (Spec.Md2.pad m)) = 16.
Proof. apply md2_checksum_length, pieces_all; [lia|apply Md2.pad_aligned]. Qed.
Theorem md2_inputs_injective m1 m2 : md2_inputs m1 = md2_inputs m2 -> m1 = m2.
Proof.
  unfold md2_inputs. intros E. apply (f_equal (@concat N)) in E.
  assert (forall m, aligned 16 (Spec.Md2.pad m ++ Spec.Md2.checksum (Spec.Md2.pad m))) as A.
  { intros m. apply aligned_app; [lia|apply Md2.pad_aligned|]. unfold aligned. rewrite md2_sum_length. reflexivity. }
  rewrite !concat_pieces in E by (apply A || lia). apply app_end_inj in E; [|now rewrite !md2_sum_length].
  apply md2_pad_injective. tauto.
Qed.

Lemma head_fold (g : list N -> list N -> list N) n l : (forall X b, g X b = g (firstn n X) b) -> forall X,
  firstn n (fold_left g l X) = fold_left (fun h b => firstn n (g h b)) l (firstn n X).
Proof.
  intros Hg. induction l as [|b l IH]; intros X; cbn [fold_left]; [reflexivity|]. rewrite IH. now rewrite (Hg X b).
Qed.
Lemma md2_absorb_head X b : Spec.Md2.absorb_block X b = Spec.Md2.absorb_block (firstn 16 X) b.
Proof. unfold Spec.Md2.absorb_block. rewrite firstn_firstn. reflexivity. Qed.
Opaque Spec.Md2.absorb_block.
Lemma md2_state dbg ds x : Forall span_ok ds -> digested (class MD2 dbg) ds x ->
  chaining MD2 dbg x = fold_left (fun h b => firstn 16 (Spec.Md2.absorb_block h b)) (md2_inputs (concat ds)) (repeat 0%N 16).
Proof.
  intros Hds Hx. rewrite (digested_done (Md2.md2_implements dbg) ds x Hds I Hx). cbn [chaining]. rewrite Md2.done_x.
  exact (head_fold Spec.Md2.absorb_block 16 (md2_inputs (concat ds)) md2_absorb_head (repeat 0%N 48)).
Qed.
Lemma foldM_total {I H} (f : I -> H -> res H) (cf : H -> I -> H) (Hf : forall b h, f b h = Ok (cf h b)) l : forall h,
  foldM f l h = Ok (fold_left cf l h).
Proof. induction l as [|b l IH]; intros h; cbn [foldM fold_left]; [reflexivity|]. rewrite Hf, bind_ok. apply IH. Qed.
Definition md2_cf (h b : list N) : list N := firstn 16 (Spec.Md2.absorb_block h b).
Lemma md2_f_ok b h : md2_f b h = Ok (md2_cf h b). Proof. reflexivity. Qed.
Theorem md2_fed dbg ds x : Forall span_ok ds -> digested (class MD2 dbg) ds x ->
  foldM md2_f (md2_inputs (concat ds)) (repeat 0%N 16) = Ok (chaining MD2 dbg x).
Proof.
  intros Hds Hx. rewrite (md2_state dbg ds x Hds Hx).
  exact (foldM_total md2_f md2_cf md2_f_ok (md2_inputs (concat ds)) (repeat 0%N 16)).
Qed.
Theorem md2_hash_collision dbg ds1 ds2 x1 x2 :
  Forall span_ok ds1 -> Forall span_ok ds2 -> digested (class MD2 dbg) ds1 x1 -> digested (class MD2 dbg) ds2 x2 ->
  concat ds1 <> concat ds2 -> chaining MD2 dbg x1 = chaining MD2 dbg x2 ->
  let p := md2_inputs (concat ds1) in let q := md2_inputs (concat ds2) in
  collision md2_f (repeat 0%N 16) p q \/ returns md2_f (repeat 0%N 16) p \/ returns md2_f (repeat 0%N 16) q.
Proof.
  intros H1 H2 D1 D2 Hne He p q.
  assert (forall l : list (list N), Forall (fun _ => True) l) as G by (intros; apply Forall_forall; auto).
  refine (any_collision md2_f (repeat 0%N 16) md2_cf (fun _ => True) (fun _ => True) I
    (fun b h _ _ => conj (md2_f_ok b h) I) (list_eq_dec N.eq_dec) (list_eq_dec N.eq_dec) p q (G p) (G q) _ _).
  - intros Ep. apply Hne, md2_inputs_injective, Ep.
  - pose proof (md2_state dbg ds1 x1 H1 D1) as S1. pose proof (md2_state dbg ds2 x2 H2 D2) as S2.
    rewrite He in S1. exact (eq_trans (eq_sym S1) S2).
Qed.

(** ** SipHash *)

Theorem siphash_padding_injective m1 m2 : Spec.SipHash.padded m1 = Spec.SipHash.padded m2 -> m1 = m2.
Proof.
  unfold Spec.SipHash.padded. rewrite !app_assoc. intros E. apply app_inj_tail in E as [E Ec].
  pose proof (f_equal (@length N) E) as El. rewrite !app_length, !repeat_length in El.
  pose proof (Nat.mod_upper_bound (length m1) 8 ltac:(lia)). pose proof (Nat.mod_upper_bound (length m2) 8 ltac:(lia)).
  pose proof (Nat.div_mod (length m1) 8 ltac:(lia)). pose proof (Nat.div_mod (length m2) 8 ltac:(lia)).
  assert (length m1 / 8 = length m2 / 8) as Ed by lia.
  assert (length m1 mod 8 = length m2 mod 8) as Em.
  { assert ((N.of_nat (length m1) mod 256) mod 8 = (N.of_nat (length m2) mod 256) mod 8)%N as G by now rewrite Ec.
    assert (forall n, ((N.of_nat n mod 256) mod 8 = N.of_nat (n mod 8))%N) as R.
    { intros n. rewrite Nat2N.inj_mod. change (N.of_nat 8) with 8%N. change 256%N with (8 * 32)%N.
      rewrite N.mod_mul_r by discriminate. rewrite (N.mul_comm 8 (_ mod _)), N.mod_add by discriminate. apply N.mod_mod. discriminate. }
    rewrite !R in G. lia. }
  apply app_len_inj in E; [tauto|]. lia.
Qed.
Theorem siphash_blocks_injective m1 m2 : pieces 8 (Spec.SipHash.padded m1) = pieces 8 (Spec.SipHash.padded m2) -> m1 = m2.
Proof.
  intros E. apply siphash_padding_injective. apply (f_equal (@concat N)) in E.
  rewrite !concat_pieces in E by (apply SipHash.padded_aligned || lia). exact E.
Qed.

Theorem blocks_injective a B r mk enc m1 m2 : padding a = Some (B, r, mk, enc) -> fits (counts a) m1 -> fits (counts a) m2 ->
  pieces B (pad B r mk enc m1) = pieces B (pad B r mk enc m2) -> m1 = m2.
Proof.
  intros E F1 F2 Ep. destruct (padding_facts a B r mk enc E) as (HB & _ & _ & Hl & _ & _).
  apply (padding_injective a B r mk enc E m1 m2 F1 F2). apply (f_equal (@concat N)) in Ep.
  rewrite !concat_pieces in Ep by (assumption || now apply pad_aligned). exact Ep.
Qed.
