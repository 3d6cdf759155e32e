(** No order of calls breaks an object: BLAKE and BLAKE2. *)
From Coq Require Import List NArith Arith Bool Lia ZArith ZifyNat ZifyN.
From Verif.Base Require Import Res CWord.
From Verif.Spec Require Import Words Client Merkle.
From Verif.Model Require Import Buffer Stream Api.
From Verif.Model Require Import Call BlakeMix Counter.
From Verif.Model.Gen Require Blake1Tables Blake1_224Calls Blake1_256Calls Blake1_384Calls Blake1_512Calls Blake2Calls Blake2sCalls.
From Verif.Proof Require Import Words Streaming Blocks Api MD MD128 Rounds Class BlakeMix AnyOrder.
From Verif.Proof Require Blake1 Blake2.
From Verif.Model Require Blake1 Blake2.
From Verif.Spec Require Blake.
Import ListNotations.
Module P1 := Verif.Proof.Blake1.
Module P2 := Verif.Proof.Blake2.
Module M1 := Verif.Model.Blake1.
Module M2 := Verif.Model.Blake2.

Section P1.
  Variables (w : N) (nb : nat) (r1 r2 r3 r4 : N) (C : list N) (F : Type) (calls : list (call F)) (K : Counter).
  Variables (narrow lastbit dbg : bool) (iv : list N) (n : nat) (val : ctr K -> N) (cok : ctr K -> Prop).
  Let B := 16 * nb.
  Let I (s : ctr K * list N) : Prop := cok (fst s) /\ length (snd s) = 8 /\ Forall (bnd w) (snd s).
  Hypothesis Hnb : 1 <= nb <= 8.
  Hypothesis Hn : n <= 8.
  Hypothesis Hadd : forall c x, cok c -> (x < 2 ^ 64)%N -> cok (k_add K c x).
  Hypothesis Hwrite : forall cap x c, cok c -> length x + 2 * nb <= cap ->
    M1.write_len nb (k_lo K c) (k_hi K c) (canon cap (x ++ repeat 0%N (2 * nb))) = Ok (canon cap (x ++ be_bytes (2 * nb) (val c))).
  Hypothesis H0 : I (k_zero K, iv).
  Hypothesis Himpl : forall p d s, I s -> bytes_ok d -> aligned B d ->
    exists s', M1.impl w nb r1 r2 r3 r4 C F calls K narrow dbg p d s = Ok s' /\ I s'.

  Lemma blake1_finalize_any o : okobj B (2 * B) I o ->
    exists o', M1.finalize w nb r1 r2 r3 r4 C F calls K narrow lastbit dbg o = Ok o' /\ okobj B (2 * B) I o'.
  Proof using Hnb Hadd Hwrite Himpl.
    clear H0 Hn. destruct o as [b s]. intros [(r & Eb & Hr & Hl) Hs]. cbn [fst snd] in *. subst b. unfold M1.finalize.
    change (M1.BLOCK_SIZE nb) with B. assert (0 < B) as HB0 by (unfold B; lia).
    assert (rest B r = r) as Er by (unfold rest, whole; rewrite Nat.div_small by exact Hl; reflexivity).
    pose proof (zeros_rest B (2 * nb) r HB0 ltac:(unfold B; lia)) as Hz. rewrite Er in Hz. pose proof (zeros_le B (2 * nb) (length r) HB0) as Hzl.
    assert (length r + 1 + zeros B (2 * nb) (length r) + 2 * nb <= 2 * B) as Htot.
    { pose proof (Nat.mod_le (2 * B - (S (length r) + 2 * nb)) B ltac:(lia)). unfold B in *. lia. }
    rewrite canon_size. rewrite fill_canon by lia. rewrite bind_ok. cbn [repeat]. rewrite canon_size, app_length. cbn [length].
    rewrite pad_len_spec by (unfold B in *; lia). rewrite Nat.add_1_r, <- Hz.
    rewrite fill_canon by (rewrite ?app_length; cbn [length]; lia). rewrite bind_ok, repeat_app, app_assoc.
    rewrite P1.lastbit_ok by lia. rewrite bind_ok.
    assert (cok (k_add K (fst s) (N.of_nat (length r) * 8))) as Hc.
    { apply Hadd; [apply Hs|]. unfold B in *. change (2 ^ 64)%N with 18446744073709551616%N. lia. }
    rewrite Hwrite by (try exact Hc; rewrite app_length, P1.marks_length; lia). rewrite bind_ok, canon_span.
    set (e := be_bytes _ _). assert (length e = 2 * nb) as He by apply be_bytes_length. assert (bytes_ok e) as Heb by apply be_bytes_ok. clearbody e.
    set (t := (r ++ _) ++ e).
    assert (length t = length r + 1 + 2 * nb + zeros B (2 * nb) (length r)) as Lt.
    { unfold t. rewrite !app_length, P1.marks_length, He. lia. }
    destruct (Himpl (zeros B (2 * nb) (length r) + 2 * nb + 1) t s Hs) as (s' & E & Hs').
    - unfold t. apply bytes_ok_app. split; [apply bytes_ok_app; split; [exact Hr|apply P1.marks_bytes]|exact Heb].
    - unfold aligned. rewrite Lt. apply zeros_aligned, HB0.
    - rewrite E, bind_ok, canon_clear by lia. eexists. split; [reflexivity|]. split; [apply held_nil, HB0|exact Hs'].
  Qed.

  Theorem blake1_robust : exists G, Robust true true (nb * n)
    (M1.cls w nb r1 r2 r3 r4 C F calls K narrow lastbit dbg iv (nb * n) n) G.
  Proof using Hnb Hn Hadd Hwrite H0 Himpl.
    assert (0 < B) as HB0 by (unfold B; lia).
    exists (fun _ => okobj B (2 * B) I). unfold M1.cls. change (M1.BLOCK_SIZE nb) with B.
    constructor; cbn [stream_class c_new c_add c_finalize c_reset c_array Obj].
    - split; [|exact H0]. cbn [fst]. rewrite <- canon_nil. apply held_nil, HB0.
    - intros _ x d Hx Hd. apply (add_any B (2 * B) dbg _ I); auto; [lia|..].
      + unfold B. change (2 ^ 64)%N with 18446744073709551616%N. lia.
      + intros d' s Hs [Hd' _] Ha. now apply Himpl.
    - intros _ x Hx. now apply blake1_finalize_any.
    - intros _ x [Hx _]. split; [|exact H0]. cbn [fst]. rewrite (held_clear B (2 * B)) by (lia || exact Hx). apply held_nil, HB0.
    - intros Hr b x [_ (_ & Hl & _)]. unfold M1.toArray.
      rewrite (flat_map_ext _ (be_bytes nb)) by apply word_bytes_be_ok.
      assert (length (flat_map (be_bytes nb) (firstn n (snd (snd x)))) = nb * n) as L.
      { rewrite (flat_length _ nb) by apply be_bytes_length. rewrite firstn_length, Hl. f_equal. lia. }
      rewrite store_array_eq by exact L. eexists. repeat split; [apply bytes_ok_flat_map, be_bytes_ok|intros _; exact L].
  Qed.
End P1.

Section Blake2.
  Variables (w : N) (nb : nat) (r1 r2 r3 r4 : N) (IV : list N) (F : Type) (calls : list (call F)) (K : Counter) (dbg : bool).
  Variable (cok : ctr K -> Prop).
  Let B := 16 * nb.
  Let size := 8 * nb.
  Let I (s : ctr K * list N) : Prop := cok (fst s) /\ length (snd s) = 8 /\ Forall (bnd w) (snd s).
  Hypothesis Hnb : 1 <= nb <= 8.
  Hypothesis H0 : I (k_zero K, M2.h_reset IV (N.of_nat size)).
  Hypothesis Himpl : forall f p d s, I s -> bytes_ok d -> aligned B d ->
    exists s', M2.impl w nb r1 r2 r3 r4 IV F calls K dbg f p d s = Ok s' /\ I s'.
  Let ok (o : Buffer * (ctr K * list N)) : Prop := held2 B (fst o) /\ I (snd o).

  Lemma aligned_full d : length d = B -> aligned B d.
  Proof using Hnb. clear - Hnb B. intros H. unfold aligned. rewrite H. apply Nat.mod_same. unfold B. lia. Qed.

  Lemma tail2_any d s : I s -> bytes_ok d -> d <> [] ->
    exists o, M2.addData_tail _ B dbg (M2.impl w nb r1 r2 r3 r4 IV F calls K dbg false 0) d s = Ok o /\ ok o.
  Proof using Hnb Himpl.
    clear H0. intros Hs Hd Hne. assert (0 < B) as HB0 by (unfold B; lia). unfold M2.addData_tail. set (rm := if negb _ then _ else _).
    assert (0 < length d) as Hpos by (destruct d; [congruence|cbn; lia]).
    pose proof (Nat.div_mod (length d) B ltac:(lia)) as E. pose proof (Nat.mod_upper_bound (length d) B ltac:(lia)) as Hu.
    assert (rm <= length d /\ rm <= B /\ (length d - rm) mod B = 0) as (Hle & HleB & Hm).
    { unfold rm. destruct (Nat.eqb_spec (length d mod B) 0) as [E0|E0]; cbn [negb].
      - assert (1 <= length d / B) by nia. split; [nia|]. split; [lia|].
        replace (length d - B) with ((length d / B - 1) * B) by nia. apply Nat.mod_mul. lia.
      - split; [apply Nat.mod_le; lia|]. split; [lia|]. assert (length d - length d mod B = length d / B * B) as ->; [|apply Nat.mod_mul; lia].
        revert E. generalize (length d / B) (length d mod B). clear. intros q u ->. rewrite (Nat.mul_comm B). lia. }
    clearbody rm. destruct (Nat.leb_spec rm (length d)); [|lia]. unfold span_first.
    destruct (Nat.leb_spec (length d - rm) (length d)); [|lia]. rewrite bind_ok.
    destruct (Himpl false 0 (firstn (length d - rm) d) s Hs) as (s' & -> & Hs').
    - apply bytes_ok_firstn, Hd.
    - unfold aligned. rewrite firstn_length_le by lia. exact Hm.
    - rewrite bind_ok. assert (length (skipn (length d - rm) d) = rm) as Ls by (rewrite skipn_length; lia).
      rewrite of_range_canon by lia. rewrite bind_ok. eexists. split; [reflexivity|]. split; [|exact Hs'].
      exists (skipn (length d - rm) d). repeat split; [apply bytes_ok_skipn, Hd|lia].
  Qed.

  Lemma add2_any o d : ok o -> bytes_ok d ->
    exists o', M2.addData _ B dbg (M2.impl w nb r1 r2 r3 r4 IV F calls K dbg false 0) d o = Ok o' /\ ok o'.
  Proof using Hnb Himpl.
    clear H0. intros Ho Hd. assert (0 < B) as HB0 by (unfold B; lia). unfold M2.addData.
    assert (forall fuel o d, ok o -> bytes_ok d -> length d = 0 \/ buf_size (fst o) = 0 \/ buf_size (fst o) = B ->
      exists o', M2.addData_rec _ B dbg (M2.impl w nb r1 r2 r3 r4 IV F calls K dbg false 0) (S fuel) d o = Ok o' /\ ok o') as Two.
    { clear o d Ho Hd. intros fuel [b s] d [(r & Eb & Hr & Hl) Hs] Hd Hc. cbn [fst snd] in *. subst b. cbn [M2.addData_rec].
      destruct d as [|d0 dd]; [eexists; split; [reflexivity|]; split; [exists r; auto|exact Hs]|]. set (d := d0 :: dd) in *.
      rewrite canon_size in *. destruct (Nat.eqb_spec (length r) B) as [EB|EB].
      - rewrite canon_span. destruct (Himpl false 0 r s Hs Hr (aligned_full r EB)) as (s' & -> & Hs'). rewrite bind_ok.
        apply tail2_any; [exact Hs'|exact Hd|discriminate].
      - destruct Hc as [Hc|[Hc|Hc]]; [discriminate Hc| |congruence]. apply length_zero_iff_nil in Hc. subst r.
        rewrite canon_empty. cbn [negb]. apply tail2_any; [exact Hs|exact Hd|discriminate]. }
    destruct o as [b s]. pose proof Ho as [(r & Eb & Hr & Hl) Hs]. cbn [fst snd] in *. subst b. cbn [M2.addData_rec].
    destruct d as [|d0 dd]; [eexists; split; [reflexivity|exact Ho]|]. set (d := d0 :: dd) in *.
    rewrite canon_size. destruct (Nat.eqb_spec (length r) B) as [EB|EB].
    - rewrite canon_span. destruct (Himpl false 0 r s Hs Hr (aligned_full r EB)) as (s' & -> & Hs'). rewrite bind_ok.
      apply tail2_any; [exact Hs'|exact Hd|discriminate].
    - rewrite canon_empty. destruct r as [|r0 rr]; cbn [negb]; [apply tail2_any; [exact Hs|exact Hd|discriminate]|].
      set (r := r0 :: rr) in *. clearbody r d. set (len := min (B - length r) (length d)).
      assert (length (firstn len d) = len) as Hfl by (apply firstn_length_le; unfold len; lia).
      rewrite push_back_canon by (rewrite Hfl; unfold len; lia). rewrite bind_ok. unfold span_subspan.
      destruct (Nat.leb_spec len (length d)); [|unfold len in *; lia]. rewrite bind_ok.
      refine (Two 1 (canon B (r ++ firstn len d), s) (skipn len d) _ _ _).
      + split; [|exact Hs]. exists (r ++ firstn len d). repeat split; [apply bytes_ok_app; split; [exact Hr|apply bytes_ok_firstn, Hd]|].
        rewrite app_length, Hfl. unfold len. lia.
      + apply bytes_ok_skipn, Hd.
      + cbn [fst]. rewrite canon_size, app_length, Hfl, skipn_length. unfold len in *. lia.
  Qed.

  Theorem blake2_robust : exists G, Robust true true (8 * nb) (M2.cls w nb r1 r2 r3 r4 IV F calls K dbg size) G.
  Proof using Hnb H0 Himpl.
    assert (0 < B) as HB0 by (unfold B; lia).
    exists (fun _ => ok). unfold M2.cls. change (M2.BLOCK_SIZE nb) with B.
    constructor; cbn [c_new c_add c_finalize c_reset c_array Obj].
    - split; [|exact H0]. cbn [fst]. exists []. rewrite canon_nil. repeat split; [constructor|cbn; lia].
    - intros _ x d Hx [Hd _]. now apply add2_any.
    - intros _ [b s] [(r & Eb & Hr & Hl) Hs]. cbn [fst snd] in *. subst b. unfold M2.finalize. change (M2.BLOCK_SIZE nb) with B.
      rewrite canon_size, fill_canon by lia. rewrite bind_ok, canon_span.
      assert (length (r ++ repeat 0%N (B - length r)) = B) as Lt by (rewrite app_length, repeat_length; lia).
      destruct (Himpl true (B - length r) (r ++ repeat 0%N (B - length r)) s Hs) as (s' & -> & Hs').
      + apply bytes_ok_app. split; [exact Hr|apply bytes_ok_repeat; reflexivity].
      + apply aligned_full, Lt.
      + rewrite bind_ok, canon_clear by lia. eexists. split; [reflexivity|]. split; [|exact Hs'].
        exists []. repeat split; [constructor|cbn; lia].
    - intros _ x [(r & Eb & _ & Hl) _]. split; [|exact H0]. cbn [fst]. rewrite Eb, canon_clear by exact Hl.
      exists []. repeat split; [constructor|cbn; lia].
    - intros Hr b x [_ (_ & Hl & _)]. unfold M2.toArray.
      rewrite (flat_map_ext _ (le_bytes nb)) by apply word_bytes_le_ok.
      assert (length (flat_map (le_bytes nb) (snd (snd x))) = size) as L.
      { rewrite (flat_length _ nb) by apply le_bytes_length. rewrite Hl. unfold size. lia. }
      rewrite store_array_eq by exact L. eexists. repeat split; [apply bytes_ok_flat_map, le_bytes_ok|intros _; exact L].
  Qed.
End Blake2.

Ltac side := first [assumption | lia | discriminate | reflexivity | apply Forall_bndb; reflexivity
  | split; [reflexivity | apply Forall_bndb; reflexivity] | split; reflexivity].

Theorem blake1_256_robust dbg : exists G, Robust true true 32 (M1.cls256 dbg) G.
Proof.
  refine (blake1_robust 32 4 16 12 8 7 Blake1Tables.cTable32 _ Blake1_256Calls.calls ctr64 false true dbg M1.iv256 8 (fun c => c) P1.cok64
    _ _ _ P1.write_len4_ok _ _); [lia|lia|..].
  - intros c x Hc Hx. now apply P1.ctr64_add.
  - split; [reflexivity|split; [reflexivity|apply Forall_bndb; reflexivity]].
  - intros p d s Hs Hd Ha. eexists.
    refine (P1.loop_ok 32 4 16 12 8 7 Spec.Blake.C256 14 _ Blake1_256Calls.blakeMix Blake1_256Calls.calls ctr64 false dbg (fun c => c) P1.cok64
      _ _ _ _ _ _ _ _ P1.calls256 P1.ctr64_lo P1.ctr64_hi P1.ctr64_add (conj eq_refl eq_refl) P1.write_len4_ok p d s Hs Hd Ha); side.
Qed.
Theorem blake1_224_robust dbg : exists G, Robust true true 28 (M1.cls224 dbg) G.
Proof.
  refine (blake1_robust 32 4 16 12 8 7 Blake1Tables.cTable32 _ Blake1_224Calls.calls ctr64 true false dbg M1.iv224 7 (fun c => c) P1.cok64
    _ _ _ P1.write_len4_ok _ _); [lia|lia|..].
  - intros c x Hc Hx. now apply P1.ctr64_add.
  - split; [reflexivity|split; [reflexivity|apply Forall_bndb; reflexivity]].
  - intros p d s Hs Hd Ha. eexists.
    refine (P1.loop_ok 32 4 16 12 8 7 Spec.Blake.C256 14 _ Blake1_224Calls.blakeMix Blake1_224Calls.calls ctr64 true dbg (fun c => c) P1.cok64
      _ _ _ _ _ _ _ _ P1.calls224 P1.ctr64_lo P1.ctr64_hi P1.ctr64_add (conj eq_refl eq_refl) P1.write_len4_ok p d s Hs Hd Ha); side.
Qed.
Theorem blake1_512_robust dbg : exists G, Robust true true 64 (M1.cls512 dbg) G.
Proof.
  refine (blake1_robust 64 8 32 25 16 11 Blake1Tables.cTable64 _ Blake1_512Calls.calls ctr128 false true dbg M1.iv512 8 u128_val u128_ok
    _ _ _ P1.write_len8_ok _ _); [lia|lia|..].
  - intros c x Hc Hx. now apply P1.ctr128_add.
  - split; [split; reflexivity|split; [reflexivity|apply Forall_bndb; reflexivity]].
  - intros p d s Hs Hd Ha. eexists.
    refine (P1.loop_ok 64 8 32 25 16 11 Spec.Blake.C512 16 _ Blake1_512Calls.blakeMix Blake1_512Calls.calls ctr128 false dbg u128_val u128_ok
      _ _ _ _ _ _ _ _ P1.calls512 P1.ctr128_lo P1.ctr128_hi P1.ctr128_add (conj (conj eq_refl eq_refl) eq_refl) P1.write_len8_ok p d s Hs Hd Ha); side.
Qed.
Theorem blake1_384_robust dbg : exists G, Robust true true 48 (M1.cls384 dbg) G.
Proof.
  refine (blake1_robust 64 8 32 25 16 11 Blake1Tables.cTable64 _ Blake1_384Calls.calls ctr128 false false dbg M1.iv384 6 u128_val u128_ok
    _ _ _ P1.write_len8_ok _ _); [lia|lia|..].
  - intros c x Hc Hx. now apply P1.ctr128_add.
  - split; [split; reflexivity|split; [reflexivity|apply Forall_bndb; reflexivity]].
  - intros p d s Hs Hd Ha. eexists.
    refine (P1.loop_ok 64 8 32 25 16 11 Spec.Blake.C512 16 _ Blake1_384Calls.blakeMix Blake1_384Calls.calls ctr128 false dbg u128_val u128_ok
      _ _ _ _ _ _ _ _ P1.calls384 P1.ctr128_lo P1.ctr128_hi P1.ctr128_add (conj (conj eq_refl eq_refl) eq_refl) P1.write_len8_ok p d s Hs Hd Ha); side.
Qed.

Theorem blake2b_robust dbg : exists G, Robust true true 64 (M2.cls_b dbg) G.
Proof.
  refine (blake2_robust 64 8 32 24 16 63 M2.iv_b _ Blake2Calls.calls ctr128 dbg u128_ok _ _ _); [lia|..].
  - split; [split; reflexivity|split; [reflexivity|apply Forall_bndb; reflexivity]].
  - intros f p d s Hs Hd Ha. eexists.
    refine (P2.loop_ok 64 8 32 24 16 63 M2.iv_b 12 _ Blake2Calls.blakeMix Blake2Calls.calls ctr128 dbg u128_val u128_ok
      _ _ _ _ _ _ _ _ P2.calls_b P1.ctr128_lo P1.ctr128_hi P1.ctr128_add (conj (conj eq_refl eq_refl) eq_refl) f p d s Hs Hd Ha); side.
Qed.
Theorem blake2s_robust dbg : exists G, Robust true true 32 (M2.cls_s dbg) G.
Proof.
  refine (blake2_robust 32 4 16 12 8 7 M2.iv_s _ Blake2sCalls.calls ctr64 dbg P1.cok64 _ _ _); [lia|..].
  - split; [reflexivity|split; [reflexivity|apply Forall_bndb; reflexivity]].
  - intros f p d s Hs Hd Ha. eexists.
    refine (P2.loop_ok 32 4 16 12 8 7 M2.iv_s 10 _ Blake2sCalls.blakeMix Blake2sCalls.calls ctr64 dbg (fun c => c) P1.cok64
      _ _ _ _ _ _ _ _ P2.calls_s P1.ctr64_lo P1.ctr64_hi P1.ctr64_add (conj eq_refl eq_refl) f p d s Hs Hd Ha); side.
Qed.
