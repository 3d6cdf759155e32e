(** No order of calls breaks an object: the remaining classes, and the library. *)
From Coq Require Import List NArith Arith Bool Lia ZArith ZifyNat ZifyN.
From Verif.Base Require Import Res CWord.
From Verif.Spec Require Import Words Client Merkle AnyOrder.
From Verif.Model Require Import Buffer Stream Api.
From Verif.Model Require Library Keccak SipHash Md2 Crc32 Fnv.
From Verif.Proof Require Import Words Streaming Blocks Api MD MD128 Rounds Class AnyOrder AnyOrderBlake Builds.
From Verif.Proof Require Keccak SipHash Md2 Md4 Md5 Has160 Ripemd Sm3 Sha1 Sha2 Crc32 Fnv Tiger Whirlpool Library Blake1.
Import ListNotations.
Module L := Verif.Model.Library.
Module MK := Verif.Model.Keccak.
Module PK := Verif.Proof.Keccak.
Module MS := Verif.Model.SipHash.
Module PS := Verif.Proof.SipHash.

Lemma bind_inv {A B} (r : res A) (k : A -> res B) y : bind r k = Ok y -> exists x, r = Ok x /\ k x = Ok y.
Proof. destruct r; try discriminate. eauto. Qed.

(** ** sha3.h *)
Section Keccak.
  Variables (q : nat) (P : N) (dbg : bool) (n : nat).
  Hypothesis Hq : 0 < q.
  Hypothesis Hq25 : q <= 25.
  Hypothesis HP : (P < 128)%N.
  Let R := 8 * q.

  (** [b]: finalize() has run since reset(); only then is there a digest *)
  Definition sponge_ok (b : bool) (o : Buffer * MK.St) : Prop :=
    held R R (fst o) /\ PK.inv (snd o) /\ MK.k_len (snd o) = n /\ bytes_ok (MK.k_final (snd o)) /\
    (if b then length (MK.k_final (snd o)) = n else MK.k_final (snd o) = []).

  Lemma squish_prefix : forall fuel s s', MK.squish R dbg fuel s = Ok s' -> exists t, MK.k_final s' = MK.k_final s ++ t.
  Proof using.
    clear. induction fuel as [|fuel IH]; intros s s' E; [discriminate|]. cbn [MK.squish] in E.
    destruct (_ <=? _) in E; [|discriminate E]. rewrite bind_ok in E. cbn [MK.k_state MK.k_final MK.k_len] in E.
    destruct (_ <=? _) in E.
    - apply (f_equal (fun r => match r with Ok y => MK.k_final y | _ => [] end)) in E. cbn [MK.k_final] in E. eauto.
    - apply bind_inv in E. destruct E as (s1 & E1 & E2). apply IH in E2. destruct E2 as (t & E2).
      unfold MK.impl in E1. apply bind_inv in E1. destruct E1 as (? & _ & E1). apply bind_inv in E1. destruct E1 as (l & _ & E1).
      apply (f_equal (fun r => match r with Ok y => MK.k_final y | _ => [] end)) in E1. cbn [MK.k_final] in E1.
      rewrite E2, <- E1, <- app_assoc. eauto.
  Qed.

  Lemma sponge_add b o d : sponge_ok b o -> span_ok d ->
    exists o', MK.addData R dbg d o = Ok o' /\ sponge_ok b o' /\ MK.k_final (snd o') = MK.k_final (snd o).
  Proof using Hq Hq25.
    clear HP. intros (H1 & H2 & H3 & H4 & H5) Hd.
    destruct (add_any R R dbg (MK.impl R dbg) (fun s => PK.inv s /\ MK.k_len s = n /\ MK.k_final s = MK.k_final (snd o))) with (o := o) (d := d)
      as (o' & E & G1 & G2 & G3 & G4).
    - unfold R. lia.
    - lia.
    - unfold R. change (2 ^ 64)%N with 18446744073709551616%N. lia.
    - intros x s (I1 & I2 & I3) [Hx _] Ha. destruct (PK.impl_ok q dbg Hq Hq25 x s I1 Hx Ha) as [E J]. fold R in E. rewrite E. eauto.
    - split; [exact H1|auto].
    - exact Hd.
    - exists o'. split; [exact E|]. split; [|exact G4]. unfold sponge_ok. rewrite G4. auto.
  Qed.

  (** finalize() on an object with a digest leaves the digest as it is *)
  Lemma sponge_finalize b o : sponge_ok b o ->
    exists o', MK.finalize R P dbg o = Ok o' /\ sponge_ok true o' /\ (b = true -> MK.k_final (snd o') = MK.k_final (snd o)).
  Proof using Hq Hq25 HP.
    destruct o as [buf s]. intros ((r & Eb & Hr & Hl) & H2 & H3 & H4 & H5). cbn [fst snd] in *. subst buf. unfold MK.finalize.
    assert (length (@nil bool) <= 5) as Hs by (cbn; lia).
    rewrite fill_canon by lia. rewrite bind_ok, canon_size, app_length. cbn [length repeat].
    assert ((2 * R - (length r + 1)) mod R = PK.fillc q r) as ->.
    { unfold PK.fillc. fold R. rewrite (Nat.mod_small (length r)) by exact Hl.
      replace (2 * R - (length r + 1)) with ((R - 1 - length r) + 1 * R) by lia.
      rewrite Nat.mod_add by (unfold R; lia). apply Nat.mod_small. lia. }
    assert (length r + 1 + PK.fillc q r = R) as Hfull by (unfold PK.fillc; fold R; rewrite (Nat.mod_small (length r)) by exact Hl; lia).
    rewrite fill_canon by (rewrite ?app_length; cbn [length]; lia). rewrite bind_ok.
    assert (exists buf, (let! v := buf_get_from_end 1 (canon R ((r ++ [P]) ++ repeat 0%N (PK.fillc q r))) in
        buf_set_from_end 1 0 (N.lor v 128) (canon R ((r ++ [P]) ++ repeat 0%N (PK.fillc q r)))) = Ok buf /\
        buf = canon R (r ++ PK.padding q P r)) as (buf & Ebuf & Hbuf).
    { unfold PK.padding. destruct (PK.fillc q r) as [|k] eqn:Ek.
      - cbn [repeat]. rewrite app_nil_r. rewrite (Blake1.get_from_end_canon R r P []) by (cbn [length]; lia). rewrite bind_ok.
        rewrite set_from_end_canon by (cbn [length]; lia). eexists. split; reflexivity.
      - rewrite repeat_S_end, app_assoc. rewrite (Blake1.get_from_end_canon R _ 0%N []) by (rewrite ?app_length, ?repeat_length; cbn [length]; lia).
        rewrite bind_ok. rewrite set_from_end_canon by (rewrite ?app_length, ?repeat_length; cbn [length]; lia). eexists. split; [reflexivity|].
        rewrite <- !app_assoc. reflexivity. }
    rewrite <- bind_assoc. rewrite Ebuf, Hbuf, bind_ok, canon_span.
    assert (length (r ++ PK.padding q P r) = R) as LB by (rewrite app_length, (PK.padding_length q P Hq Hq25 [] Hs HP); lia).
    destruct (PK.impl_ok q dbg Hq Hq25 (r ++ PK.padding q P r) s H2) as [Ei Hi].
    { apply bytes_ok_app. split; [exact Hr|apply (PK.padding_bytes q P Hq Hq25 [] Hs HP)]. }
    { fold R. unfold aligned. rewrite LB. apply Nat.mod_same. unfold R. lia. }
    fold R in Ei. rewrite Ei, bind_ok. set (s1 := PK.run q _ s) in *.
    change (MK.k_len s1) with (MK.k_len s). rewrite H3.
    destruct (PK.squish_ok q P dbg Hq Hq25 [] Hs HP n n s1 (MK.k_final s1) Hi eq_refl H4 H3) as (s' & Es & I1 & I2 & I3 & I4 & _); [nia|].
    fold R in Es. rewrite Es, bind_ok, canon_clear by lia. eexists. split; [reflexivity|].
    assert (MK.resize (MK.k_len s') (MK.k_final s') = firstn n (MK.k_final s')) as Er.
    { unfold MK.resize. rewrite I2. replace (n - length (MK.k_final s')) with 0 by lia. apply app_nil_r. }
    split.
    - unfold sponge_ok. cbn [fst snd MK.k_final MK.k_len]. rewrite Er.
      split; [apply held_nil; unfold R; lia|]. split; [exact I1|]. split; [exact I2|]. split; [apply bytes_ok_firstn, I3|].
      apply firstn_length_le. exact I4.
    - intros Hb. subst b. cbn [snd MK.k_final]. rewrite Er. destruct (squish_prefix _ _ _ Es) as (t & ->).
      change (MK.k_final s1) with (MK.k_final s). rewrite firstn_app, <- H5, firstn_all, Nat.sub_diag, firstn_O. apply app_nil_r.
  Qed.

  Theorem keccak_robust : Robust true false n (MK.cls R P dbg n) sponge_ok.
  Proof using Hq Hq25 HP.
    assert (sponge_ok false (MK.new R n)) as H0.
    { unfold sponge_ok, MK.new, MK.reset. cbn [fst snd MK.k_len MK.k_final]. split; [|split; [exact (PK.inv0 n)|split; [reflexivity|split; [constructor|reflexivity]]]].
      rewrite <- canon_nil, canon_clear by (cbn; lia). apply held_nil. unfold R. lia. }
    constructor; unfold MK.cls; cbn [c_new c_add c_finalize c_reset c_array Obj].
    - exact H0.
    - intros b x d Hx Hd. destruct (sponge_add b x d Hx Hd) as (y & E & Hy & _). eauto.
    - intros b x Hx. destruct (sponge_finalize b x Hx) as (y & E & Hy & _). eauto.
    - intros b x (H1 & _ & H3 & _). unfold MK.reset. rewrite H3. destruct H0 as (_ & H0).
      split; [cbn [fst]; rewrite (held_clear R R _ (le_n R) H1); apply held_nil; unfold R; lia|exact H0].
    - intros _ b x (_ & _ & _ & H4 & H5). unfold MK.toVector. exists (MK.k_final (snd x)). split; [reflexivity|]. split; [exact H4|].
      intros [H|H]; [discriminate H|]. subst b. exact H5.
  Qed.
End Keccak.

(** ** siphash.h *)
Theorem siphash_robust C D dbg k0 k1 : bnd 64 k0 -> bnd 64 k1 -> exists G, Robust true true 8 (MS.cls C D dbg k0 k1) G.
Proof.
  intros Hk0 Hk1. set (I := fun s => PS.inv s /\ MS.s_k0 s = k0 /\ MS.s_k1 s = k1).
  assert (I (MS.start k0 k1)) as H0 by (split; [exact (PS.ok_start k0 k1 Hk0 Hk1)|split; reflexivity]).
  assert (forall d s, I s -> bytes_ok d -> aligned 8 d -> exists s', MS.addDataImpl C dbg d s = Ok s' /\ I s') as Himpl.
  { intros d s (I1 & I2 & I3) Hd Ha. rewrite (PS.impl_ok C dbg d s I1 Hd Ha). eexists. split; [reflexivity|].
    split; [now apply PS.inv_run|]. split; assumption. }
  exists (fun _ => okobj 8 16 I). constructor; cbn [MS.cls c_new c_add c_finalize c_reset c_array Api.Obj].
  - split; [|exact H0]. cbn [fst]. rewrite <- canon_nil. apply held_nil. lia.
  - intros _ x d Hx Hd. unfold MS.add. apply (add_any 8 16 dbg _ I); auto; [lia|lia|reflexivity|].
    intros d' s Hs [Hd' _] Ha. now apply Himpl.
  - intros _ [buf s] [(r & Eb & Hr & Hl) Hs]. cbn [fst snd] in *. subst buf. unfold MS.finalize.
    rewrite canon_size. destruct (Nat.ltb_spec 7 (length r)); [lia|].
    rewrite fill_canon by lia. rewrite bind_ok. rewrite fill_canon by (rewrite app_length, repeat_length; lia). rewrite bind_ok. cbn [repeat].
    rewrite canon_span, canon_clear by (rewrite !app_length, repeat_length; cbn [length]; lia).
    set (cnt := uadd 8 _ _). assert (cnt < 256)%N as Hc by (unfold cnt; rewrite uadd_mod; apply N.mod_lt; discriminate). clearbody cnt.
    destruct (Himpl ((r ++ repeat 0%N (7 - length r)) ++ [cnt]) (MS.mkSt cnt (MS.s_k0 s) (MS.s_k1 s) (MS.s_v s)) Hs) as (s' & -> & (I1 & I2 & I3)).
    + apply bytes_ok_app. split; [apply bytes_ok_app; split; [exact Hr|apply bytes_ok_repeat; reflexivity]|constructor; [exact Hc|constructor]].
    + unfold aligned. rewrite !app_length, repeat_length. cbn [length]. replace (length r + (7 - length r) + 1) with 8 by lia. reflexivity.
    + rewrite bind_ok. unfold PS.inv in I1. destruct (MS.s_v s') as [a b c d]. destruct I1 as (J0 & J1 & J2 & J3). cbn [MS.v0 MS.v1 MS.v2 MS.v3] in *.
      destruct (PS.rounds_ok D (MS.mkVec a b (N.lxor c 0xff) d)) as (v & -> & Hv & _).
      { split; [|split; [|split]]; cbn [MS.v0 MS.v1 MS.v2 MS.v3]; auto. apply bnd_lxor; auto. reflexivity. }
      rewrite bind_ok. eexists. split; [reflexivity|]. split; [apply held_nil; lia|]. split; [exact Hv|split; assumption].
  - intros _ x [Hx (_ & I2 & I3)]. unfold MS.reset. rewrite I2, I3. split; [|exact H0]. cbn [fst].
    rewrite (held_clear 8 16) by (lia || exact Hx). apply held_nil. lia.
  - intros _ b x _. unfold MS.toArray. destruct (MS.s_v (snd x)) as [a b' c d]. rewrite word_bytes_be_ok, store_array_eq by apply be_bytes_length.
    eexists. split; [reflexivity|]. split; [apply be_bytes_ok|intros _; apply be_bytes_length].
Qed.

(** ** md2.h *)
Theorem md2_robust dbg : exists G, Robust true true 16 (Model.Md2.cls dbg) G.
Proof.
  exists (fun _ => okobj 16 32 Md2.inv). unfold Model.Md2.cls. constructor; cbn [stream_class c_new c_add c_finalize c_reset c_array Api.Obj].
  - split; [|exact Md2.inv_init]. cbn [fst]. rewrite <- canon_nil. apply held_nil. lia.
  - intros _ x d Hx Hd. apply (add_any 16 32 dbg _ Md2.inv); auto; [lia|lia|reflexivity|].
    intros d' s Hs [Hd' _] Ha. destruct (Md2.impl_ok d' s Hs Hd' Ha). eauto.
  - intros _ [buf s] [(r & Eb & Hr & Hl) Hs]. cbn [fst snd] in *. subst buf. unfold Model.Md2.finalize.
    rewrite canon_size, (Nat.mod_small (length r)) by exact Hl. rewrite fill_canon by lia. rewrite bind_ok, canon_span.
    set (t := r ++ _). assert (length t = 16) as Lt by (unfold t; rewrite app_length, repeat_length; lia).
    destruct (Md2.impl_ok t s Hs) as [-> Hi].
    + apply bytes_ok_app. split; [exact Hr|]. apply bytes_ok_repeat. rewrite trunc_mod. apply N.mod_lt. discriminate.
    + unfold aligned. rewrite Lt. reflexivity.
    + rewrite bind_ok. destruct Hi as (I1 & I2 & I3 & I4 & I5).
      destruct (Md2.impl_ok (Model.Md2.m_checksum (Md2.run t s)) (Md2.run t s)) as [-> Hi'].
      * repeat split; assumption.
      * exact I4.
      * unfold aligned. rewrite I3. reflexivity.
      * rewrite bind_ok, canon_clear by lia. eexists. split; [reflexivity|]. split; [apply held_nil; lia|exact Hi'].
  - intros _ x [Hx _]. split; [|exact Md2.inv_init]. cbn [fst]. rewrite (held_clear 16 32) by (lia || exact Hx). apply held_nil. lia.
  - intros _ b x [_ (I1 & I2 & _)]. unfold Model.Md2.toArray. set (l := Model.Md2.m_x (snd x)) in *. clearbody l.
    rewrite (mapM_ok _ (fun i => nth i l 0%N)) by (intros i Hi; apply in_seq in Hi; apply aget_ok; lia).
    eexists. split; [reflexivity|]. split; [|intros _; now rewrite map_length, seq_length].
    apply Forall_map, Forall_forall. intros i _. exact (Forall_nth_bnd 8 l i I2).
Qed.

(** ** crc_32.h and fnv.h *)
Theorem crc32_robust : Robust true true 4 Model.Crc32.cls (fun _ h => bnd 32 h).
Proof.
  constructor; cbn [Model.Crc32.cls c_new c_add c_finalize c_reset c_array Api.Obj].
  - reflexivity.
  - intros _ h d Hh [Hd _]. rewrite Crc32.addDataImpl_ok by assumption. eexists. split; [reflexivity|]. now apply Crc32.feeds_bnd.
  - intros _ h Hh. eexists. split; [reflexivity|]. apply bnd_lxor; [exact Hh|reflexivity].
  - intros _ h _. reflexivity.
  - intros _ b h _. unfold Model.Crc32.toArray. rewrite word_bytes_be_ok, store_array_eq by apply be_bytes_length.
    eexists. split; [reflexivity|]. split; [apply be_bytes_ok|intros _; apply be_bytes_length].
Qed.
Theorem fnv_robust size variant : Robust true true size (Model.Fnv.cls size variant) (fun _ _ => True).
Proof.
  constructor; cbn [Model.Fnv.cls c_new c_add c_finalize c_reset c_array Api.Obj]; auto.
  - intros _ h d _ _. eexists. split; [reflexivity|exact I].
  - intros _ h _. eexists. split; [reflexivity|exact I].
  - intros _ b h _. unfold Model.Fnv.toArray. rewrite word_bytes_be_ok, store_array_eq by apply be_bytes_length.
    eexists. split; [reflexivity|]. split; [apply be_bytes_ok|intros _; apply be_bytes_length].
Qed.

(** ** the classes on md_class *)
Lemma words_le_robust k dbg compress iv cf : words_ok k iv ->
  (forall blk tl h, length blk = 64 -> bytes_ok blk -> words_ok k h -> compress (blk ++ tl) h = Ok (cf h blk) /\ words_ok k (cf h blk)) ->
  exists G, Robust true true (4 * k) (md_class 64 dbg 128 write_len_le compress iv (fun st => store_array (4 * k) (flat_map (word_bytes_le 4) st))) G.
Proof.
  intros Hiv Hc. apply (md_robust 64 dbg 128 (4 * k) true write_len_le (le_bytes 8) compress iv _ cf (words_ok k)).
  - lia.
  - reflexivity.
  - reflexivity.
  - apply write_len_le_ok.
  - apply le_bytes_length.
  - apply le_bytes_ok.
  - exact Hiv.
  - intros blk tl h Hh Hl Hb. now apply Hc.
  - intros _ h [Hl _]. rewrite (flat_map_ext _ (le_bytes 4)) by apply word_bytes_le_ok.
    assert (length (flat_map (le_bytes 4) h) = 4 * k) as E by (rewrite (flat_length _ 4), Hl by apply le_bytes_length; reflexivity).
    rewrite store_array_eq by exact E. eexists. split; [reflexivity|]. split; [apply bytes_ok_flat_map, le_bytes_ok|exact E].
Qed.
Lemma be_robust dbg (compress : list N -> list N -> res (list N)) iv cf arr k (inv : list N -> Prop) : inv iv ->
  (forall blk tl h, inv h -> length blk = 64 -> bytes_ok blk -> compress (blk ++ tl) h = Ok (cf h blk) /\ inv (cf h blk)) ->
  (forall h, inv h -> exists d, arr h = Ok d /\ bytes_ok d /\ length d = k) ->
  exists G, Robust true true k (md_class (H := list N) 64 dbg 128 write_len_be compress iv arr) G.
Proof.
  intros Hiv Hc Ha. apply (md_robust 64 dbg 128 k true write_len_be (be_bytes 8) compress iv _ cf inv).
  - lia.
  - reflexivity.
  - reflexivity.
  - apply write_len_be_ok.
  - apply be_bytes_length.
  - apply be_bytes_ok.
  - exact Hiv.
  - exact Hc.
  - intros _. exact Ha.
Qed.
Lemma be128_robust dbg iv arr k : Sha2.inv_state 64 iv ->
  (forall h, Sha2.inv_state 64 h -> exists d, arr h = Ok d /\ bytes_ok d /\ length d = k) ->
  exists G, Robust true true k (md128_class 128 16 dbg Model.Sha2.compress64 iv arr) G.
Proof.
  intros Hiv Ha. apply (md8_robust 128 16 dbg k Model.Sha2.compress64 iv arr Spec.Sha2.compress512 (Sha2.inv_state 64)).
  - lia.
  - lia.
  - reflexivity.
  - exact Hiv.
  - exact Sha2.compress64_ok.
  - exact Ha.
Qed.
Lemma sized {A} (arr : A -> res (list N)) (size : nat) h out : arr h = Ok out /\ bytes_ok out -> (forall d, arr h = Ok d -> length d = size) ->
  exists d, arr h = Ok d /\ bytes_ok d /\ length d = size.
Proof. intros [E Hb] H. exists out. split; [exact E|]. split; [exact Hb|]. exact (H out E). Qed.

Lemma tiger_robust V size dbg readable : (readable = true -> size = 24) ->
  exists G, Robust readable true size (Model.Tiger.cls V size dbg) G.
Proof.
  intros Hr. unfold Model.Tiger.cls. fold (Tiger.padb V).
  apply (md_robust 64 dbg (Tiger.padb V) size readable write_len_le (le_bytes 8) Model.Tiger.compress Model.Tiger.iv _ Spec.Tiger.compress Tiger.v_ok).
  - lia.
  - reflexivity.
  - unfold Tiger.padb. destruct (V =? 1); reflexivity.
  - apply write_len_le_ok.
  - apply le_bytes_length.
  - apply le_bytes_ok.
  - repeat split; reflexivity.
  - intros blk tl h Hh Hl Hb. apply Tiger.compress_ok; assumption.
  - intros E h _. rewrite (Hr E). apply (sized (Model.Tiger.toArray 24) 24 h (Spec.Tiger.digest h) (Tiger.out192 h)).
    intros d. destruct h as [[x y] z]. apply Library.store_array_length.
Qed.

Ltac words_le k cf := apply (words_le_robust k _ _ _ cf); [split; [reflexivity|apply Forall_bndb; reflexivity]|].
Ltac iv_ok := split; [reflexivity|apply Forall_bndb; reflexivity].

Lemma sha2_arr w nb size n h : Sha2.inv_state w h -> n <= 8 -> size = nb * n ->
  exists d, Model.Sha2.toArray nb size n h = Ok d /\ bytes_ok d /\ length d = size.
Proof.
  intros H1 H2 H3. apply (sized _ _ _ _ (Sha2.toArray_ok w nb size n h H1 H2 H3)). intros d. apply Library.store_array_length.
Qed.

Theorem library_robust a : L.well_formed a ->
  exists G, Robust (negb (L.unreadable a)) (negb (L.sponge a)) (L.digest_size a) (L.class a true) G.
Proof.
  intros Hwf. destruct a; cbn [L.class L.unreadable L.sponge L.digest_size negb L.well_formed] in *.
  - apply blake1_224_robust.
  - apply blake1_256_robust.
  - apply blake1_384_robust.
  - apply blake1_512_robust.
  - apply blake2b_robust.
  - apply blake2s_robust.
  - eexists. exact crc32_robust.
  - eexists. apply fnv_robust.
  - eexists. apply fnv_robust.
  - eexists. apply fnv_robust.
  - eexists. apply fnv_robust.
  - eexists. apply fnv_robust.
  - eexists. apply fnv_robust.
  - words_le 5 Spec.Has160.compress. intros. apply Has160.compress_ok; assumption.
  - apply md2_robust.
  - words_le 4 Spec.Md4.compress. intros. apply Md4.compress_ok; assumption.
  - words_le 4 Spec.Md5.compress. intros. apply Md5.compress_ok; assumption.
  - words_le 4 Spec.Ripemd.compress128. intros. apply Ripemd.compress128_ok; assumption.
  - words_le 5 Spec.Ripemd.compress160. intros. apply Ripemd.compress160_ok; assumption.
  - words_le 8 Spec.Ripemd.compress256. intros. apply Ripemd.compress256_ok; assumption.
  - words_le 10 Spec.Ripemd.compress320. intros. apply Ripemd.compress320_ok; assumption.
  - apply (be_robust true _ _ Spec.Sha1.compress _ 20 Sha1.inv_state); [iv_ok|intros; apply Sha1.compress_ok; assumption|].
    intros h Hh. apply (sized _ _ _ _ (Sha1.toArray_ok h Hh)). intros d. apply Library.store_array_length.
  - apply (be_robust true _ _ Spec.Sha2.compress256 _ 28 (Sha2.inv_state 32)); [iv_ok|exact Sha2.compress32_ok|].
    intros h Hh. apply (sha2_arr 32); [exact Hh|lia|reflexivity].
  - apply (be_robust true _ _ Spec.Sha2.compress256 _ 32 (Sha2.inv_state 32)); [iv_ok|exact Sha2.compress32_ok|].
    intros h Hh. apply (sha2_arr 32); [exact Hh|lia|reflexivity].
  - apply be128_robust; [iv_ok|]. intros h Hh. apply (sha2_arr 64); [exact Hh|lia|reflexivity].
  - apply be128_robust; [iv_ok|]. intros h Hh. apply (sha2_arr 64); [exact Hh|lia|reflexivity].
  - apply be128_robust; [iv_ok|]. intros h Hh. apply (sized _ _ _ _ (Sha2.toArray_512_224_ok h Hh)).
    intros d E. unfold Model.Sha2.toArray_512_224 in E. apply bind_inv in E. destruct E as (x & _ & E). exact (Library.store_array_length _ _ _ E).
  - apply be128_robust; [iv_ok|]. intros h Hh. apply (sha2_arr 64); [exact Hh|lia|reflexivity].
  - eexists. apply (keccak_robust 18 6 true 28); [lia|lia|reflexivity].
  - eexists. apply (keccak_robust 17 6 true 32); [lia|lia|reflexivity].
  - eexists. apply (keccak_robust 13 6 true 48); [lia|lia|reflexivity].
  - eexists. apply (keccak_robust 9 6 true 64); [lia|lia|reflexivity].
  - eexists. apply (keccak_robust 21 0x1F true digestLength); [lia|lia|reflexivity].
  - eexists. apply (keccak_robust 17 0x1F true digestLength); [lia|lia|reflexivity].
  - destruct Hwf. now apply siphash_robust.
  - apply (be_robust true _ _ Spec.Sm3.compress _ 32 (words_ok 8)); [iv_ok|intros; apply Sm3.compress_ok; assumption|].
    intros h [Hl _]. unfold Model.Sm3.toArray. rewrite (flat_map_ext _ (be_bytes 4)) by apply word_bytes_be_ok.
    assert (length (flat_map (be_bytes 4) h) = 32) as E by (rewrite (flat_length _ 4), Hl by apply be_bytes_length; reflexivity).
    rewrite store_array_eq by exact E. eexists. split; [reflexivity|]. split; [apply bytes_ok_flat_map, be_bytes_ok|exact E].
  - apply tiger_robust. discriminate.
  - apply tiger_robust. discriminate.
  - apply tiger_robust. reflexivity.
  - apply tiger_robust. discriminate.
  - apply tiger_robust. discriminate.
  - apply tiger_robust. reflexivity.
  - apply (md8_robust 64 32 true 64 Model.Whirlpool.compress Model.Whirlpool.iv Model.Whirlpool.toArray Whirlpool.cf Whirlpool.inv_h).
    + lia.
    + lia.
    + reflexivity.
    + exists Spec.Whirlpool.iv. split; [exact Whirlpool.iv_mat|exact Whirlpool.iv_words].
    + exact Whirlpool.compress_ok.
    + intros h Hh. apply (sized _ _ _ _ (Whirlpool.out_ok h Hh)). intros d. apply Library.store_array_length.
Qed.

(** both builds, every program *)
Theorem library_any_order a p : L.well_formed a ->
  possible_program (negb (L.unreadable a)) (negb (L.sponge a)) (negb (L.digest_size a =? 0)) p ->
  exists os st st', exec (L.class a true) p (fun _ => c_new (L.class a true)) = Ok (os, st) /\
    exec (L.class a false) p (fun _ => c_new (L.class a false)) = Ok (os, st').
Proof.
  intros Hwf Hp. destruct (library_robust a Hwf) as (G & R).
  destruct (robust_exec _ _ _ _ _ R p (fun _ => false) (fun _ => c_new (L.class a true)) (fun _ => ro_new _ _ _ _ _ R) Hp) as (os & st & E).
  destruct (builds_exec (L.class a) (library_builds a) p os st E) as (st' & E'). eauto 6.
Qed.
