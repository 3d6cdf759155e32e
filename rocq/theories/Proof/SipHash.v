(** siphash.h computes SipHash-c-d. *)
From Coq Require Import List NArith Arith Bool Lia ZArith ZifyNat ZifyN.
From Verif.Base Require Import Res CWord.
From Verif.Spec Require Import Words Client ObjClient Merkle.
From Verif.Model Require Import Buffer Stream Api ObjApi.
From Verif.Proof Require Import Words Streaming Blocks Api ObjApi Rounds.
From Verif.Spec Require SipHash.
From Verif.Model Require SipHash.
Module S := Verif.Spec.SipHash.
Module M := Verif.Model.SipHash.
Import ListNotations.
Local Open Scope N_scope.

Definition st (v : M.vec) : S.state := (M.v0 v, M.v1 v, M.v2 v, M.v3 v).
Definition ok (v : M.vec) : Prop := bnd 64 (M.v0 v) /\ bnd 64 (M.v1 v) /\ bnd 64 (M.v2 v) /\ bnd 64 (M.v3 v).

Lemma bnd_ROTL w s x : s <= w -> bnd w x -> bnd w (ROTL w s x).
Proof. intros Hs Hx. rewrite <- rotl_spec by assumption. now apply bnd_rotl. Qed.
Ltac bnds := repeat first [assumption | apply bnd_uadd | apply bnd_rotl | apply bnd_lxor | apply bnd_ROTL; [apply N.leb_le; reflexivity|]].

Lemma round_ok v : ok v -> ok (M.sipRound v).
Proof.
  destruct v as [a b c d]. unfold ok. cbn [M.v0 M.v1 M.v2 M.v3]. intros (Ha & Hb & Hc & Hd).
  unfold M.sipRound; cbn [M.v0 M.v1 M.v2 M.v3].
  split; [|split; [|split]]; bnds.
Qed.

Lemma round_spec v : ok v -> st (M.sipRound v) = S.sip_round (st v).
Proof.
  destruct v as [a b c d]. unfold ok, st. cbn [M.v0 M.v1 M.v2 M.v3]. intros (Ha & Hb & Hc & Hd).
  unfold M.sipRound, S.sip_round, S.half_round, S.swap; cbn [M.v0 M.v1 M.v2 M.v3].
  rewrite <- !uadd_spec.
  repeat (rewrite <- rotl_spec; [|apply N.leb_le; reflexivity|bnds]).
  reflexivity.
Qed.

Lemma rounds_ok n : forall v, ok v -> exists w, M.sipRounds n v = Ok w /\ ok w /\ st w = S.rounds n (st v).
Proof.
  unfold M.sipRounds. generalize 0%nat. induction n as [|n IH]; intros k v Hv; cbn [for_ S.rounds].
  - exists v; auto.
  - rewrite bind_ok. destruct (IH (Datatypes.S k) (M.sipRound v) (round_ok v Hv)) as (w & E & Hw & Es).
    exists w. rewrite <- round_spec by exact Hv. auto.
Qed.

(** ** one block *)

Definition vec_of (s : S.state) : M.vec := let '(a, b, c, d) := s in M.mkVec a b c d.
Lemma vec_st v : vec_of (st v) = v. Proof. destruct v; reflexivity. Qed.

Definition cf (C : nat) (v : M.vec) (blk : list N) : M.vec := vec_of (S.absorb C (st v) (le_value blk)).

Lemma load0 blk tl : length blk = 8%nat -> bytes_ok blk -> load_le 8 (blk ++ tl) 0 = Ok (le_value blk).
Proof.
  intros Hl Hb. rewrite (load_le_ok 8 1 blk ltac:(lia) ltac:(lia) Hb tl 0 ltac:(lia)).
  unfold le_words. rewrite pieces_one by (auto; lia). reflexivity.
Qed.

Lemma compress_ok C blk tl v : ok v -> length blk = 8%nat -> bytes_ok blk ->
  M.compress C (blk ++ tl) v = Ok (cf C v blk) /\ ok (cf C v blk).
Proof.
  intros Hv Hl Hb. unfold M.compress, cf. rewrite load0, bind_ok by assumption.
  destruct v as [a b c d]. unfold ok in Hv; cbn [M.v0 M.v1 M.v2 M.v3] in Hv. destruct Hv as (Ha & Hb' & Hc & Hd).
  assert (bnd 64 (le_value blk)) as Hm by (unfold bnd; pose proof (le_value_lt blk Hb) as H; rewrite Hl in H; exact H).
  destruct (rounds_ok C (M.mkVec a b c (N.lxor d (le_value blk)))) as (w & -> & Hw & Es).
  { unfold ok; cbn [M.v0 M.v1 M.v2 M.v3]. auto using bnd_lxor. }
  rewrite !bind_ok. unfold S.absorb, st. cbn [M.v0 M.v1 M.v2 M.v3].
  unfold st in Es. cbn [M.v0 M.v1 M.v2 M.v3] in Es. rewrite <- Es. destruct w as [w0 w1 w2 w3].
  cbn [M.v0 M.v1 M.v2 M.v3 vec_of] in *. unfold ok in *. cbn [M.v0 M.v1 M.v2 M.v3] in *.
  split; [reflexivity|]. destruct Hw as (H0 & H1 & H2 & H3). auto using bnd_lxor.
Qed.

Lemma st_vec s : st (vec_of s) = s. Proof. destruct s as [[[a b] c] d]; reflexivity. Qed.

Lemma chain_spec C d : forall v, st (chain 8 (cf C) v d) = fold_left (S.absorb C) (le_words 8 d) (st v).
Proof.
  unfold chain, le_words. induction (pieces 8 d) as [|b l IH]; intros v; [reflexivity|].
  cbn [fold_left map]. rewrite IH. unfold cf. rewrite st_vec. reflexivity.
Qed.

(** ** the class *)

Section Class.
  Variables (C D : nat) (dbg : bool) (k0 k1 : N).
  Hypothesis Hk0 : bnd 64 k0.
  Hypothesis Hk1 : bnd 64 k1.

  Definition inv (s : M.St) : Prop := ok (M.s_v s).
  Definition run (d : list N) (s : M.St) : M.St :=
    M.mkSt (uadd 8 (M.s_cnt s) (N.of_nat (length d))) (M.s_k0 s) (M.s_k1 s) (chain 8 (cf C) (M.s_v s) d).
  Let s0 := M.start k0 k1.

  Lemma uadd8_trunc x n : uadd 8 x (trunc 8 n) = uadd 8 x n.
  Proof using. rewrite trunc_mod, !uadd_mod. apply N.add_mod_idemp_r, pow2_nz. Qed.

  Lemma chain_ok d v : ok v -> bytes_ok d -> aligned 8 d ->
    block_loop M.vec 8 (M.compress C) d v = Ok (chain 8 (cf C) v d) /\ ok (chain 8 (cf C) v d).
  Proof using.
    clear. intros Hv Hd Ha. apply (block_loop_ok 8 (M.compress C) (cf C) ok); auto; [lia|].
    intros. apply compress_ok; assumption.
  Qed.

  Lemma impl_ok d s : inv s -> bytes_ok d -> aligned 8 d -> M.addDataImpl C dbg d s = Ok (run d s).
  Proof using.
    intros Hs Hd Ha. unfold M.addDataImpl. rewrite assert_ok, bind_ok by exact Ha.
    destruct (chain_ok d (M.s_v s) Hs Hd Ha) as [-> _]. rewrite bind_ok, uadd8_trunc. reflexivity.
  Qed.

  Lemma inv_run d s : inv s -> bytes_ok d -> aligned 8 d -> inv (run d s).
  Proof using. intros Hs Hd Ha. apply chain_ok; assumption. Qed.

  Lemma run_app x y s : aligned 8 x -> run (x ++ y) s = run y (run x s).
  Proof using.
    intros Ha. unfold run, chain. cbn [M.s_cnt M.s_k0 M.s_k1 M.s_v].
    rewrite pieces_app, fold_left_app by (auto; repeat constructor). f_equal.
    rewrite !uadd_mod, app_length, Nnat.Nat2N.inj_add, N.add_mod_idemp_l by apply pow2_nz.
    f_equal. apply N.add_assoc.
  Qed.

  Lemma ok_start : ok (M.reset_vec k0 k1).
  Proof.
    unfold ok, M.reset_vec. cbn [M.v0 M.v1 M.v2 M.v3].
    split; [|split; [|split]]; apply bnd_lxor; auto; unfold bnd; apply N.ltb_lt; vm_compute; reflexivity.
  Qed.

  Definition tail (m : list N) : list N := rest 8 m ++ repeat 0 (7 - length m mod 8)%nat ++ [N.of_nat (length m) mod 256].
  Lemma padded_tail m : S.padded m = pre 8 m ++ tail m.
  Proof using. unfold S.padded, tail. rewrite (app_assoc (pre 8 m) (rest 8 m)), pre_rest. reflexivity. Qed.

  Definition absorbed (m : list N) : M.vec := chain 8 (cf C) (M.reset_vec k0 k1) (S.padded m).
  Definition last_input (m : list N) : M.vec :=
    let 'M.mkVec a b c d := absorbed m in M.mkVec a b (N.lxor c 0xff) d.

  Lemma padded_aligned m : aligned 8 (S.padded m).
  Proof using.
    clear. unfold aligned, S.padded. rewrite !app_length, repeat_length. cbn [length].
    pose proof (Nat.mod_upper_bound (length m) 8 ltac:(lia)).
    replace (length m + (7 - length m mod 8 + 1))%nat with ((length m / 8 + 1) * 8)%nat
      by (pose proof (Nat.div_mod (length m) 8 ltac:(lia)); lia).
    apply Nat.mod_mul. lia.
  Qed.
  Lemma padded_bytes m : bytes_ok m -> bytes_ok (S.padded m).
  Proof using.
    clear. intros Hm. unfold S.padded. apply bytes_ok_app; split; [exact Hm|]. apply bytes_ok_app; split.
    - apply bytes_ok_repeat. reflexivity.
    - constructor; [|constructor]. unfold byte_ok. apply N.mod_lt. discriminate.
  Qed.
  Lemma tail_length m : length (tail m) = 8%nat.
  Proof using.
    clear. unfold tail. rewrite !app_length, repeat_length, rest_length by lia. cbn [length].
    pose proof (Nat.mod_upper_bound (length m) 8 ltac:(lia)). lia.
  Qed.

  Lemma absorbed_ok m : bytes_ok m -> ok (absorbed m).
  Proof.
    intros Hm. apply chain_ok; [apply ok_start|apply padded_bytes, Hm|apply padded_aligned].
  Qed.

  Lemma last_ok m : bytes_ok m -> ok (last_input m).
  Proof.
    intros Hm. pose proof (absorbed_ok m Hm) as H. unfold last_input. destruct (absorbed m) as [a b c d].
    unfold ok in *; cbn [M.v0 M.v1 M.v2 M.v3] in *. destruct H as (H0 & H1 & H2 & H3).
    split; [|split; [|split]]; auto. apply bnd_lxor; auto. unfold bnd. apply N.ltb_lt; vm_compute; reflexivity.
  Qed.

  Definition absorbS := absorb 8 16 run s0.
  Definition done (m : list N) : M.Obj :=
    (canon 16 [], M.mkSt (uadd 8 (N.of_nat (length m) mod 256) 8) k0 k1 (vec_of (S.rounds D (st (last_input m))))).

  Lemma rounds_eq v : ok v -> M.sipRounds D v = Ok (vec_of (S.rounds D (st v))).
  Proof using. intros Hv. destruct (rounds_ok D v Hv) as (w & -> & _ & <-). now rewrite vec_st. Qed.

  Lemma finalize_ok m : bytes_ok m -> M.finalize C D dbg (absorbS m) = Ok (done m).
  Proof.
    intros Hm. unfold M.finalize, absorbS, absorb.
    assert (0 < 8)%nat as H8 by lia.
    pose proof (rest_lt 8 m H8) as Hr. pose proof (rest_length 8 m H8) as Hrl.
    rewrite canon_size. destruct (Nat.ltb_spec 7 (length (rest 8 m))); [lia|].
    rewrite fill_canon by lia. rewrite bind_ok.
    rewrite fill_canon by (rewrite app_length, repeat_length; lia). rewrite bind_ok. cbn [repeat].
    rewrite canon_span, canon_clear by (rewrite !app_length, repeat_length; cbn [length]; lia).
    unfold run, s0, M.start. cbn [M.s_cnt M.s_k0 M.s_k1 M.s_v].
    assert (uadd 8 (uadd 8 0 (N.of_nat (length (pre 8 m)))) (trunc 8 (N.of_nat (length (rest 8 m))))
            = uadd 8 0 (N.of_nat (length m))) as ->.
    { rewrite uadd8_trunc, !uadd_mod, N.add_mod_idemp_l by apply pow2_nz. f_equal.
      rewrite <- (pre_rest 8 m) at 3. rewrite app_length. lia. }
    replace (uadd 8 0 (N.of_nat (length m))) with (N.of_nat (length m) mod 256)
      by (rewrite uadd_mod, N.add_0_l; reflexivity).
    assert ((rest 8 m ++ repeat 0 (7 - length (rest 8 m))) ++ [N.of_nat (length m) mod 256] = tail m) as ->.
    { unfold tail. rewrite Hrl, <- app_assoc. reflexivity. }
    assert (aligned 8 (tail m)) as Hta by (unfold aligned; rewrite tail_length; reflexivity).
    assert (bytes_ok (tail m)) as Htb.
    { pose proof (padded_bytes m Hm) as H0. rewrite padded_tail in H0. apply bytes_ok_app in H0. tauto. }
    rewrite impl_ok; [|apply chain_ok; [apply ok_start|apply bytes_ok_pre, Hm|apply pre_aligned, H8]|exact Htb|exact Hta].
    rewrite bind_ok. unfold run. cbn [M.s_cnt M.s_k0 M.s_k1 M.s_v].
    assert (chain 8 (cf C) (chain 8 (cf C) (M.reset_vec k0 k1) (pre 8 m)) (tail m) = absorbed m) as ->.
    { unfold absorbed. rewrite padded_tail. unfold chain. rewrite (pieces_app 8 (pre 8 m)) by (auto using pre_aligned).
      rewrite fold_left_app. reflexivity. }
    pose proof (last_ok m Hm) as Hl. unfold done. unfold last_input in *. destruct (absorbed m) as [a b c d].
    rewrite rounds_eq by exact Hl. rewrite bind_ok, tail_length. reflexivity.
  Qed.

  Definition hash (m : list N) : list N :=
    be_bytes 8 (S.finish D (fold_left (S.absorb C) (le_words 8 (S.padded m)) (S.initial k0 k1))).

  Lemma initial_ok : st (M.reset_vec k0 k1) = S.initial k0 k1.
  Proof using. reflexivity. Qed.

  Lemma array_ok m : M.toArray (done m) = Ok (hash m).
  Proof using.
    unfold M.toArray, done, hash. cbn [snd M.s_v]. rewrite <- initial_ok, <- chain_spec. fold (absorbed m).
    unfold S.finish. unfold last_input. destruct (absorbed m) as [a b c d]. unfold st. cbn [M.v0 M.v1 M.v2 M.v3].
    change 0xff with 255. destruct (S.rounds D (a, b, N.lxor c 255, d)) as [[[w0 w1] w2] w3]. cbn [vec_of].
    rewrite word_bytes_be_ok. rewrite <- !N.lxor_assoc. apply store_array_eq, be_bytes_length.
  Qed.

  Theorem implements : Implements (M.cls C D dbg k0 k1) hash (fun _ => True) absorbS done.
  Proof.
    assert (0 < 8)%nat as H8 by lia.
    constructor; cbn [M.cls c_new c_add c_finalize c_reset c_array Api.Obj].
    - unfold absorbS. rewrite absorb_nil by (first [reflexivity | lia]). reflexivity.
    - intros m d Hm Hd. unfold M.add, absorbS.
      apply (addData_ok 8 16 dbg (M.addDataImpl C dbg) inv run s0); auto.
      + lia.
      + apply ok_start.
      + reflexivity.
      + intros d' s Hs [Hd' _] Ha. apply impl_ok; assumption.
      + intros. apply inv_run; assumption.
      + intros. apply run_app; assumption.
    - intros m Hm _. apply finalize_ok, Hm.
    - intros m Hm _. apply array_ok.
    - intros m Hm. unfold M.reset, buf_clear, absorbS. rewrite absorb_buf_length by lia. reflexivity.
    - intros m Hm _. reflexivity.
    - intros m Hm _. apply be_bytes_ok.
  Qed.
End Class.

(** ** objects constructed from a key *)

Definition key_ok (key : list N) : Prop := length key = 16%nat /\ bytes_ok key.

Lemma key_words key : key_ok key -> exists k0 k1, le_words 8 key = [k0; k1] /\ bnd 64 k0 /\ bnd 64 k1 /\
  load_le 8 key 0 = Ok k0 /\ load_le 8 key 1 = Ok k1.
Proof.
  intros [Hl Hb].
  pose proof (load_le_ok 8 2 key ltac:(lia) Hl Hb [] 0 ltac:(lia)) as E0.
  pose proof (load_le_ok 8 2 key ltac:(lia) Hl Hb [] 1 ltac:(lia)) as E1. rewrite app_nil_r in *.
  pose proof (le_words_length 8 2 key ltac:(lia) Hl) as L.
  pose proof (le_words_bnd 8 2 key ltac:(lia) Hl Hb) as F.
  destruct (le_words 8 key) as [|k0 [|k1 [|]]]; try discriminate L.
  inversion F as [|? ? F0 F']; subst. inversion F' as [|? ? F1 _]; subst.
  exists k0, k1. cbn [nth] in *. auto.
Qed.

Section Object.
  Variables (C D : nat) (dbg : bool).
  Definition k0 (key : list N) := nth 0 (le_words 8 key) 0.
  Definition k1 (key : list N) := nth 1 (le_words 8 key) 0.

  Lemma construct_ok key : key_ok key ->
    M.construct dbg key = Ok (buf_new 16, M.start (k0 key) (k1 key)).
  Proof.
    intros H. destruct (key_words key H) as (a & b & E & _ & _ & E0 & E1). destruct H as [Hl _].
    unfold M.construct. rewrite Hl, Nat.eqb_refl, andb_false_r, E0, bind_ok, E1, bind_ok.
    unfold k0, k1. rewrite E. reflexivity.
  Qed.

  Theorem siphash_correct : ObjCorrect (M.obj_class C D dbg)
    (fun key l => be_bytes 8 (S.siphash C D key (concat l))) key_ok span_ok (fun _ => True) (fun sl _ => sl <> NoObject).
  Proof.
    assert (forall key, key_ok key ->
      Implements (M.cls C D dbg (k0 key) (k1 key)) (fun m => be_bytes 8 (S.siphash C D key m)) (fun _ => True)
        (absorbS C (k0 key) (k1 key)) (done C D (k0 key) (k1 key))) as HI.
    { intros key H. destruct (key_words key H) as (a & b & E & Ha & Hb & _). unfold S.siphash, k0, k1. rewrite E. cbn [nth].
      exact (implements C D dbg a b Ha Hb). }
    apply (value_correct (hash := fun key m => be_bytes 8 (S.siphash C D key m))
             (absorb := fun key => absorbS C (k0 key) (k1 key)) (done := fun key => done C D (k0 key) (k1 key))).
    - intros key H. rewrite (construct_ok key H). reflexivity.
    - intros key m d H Hm Hd. exact (im_add _ _ _ _ _ (HI key H) m d Hm Hd).
    - intros key m H Hm. exact (im_fin _ _ _ _ _ (HI key H) m Hm I).
    - intros key m H Hm. split; [exact (im_read _ _ _ _ _ (HI key H) m Hm I)|exact (im_bytes _ _ _ _ _ (HI key H) m Hm I)].
    - intros key m H _ Hm. exact (f_equal Ok (im_reset_a _ _ _ _ _ (HI key H) m Hm)).
    - intros key m H _ Hm. exact (f_equal Ok (im_reset_d _ _ _ _ _ (HI key H) m Hm I)).
  Qed.

  (** a key of the wrong size *)
  Lemma construct_debug key : length key <> 16%nat -> M.construct true key = Throw AssertFail.
  Proof. intros H. unfold M.construct. destruct (Nat.eqb_spec (length key) 16); [congruence|]. reflexivity. Qed.

  Lemma construct_short key : (length key < 16)%nat -> M.construct false key = Ub OobRead.
  Proof.
    intros H. unfold M.construct. cbn [andb].
    assert (forall i, (length key < 8 * i + 8)%nat -> load_le 8 key i = Ub OobRead) as Hload.
    { intros i Hi. unfold load_le, load_bytes.
      assert (mapM (aget key) (seq (8 * i) 8) = Ub OobRead) as ->; [|reflexivity].
      replace (8 * i)%nat with (8 * i + 0)%nat by lia. revert Hi. generalize (8 * i)%nat as s. intros s Hi.
      assert (forall n s, (s < length key + n)%nat -> (length key < s + n)%nat -> mapM (aget key) (seq s n) = Ub OobRead \/ (n = 0)%nat) as G.
      { induction n as [|n IH]; intros t Ht Hn; [now right|left]. cbn [seq mapM]. unfold aget at 1.
        destruct (nth_error key t) eqn:Et; [|reflexivity]. rewrite bind_ok.
        assert (t < length key)%nat by (apply nth_error_Some; congruence).
        destruct (IH (Datatypes.S t) ltac:(lia) ltac:(lia)) as [->| ->]; [reflexivity|lia]. }
      destruct (Nat.lt_ge_cases (length key + 8) (s + 0 + 1)) as [Hbig|Hsmall].
      - cbn [seq mapM]. unfold aget at 1. destruct (nth_error key (s + 0)) eqn:Et; [|reflexivity].
        assert (s + 0 < length key)%nat by (apply nth_error_Some; congruence). lia.
      - destruct (G 8%nat (s + 0)%nat ltac:(lia) ltac:(lia)) as [->|]; [reflexivity|discriminate]. }
    destruct (Nat.lt_ge_cases (length key) 8) as [Hs|Hs].
    - rewrite Hload by lia. reflexivity.
    - destruct (load_bytes_ok 8 key 0 ltac:(lia)). unfold load_le at 1. rewrite load_bytes_ok by lia. rewrite !bind_ok.
      rewrite Hload by lia. reflexivity.
  Qed.
End Object.

Theorem siphash_hash C D dbg key chunks : length key = 16%nat -> bytes_ok key -> Forall span_ok chunks ->
  ohash (M.obj_class C D dbg) key chunks = Ok (be_bytes 8 (S.siphash C D key (concat chunks))).
Proof. intros H1 H2 H3. exact (objcorrect_hash _ _ _ _ _ _ (siphash_correct C D dbg) key chunks (conj H1 H2) H3). Qed.

Theorem hash_wrong_key_debug C D key chunks : length key <> 16%nat -> ohash (M.obj_class C D true) key chunks = Throw AssertFail.
Proof. intros H. unfold ohash. cbn [oc_construct M.obj_class value_class]. now rewrite construct_debug by exact H. Qed.
Theorem hash_short_key_release C D key chunks : (length key < 16)%nat -> ohash (M.obj_class C D false) key chunks = Ub OobRead.
Proof. intros H. unfold ohash. cbn [oc_construct M.obj_class value_class]. now rewrite (construct_short C key H). Qed.
