(** The Tiger code computes Tiger and Tiger2. *)
From Coq Require Import List NArith Arith Bool Lia ZArith ZifyNat.
From Verif.Base Require Import Res CWord.
From Verif.Spec Require Import Words Client Merkle TigerSbox.
From Verif.Model Require Import Buffer Stream Api.
From Verif.Model.Gen Require Import TigerTables.
From Verif.Proof Require Import Words Streaming Blocks Rounds Api MD Class.
From Verif.Spec Require Tiger.
From Verif.Model Require Tiger.
Import ListNotations.
Local Open Scope N_scope.
Module S := Verif.Spec.Tiger.
Module M := Verif.Model.Tiger.

Definition v_ok (v : N * N * N) : Prop := let '(a, b, c) := v in bnd 64 a /\ bnd 64 b /\ bnd 64 c.
Definition x_ok (x : list N) : Prop := length x = 8%nat /\ Forall (bnd 64) x.

Definition sbox (k : nat) : list N := match k with 0%nat => t1 | 1%nat => t2 | 2%nat => t3 | _ => t4 end.

Lemma tables : tTable = [t1; t2; t3; t4].
Proof. vm_compute. reflexivity. Qed.

Lemma box_ok k i c s : (k < 4)%nat -> s = 8 * i -> M.tT k (ror 8 c s) = Ok (S.box (sbox k) i c).
Proof.
  intros Hk ->. unfold M.tT. rewrite tables.
  assert (aget [t1; t2; t3; t4] k = Ok (sbox k)) as ->.
  { do 4 (destruct k as [|k]; [reflexivity|]). lia. }
  rewrite bind_ok. unfold S.box, S.byte. rewrite ror_spec. change (2 ^ 8) with 256.
  apply aget_ok.
  assert (length (sbox k) = 256%nat) as -> by (do 3 (destruct k as [|k]; [vm_compute; reflexivity|]); vm_compute; reflexivity).
  pose proof (N.mod_lt (c / 2 ^ (8 * i)) 256 ltac:(discriminate)). lia.
Qed.

Lemma round_ok a b c x m : v_ok (a, b, c) -> bnd 64 x ->
  exists a' b' c', M.round a b c x m = Ok (a', b', c') /\ S.round m (a, b, c) x = (b', c', a') /\ v_ok (a', b', c').
Proof.
  intros (Ha & Hb & Hc) Hx. unfold M.round, S.round.
  set (c' := N.lxor c x).
  rewrite (box_ok 0 0 c'), bind_ok by (lia || reflexivity).
  rewrite (box_ok 1 2 c'), bind_ok by (lia || reflexivity).
  rewrite (box_ok 2 4 c'), bind_ok by (lia || reflexivity).
  rewrite (box_ok 3 6 c'), bind_ok by (lia || reflexivity).
  rewrite (box_ok 3 1 c'), bind_ok by (lia || reflexivity).
  rewrite (box_ok 2 3 c'), bind_ok by (lia || reflexivity).
  rewrite (box_ok 1 5 c'), bind_ok by (lia || reflexivity).
  rewrite (box_ok 0 7 c'), bind_ok by (lia || reflexivity).
  cbn [sbox]. fold (S.even c') (S.odd c').
  exists (usub 64 a (S.even c')), (umul 64 (uadd 64 b (S.odd c')) m), c'.
  split; [reflexivity|]. split.
  - now rewrite umul_spec, uadd_spec, usub_spec.
  - split; [apply bnd_usub|]. split; [apply bnd_umul|]. apply bnd_lxor; assumption.
Qed.

Lemma pass_ok x a b c m : v_ok (a, b, c) -> x_ok x ->
  exists a' b' c', M.pass x a b c m = Ok (a', b', c') /\ S.pass m (a, b, c) x = (c', a', b') /\ v_ok (a', b', c').
Proof.
  intros Hv [Hl Hx]. destruct (list_len8 _ Hl) as (x0 & x1 & x2 & x3 & x4 & x5 & x6 & x7 & ->).
  inv_Forall. unfold M.pass, S.pass. cbn [fold_left].
  repeat match goal with
  | |- context [bind (aget ?l ?i) ?k] =>
      rewrite (aget_ok 0 l i) by (cbn; lia); rewrite bind_ok; cbn [nth]
  | Hv : v_ok (?a, ?b, ?c), Hx : bnd 64 ?x |- context [bind (M.round ?a ?b ?c ?x m) _] =>
      let E1 := fresh in let E2 := fresh in let Hv' := fresh in
      destruct (round_ok a b c x m Hv Hx) as (? & ? & ? & E1 & E2 & Hv'); rewrite E1, E2, bind_ok; clear E1 E2;
      match type of Hv' with v_ok (?a', ?b', ?c') =>
        assert (v_ok (b', c', a')) by (unfold v_ok in *; tauto); clear Hv Hv' end
  end.
  do 3 eexists. split; [reflexivity|]. split; [reflexivity|]. unfold v_ok in *; tauto.
Qed.

Ltac wbnd := repeat first [assumption | apply bnd_lxor | apply bnd_wadd | apply bnd_mod].

Lemma bnd_sub w x y : bnd w (sub w x y).
Proof. apply bnd_mod. Qed.

Lemma keySchedule_ok x : x_ok x -> M.keySchedule x = Ok (S.key_schedule x) /\ x_ok (S.key_schedule x).
Proof.
  intros [Hl Hx]. destruct (list_len8 _ Hl) as (x0 & x1 & x2 & x3 & x4 & x5 & x6 & x7 & ->).
  inv_Forall. unfold M.keySchedule, S.key_schedule. cbv zeta. split.
  - rewrite !uadd_spec, !usub_spec, !ushl_spec, !ushr_spec.
    repeat rewrite unot_spec by (wbnd; apply bnd_sub). reflexivity.
  - split; [reflexivity|]. repeat constructor; wbnd; apply bnd_sub.
Qed.

Lemma load_ok blk tl : length blk = 64%nat -> bytes_ok blk ->
  for_ 0 8 (fun j x => let! w := load_le 8 (blk ++ tl) j in aset x j w) (repeat 0 8) = Ok (le_words 8 blk)
  /\ x_ok (le_words 8 blk).
Proof.
  intros Hl Hb. assert (length (le_words 8 blk) = 8%nat) as HL by (apply le_words_length; [lia|exact Hl]).
  split.
  - rewrite (for_update 0 (fun j _ => nth j (le_words 8 blk) 0)).
    + f_equal. symmetry. apply list_as_nth, HL.
    + intros i s Hi Hs. rewrite (load_le_ok 8 8 blk) by (auto; lia). rewrite bind_ok. apply aset_ok. lia.
    + reflexivity.
  - split; [exact HL|]. apply (le_words_bnd 8 8 blk); [lia|exact Hl|exact Hb].
Qed.

Lemma compress_ok blk tl h : v_ok h -> length blk = 64%nat -> bytes_ok blk ->
  M.compress (blk ++ tl) h = Ok (S.compress h blk) /\ v_ok (S.compress h blk).
Proof.
  intros Hh Hl Hb. destruct h as [[aa bb] cc]. unfold M.compress, S.compress.
  destruct (load_ok blk tl Hl Hb) as [-> HX]. rewrite bind_ok.
  set (X := le_words 8 blk) in *. clearbody X. unfold S.passes.
  destruct (keySchedule_ok X HX) as [E2 H2]. destruct (keySchedule_ok _ H2) as [E3 H3].
  destruct (pass_ok X aa bb cc 5 Hh HX) as (a & b & c & P1 & Q1 & Hv1). rewrite P1, Q1, bind_ok, E2, bind_ok.
  assert (v_ok (c, a, b)) as Hw1 by (unfold v_ok in *; tauto).
  destruct (pass_ok _ c a b 7 Hw1 H2) as (c2 & a2 & b2 & P2 & Q2 & Hv2). rewrite P2, Q2, bind_ok, E3, bind_ok.
  assert (v_ok (b2, c2, a2)) as Hw2 by (unfold v_ok in *; tauto).
  destruct (pass_ok _ b2 c2 a2 9 Hw2 H3) as (b3 & c3 & a3 & P3 & Q3 & Hv3). rewrite P3, Q3, bind_ok.
  unfold S.feed_forward. rewrite usub_spec, uadd_spec. split; [reflexivity|].
  unfold v_ok in *. split; [|split].
  - apply bnd_lxor; tauto.
  - apply bnd_sub.
  - apply bnd_wadd.
Qed.

Definition padb (V : nat) : N := if Nat.eqb V 1 then 1 else 128.

Lemma implements V size dbg (out : N * N * N -> list N) :
  (forall h, M.toArray size h = Ok (out h) /\ bytes_ok (out h)) ->
  Correct (M.cls V size dbg) (fun m => out (chain 64 S.compress S.iv (pad 64 8 (padb V) (le_bytes 8) m))) (fun _ => True).
Proof.
  intros Ho. do 2 eexists. unfold M.cls. fold (padb V).
  apply (md_implements 64 dbg (padb V) write_len_le (le_bytes 8) M.compress M.iv _ S.compress out v_ok).
  - lia.
  - reflexivity.
  - unfold padb. destruct (V =? 1)%nat; reflexivity.
  - apply write_len_le_ok.
  - apply le_bytes_length.
  - apply le_bytes_ok.
  - apply (le_bytes_mod 8).
  - repeat split; reflexivity.
  - intros blk tl h Hh Hl Hb. apply compress_ok; assumption.
  - intros h _. apply Ho.
Qed.

Lemma out192 h : M.toArray 24 h = Ok (S.digest h) /\ bytes_ok (S.digest h).
Proof.
  destruct h as [[a b] c]. unfold M.toArray, S.digest. cbn [flat_map]. rewrite !word_bytes_le_ok, app_nil_r. split.
  - apply store_array_eq. rewrite !app_length, !le_bytes_length. reflexivity.
  - repeat (apply bytes_ok_app; split); apply le_bytes_ok.
Qed.

Theorem tiger_correct dbg : Correct (M.cls 1 24 dbg) S.tiger (fun _ => True).
Proof. exact (implements 1 24 dbg S.digest out192). Qed.
Theorem tiger2_correct dbg : Correct (M.cls 2 24 dbg) S.tiger2 (fun _ => True).
Proof. exact (implements 2 24 dbg S.digest out192). Qed.

(** ** the shorter digests *)

Lemma store_array_overflow size bytes : (size < length bytes)%nat -> store_array size bytes = Ub OobWrite.
Proof.
  intros H. unfold store_array.
  assert (forall l arr k, (length arr < k + length l)%nat -> (k <= length arr)%nat ->
    foldM (fun b (st : list N * nat) => let! a := aset (fst st) (snd st) b in Ok (a, Datatypes.S (snd st))) l (arr, k) = Ub OobWrite) as G.
  { induction l as [|b l IH]; intros arr k H1 H2; cbn [length] in H1; [lia|]. cbn [foldM fst snd].
    destruct (Nat.eq_dec k (length arr)) as [->|Hk].
    - unfold aset. rewrite Nat.ltb_irrefl. reflexivity.
    - rewrite aset_ok by lia. rewrite !bind_ok. apply IH; rewrite upd_length; lia. }
  rewrite G by (rewrite repeat_length; lia). reflexivity.
Qed.

Lemma read_short size h : (size < 24)%nat -> M.toArray size h = Ub OobWrite.
Proof.
  intros H. destruct h as [[a b] c]. unfold M.toArray. apply store_array_overflow.
  cbn [flat_map]. rewrite !word_bytes_le_ok, !app_length, !le_bytes_length. exact H.
Qed.

Lemma short_ub V size dbg chunks : (size < 24)%nat -> Forall span_ok chunks ->
  hash_chunks (M.cls V size dbg) chunks = Ub OobWrite.
Proof.
  intros Hs Hc. destruct (implements V 24 dbg S.digest out192) as (ab & dn & HI).
  pose proof (foldM_absorb HI chunks Hc [] (Forall_nil _)) as E. rewrite <- (im_new _ _ _ _ _ HI) in E.
  pose proof (im_fin _ _ _ _ _ HI (concat chunks) (bytes_ok_concat _ Hc) I) as F.
  unfold hash_chunks.
  change (c_add (M.cls V size dbg)) with (c_add (M.cls V 24 dbg)).
  change (c_new (M.cls V size dbg)) with (c_new (M.cls V 24 dbg)).
  change (c_finalize (M.cls V size dbg)) with (c_finalize (M.cls V 24 dbg)).
  change (Obj (M.cls V size dbg)) with (Obj (M.cls V 24 dbg)).
  rewrite E, bind_ok. cbn [app]. rewrite F, bind_ok. apply read_short, Hs.
Qed.

Lemma short_refuted V size dbg chunks d : (size < 24)%nat -> Forall span_ok chunks ->
  hash_chunks (M.cls V size dbg) chunks = Ub OobWrite /\ hash_chunks (M.cls V size dbg) chunks <> Ok d.
Proof. intros Hs Hc. rewrite short_ub by assumption. split; [reflexivity|discriminate]. Qed.

Lemma lt24 n : Nat.ltb n 24 = true -> (n < 24)%nat.
Proof. apply Nat.ltb_lt. Qed.
