(** CRC-32, FNV, MD2, SipHash, BLAKE and BLAKE2 objects in any order of calls. *)
From Coq Require Import List NArith Arith Bool Lia ZArith ZifyNat ZifyN.
From Verif.Base Require Import Res CWord.
From Verif.Spec Require Import Words Client Merkle AnyOrder Ledger Registers.
From Verif.Model Require Import Buffer Stream Api Call BlakeMix Counter.
From Verif.Model Require Md2 SipHash Blake1 Blake2 Crc32 Fnv.
From Verif.Model.Gen Require Blake1Tables Blake1_224Calls Blake1_256Calls Blake1_384Calls Blake1_512Calls Blake2Calls Blake2sCalls.
From Verif.Proof Require Import Words Streaming Blocks Api MD MD128 Rounds Class BlakeMix Delayed Ledger.
From Verif.Proof Require Md2 SipHash Blake1 Blake2 Crc32 Fnv AnyOrder AnyOrderBlake.
From Verif.Spec Require Md2 SipHash Blake Blake2 Crc32 Fnv.
Import ListNotations.
Module P1 := Verif.Proof.Blake1.
Module P2 := Verif.Proof.Blake2.
Module M1 := Verif.Model.Blake1.
Module M2 := Verif.Model.Blake2.
Module MS := Verif.Model.SipHash.
Module PS := Verif.Proof.SipHash.

(** a run over blocks, seen through [abs] *)
Lemma fold_abs {St Reg} (B : nat) (step : St -> list N -> St) (inv : St -> Prop) (abs : St -> Reg) (eat : Reg -> list N -> Reg) : 0 < B ->
  (forall s b, inv s -> length b = B -> bytes_ok b -> abs (step s b) = eat (abs s) b /\ inv (step s b)) ->
  forall d s, inv s -> bytes_ok d -> aligned B d -> abs (chain B step s d) = fold_left eat (pieces B d) (abs s).
Proof.
  intros HB H d s Hs Hd Ha. unfold chain.
  pose proof (pieces_all B d HB Ha) as H1. pose proof (pieces_bytes B d HB Ha Hd) as H2.
  revert s Hs. induction (pieces B d) as [|b l IH]; intros s Hs; [reflexivity|].
  inversion_clear H1. inversion_clear H2. cbn [fold_left]. destruct (H s b Hs) as [E I]; [assumption..|]. rewrite IH, E by assumption. reflexivity.
Qed.

(** ** objects that take in every complete block *)
Section Eager.
  Context {St Reg : Type}.
  Variables (B cap : nat) (dbg : bool) (impl : list N -> St -> res St) (run : list N -> St -> St) (inv : St -> Prop).
  Variables (abs : St -> Reg) (eat close : Reg -> list N -> Reg).
  Hypothesis HB : 0 < B.
  Hypothesis Hcap : B <= cap.
  Hypothesis HB64 : (N.of_nat B < 2 ^ 64)%N.
  Hypothesis Himpl : forall d s, inv s -> bytes_ok d -> aligned B d -> impl d s = Ok (run d s) /\ inv (run d s).
  Hypothesis Hnil : forall s, inv s -> run [] s = s.
  Hypothesis Happ : forall x y s, aligned B x -> run (x ++ y) s = run y (run x s).
  Hypothesis Habs : forall d s, inv s -> bytes_ok d -> aligned B d -> abs (run d s) = fold_left eat (pieces B d) (abs s).

  Definition at_desk (o : desk Reg) (x : Buffer * St) : Prop :=
    fst x = canon cap (waiting o) /\ bytes_ok (waiting o) /\ length (waiting o) < B /\ inv (snd x) /\ register o = abs (snd x).

  Lemma at_new s r : inv s -> r = abs s -> at_desk (mkDesk [] r) (canon cap [], s).
  Proof using HB. intros Hs ->. repeat split; [constructor|exact HB|exact Hs]. Qed.

  Lemma eager_add o x d : at_desk o x -> span_ok d -> exists y, addData St B cap dbg impl d x = Ok y /\ at_desk (eager B eat d o) y.
  Proof using All.
    destruct x as [buf s]. intros (Eb & Hw & Hl & Hs & Er) Hd. cbn [fst snd] in *. subst buf.
    assert (canon cap (waiting o) = canon cap (rest B (waiting o)) /\ s = run (pre B (waiting o)) s) as [E1 E2].
    { unfold rest, pre, whole. rewrite Nat.div_small by exact Hl. cbn [Nat.mul skipn firstn]. split; [reflexivity|]. symmetry. apply Hnil, Hs. }
    exists (absorb B cap run s (waiting o ++ d)). split.
    - rewrite E1. rewrite E2 at 1. fold (absorb B cap run s (waiting o)).
      apply (addData_ok B cap dbg impl inv run s); auto.
      + intros d' s' Hs' [Hd' _] Ha. now apply Himpl.
      + intros d' s' Hs' Hd' Ha. now apply Himpl.
    - assert (bytes_ok (waiting o ++ d)) as Hx by (apply bytes_ok_app; split; [exact Hw|apply Hd]).
      unfold absorb, eager, taken. split; [reflexivity|]. cbn [waiting register snd]. change (length (waiting o ++ d) / B * B) with (whole B (waiting o ++ d)).
      split; [apply bytes_ok_rest, Hx|]. split; [apply rest_lt, HB|].
      split; [apply Himpl; [exact Hs|apply bytes_ok_pre, Hx|apply pre_aligned, HB]|].
      rewrite Habs by (first [exact Hs|apply bytes_ok_pre, Hx|apply pre_aligned, HB]). rewrite Er. reflexivity.
  Qed.

  Variables (s0 : St) (fin : Buffer * St -> res (Buffer * St)) (arr : St -> res (list N)) (start : Reg) (shown : Reg -> list N).
  Hypothesis H0 : inv s0 /\ abs s0 = start.
  Hypothesis Hfin : forall w s, inv s -> bytes_ok w -> length w < B ->
    exists s', fin (canon cap w, s) = Ok (canon cap [], s') /\ inv s' /\ abs s' = close (abs s) w.
  Hypothesis Harr : forall s, inv s -> arr s = Ok (shown (abs s)) /\ bytes_ok (shown (abs s)) /\ shown (abs s) <> [].

  Lemma eager_fin o x : at_desk o x -> exists y, fin x = Ok y /\ at_desk (mkDesk [] (close (register o) (waiting o))) y.
  Proof using HB Hfin.
    destruct x as [buf s]. intros (Eb & Hw & Hl & Hs & Er). cbn [fst snd] in *. subst buf.
    destruct (Hfin (waiting o) s Hs Hw Hl) as (s' & -> & Hs' & E). eexists. split; [reflexivity|]. rewrite Er, <- E. now apply at_new.
  Qed.
  Lemma at_clear o x : at_desk o x -> buf_clear (fst x) = canon cap [].
  Proof using Hcap. clear - Hcap. intros (Eb & _ & Hl & _). rewrite Eb. apply canon_clear, Nat.lt_le_incl, (Nat.lt_le_trans _ B); assumption. Qed.

  Theorem eager_follows : Follows true (desk_kind start close shown (eager B eat)) (stream_class B cap dbg impl s0 fin arr) at_desk.
  Proof using All.
    destruct H0 as [Hs0 E0].
    constructor; cbn [stream_class desk_kind c_new c_add c_finalize c_reset c_array k_new Ledger.k_add k_finalize k_reset k_digest Obj].
    - rewrite <- canon_nil. apply at_new; auto.
    - intros. now apply eager_add.
    - intros. now apply eager_fin.
    - intros o x Hx. rewrite (at_clear o x Hx). apply at_new; auto.
    - intros _ o x (_ & _ & _ & Hs & ->). now apply Harr.
  Qed.
End Eager.

(** ** objects that keep the last block *)
Section Lazy.
  Context {St Reg : Type}.
  Variables (B : nat) (dbg : bool) (impl : list N -> St -> res St) (run : list N -> St -> St) (inv : St -> Prop).
  Variables (abs : St -> Reg) (eat close : Reg -> list N -> Reg).
  Hypothesis HB : 0 < B.
  Hypothesis Himpl : forall d s, inv s -> bytes_ok d -> aligned B d -> impl d s = Ok (run d s) /\ inv (run d s).
  Hypothesis Hnil : forall s, inv s -> run [] s = s.
  Hypothesis Happ : forall x y s, aligned B x -> run (x ++ y) s = run y (run x s).
  Hypothesis Habs : forall d s, inv s -> bytes_ok d -> aligned B d -> abs (run d s) = fold_left eat (pieces B d) (abs s).

  Definition at_desk2 (o : desk Reg) (x : Buffer * St) : Prop :=
    fst x = canon B (waiting o) /\ bytes_ok (waiting o) /\ length (waiting o) <= B /\ inv (snd x) /\ register o = abs (snd x).

  Lemma at_new2 s r : inv s -> r = abs s -> at_desk2 (mkDesk [] r) (canon B [], s).
  Proof using. intros Hs ->. repeat split; [constructor|apply Nat.le_0_l|exact Hs]. Qed.

  Lemma lazy_add o x d : at_desk2 o x -> span_ok d -> exists y, M2.addData St B dbg impl d x = Ok y /\ at_desk2 (lazy B eat d o) y.
  Proof using All.
    destruct x as [buf s]. intros (Eb & Hw & Hl & Hs & Er) Hd. cbn [fst snd] in *. subst buf.
    assert (canon B (waiting o) = canon B (lastp B (waiting o)) /\ s = run (before B (waiting o)) s) as [E1 E2].
    { unfold lastp, before, keep. rewrite Nat.div_small by lia. cbn [Nat.mul skipn firstn]. split; [reflexivity|]. symmetry. apply Hnil, Hs. }
    exists (absorb2 B run s (waiting o ++ d)). split.
    - rewrite E1. rewrite E2 at 1. fold (absorb2 B run s (waiting o)).
      apply (addData2_ok B dbg impl inv run s); auto.
      + intros d' s' Hs' Hd' Ha. now apply Himpl.
      + intros d' s' Hs' Hd' Ha. now apply Himpl.
      + apply Hd.
    - assert (bytes_ok (waiting o ++ d)) as Hx by (apply bytes_ok_app; split; [exact Hw|apply Hd]).
      assert (bytes_ok (before B (waiting o ++ d))) as Hb by apply bytes_ok_firstn, Hx.
      unfold absorb2, lazy, taken. split; [reflexivity|]. cbn [waiting register snd].
      change ((length (waiting o ++ d) - 1) / B * B) with (keep B (waiting o ++ d)).
      split; [apply bytes_ok_skipn, Hx|]. split; [apply lastp_le, HB|].
      split; [apply Himpl; [exact Hs|exact Hb|apply before_aligned, HB]|].
      rewrite Habs by (first [exact Hs|exact Hb|apply before_aligned, HB]). rewrite Er. reflexivity.
  Qed.
End Lazy.

(** ** MD2 *)
Theorem md2_follows dbg : exists R, Follows true md2_kind (Model.Md2.cls dbg) R.
Proof.
  set (abs := fun s => (Model.Md2.m_x s, Model.Md2.m_checksum s)).
  assert (forall d s, Md2.inv s -> bytes_ok d -> aligned 16 d -> abs (Md2.run d s) = fold_left md2_eat (pieces 16 d) (abs s)) as Habs.
  { apply (fold_abs 16 Md2.cf Md2.inv abs md2_eat); [lia|]. intros s b Hs Hl Hb. split; [reflexivity|].
    destruct (Md2.compress_ok b [] s Hs Hl Hb) as [_ H]. exact H. }
  eexists. unfold Model.Md2.cls, md2_kind.
  apply (eager_follows 16 32 dbg Model.Md2.addDataImpl Md2.run Md2.inv abs md2_eat md2_close); [lia|lia|reflexivity|..].
  - exact Md2.impl_ok.
  - reflexivity.
  - exact Md2.run_app.
  - exact Habs.
  - split; [exact Md2.inv_init|reflexivity].
  - intros r s Hs Hr Hl. unfold Model.Md2.finalize. rewrite canon_size, (Nat.mod_small (length r)) by exact Hl.
    rewrite fill_canon by lia. rewrite bind_ok, canon_span.
    set (t := r ++ _). assert (length t = 16) as Lt by (unfold t; rewrite app_length, repeat_length; lia).
    assert (t = Spec.Md2.pad r) as Et.
    { unfold t, Spec.Md2.pad. rewrite (Nat.mod_small (length r)) by exact Hl. rewrite trunc_mod, N.mod_small; [reflexivity|]. change (2 ^ 8)%N with 256%N. lia. }
    assert (bytes_ok t) as Ht.
    { apply bytes_ok_app. split; [exact Hr|]. apply bytes_ok_repeat. rewrite trunc_mod. apply N.mod_lt. discriminate. }
    assert (aligned 16 t) as Ha by (unfold aligned; rewrite Lt; reflexivity).
    destruct (Md2.impl_ok t s Hs Ht Ha) as [-> Hi]. rewrite bind_ok. pose proof Hi as (_ & _ & I3 & I4 & _).
    assert (aligned 16 (Model.Md2.m_checksum (Md2.run t s))) as Ha' by (unfold aligned; rewrite I3; reflexivity).
    destruct (Md2.impl_ok (Model.Md2.m_checksum (Md2.run t s)) (Md2.run t s) Hi I4 Ha') as [-> Hi']. rewrite bind_ok, canon_clear by lia.
    eexists. split; [reflexivity|]. split; [exact Hi'|]. rewrite Habs by assumption.
    rewrite pieces_one by (lia || exact I3). cbn [fold_left]. unfold md2_close. rewrite <- Et.
    assert (abs (Md2.run t s) = md2_eat (abs s) t) as E by (rewrite Habs, pieces_one by (assumption || lia); reflexivity).
    change (Model.Md2.m_checksum (Md2.run t s)) with (snd (abs (Md2.run t s))). rewrite E. reflexivity.
  - intros s (I1 & I2 & _). unfold Model.Md2.toArray, abs. cbn [fst]. set (l := Model.Md2.m_x s) in *. clearbody l.
    rewrite (mapM_ok _ (fun i => nth i l 0%N)) by (intros i Hi; apply in_seq in Hi; apply aget_ok; lia).
    assert (map (fun i => nth i l 0%N) (seq 0 16) = firstn 16 l) as E.
    { do 16 (destruct l as [|? l]; [discriminate I1|]). reflexivity. }
    rewrite E. split; [reflexivity|]. split; [apply bytes_ok_firstn; exact I2|].
    intros E0. apply (f_equal (@length N)) in E0. rewrite firstn_length_le in E0 by lia. discriminate E0.
Qed.

(** ** SipHash *)
Lemma bytes_ne n x : be_bytes (S n) x <> [].
Proof. intros E. apply (f_equal (@length N)) in E. rewrite be_bytes_length in E. discriminate E. Qed.

Theorem siphash_follows C D dbg k0 k1 : bnd 64 k0 -> bnd 64 k1 -> exists R, Follows true (sip_kind C D k0 k1) (MS.cls C D dbg k0 k1) R.
Proof.
  intros Hk0 Hk1. set (inv := fun s => PS.inv s /\ MS.s_k0 s = k0 /\ MS.s_k1 s = k1 /\ (MS.s_cnt s < 256)%N).
  set (abs := fun s => (PS.st (MS.s_v s), MS.s_cnt s)).
  assert (inv (MS.start k0 k1)) as H0 by (split; [exact (PS.ok_start k0 k1 Hk0 Hk1)|split; [reflexivity|split; reflexivity]]).
  assert (forall d s, inv s -> bytes_ok d -> aligned 8 d -> MS.addDataImpl C dbg d s = Ok (PS.run C d s) /\ inv (PS.run C d s)) as Himpl.
  { intros d s (I1 & I2 & I3 & I4) Hd Ha. split; [now apply PS.impl_ok|]. split; [now apply PS.inv_run|]. split; [exact I2|]. split; [exact I3|].
    unfold PS.run. cbn [MS.s_cnt]. rewrite uadd_mod. apply N.mod_lt. discriminate. }
  assert (forall d s, inv s -> bytes_ok d -> aligned 8 d -> abs (PS.run C d s) = fold_left (sip_eat C) (pieces 8 d) (abs s)) as Habs.
  { intros d s (I1 & I2 & I3 & I4) Hd Ha. unfold abs, PS.run. cbn [MS.s_v MS.s_cnt]. rewrite PS.chain_spec, uadd_mod. unfold le_words.
    replace (N.of_nat (length d)) with (8 * N.of_nat (length (pieces 8 d)))%N.
    - generalize (pieces 8 d) (PS.st (MS.s_v s)) I4. generalize (MS.s_cnt s). clear. intros c l. revert c.
      induction l as [|b l IH]; intros c v Hc; cbn [map fold_left length].
      + rewrite N.mul_0_r, N.add_0_r, N.mod_small by exact Hc. reflexivity.
      + unfold sip_eat at 2. cbn [fst snd]. rewrite <- IH by (apply N.mod_lt; discriminate). f_equal.
        change (2 ^ 8)%N with 256%N. rewrite N.add_mod_idemp_l by discriminate. f_equal. lia.
    - rewrite pieces_length by (lia || exact Ha). unfold aligned in Ha. rewrite (Nat.div_mod (length d) 8) at 2 by lia. lia. }
  exists (at_desk 8 16 inv abs). unfold sip_kind.
  constructor; cbn [MS.cls desk_kind c_new c_add c_finalize c_reset c_array k_new Ledger.k_add k_finalize k_reset k_digest Api.Obj].
  - rewrite <- canon_nil. apply at_new; [lia|exact H0|]. unfold abs. cbn [MS.start MS.s_v MS.s_cnt]. now rewrite PS.initial_ok.
  - intros o x d Hx Hd. apply (eager_add 8 16 dbg (MS.addDataImpl C dbg) (PS.run C) inv abs (sip_eat C) (sip_close C D)); auto; [lia|lia|reflexivity|..].
    + intros [c a b v] (_ & _ & _ & I4). unfold PS.run. cbn [MS.s_cnt MS.s_k0 MS.s_k1 MS.s_v length] in *.
      rewrite uadd_mod, N.add_0_r, N.mod_small by exact I4. reflexivity.
    + intros. now apply PS.run_app.
  - intros o x Hx. apply (eager_fin 8 16 inv abs (sip_close C D)); [lia| |exact Hx]. clear o x Hx.
    intros r s Hs Hr Hl. unfold MS.finalize.
    rewrite canon_size. destruct (Nat.ltb_spec 7 (length r)); [lia|].
    rewrite fill_canon by lia. rewrite bind_ok. rewrite fill_canon by (rewrite app_length, repeat_length; lia). rewrite bind_ok. cbn [repeat].
    rewrite canon_span, canon_clear by (rewrite !app_length, repeat_length; cbn [length]; lia).
    rewrite PS.uadd8_trunc, uadd_mod. change (2 ^ 8)%N with 256%N.
    set (cnt := ((MS.s_cnt s + N.of_nat (length r)) mod 256)%N). assert (cnt < 256)%N as Hc by (apply N.mod_lt; discriminate).
    rewrite <- app_assoc. set (t := r ++ _ ++ _). set (s1 := MS.mkSt cnt (MS.s_k0 s) (MS.s_k1 s) (MS.s_v s)).
    assert (inv s1) as Hs1 by (destruct Hs as (I1 & I2 & I3 & I4); exact (conj I1 (conj I2 (conj I3 Hc)))).
    assert (length t = 8) as Lt by (unfold t; rewrite !app_length, repeat_length; cbn [length]; lia).
    assert (bytes_ok t) as Ht.
    { apply bytes_ok_app. split; [exact Hr|]. apply bytes_ok_app; split; [apply bytes_ok_repeat; reflexivity|constructor; [exact Hc|constructor]]. }
    assert (aligned 8 t) as Ha by (unfold aligned; rewrite Lt; reflexivity).
    destruct (Himpl t s1 Hs1 Ht Ha) as [-> Hi]. rewrite bind_ok.
    pose proof (Habs t s1 Hs1 Ht Ha) as Ea. rewrite pieces_one in Ea by (lia || exact Lt). cbn [fold_left] in Ea.
    unfold sip_close. change (abs s1) with (fst (abs s), cnt) in Ea. change (snd (abs s)) with (MS.s_cnt s). fold cnt. fold t. rewrite <- Ea.
    destruct Hi as (I1 & I2 & I3 & I4). unfold abs at 2. set (s' := PS.run C t s1) in *. clearbody s'. unfold PS.inv in I1.
    destruct (MS.s_v s') as [a b c d] eqn:Ev. destruct I1 as (J0 & J1 & J2 & J3). unfold PS.st. cbn [MS.v0 MS.v1 MS.v2 MS.v3] in *.
    destruct (PS.rounds_ok D (MS.mkVec a b (N.lxor c 0xff) d)) as (v & Er & Hv & Es).
    { split; [|split; [|split]]; cbn [MS.v0 MS.v1 MS.v2 MS.v3]; auto. apply bnd_lxor; auto. reflexivity. }
    rewrite Er, bind_ok. eexists. split; [reflexivity|]. split; [exact (conj Hv (conj I2 (conj I3 I4)))|].
    unfold abs. cbn [MS.s_v MS.s_cnt]. rewrite Es. reflexivity.
  - intros o x Hx. unfold MS.reset. rewrite (at_clear 8 16 inv abs) with (o := o) by (lia || exact Hx).
    destruct Hx as (_ & _ & _ & (_ & -> & -> & _) & _). apply at_new; [lia|exact H0|]. unfold abs. cbn [MS.start MS.s_v MS.s_cnt]. now rewrite PS.initial_ok.
  - intros _ o x (_ & _ & _ & _ & ->). unfold MS.toArray, abs, sip_shown, PS.st. destruct (MS.s_v (snd x)) as [a b' c d].
    cbn [MS.v0 MS.v1 MS.v2 MS.v3]. rewrite word_bytes_be_ok, !N.lxor_assoc, store_array_eq by apply be_bytes_length.
    split; [reflexivity|]. split; [apply be_bytes_ok|apply bytes_ne].
Qed.

(** ** BLAKE *)
Lemma firstn_flat_words n nb l : firstn (nb * n) (flat_map (be_bytes nb) l) = flat_map (be_bytes nb) (firstn n l).
Proof. apply P1.firstn_flat. intros. apply be_bytes_length. Qed.

Lemma inc_small nb narrow p : (P1.inc nb narrow p < 2 ^ 64)%N.
Proof.
  unfold P1.inc. pose proof (Z.mod_pos_bound (P1.bits nb narrow p) (2 ^ 64) ltac:(reflexivity)) as H.
  generalize dependent (P1.bits nb narrow p mod 2 ^ 64)%Z. intros z H.
  change (2 ^ 64)%N with (Z.to_N (2 ^ 64)). apply Z2N.inj_lt; lia.
Qed.

Section Blake1.
  Variables (w : N) (nb : nat) (r1 r2 r3 r4 : N) (C Cs : list N) (nrounds : nat) (F : Type) (calls : list (call F)) (K : Counter).
  Variables (narrow lastbit dbg : bool) (iv : list N) (n : nat) (val : ctr K -> N) (cok : ctr K -> Prop).
  Let B := 16 * nb.
  Let I (s : ctr K * list N) : Prop := cok (fst s) /\ length (snd s) = 8 /\ Forall (bnd w) (snd s).
  Let run := P1.run w nb r1 r2 r3 r4 Cs nrounds K narrow val.
  Let step := P1.step w nb r1 r2 r3 r4 Cs nrounds K narrow val.
  Let eat := blake_eat w nb r1 r2 r3 r4 Cs nrounds.
  Let close := blake_close w nb r1 r2 r3 r4 Cs nrounds lastbit narrow.
  Let abs (s : ctr K * list N) : list N * N := (snd s, val (fst s)).
  Hypothesis Hnb : 1 <= nb <= 8.
  Hypothesis Hnarrow : narrow = true -> nb = 4.
  Hypothesis Hw : w = (8 * N.of_nat nb)%N.
  Hypothesis Hn : 1 <= n <= 8.
  Hypothesis Hzero : val (k_zero K) = 0%N.
  Hypothesis Hadd : forall c x, cok c -> (x < 2 ^ 64)%N -> cok (k_add K c x) /\ val (k_add K c x) = ((val c + x) mod 2 ^ (2 * w))%N.
  Hypothesis Hwrite : forall cap x c, cok c -> length x + 2 * nb <= cap ->
    M1.write_len nb (k_lo K c) (k_hi K c) (canon cap (x ++ repeat 0%N (2 * nb))) = Ok (canon cap (x ++ be_bytes (2 * nb) (val c))).
  Hypothesis H0 : I (k_zero K, iv).
  Hypothesis Himpl : forall p d s, I s -> bytes_ok d -> aligned B d ->
    M1.impl w nb r1 r2 r3 r4 C F calls K narrow dbg p d s = Ok (run p d s) /\ I (run p d s).

  Let HB0 : 0 < B.
  Proof using Hnb. clear - Hnb B. unfold B. lia. Qed.

  Lemma step_ok p s b : I s -> length b = B -> bytes_ok b -> run p b s = step p s b /\ I (step p s b).
  Proof using HB0 Himpl.
    clear - HB0 Himpl. intros Hs Hl Hb.
    assert (run p b s = step p s b) as E by (unfold run, P1.run, chain; rewrite pieces_one by assumption; reflexivity).
    split; [exact E|]. rewrite <- E. apply Himpl; auto. unfold aligned. rewrite Hl. apply Nat.mod_same. lia.
  Qed.
  Lemma step_abs p s b : I s -> abs (step p s b) =
    let t := ((val (fst s) + P1.inc nb narrow p) mod 2 ^ (2 * w))%N in
    (Spec.Blake.compress w nb r1 r2 r3 r4 Cs nrounds (snd s) b (P1.tp nb narrow p t), t).
  Proof using Hadd.
    clear - Hadd. intros [Hc _]. destruct (Hadd (fst s) (P1.inc nb narrow p) Hc (inc_small nb narrow p)) as [_ E].
    unfold abs, step, P1.step. cbn [fst snd]. rewrite E. reflexivity.
  Qed.
  Lemma eat_abs s b : I s -> abs (step 0 s b) = eat (abs s) b.
  Proof using Hadd Hnb.
    intros Hs. rewrite step_abs by exact Hs. cbv zeta. rewrite P1.inc0, P1.tp0 by exact Hnb. reflexivity.
  Qed.

  Lemma close_ok r s : I s -> bytes_ok r -> length r < B ->
    exists s', M1.finalize w nb r1 r2 r3 r4 C F calls K narrow lastbit dbg (canon (2 * B) r, s) = Ok (canon (2 * B) [], s') /\ I s' /\
      abs s' = close (abs s) r.
  Proof using HB0 Hnb Hnarrow Hw Hadd Hwrite Himpl.
    clear Hn Hzero H0. intros Hs Hr Hl. unfold M1.finalize.
    change (M1.BLOCK_SIZE nb) with B.
    assert (rest B r = r) as Er by (unfold rest, whole; rewrite Nat.div_small by exact Hl; reflexivity).
    pose proof (zeros_rest B (2 * nb) r HB0 ltac:(unfold B; lia)) as Hz. rewrite Er in Hz. pose proof (zeros_le B (2 * nb) (length r) HB0) as Hzl.
    assert (length r + 1 + zeros B (2 * nb) (length r) + 2 * nb <= 2 * B) as Htot.
    { pose proof (Nat.mod_le (2 * B - (S (length r) + 2 * nb)) B ltac:(lia)). unfold B in *. lia. }
    rewrite canon_size. rewrite fill_canon by lia. rewrite bind_ok. cbn [repeat]. rewrite canon_size, app_length. cbn [length].
    rewrite pad_len_spec by (unfold B in *; lia). rewrite Nat.add_1_r, <- Hz.
    rewrite fill_canon by (rewrite ?app_length; cbn [length]; lia). rewrite bind_ok, repeat_app, app_assoc.
    rewrite P1.lastbit_ok by lia. rewrite bind_ok.
    destruct (Hadd (fst s) (N.of_nat (length r) * 8)) as [Hc Ec]; [apply Hs|unfold B in *; change (2 ^ 64)%N with 18446744073709551616%N; lia|].
    rewrite Hwrite by (try exact Hc; rewrite app_length, P1.marks_length; lia). rewrite bind_ok, canon_span, Ec.
    rewrite <- app_assoc. unfold close, blake_close. cbn [fst snd abs]. fold B. rewrite (N.mul_comm 8 (N.of_nat (length r))).
    set (e := be_bytes _ _). assert (length e = 2 * nb) as He by apply be_bytes_length. assert (bytes_ok e) as Heb by apply be_bytes_ok. clearbody e.
    set (t := r ++ _ ++ e).
    assert (length t = length r + 1 + 2 * nb + zeros B (2 * nb) (length r)) as Lt.
    { unfold t. rewrite !app_length, P1.marks_length, He. lia. }
    assert (bytes_ok t) as Ht.
    { unfold t. apply bytes_ok_app. split; [exact Hr|]. apply bytes_ok_app; split; [apply P1.marks_bytes|exact Heb]. }
    assert (aligned B t) as Ha by (unfold aligned; rewrite Lt; apply zeros_aligned, HB0).
    assert (length t <= 2 * B) as Hle by lia.
    pose proof (P1.tail_cases nb (length r) Hnb) as Hcases. cbv zeta in Hcases. fold B in Hcases. rewrite Nat.mod_small in Hcases by exact Hl.
    set (p := zeros B (2 * nb) (length r) + 2 * nb + 1) in *.
    destruct (Himpl p t s Hs Ht Ha) as [-> Hi]. rewrite bind_ok, canon_clear by exact Hle. eexists. split; [reflexivity|]. split; [exact Hi|].
    assert (length t = length r + p) as Lp by (unfold p; rewrite Lt; clear; lia). clearbody t p. clear Ec Hc He Heb e Hz Hzl Htot Lt Hle.
    destruct Hcases as [(Hlt & Ep & _)|(Hge & Ep & _)].
    - assert (length t = B) as Lt by lia.
      destruct (step_ok p s t Hs Lt Ht) as [-> _]. rewrite step_abs by exact Hs. cbv zeta.
      destruct (Nat.ltb_spec (length r) (14 * nb)); [|lia].
      assert (P1.bits nb narrow p = 8 * Z.of_nat (length r))%Z as Eb.
      { unfold P1.bits, M1.nonPaddingBits. change (M1.BLOCK_SIZE nb) with B.
        replace ((Z.of_nat B - Z.of_nat p) * 8)%Z with (8 * Z.of_nat (length r))%Z by (rewrite Ep; lia).
        destruct narrow; [|reflexivity]. apply Z.mod_small. unfold B in *. change (2 ^ 32)%Z with 4294967296%Z. lia. }
      assert (P1.inc nb narrow p = N.of_nat (length r) * 8)%N as Ei.
      { unfold P1.inc. rewrite Eb, Z.mod_small by (unfold B in *; change (2 ^ 64)%Z with 18446744073709551616%Z; lia). lia. }
      unfold P1.tp. rewrite Eb, Ei. destruct (Z.ltb_spec 0 (8 * Z.of_nat (length r))); destruct (Nat.eqb_spec (length r) 0); try lia; reflexivity.
    - assert (length t = B + B) as Lt by lia.
      assert (length (firstn B t) = B) as L1 by (apply firstn_length_le; lia).
      assert (length (skipn B t) = B) as L2 by (rewrite skipn_length; lia).
      assert (run p t s = step p (step p s (firstn B t)) (skipn B t)) as Erun.
      { unfold run, P1.run, chain. rewrite <- (firstn_skipn B t) at 1. rewrite pieces_cons, pieces_one by assumption. reflexivity. }
      rewrite Erun. destruct (step_ok p s (firstn B t) Hs L1 (bytes_ok_firstn _ _ Ht)) as [_ Hs1].
      pose proof (step_abs p s (firstn B t) Hs) as E1. rewrite step_abs by exact Hs1.
      change (val (fst (step p s (firstn B t)))) with (snd (abs (step p s (firstn B t)))).
      change (snd (step p s (firstn B t))) with (fst (abs (step p s (firstn B t)))). rewrite E1. cbn [fst snd]. cbv zeta.
      destruct (Nat.ltb_spec (length r) (14 * nb)); [lia|].
      assert (P1.inc nb narrow p = 2 ^ (if narrow then 32 else 64) - 8 * N.of_nat (B - length r))%N as ->.
      { unfold P1.inc, P1.bits, M1.nonPaddingBits. change (M1.BLOCK_SIZE nb) with B. rewrite Ep. clear - Hl Hnb. unfold B in *. destruct narrow.
        - rewrite <- (Z.mod_unique_pos ((Z.of_nat (16 * nb) - Z.of_nat (2 * (16 * nb) - length r)) * 8) (2 ^ 32) (-1) (2 ^ 32 - 8 * (Z.of_nat (16 * nb) - Z.of_nat (length r)))).
          + rewrite Z.mod_small; change (2 ^ 64)%Z with 18446744073709551616%Z; change (2 ^ 32)%Z with 4294967296%Z; change (2 ^ 32)%N with 4294967296%N; lia.
          + change (2 ^ 32)%Z with 4294967296%Z. lia.
          + lia.
        - rewrite <- (Z.mod_unique_pos ((Z.of_nat (16 * nb) - Z.of_nat (2 * (16 * nb) - length r)) * 8) (2 ^ 64) (-1) (2 ^ 64 - 8 * (Z.of_nat (16 * nb) - Z.of_nat (length r)))).
          + change (2 ^ 64)%Z with 18446744073709551616%Z; change (2 ^ 64)%N with 18446744073709551616%N; lia.
          + change (2 ^ 64)%Z with 18446744073709551616%Z. lia.
          + lia. }
      assert (forall v, P1.tp nb narrow p v = if narrow then v else 0%N) as Htp.
      { intros v. unfold P1.tp, P1.bits, M1.nonPaddingBits. change (M1.BLOCK_SIZE nb) with B. rewrite Ep. clear - Hl Hnb. unfold B in *. destruct narrow.
        - rewrite <- (Z.mod_unique_pos ((Z.of_nat (16 * nb) - Z.of_nat (2 * (16 * nb) - length r)) * 8) (2 ^ 32) (-1) (2 ^ 32 - 8 * (Z.of_nat (16 * nb) - Z.of_nat (length r)))).
          + destruct (Z.ltb_spec 0 (2 ^ 32 - 8 * (Z.of_nat (16 * nb) - Z.of_nat (length r)))) as [|Hx]; [reflexivity|].
            change (2 ^ 32)%Z with 4294967296%Z in Hx. lia.
          + change (2 ^ 32)%Z with 4294967296%Z. lia.
          + lia.
        - destruct (Z.ltb_spec 0 ((Z.of_nat (16 * nb) - Z.of_nat (2 * (16 * nb) - length r)) * 8)); [lia|reflexivity]. }
      rewrite !Htp. destruct narrow; reflexivity.
  Qed.

  Theorem blake1_follows : exists R, Follows true (blake_kind w nb r1 r2 r3 r4 Cs nrounds iv (nb * n) lastbit narrow)
    (M1.cls w nb r1 r2 r3 r4 C F calls K narrow lastbit dbg iv (nb * n) n) R.
  Proof using All.
    eexists. unfold M1.cls, blake_kind. change (M1.BLOCK_SIZE nb) with B.
    apply (eager_follows B (2 * B) dbg (M1.impl w nb r1 r2 r3 r4 C F calls K narrow dbg 0) (run 0) I abs eat close).
    - exact HB0.
    - lia.
    - unfold B. change (2 ^ 64)%N with 18446744073709551616%N. lia.
    - intros. now apply Himpl.
    - reflexivity.
    - intros x y s Ha. unfold run, P1.run, chain. now rewrite pieces_app, fold_left_app by assumption.
    - apply (fold_abs B (step 0) I abs eat HB0). intros s b Hs Hl Hb. split; [now apply eat_abs|now apply step_ok].
    - split; [exact H0|]. unfold abs. cbn [fst snd]. now rewrite Hzero.
    - intros. now apply close_ok.
    - intros s (_ & Hl & _). unfold M1.toArray, abs. cbn [fst]. rewrite (flat_map_ext _ (be_bytes nb)) by apply word_bytes_be_ok.
      rewrite firstn_flat_words.
      assert (length (flat_map (be_bytes nb) (firstn n (snd s))) = nb * n) as L.
      { rewrite (flat_length _ nb) by apply be_bytes_length. rewrite firstn_length, Hl. f_equal. lia. }
      rewrite store_array_eq by exact L. split; [reflexivity|]. split; [apply bytes_ok_flat_map, be_bytes_ok|].
      intros E. rewrite E in L. cbn [length] in L. lia.
  Qed.
End Blake1.

(** ** BLAKE2 *)
Section Blake2.
  Variables (w : N) (nb : nat) (r1 r2 r3 r4 : N) (IV : list N) (nrounds : nat) (F : Type) (calls : list (call F)) (K : Counter) (dbg : bool).
  Variables (val : ctr K -> N) (cok : ctr K -> Prop).
  Let B := 16 * nb.
  Let I (s : ctr K * list N) : Prop := cok (fst s) /\ length (snd s) = 8 /\ Forall (bnd w) (snd s).
  Let run := P2.run w nb r1 r2 r3 r4 IV nrounds K val.
  Let step := P2.step w nb r1 r2 r3 r4 IV nrounds K val.
  Let eat := blake2_eat w nb r1 r2 r3 r4 nrounds IV.
  Let close := blake2_close w nb r1 r2 r3 r4 nrounds IV.
  Let abs (s : ctr K * list N) : list N * N := (snd s, val (fst s)).
  Hypothesis Hnb : 1 <= nb <= 8.
  Hypothesis Hzero : val (k_zero K) = 0%N.
  Hypothesis Hadd : forall c x, cok c -> (x < 2 ^ 64)%N -> cok (k_add K c x) /\ val (k_add K c x) = ((val c + x) mod 2 ^ (2 * w))%N.
  Hypothesis H0 : I (k_zero K, M2.h_reset IV (N.of_nat (8 * nb))).
  Hypothesis Himpl : forall f p d s, I s -> bytes_ok d -> aligned B d ->
    M2.impl w nb r1 r2 r3 r4 IV F calls K dbg f p d s = Ok (run f p d s) /\ I (run f p d s).

  Let HB0 : 0 < B.
  Proof using Hnb. clear - Hnb B. unfold B. lia. Qed.

  Lemma step2_ok f p s b : I s -> length b = B -> bytes_ok b -> run f p b s = step f p s b /\ I (step f p s b).
  Proof using HB0 Himpl.
    clear - HB0 Himpl. intros Hs Hl Hb.
    assert (run f p b s = step f p s b) as E by (unfold run, P2.run, chain; rewrite pieces_one by assumption; reflexivity).
    split; [exact E|]. rewrite <- E. apply Himpl; auto. unfold aligned. rewrite Hl. apply Nat.mod_same. lia.
  Qed.
  Lemma step2_abs f p s b : I s -> p <= B -> abs (step f p s b) =
    let t := ((val (fst s) + N.of_nat (B - p)) mod 2 ^ (2 * w))%N in (Spec.Blake2.compress w nb r1 r2 r3 r4 nrounds IV (snd s) b t f, t).
  Proof using Hadd Hnb.
    clear - Hadd Hnb. intros [Hc _] Hp.
    destruct (Hadd (fst s) (N.of_nat (B - p)) Hc) as [_ E]; [unfold B; change (2 ^ 64)%N with 18446744073709551616%N; lia|].
    unfold abs, step, P2.step. cbn [fst snd]. rewrite P2.inc_eq by assumption. fold B. rewrite E. reflexivity.
  Qed.

  Theorem blake2_follows : exists R, Follows true (blake2_kind w nb r1 r2 r3 r4 nrounds IV (8 * nb)) (M2.cls w nb r1 r2 r3 r4 IV F calls K dbg (8 * nb)) R.
  Proof using All.
    assert (abs (k_zero K, M2.h_reset IV (N.of_nat (8 * nb))) = (Spec.Blake2.h0 IV (N.of_nat (8 * nb)), 0%N)) as E0.
    { unfold abs. cbn [fst snd]. rewrite Hzero. reflexivity. }
    exists (at_desk2 B I abs). unfold M2.cls, blake2_kind. change (M2.BLOCK_SIZE nb) with B.
    constructor; cbn [desk_kind c_new c_add c_finalize c_reset c_array k_new Ledger.k_add k_finalize k_reset k_digest Obj].
    - rewrite <- canon_nil. apply at_new2; auto.
    - intros o x d Hx Hd. apply (lazy_add B dbg (M2.impl w nb r1 r2 r3 r4 IV F calls K dbg false 0) (run false 0) I abs eat); auto.
      + intros u y s Ha. unfold run, P2.run, chain. now rewrite pieces_app, fold_left_app by assumption.
      + apply (fold_abs B (step false 0) I abs eat HB0). intros s b Hs Hl Hb. split; [|now apply step2_ok].
        rewrite step2_abs by (exact Hs || lia). rewrite Nat.sub_0_r. reflexivity.
    - intros o [buf s] (Eb & Hr & Hl & Hs & Er). cbn [fst snd] in *. subst buf. unfold M2.finalize. change (M2.BLOCK_SIZE nb) with B.
      set (r := waiting o) in *. rewrite canon_size, fill_canon by lia. rewrite bind_ok, canon_span.
      set (t := r ++ repeat 0%N (B - length r)). assert (length t = B) as Lt by (unfold t; rewrite app_length, repeat_length; lia).
      assert (bytes_ok t) as Ht by (apply bytes_ok_app; split; [exact Hr|apply bytes_ok_repeat; reflexivity]).
      destruct (step2_ok true (B - length r) s t Hs Lt Ht) as [E Hs'].
      destruct (Himpl true (B - length r) t s Hs Ht) as [-> _]; [unfold aligned; rewrite Lt; apply Nat.mod_same; lia|].
      rewrite bind_ok, canon_clear by lia. rewrite E. eexists. split; [reflexivity|]. apply at_new2; [exact Hs'|].
      rewrite step2_abs by (exact Hs || lia). rewrite Er. unfold blake2_close. fold B. cbv zeta. cbn [fst snd abs].
      replace (B - (B - length r)) with (length r) by lia. reflexivity.
    - intros o x (Eb & _ & Hl & _). rewrite Eb, canon_clear by exact Hl. apply at_new2; auto.
    - intros _ o x (_ & _ & _ & (_ & Hl & _) & ->). unfold M2.toArray, abs. cbn [fst].
      rewrite (flat_map_ext _ (le_bytes nb)) by apply word_bytes_le_ok.
      assert (length (flat_map (le_bytes nb) (snd (snd x))) = 8 * nb) as L.
      { rewrite (flat_length _ nb) by apply le_bytes_length. rewrite Hl. lia. }
      rewrite store_array_eq by exact L. rewrite firstn_all2 by lia. split; [reflexivity|]. split; [apply bytes_ok_flat_map, le_bytes_ok|].
      intros E. rewrite E in L. cbn [length] in L. lia.
  Qed.
End Blake2.

Ltac side := first [assumption | lia | discriminate | reflexivity | apply Forall_bndb; reflexivity
  | split; [reflexivity | apply Forall_bndb; reflexivity] | split; reflexivity].

Theorem blake256_follows dbg : exists R, Follows true blake256_kind (M1.cls256 dbg) R.
Proof.
  refine (blake1_follows 32 4 16 12 8 7 Blake1Tables.cTable32 Spec.Blake.C256 14 _ Blake1_256Calls.calls ctr64 false true dbg M1.iv256 8 (fun c => c) P1.cok64
    _ _ _ _ eq_refl P1.ctr64_add P1.write_len4_ok _ _); [lia|discriminate|reflexivity|lia|..].
  - split; [reflexivity|split; [reflexivity|apply Forall_bndb; reflexivity]].
  - intros p d s Hs Hd Ha.
    refine (P1.loop_ok 32 4 16 12 8 7 Spec.Blake.C256 14 _ Blake1_256Calls.blakeMix Blake1_256Calls.calls ctr64 false dbg (fun c => c) P1.cok64
      _ _ _ _ _ _ _ _ P1.calls256 P1.ctr64_lo P1.ctr64_hi P1.ctr64_add (conj eq_refl eq_refl) P1.write_len4_ok p d s Hs Hd Ha); side.
Qed.
Theorem blake224_follows dbg : exists R, Follows true blake224_kind (M1.cls224 dbg) R.
Proof.
  refine (blake1_follows 32 4 16 12 8 7 Blake1Tables.cTable32 Spec.Blake.C256 14 _ Blake1_224Calls.calls ctr64 true false dbg M1.iv224 7 (fun c => c) P1.cok64
    _ _ _ _ eq_refl P1.ctr64_add P1.write_len4_ok _ _); [lia|reflexivity|reflexivity|lia|..].
  - split; [reflexivity|split; [reflexivity|apply Forall_bndb; reflexivity]].
  - intros p d s Hs Hd Ha.
    refine (P1.loop_ok 32 4 16 12 8 7 Spec.Blake.C256 14 _ Blake1_224Calls.blakeMix Blake1_224Calls.calls ctr64 true dbg (fun c => c) P1.cok64
      _ _ _ _ _ _ _ _ P1.calls224 P1.ctr64_lo P1.ctr64_hi P1.ctr64_add (conj eq_refl eq_refl) P1.write_len4_ok p d s Hs Hd Ha); side.
Qed.
Theorem blake512_follows dbg : exists R, Follows true blake512_kind (M1.cls512 dbg) R.
Proof.
  refine (blake1_follows 64 8 32 25 16 11 Blake1Tables.cTable64 Spec.Blake.C512 16 _ Blake1_512Calls.calls ctr128 false true dbg M1.iv512 8 u128_val u128_ok
    _ _ _ _ eq_refl P1.ctr128_add P1.write_len8_ok _ _); [lia|discriminate|reflexivity|lia|..].
  - split; [split; reflexivity|split; [reflexivity|apply Forall_bndb; reflexivity]].
  - intros p d s Hs Hd Ha.
    refine (P1.loop_ok 64 8 32 25 16 11 Spec.Blake.C512 16 _ Blake1_512Calls.blakeMix Blake1_512Calls.calls ctr128 false dbg u128_val u128_ok
      _ _ _ _ _ _ _ _ P1.calls512 P1.ctr128_lo P1.ctr128_hi P1.ctr128_add (conj (conj eq_refl eq_refl) eq_refl) P1.write_len8_ok p d s Hs Hd Ha); side.
Qed.
Theorem blake384_follows dbg : exists R, Follows true blake384_kind (M1.cls384 dbg) R.
Proof.
  refine (blake1_follows 64 8 32 25 16 11 Blake1Tables.cTable64 Spec.Blake.C512 16 _ Blake1_384Calls.calls ctr128 false false dbg M1.iv384 6 u128_val u128_ok
    _ _ _ _ eq_refl P1.ctr128_add P1.write_len8_ok _ _); [lia|discriminate|reflexivity|lia|..].
  - split; [split; reflexivity|split; [reflexivity|apply Forall_bndb; reflexivity]].
  - intros p d s Hs Hd Ha.
    refine (P1.loop_ok 64 8 32 25 16 11 Spec.Blake.C512 16 _ Blake1_384Calls.blakeMix Blake1_384Calls.calls ctr128 false dbg u128_val u128_ok
      _ _ _ _ _ _ _ _ P1.calls384 P1.ctr128_lo P1.ctr128_hi P1.ctr128_add (conj (conj eq_refl eq_refl) eq_refl) P1.write_len8_ok p d s Hs Hd Ha); side.
Qed.
Theorem blake2b_follows dbg : exists R, Follows true blake2b_kind (M2.cls_b dbg) R.
Proof.
  refine (blake2_follows 64 8 32 24 16 63 M2.iv_b 12 _ Blake2Calls.calls ctr128 dbg u128_val u128_ok _ eq_refl P1.ctr128_add _ _); [lia|..].
  - split; [split; reflexivity|split; [reflexivity|apply Forall_bndb; reflexivity]].
  - intros f p d s Hs Hd Ha.
    refine (P2.loop_ok 64 8 32 24 16 63 M2.iv_b 12 _ Blake2Calls.blakeMix Blake2Calls.calls ctr128 dbg u128_val u128_ok
      _ _ _ _ _ _ _ _ P2.calls_b P1.ctr128_lo P1.ctr128_hi P1.ctr128_add (conj (conj eq_refl eq_refl) eq_refl) f p d s Hs Hd Ha); side.
Qed.
Theorem blake2s_follows dbg : exists R, Follows true blake2s_kind (M2.cls_s dbg) R.
Proof.
  refine (blake2_follows 32 4 16 12 8 7 M2.iv_s 10 _ Blake2sCalls.calls ctr64 dbg (fun c => c) P1.cok64 _ eq_refl P1.ctr64_add _ _); [lia|..].
  - split; [reflexivity|split; [reflexivity|apply Forall_bndb; reflexivity]].
  - intros f p d s Hs Hd Ha.
    refine (P2.loop_ok 32 4 16 12 8 7 M2.iv_s 10 _ Blake2sCalls.blakeMix Blake2sCalls.calls ctr64 dbg (fun c => c) P1.cok64
      _ _ _ _ _ _ _ _ P2.calls_s P1.ctr64_lo P1.ctr64_hi P1.ctr64_add (conj eq_refl eq_refl) f p d s Hs Hd Ha); side.
Qed.

(** ** CRC-32 and FNV *)
Theorem crc_follows : exists R, Follows true crc_kind Model.Crc32.cls R.
Proof.
  exists (fun s h => h = s /\ bnd 32 h).
  constructor; cbn [Model.Crc32.cls crc_kind c_new c_add c_finalize c_reset c_array k_new Ledger.k_add k_finalize k_reset k_digest Api.Obj Book].
  - split; reflexivity.
  - intros s h d [-> Hh] [Hd _]. rewrite Crc32.addDataImpl_ok by assumption. eexists. split; [reflexivity|].
    rewrite Crc32.remainder_bytes by exact Hd. split; [reflexivity|now apply Crc32.feeds_bnd].
  - intros s h [-> Hh]. eexists. split; [reflexivity|]. split; [now apply unot_spec|apply bnd_lxor; [exact Hh|reflexivity]].
  - intros _ h _. split; reflexivity.
  - intros _ s h [-> _]. unfold Model.Crc32.toArray. rewrite word_bytes_be_ok, store_array_eq by apply be_bytes_length.
    split; [reflexivity|]. split; [apply be_bytes_ok|apply bytes_ne].
Qed.

Theorem fnv_follows size variant : Fnv.size_ok size -> variant <= 2 ->
  exists R, Follows true (fnv_kind (Model.Fnv.width size) size (Fnv.start size variant)
    (if variant <=? 1 then Spec.Fnv.multiply_first else Spec.Fnv.add_first) (negb (variant =? 0))) (Model.Fnv.cls size variant) R.
Proof.
  intros Hs Hv. exists eq.
  constructor; cbn [Model.Fnv.cls fnv_kind c_new c_add c_finalize c_reset c_array k_new Ledger.k_add k_finalize k_reset k_digest Api.Obj Book].
  - symmetry. now apply Fnv.new_ok.
  - intros s h d <- _. eexists. split; [reflexivity|].
    assert (forall (f g : N -> N -> N), (forall a b, f a b = g a b) -> forall h, fold_left f d h = fold_left g d h) as Hext.
    { intros f g E. induction d as [|b d IH]; intros x; [reflexivity|]. cbn [fold_left]. rewrite E. apply IH. }
    destruct variant as [|[|[|]]]; [| | |lia]; apply Hext; intros a b; unfold Model.Fnv.step; cbn [Nat.leb Nat.eqb];
      now rewrite Fnv.multiply_ok by exact Hs.
  - intros s h <-. eexists. split; reflexivity.
  - intros s h <-. destruct variant as [|v]; [reflexivity|]. cbn [Nat.eqb negb]. rewrite <- (Fnv.new_ok size (S v) Hs). unfold Model.Fnv.new, Model.Fnv.reset.
    cbn [Nat.leb]. destruct Hs as [-> | ->]; reflexivity.
  - intros _ s h <-. unfold Model.Fnv.toArray. rewrite word_bytes_be_ok, store_array_eq by apply be_bytes_length.
    split; [reflexivity|]. split; [apply be_bytes_ok|]. destruct Hs as [-> | ->]; apply bytes_ne.
Qed.
