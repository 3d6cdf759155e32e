(** operator== of the sponge classes: two finalized objects of the same class with equal states have equal digests.
    After finalize() the state is KECCAK-f applied a number of times, fixed by the digest length, to the absorbed state. *)
From Coq Require Import List NArith ZArith Arith Bool Lia.
From Verif.Base Require Import Res CWord.
From Verif.Spec Require Import Words Client Legal.
From Verif.Model Require Import Buffer Stream Api Library.
From Verif.Model Require Keccak.
From Verif.Proof Require Import Words Streaming Blocks Rounds Api Class Post KeccakF KeccakPerm.
From Verif.Proof Require Import Keccak Equality.
From Verif.Proof Require Crc32.
Import ListNotations.
Local Open Scope N_scope.
Module M := Verif.Model.Keccak.

(** ** Invariants of legal programs: the flag tells whether the object is finalized *)
Record KeptLegal (C : HashClass) (I : bool -> Obj C -> Prop) : Prop := {
  kl_new : I false (c_new C);
  kl_add : forall d x, bytes_ok d -> I false x -> post (c_add C d x) (I false);
  kl_fin : forall x, I false x -> post (c_finalize C x) (I true);
  kl_reset : forall b x, I b x -> I false (c_reset C x)
}.
Lemma kept_legal_op C I ne o b b' x : KeptLegal C I -> legal_op ne o b b' -> I b x -> post (exec_op C o x) (fun r => I b' (fst r)).
Proof.
  intros [H1 H2 H3 H4] Ho Hx. destruct Ho; cbn [exec_op].
  - apply (post_bind _ _ (I false)); [apply H2; [now apply H|exact Hx]|]. intros y Hy. apply post_ok, Hy.
  - apply (post_bind _ _ (I true)); [apply H3, Hx|]. intros y Hy. apply post_ok, Hy.
  - apply post_ok, (H4 b), Hx.
  - repeat (apply post_any; intros ?). apply post_ok, Hx.
  - repeat (apply post_any; intros ?). apply post_ok, Hx.
  - repeat (apply post_any; intros ?). apply post_ok, Hx.
  - repeat (apply post_any; intros ?). apply post_ok, Hx.
  - repeat (apply post_any; intros ?). apply post_ok, Hx.
Qed.
Lemma kept_legal C I ne p s s' : KeptLegal C I -> legal ne p s s' -> forall st os st', (forall i, I (s i) (st i)) ->
  exec C p st = Ok (os, st') -> forall i, I (s' i) (st' i).
Proof.
  intros HK HL. induction HL as [s|i o rest s b s' Ho HL IH|i j rest s s' HL IH]; intros st os st' Hst E.
  - cbn [exec] in E. injection E as _ <-. exact Hst.
  - cbn [exec] in E. pose proof (kept_legal_op C I ne o (s i) b (st i) HK Ho (Hst i)) as P.
    destruct (exec_op C o (st i)) as [[y w]| |] eqn:Eo; [|discriminate|discriminate]. specialize (P _ eq_refl). cbn [fst snd] in *.
    rewrite bind_ok in E. cbn [fst snd] in E.
    destruct (exec C rest (put C st i y)) as [[os' st'']| |] eqn:Er; [|discriminate|discriminate].
    rewrite bind_ok in E. injection E as _ <-. apply (IH _ _ _) with (2 := Er).
    intros k. unfold set_flag, put. destruct (k =? i)%nat; [exact P|apply Hst].
  - cbn [exec] in E. apply (IH _ _ _) with (2 := E). intros k. unfold set_flag, put. destruct (k =? i)%nat; apply Hst.
Qed.

(** ** KECCAK-f on words *)
Lemma keccak_words_inj l r : sok l -> sok r -> keccak_f l = keccak_f r -> l = r.
Proof.
  intros [L1 B1] [L2 B2] E. assert (forall l, length l = 25%nat -> length (lane_bits l) = 1600%nat) as LB by (intros x H; rewrite lane_bits_length, H; reflexivity).
  assert (lane_bits l = lane_bits r) as EB.
  { apply keccak_f_injective; [now apply LB|now apply LB|]. rewrite !keccak_f_bits by assumption. now rewrite E. }
  apply (nth_ext _ _ 0 0); [congruence|]. intros j Hj.
  apply N.bits_inj. intros i. destruct (N.lt_ge_cases i 64) as [H|H].
  - apply (f_equal (fun s => nth (64 * j + N.to_nat i) s false)) in EB. rewrite !lane_bits_nth in EB by lia.
    rewrite !tb, N2Nat.id in EB. exact EB.
  - rewrite (bnd_high 64 (nth j l 0)) by (try (apply Forall_nth_bnd); assumption).
    rewrite (bnd_high 64 (nth j r 0)) by (try (apply Forall_nth_bnd); assumption). reflexivity.
Qed.

Section Squish.
  Variables (q : nat) (P : N) (dbg : bool) (d : nat).
  Hypothesis Hq : (0 < q)%nat.
  Hypothesis Hq25 : (q <= 25)%nat.
  Notation R := (8 * q)%nat.

  Lemma squish_inj : forall fuel s t s' t', sok (M.k_state s) -> sok (M.k_state t) -> M.k_len s = M.k_len t ->
    length (M.k_final s) = length (M.k_final t) -> M.squish R dbg fuel s = Ok s' -> M.squish R dbg fuel t = Ok t' ->
    M.k_state s' = M.k_state t' -> M.k_state s = M.k_state t.
  Proof.
    induction fuel as [|fuel IH]; intros s t s' t' Hs Ht Hl Hf Es Et E; [discriminate|]. cbn [M.squish] in Es, Et.
    assert (forall l, sok l -> length (M.stateToVector l) = 200%nat) as L.
    { intros l [H _]. unfold M.stateToVector. rewrite (Class.flat_length _ 8), H; [reflexivity|]. intros x. rewrite word_bytes_le_ok. apply le_bytes_length. }
    rewrite !L in * by assumption. destruct (R <=? 200)%nat eqn:E200; [|discriminate].
    rewrite bind_ok in Es, Et. cbn [M.k_state M.k_final M.k_len] in Es, Et. rewrite !app_length, !firstn_length, !L, Hf, Hl in * by assumption.
    destruct (M.k_len t <=? length (M.k_final t) + Nat.min R 200)%nat.
    - injection Es as <-. injection Et as <-. exact E.
    - rewrite (zero_block q 0 dbg Hq Hq25 [] (Nat.le_0_l 5) eq_refl) in Es by first [lia|exact Hs]. rewrite (zero_block q 0 dbg Hq Hq25 [] (Nat.le_0_l 5) eq_refl) in Et by first [lia|exact Ht]. rewrite bind_ok in Es, Et. cbn [M.k_state M.k_final M.k_len] in *.
      assert (keccak_f (M.k_state s) = keccak_f (M.k_state t)) as EK.
      { refine (IH _ _ _ _ _ _ _ _ Es Et E); cbn [M.k_state M.k_final M.k_len]; [now apply sok_f|now apply sok_f|reflexivity|].
        rewrite !app_length, !firstn_length, !L, Hf by assumption. reflexivity. }
      now apply keccak_words_inj.
  Qed.

  Definition held (b : bool) (o : Buffer * M.St) : Prop :=
    sok (M.k_state (snd o)) /\ M.k_len (snd o) = d /\
    if b then exists s r, sok (M.k_state s) /\ M.k_final s = [] /\ M.k_len s = d /\ M.squish R dbg (Datatypes.S d) s = Ok r /\
      M.k_state (snd o) = M.k_state r /\ M.k_final (snd o) = M.resize d (M.k_final r)
    else M.k_final (snd o) = [].

  Let J (s : M.St) : Prop := sok (M.k_state s) /\ M.k_len s = d /\ M.k_final s = [].
  Lemma impl_post : forall data s, J s -> post (M.impl R dbg data s) J.
  Proof.
    intros data s (H1 & H2 & H3). unfold M.impl. apply post_any. intros _.
    apply (post_bind _ _ sok); [|intros l Hl; apply post_ok; exact (conj Hl (conj H2 H3))].
    apply post_block_loop; [|exact H1]. intros m l Hl. unfold M.compress. apply (post_bind _ _ sok).
    - apply (post_for sok); [|exact Hl]. intros i t Ht. change (words 64 25 t) in Ht. apply (post_bind _ _ _ _ (words_aget _ _ _ _ Ht)). intros v Hv.
      apply (post_bind _ _ _ _ (post_load_le 8 m i)). intros w Hw. apply (words_aset 64 25); [exact Ht|]. apply bnd_lxor; assumption.
    - intros l1 H. destruct (rounds_ok l1 (proj1 H)) as [E _]. rewrite E. apply post_ok. now apply sok_f.
  Qed.

  Lemma squish_post : forall fuel s, sok (M.k_state s) -> M.k_len s = d -> post (M.squish R dbg fuel s) (fun r => sok (M.k_state r) /\ M.k_len r = d).
  Proof.
    induction fuel as [|fuel IH]; intros s Hs Hl; [apply post_ub|]. cbn [M.squish]. apply post_any. intros head.
    destruct (_ <=? _)%nat; [apply post_ok; split; assumption|]. rewrite (zero_block q 0 dbg Hq Hq25 [] (Nat.le_0_l 5) eq_refl) by first [lia|exact Hs]. rewrite bind_ok.
    apply IH; [now apply sok_f|exact Hl].
  Qed.

  Lemma keccak_held : KeptLegal (M.cls R P dbg d) held.
  Proof.
    constructor; cbn [M.cls c_new c_add c_finalize c_reset Obj].
    - split; [apply (inv0 d)|]. split; reflexivity.
    - intros e x _ (H1 & H2 & H3). refine (post_weaken _ _ _ (post_addData R R dbg _ J impl_post e x (conj H1 (conj H2 H3))) _).
      intros y (G1 & G2 & G3). exact (conj G1 (conj G2 G3)).
    - intros [buf s] (H1 & H2 & H3). cbn [snd] in *. unfold M.finalize. do 4 (apply post_any; intros ?).
      apply (post_bind _ _ _ _ (impl_post _ s (conj H1 (conj H2 H3)))). intros s1 (G1 & G2 & G3).
      rewrite G2. pose proof (squish_post (Datatypes.S d) s1 G1 G2) as HS.
      destruct (M.squish R dbg (Datatypes.S d) s1) as [r| |] eqn:Er; [|apply post_throw|apply post_ub]. rewrite bind_ok. apply post_ok.
      destruct (HS r eq_refl) as [S1 S2]. split; [exact S1|]. split; [exact S2|]. exists s1, r. cbn [snd M.k_state M.k_final]. rewrite S2.
      repeat (split; [first [assumption|reflexivity]|]). reflexivity.
    - intros b x (_ & H2 & _). split; [apply (inv0 d)|]. split; [exact H2|reflexivity].
  Qed.

  Lemma held_eq x y : held true x -> held true y -> M.k_state (snd x) = M.k_state (snd y) -> M.k_final (snd x) = M.k_final (snd y).
  Proof.
    intros (_ & _ & s & r & S1 & S2 & S3 & S4 & S5 & S6) (_ & _ & s' & r' & T1 & T2 & T3 & T4 & T5 & T6) E.
    assert (M.k_state s = M.k_state s') as Es.
    { apply (squish_inj (Datatypes.S d) s s' r r'); try assumption; try congruence. }
    destruct s as [a b c], s' as [a' b' c']. cbn [M.k_state M.k_final M.k_len] in *. subst. rewrite S4 in T4.
    apply Proof.Crc32.Ok_inj in T4. now rewrite S6, T6, T4.
  Qed.
End Squish.

(** ** All sponge classes *)
Lemma sponge_core q P dbg d x y : (0 < q)%nat -> (q <= 25)%nat ->
  Finalized (M.cls (8 * q) P dbg d) x -> Finalized (M.cls (8 * q) P dbg d) y -> keccak_eq x y = Ok true ->
  M.k_final (snd x) = M.k_final (snd y).
Proof.
  intros H0 H25 (ne & p & s & os & st & i & Hl & Hi & E & ->) (ne' & p' & s' & os' & st' & j & Hl' & Hj & E' & ->) Heq.
  pose proof (keccak_held q P dbg d H0 H25) as K.
  pose proof (kept_legal _ _ _ _ _ _ K Hl _ _ _ (fun _ => kl_new _ _ K) E i) as Hx. rewrite Hi in Hx.
  pose proof (kept_legal _ _ _ _ _ _ K Hl' _ _ _ (fun _ => kl_new _ _ K) E' j) as Hy. rewrite Hj in Hy.
  apply (held_eq q dbg d H0 H25 _ _ Hx Hy).
  destruct (eq_array_spec 25 (M.k_state (snd (st i))) (M.k_state (snd (st' j)))) as (b & Eb & Hb); [apply Hx|apply Hy|].
  apply Hb. apply Proof.Crc32.Ok_inj. rewrite <- Eb. exact Heq.
Qed.

Theorem sponge_eq_digest a dbg x y : sponge a = true -> Finalized (class a dbg) x -> Finalized (class a dbg) y ->
  equal a dbg x y = Ok true -> exists d, c_array (class a dbg) x = Ok d /\ c_array (class a dbg) y = Ok d.
Proof.
  intros Hs Hx Hy E. destruct a; try discriminate Hs.
  - exists (M.k_final (snd x)). split; [reflexivity|]. rewrite (sponge_core 18 6 dbg 28 x y) by (assumption || lia). reflexivity.
  - exists (M.k_final (snd x)). split; [reflexivity|]. rewrite (sponge_core 17 6 dbg 32 x y) by (assumption || lia). reflexivity.
  - exists (M.k_final (snd x)). split; [reflexivity|]. rewrite (sponge_core 13 6 dbg 48 x y) by (assumption || lia). reflexivity.
  - exists (M.k_final (snd x)). split; [reflexivity|]. rewrite (sponge_core 9 6 dbg 64 x y) by (assumption || lia). reflexivity.
  - exists (M.k_final (snd x)). split; [reflexivity|]. rewrite (sponge_core 21 31 dbg digestLength x y) by (assumption || lia). reflexivity.
  - exists (M.k_final (snd x)). split; [reflexivity|]. rewrite (sponge_core 17 31 dbg digestLength x y) by (assumption || lia). reflexivity.
Qed.

Theorem sponge_eq_std a dbg x y : sponge a = true -> Finalized (class a dbg) x -> Finalized (class a dbg) y -> equal a dbg x y = Ok true ->
  exists v, exec_op (class a dbg) StdHash x = Ok (x, Some (ONum v)) /\ exec_op (class a dbg) StdHash y = Ok (y, Some (ONum v)).
Proof.
  intros Hs Hx Hy E. destruct (sponge_eq_digest a dbg x y Hs Hx Hy E) as (d & Ed & Ee). destruct (std_hash_total d) as (v & Ev). exists v.
  cbn [exec_op]. rewrite Ed, Ee, !bind_ok, Ev, !bind_ok. split; reflexivity.
Qed.
