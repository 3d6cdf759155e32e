(** What the table lookups of CRC-32, MD2, Tiger and Whirlpool show: two runs over messages of the same length with the
    same array indices are runs over the same message. *)
From Coq Require Import List NArith ZArith Arith Bool Lia.
From Verif.Base Require Import CWord.
From Verif.Base Require Res.
From Verif.Base Require Import Leak.
From Verif.Spec Require Import Words.
From Verif.Spec Require Import Client AnyOrder.
From Verif.Model Require Import Buffer Api Library LeakLibrary.
From Verif.Model Require Stream.
From Verif.Model Require Crc32 Md2 Tiger Whirlpool.
From Verif.Model.Leak Require Import LkBuffer LkStream.
From Verif.Model.Leak Require LkCrc32 LkMd2 LkTiger LkWhirlpool.
From Verif.Proof Require Import Words Blocks Streaming Lockstep LeakErase LeakEqual.
From Verif.Proof Require Post MD MD128 Count AnyOrderLibrary.
From Verif.Proof Require Crc32 Tiger.
Notation Ok_inj := Verif.Proof.Crc32.Ok_inj.
Import ListNotations.
Local Open Scope nat_scope.

Definition okd {A} (x : res A) : Prop := exists a, snd x = Res.Ok a.
(** a run that succeeds shows n events *)
Definition fixed {A} (n : nat) (x : res A) : Prop := okd x -> length (fst x) = n.
(** two runs that succeed and show the same have the same outcome, and Q *)
Definition shows {A} (Q : Prop) (x y : res A) : Prop := okd x -> okd y -> fst x = fst y -> snd x = snd y /\ Q.

Lemma okd_bind {A B} (x : res A) (f : A -> res B) : okd (bind x f) -> exists a, snd x = Res.Ok a /\ okd (f a).
Proof. intros [b E]. unfold bind in E. cbn [snd] in E. destruct (snd x) as [a| |]; try discriminate E. exists a. split; [reflexivity|]. exists b. exact E. Qed.

Lemma fixed_ok {A} (a : A) : fixed 0 (Ok a). Proof. intros _. reflexivity. Qed.
Lemma fixed_ub {A} n u : fixed n (@Ub A u). Proof. intros [a E]. discriminate E. Qed.
Lemma fixed_throw {A} n u : fixed n (@Throw A u). Proof. intros [a E]. discriminate E. Qed.
Lemma fixed_tell {A} n e (x : res A) : fixed n x -> fixed (S n) (tell e x).
Proof. intros H K. cbn. f_equal. apply H. exact K. Qed.
Lemma fixed_get {A} (l : list A) i : fixed 1 (aget l i). Proof. intros _. reflexivity. Qed.
Lemma fixed_set {A} (l : list A) i v : fixed 1 (aset l i v). Proof. intros _. reflexivity. Qed.
Lemma fixed_bind {A B} n k (x : res A) (f : A -> res B) : fixed n x -> (forall a, fixed k (f a)) -> fixed (n + k) (bind x f).
Proof.
  intros H K O. destruct (okd_bind x f O) as (a & E & Oa). unfold bind. cbn [fst]. rewrite E, app_length. rewrite (K a Oa). f_equal. apply H. now exists a.
Qed.
Lemma fixed_for {S} c (f : nat -> S -> res S) : (forall i s, fixed c (f i s)) -> forall n i s, fixed (n * (c + 1) + 1) (for_ i n f s).
Proof.
  intros H n. induction n as [|n IH]; intros i s; cbn [for_].
  - apply fixed_tell, fixed_ok.
  - replace (Datatypes.S n * (c + 1) + 1) with (Datatypes.S (c + (n * (c + 1) + 1))) by lia. apply fixed_tell, fixed_bind; auto.
Qed.
Lemma fixed_map {A B} c (f : A -> res B) : (forall a, fixed c (f a)) -> forall l, fixed (length l * c) (mapM f l).
Proof.
  intros H l. induction l as [|x l IH]; cbn [mapM length]; [apply fixed_ok|].
  replace (Datatypes.S (length l) * c) with (c + (length l * c + 0)) by lia. apply fixed_bind; [auto|]. intros. apply fixed_bind; [auto|]. intros. apply fixed_ok.
Qed.

Lemma shows_same {A} (Q : Prop) (x : res A) : Q -> shows Q x x.
Proof. intros H _ _ _. split; [reflexivity|exact H]. Qed.
Lemma shows_weak {A} (P Q : Prop) (x y : res A) : (P -> Q) -> shows P x y -> shows Q x y.
Proof. intros H K O1 O2 E. destruct (K O1 O2 E). split; auto. Qed.
Lemma shows_tell {A} Q e (x y : res A) : shows Q x y -> shows Q (tell e x) (tell e y).
Proof. intros H O1 O2 E. apply H; [exact O1|exact O2|]. cbn in E. now injection E. Qed.
Lemma app_inv_len {A} (a b c d : list A) : length a = length c -> a ++ b = c ++ d -> a = c /\ b = d.
Proof. revert c. induction a as [|x a IH]; intros [|y c] L E; try discriminate L; [auto|]. cbn in *. injection E as -> E. injection L as L. destruct (IH c L E). split; congruence. Qed.
(** the next step shows P *)
Lemma shows_bind {A B} (P Q : Prop) n (x y : res A) (f g : A -> res B) : fixed n x -> fixed n y -> shows P x y ->
  (forall a, snd x = Res.Ok a -> P -> shows Q (f a) (g a)) -> shows Q (bind x f) (bind y g).
Proof.
  intros Hx Hy H K O1 O2 E. destruct (okd_bind x f O1) as (a & Ea & Oa). destruct (okd_bind y g O2) as (b & Eb & Ob).
  unfold bind in *. cbn [fst snd] in *. rewrite Ea, Eb in *. cbn [Res.bind].
  assert (okd x) as Ox by now exists a. assert (okd y) as Oy by now exists b.
  destruct (app_inv_len _ _ _ _ (eq_trans (Hx Ox) (eq_sym (Hy Oy))) E) as [E1 E2].
  destruct (H Ox Oy E1) as [Es HP]. rewrite Ea, Eb in Es. apply Ok_inj in Es. subst b. apply (K a eq_refl HP Oa Ob E2).
Qed.
(** the next step may have different outcomes *)
Lemma shows_step {A B C} (Q : Prop) n (x : res A) (y : res B) (f : A -> res C) (g : B -> res C) : fixed n x -> fixed n y ->
  (forall a b, snd x = Res.Ok a -> snd y = Res.Ok b -> shows Q (f a) (g b)) -> shows Q (bind x f) (bind y g).
Proof.
  intros Hx Hy K O1 O2 E. destruct (okd_bind x f O1) as (a & Ea & Oa). destruct (okd_bind y g O2) as (b & Eb & Ob).
  unfold bind in *. cbn [fst snd] in *. rewrite Ea, Eb in *. cbn [Res.bind].
  assert (okd x) as Ox by now exists a. assert (okd y) as Oy by now exists b.
  destruct (app_inv_len _ _ _ _ (eq_trans (Hx Ox) (eq_sym (Hy Oy))) E) as [E1 E2]. exact (K a b eq_refl eq_refl Oa Ob E2).
Qed.
(** the next step shows nothing *)
Lemma shows_ct {A B C} (Q : Prop) (R : A -> B -> Prop) (x : res A) (y : res B) (f : A -> res C) (g : B -> res C) : ct R x y ->
  (forall a b, R a b -> snd x = Res.Ok a -> snd y = Res.Ok b -> shows Q (f a) (g b)) -> shows Q (bind x f) (bind y g).
Proof.
  intros [Ht Hr] K O1 O2 E. destruct (okd_bind x f O1) as (a & Ea & Oa). destruct (okd_bind y g O2) as (b & Eb & Ob).
  unfold bind in *. cbn [fst snd] in *. rewrite Ea, Eb in *. cbn [Res.bind]. rewrite Ht in E. apply app_inv_head in E.
  exact (K a b Hr eq_refl eq_refl Oa Ob E).
Qed.
Lemma shows_for {S} (P : nat -> Prop) c (f g : nat -> S -> res S) n : (forall i s, fixed c (f i s)) -> (forall i s, fixed c (g i s)) ->
  forall i, (forall j s, i <= j < i + n -> shows (P j) (f j s) (g j s)) -> forall s, shows (forall j, i <= j < i + n -> P j) (for_ i n f s) (for_ i n g s).
Proof.
  intros Hf Hg. induction n as [|n IH]; intros i K s; cbn [for_].
  - apply shows_same. intros. lia.
  - apply shows_tell. apply (shows_bind (P i) _ c); [auto|auto|apply K; lia|]. intros s' _ HP.
    eapply shows_weak; [|apply IH; intros; apply K; lia]. intros HQ j Hj. destruct (Nat.eq_dec j i) as [->|Hne]; [exact HP|]. apply HQ. lia.
Qed.

(** ** words *)
Lemma bytes_same n x y : (forall j, j < n -> ror 8 x (8 * N.of_nat j) = ror 8 y (8 * N.of_nat j)) ->
  forall i, (i < 8 * N.of_nat n)%N -> N.testbit x i = N.testbit y i.
Proof.
  intros H i Hi. pose proof (N.div_mod i 8 ltac:(lia)) as D. pose proof (N.mod_lt i 8 ltac:(lia)) as L.
  set (q := (i / 8)%N) in *. set (r := (i mod 8)%N) in *.
  specialize (H (N.to_nat q) ltac:(lia)). rewrite N2Nat.id, !ror_spec in H. apply (f_equal (fun z => N.testbit z r)) in H.
  rewrite !N.mod_pow2_bits_low, !N.div_pow2_bits in H by exact L. replace (r + 8 * q)%N with i in H by lia. exact H.
Qed.
Lemma xor_same w k x y : bnd w x -> bnd w y -> (forall i, (i < w)%N -> N.testbit (N.lxor x k) i = N.testbit (N.lxor y k) i) -> x = y.
Proof.
  intros Hx Hy H. apply N.bits_inj. intros i. destruct (N.lt_ge_cases i w) as [L|L].
  - specialize (H i L). rewrite !N.lxor_spec in H. destruct (N.testbit x i), (N.testbit y i), (N.testbit k i); cbn in H; congruence.
  - unfold bnd in *. rewrite <- (N.mod_small x _ Hx), <- (N.mod_small y _ Hy), !N.mod_pow2_bits_high by exact L. reflexivity.
Qed.

Lemma firstn_plus {A} a b (l : list A) : firstn (a + b) l = firstn a l ++ firstn b (skipn a l).
Proof. revert l. induction a as [|a IH]; intros l; [reflexivity|]. destruct l as [|x l]; cbn; [now rewrite firstn_nil|]. f_equal. apply IH. Qed.
Lemma parts_eq {A} nb c (l r : list A) : (forall i, i < c -> firstn nb (skipn (nb * i) l) = firstn nb (skipn (nb * i) r)) -> firstn (nb * c) l = firstn (nb * c) r.
Proof.
  intros H. induction c as [|c IH]; [now rewrite Nat.mul_0_r|]. rewrite Nat.mul_succ_r, !firstn_plus. f_equal; [apply IH; intros; apply H; lia|apply H; lia].
Qed.

Lemma fixed_le nb m i : fixed (nb * 1 + 0) (load_le nb m i).
Proof. unfold load_le, load_bytes. apply fixed_bind; [|intros; apply fixed_ok]. rewrite <- (seq_length nb (nb * i)) at 1. apply fixed_map. intros. apply fixed_get. Qed.
Lemma fixed_be nb m i : fixed (nb * 1 + 0) (load_be nb m i).
Proof. unfold load_be, load_bytes. apply fixed_bind; [|intros; apply fixed_ok]. rewrite <- (seq_length nb (nb * i)) at 1. apply fixed_map. intros. apply fixed_get. Qed.
Lemma le_bnd nb m i w : snd (load_le nb m i) = Res.Ok w -> bnd (8 * N.of_nat nb) w.
Proof. rewrite (er_le nb m i). intros E. exact (Post.post_load_le nb m i w E). Qed.
Lemma be_bnd nb m i w : snd (load_be nb m i) = Res.Ok w -> bnd (8 * N.of_nat nb) w.
Proof. rewrite (er_be nb m i). intros E. exact (Post.post_load_be nb m i w E). Qed.
Lemma le_value_inj l r : bytes_ok l -> bytes_ok r -> length l = length r -> le_value l = le_value r -> l = r.
Proof. intros Hl Hr E V. rewrite <- (le_bytes_value l Hl), <- (le_bytes_value r Hr). now rewrite E, V. Qed.
Lemma be_value_inj l r : bytes_ok l -> bytes_ok r -> length l = length r -> be_value l = be_value r -> l = r.
Proof. intros Hl Hr E V. rewrite <- (be_bytes_value l Hl), <- (be_bytes_value r Hr). now rewrite E, V. Qed.
Lemma le_shows nb m q i w : bytes_ok m -> bytes_ok q -> nb * i + nb <= length m -> nb * i + nb <= length q ->
  snd (load_le nb m i) = Res.Ok w -> snd (load_le nb q i) = Res.Ok w -> firstn nb (skipn (nb * i) m) = firstn nb (skipn (nb * i) q).
Proof.
  intros Hm Hq Lm Lq Em Eq. rewrite (er_le nb m i) in Em. rewrite (er_le nb q i) in Eq. unfold Stream.load_le in *.
  rewrite load_bytes_ok, Res.bind_ok in Em by exact Lm. rewrite load_bytes_ok, Res.bind_ok in Eq by exact Lq. apply Ok_inj in Em, Eq. rewrite <- Eq in Em.
  assert (length (firstn nb (skipn (nb * i) m)) = nb) as L1 by (rewrite firstn_length, skipn_length; lia).
  assert (length (firstn nb (skipn (nb * i) q)) = nb) as L2 by (rewrite firstn_length, skipn_length; lia).
  assert (bytes_ok (firstn nb (skipn (nb * i) m))) as B1 by (apply bytes_ok_firstn, bytes_ok_skipn, Hm).
  assert (bytes_ok (firstn nb (skipn (nb * i) q))) as B2 by (apply bytes_ok_firstn, bytes_ok_skipn, Hq).
  rewrite !or_le_ok in Em by (auto; rewrite ?L1, ?L2; lia). rewrite !N.mul_1_l in Em. apply le_value_inj; auto. congruence.
Qed.
Lemma be_shows nb m q i w : bytes_ok m -> bytes_ok q -> nb * i + nb <= length m -> nb * i + nb <= length q ->
  snd (load_be nb m i) = Res.Ok w -> snd (load_be nb q i) = Res.Ok w -> firstn nb (skipn (nb * i) m) = firstn nb (skipn (nb * i) q).
Proof.
  intros Hm Hq Lm Lq Em Eq. rewrite (er_be nb m i) in Em. rewrite (er_be nb q i) in Eq. unfold Stream.load_be in *.
  rewrite load_bytes_ok, Res.bind_ok in Em by exact Lm. rewrite load_bytes_ok, Res.bind_ok in Eq by exact Lq. apply Ok_inj in Em, Eq. rewrite <- Eq in Em.
  assert (length (firstn nb (skipn (nb * i) m)) = nb) as L1 by (rewrite firstn_length, skipn_length; lia).
  assert (length (firstn nb (skipn (nb * i) q)) = nb) as L2 by (rewrite firstn_length, skipn_length; lia).
  assert (bytes_ok (firstn nb (skipn (nb * i) m))) as B1 by (apply bytes_ok_firstn, bytes_ok_skipn, Hm).
  assert (bytes_ok (firstn nb (skipn (nb * i) q))) as B2 by (apply bytes_ok_firstn, bytes_ok_skipn, Hq).
  rewrite !or_be_ok in Em by (auto; rewrite ?L1, ?L2; lia). apply be_value_inj; auto. congruence.
Qed.

(** a lookup in a table of tables *)
Definition look {A} (T : list (list A)) (k : nat) (i : N) : res A := bind (aget T k) (fun row => aget row (N.to_nat i)).
Lemma fixed_look {A} (T : list (list A)) k i : fixed (1 + 1) (look T k i).
Proof. apply fixed_bind; intros; apply fixed_get. Qed.
Lemma shows_get {A} (l : list A) i j : shows (i = j) (aget l (N.to_nat i)) (aget l (N.to_nat j)).
Proof. intros _ _ E. cbn in E. injection E as E. apply N2Nat.inj in E. subst j. auto. Qed.
Lemma shows_look {A} (T : list (list A)) k i j : shows (i = j) (look T k i) (look T k j).
Proof.
  unfold look. apply (shows_bind True _ 1); [apply fixed_get..|now apply shows_same|]. intros row _ _. apply shows_get.
Qed.

Ltac fx :=
  repeat (intros; cbv zeta;
    lazymatch goal with
    | |- fixed _ (bind _ _) => eapply fixed_bind
    | |- fixed _ (tell _ _) => eapply fixed_tell
    | |- fixed _ (for_ _ _ _ _) => eapply fixed_for
    | |- fixed _ (Ok _) => apply fixed_ok
    | |- fixed _ (Ub _) => apply fixed_ub
    | |- fixed _ (aget _ _) => apply fixed_get
    | |- fixed _ (aset _ _ _) => apply fixed_set
    | |- fixed _ (load_le _ _ _) => apply fixed_le
    | |- fixed _ (load_be _ _ _) => apply fixed_be
    | |- fixed _ (look _ _ _) => apply fixed_look
    | |- fixed _ (let (_, _) := ?x in _) => destruct x
    end).

(** ** block loops *)
Section Blocks.
  Context {H : Type} (B c : nat) (compress : list N -> H -> res H).
  Hypothesis HB : 0 < B.
  Hypothesis Hfix : forall m h, fixed c (compress m h).
  Hypothesis Hshow : forall m q h, bytes_ok m -> bytes_ok q -> B <= length m -> B <= length q ->
    shows (firstn B m = firstn B q) (compress m h) (compress q h).

  Lemma fixed_blocks d h : fixed (length d / B * (c + 1) + 1) (block_loop H B compress d h).
  Proof using Hfix. apply fixed_for. intros. apply Hfix. Qed.
  Lemma shows_blocks d e h : length d = length e -> bytes_ok d -> bytes_ok e ->
    shows (firstn (length d / B * B) d = firstn (length d / B * B) e) (block_loop H B compress d h) (block_loop H B compress e h).
  Proof using HB Hfix Hshow.
    intros L Hd He. unfold block_loop. rewrite <- L. eapply shows_weak; cycle 1.
    - apply (shows_for (fun i => firstn B (skipn (i * B) d) = firstn B (skipn (i * B) e)) c); [intros; apply Hfix..|].
      intros j s Hj. assert (j * B + B <= length d) by (pose proof (Nat.mul_div_le (length d) B ltac:(lia)); nia).
      apply Hshow; [apply bytes_ok_skipn; assumption..| |]; rewrite skipn_length; lia.
    - intros K. rewrite Nat.mul_comm. apply parts_eq. intros i Hi. rewrite (Nat.mul_comm B i). apply K. lia.
  Qed.
End Blocks.

(** ** CRC-32 *)
Lemma fixed_block : exists c, forall m h, fixed c (LkCrc32.block m h).
Proof. eexists. intros. unfold LkCrc32.block. change LkCrc32.lut with (look Crc32Table.crc32LUT). fx. Qed.
Ltac lookup := eapply shows_bind; [apply fixed_look|apply fixed_look|apply shows_look|]; intros ? _ ?.
Lemma word32_same k x y : bnd 32 x -> bnd 32 y -> ror 8 (N.lxor x k) 0 = ror 8 (N.lxor y k) 0 -> ror 8 (N.lxor x k) 8 = ror 8 (N.lxor y k) 8 ->
  ror 8 (N.lxor x k) 16 = ror 8 (N.lxor y k) 16 -> ror 8 (N.lxor x k) 24 = ror 8 (N.lxor y k) 24 -> x = y.
Proof.
  intros Hx Hy H0 H1 H2 H3. apply (xor_same 32 k); [exact Hx|exact Hy|]. apply (bytes_same 4). intros j Hj.
  do 4 (destruct j as [|j]; [assumption|]). lia.
Qed.
Lemma shows_block m q h : bytes_ok m -> bytes_ok q -> 16 <= length m -> 16 <= length q ->
  shows (firstn 16 m = firstn 16 q) (LkCrc32.block m h) (LkCrc32.block q h).
Proof.
  intros Hm Hq Lm Lq. unfold LkCrc32.block. change LkCrc32.lut with (look Crc32Table.crc32LUT). cbv zeta.
  eapply shows_step; [apply fixed_le..|]. intros a0 a0' Ea Ea'.
  eapply shows_step; [apply fixed_le..|]. intros b b' Eb Eb'.
  eapply shows_step; [apply fixed_le..|]. intros c c' Ec Ec'.
  eapply shows_step; [apply fixed_le..|]. intros d d' Ed Ed'.
  do 16 lookup. apply shows_same.
  assert (a0 = a0') as <- by (apply (word32_same h); try assumption; eapply (le_bnd 4); eassumption).
  assert (b = b') as <- by (apply (word32_same 0); rewrite ?N.lxor_0_r; try assumption; eapply (le_bnd 4); eassumption).
  assert (c = c') as <- by (apply (word32_same 0); rewrite ?N.lxor_0_r; try assumption; eapply (le_bnd 4); eassumption).
  assert (d = d') as <- by (apply (word32_same 0); rewrite ?N.lxor_0_r; try assumption; eapply (le_bnd 4); eassumption).
  apply (parts_eq 4 4). intros i Hi. assert (i = 0 \/ i = 1 \/ i = 2 \/ i = 3) as [->|[->|[->| ->]]] by lia;
    (eapply le_shows; [exact Hm|exact Hq|lia|lia|eassumption..]).
Qed.
Lemma lxor_inj k x y : N.lxor k x = N.lxor k y -> x = y.
Proof. intros E. rewrite <- (N.lxor_0_l x), <- (N.lxor_0_l y), <- (N.lxor_nilpotent k), !N.lxor_assoc. now rewrite E. Qed.
Lemma get_ok {A} (l : list A) i a : snd (aget l i) = Res.Ok a -> nth_error l i = Some a.
Proof. cbn. unfold Res.aget. destruct (nth_error l i); [now intros [= ->]|discriminate]. Qed.
Lemma skip_cons {A} (l : list A) n x : nth_error l n = Some x -> skipn n l = x :: skipn (S n) l.
Proof. revert l. induction n as [|n IH]; intros [|y l] E; try discriminate E; [now injection E as ->|]. cbn. rewrite IH by exact E. reflexivity. Qed.
Theorem shows_crc d e h : length d = length e -> bytes_ok d -> bytes_ok e -> shows (d = e) (LkCrc32.addDataImpl d h) (LkCrc32.addDataImpl e h).
Proof.
  intros L Hd He. destruct fixed_block as [c Hc]. unfold LkCrc32.addDataImpl. cbv zeta.
  eapply shows_bind; [apply fixed_blocks, Hc|rewrite L; apply fixed_blocks, Hc|apply (shows_blocks 16 c); [lia|exact Hc|exact shows_block|exact L|exact Hd|exact He]|].
  intros s _ K. rewrite <- L in *. set (p := length d / 16 * 16) in *.
  assert (p <= length d) as Hp by (unfold p; pose proof (Nat.mul_div_le (length d) 16 ltac:(lia)); lia).
  change LkCrc32.byte with (fun data processed m_h => bind (aget data processed) (fun x => bind (look Crc32Table.crc32LUT 0 (N.lxor (ror 8 m_h 0) x)) (fun t => Ok (N.lxor (ushr m_h 8) t)))).
  cbv beta. eapply shows_weak; cycle 1.
  - eapply (shows_for (fun j => nth_error d j = nth_error e j)); [fx|fx|]. intros j s' Hj.
    eapply shows_step; [apply fixed_get..|]. intros x y Ex Ey. lookup. apply shows_same. rewrite (get_ok _ _ _ Ex), (get_ok _ _ _ Ey). f_equal. eapply lxor_inj; eassumption.
  - intros T. rewrite <- (firstn_skipn p d), <- (firstn_skipn p e), K. f_equal. replace (p + (length d - p)) with (length d) in T by lia.
    assert (forall n k, k + n = length d -> p <= k -> skipn k d = skipn k e) as G.
    { induction n as [|n IH]; intros k E1 E2; [rewrite !skipn_all2 by lia; reflexivity|].
      destruct (nth_error d k) as [x|] eqn:Ex; [|apply nth_error_None in Ex; lia]. pose proof (T k ltac:(lia)) as Ey. rewrite Ex in Ey. symmetry in Ey.
      rewrite (skip_cons _ _ _ Ex), (skip_cons _ _ _ Ey). f_equal. apply IH; lia. }
    apply (G (length d - p) p); lia.
Qed.

Lemma nth_ext_error {A} (l r : list A) : length l = length r -> (forall i, i < length l -> nth_error l i = nth_error r i) -> l = r.
Proof.
  revert r. induction l as [|x l IH]; intros [|y r] L H; try discriminate L; [reflexivity|].
  pose proof (H 0 ltac:(cbn; lia)) as H0. injection H0 as ->. f_equal. apply IH; [now injection L|]. intros i Hi. apply (H (S i)). cbn. lia.
Qed.

(** ** MD2 *)
Lemma fixed_md2 : exists c, forall m s, fixed c (LkMd2.compress m s).
Proof. eexists. intros. unfold LkMd2.compress, LkMd2.checksum_loop, LkMd2.copy_loop, LkMd2.round_loop, LkMd2.subst. fx. Qed.
Lemma shows_md2 m q s : bytes_ok m -> bytes_ok q -> 16 <= length m -> 16 <= length q ->
  shows (firstn 16 m = firstn 16 q) (LkMd2.compress m s) (LkMd2.compress q s).
Proof.
  intros _ _ Lm Lq. unfold LkMd2.compress. cbv zeta.
  assert (length (firstn 16 m) = 16) as L1 by (rewrite firstn_length; lia). assert (length (firstn 16 q) = 16) as L2 by (rewrite firstn_length; lia).
  generalize dependent (firstn 16 q). generalize dependent (firstn 16 m). clear m q Lm Lq. intros m Lm q Lq.
  eapply (shows_bind (forall j, 0 <= j < 0 + 16 -> nth_error m j = nth_error q j)).
  - unfold LkMd2.checksum_loop, LkMd2.subst. fx.
  - unfold LkMd2.checksum_loop, LkMd2.subst. fx.
  - unfold LkMd2.checksum_loop, LkMd2.subst. eapply shows_for; [fx|fx|]. intros j [c L] Hj.
    eapply (shows_bind True); [apply fixed_get..|apply shows_same; exact I|]. intros cj _ _.
    eapply shows_step; [apply fixed_get..|]. intros x y Ex Ey.
    eapply shows_bind; [apply fixed_get..|apply shows_get|]. intros p _ E. apply shows_same.
    rewrite (get_ok _ _ _ Ex), (get_ok _ _ _ Ey). f_equal. rewrite !(N.lxor_comm _ L) in E. eapply lxor_inj; exact E.
  - intros r _ K. assert (m = q) as <- by (apply nth_ext_error; [congruence|intros i Hi; apply K; lia]). apply shows_same. reflexivity.
Qed.

(** ** Tiger *)
Lemma fixed_round_t : exists c, forall a b c0 x mul, fixed c (LkTiger.round a b c0 x mul).
Proof. eexists. intros. unfold LkTiger.round. change LkTiger.tT with (look TigerTables.tTable). fx. Qed.
Lemma fixed_pass : exists c, forall x a b c0 mul, fixed c (LkTiger.pass x a b c0 mul).
Proof.
  destruct fixed_round_t as [c Hc]. eexists. intros. unfold LkTiger.pass.
  do 8 (eapply fixed_bind; [apply fixed_get|intros]; eapply fixed_bind; [apply Hc|intros [[? ?] ?]]). apply fixed_ok.
Qed.
Lemma fixed_keys x : fixed 0 (LkTiger.keySchedule x).
Proof. unfold LkTiger.keySchedule. do 9 (try apply fixed_ub; destruct x as [|? x]); try apply fixed_ub. apply fixed_ok. Qed.
Lemma fixed_tiger : exists c, forall m h, fixed c (LkTiger.compress m h).
Proof.
  destruct fixed_pass as [c Hc]. eexists. intros m [[aa bb] cc]. unfold LkTiger.compress. eapply fixed_bind; [fx|]. intros x. cbv beta iota.
  eapply fixed_bind; [apply Hc|]. intros [[? ?] ?]. eapply fixed_bind; [apply fixed_keys|]. intros.
  eapply fixed_bind; [apply Hc|]. intros [[? ?] ?]. eapply fixed_bind; [apply fixed_keys|]. intros. eapply fixed_bind; [apply Hc|]. intros [[? ?] ?]. apply fixed_ok.
Qed.
Lemma word64_same k x y : bnd 64 x -> bnd 64 y -> ror 8 (N.lxor x k) 0 = ror 8 (N.lxor y k) 0 -> ror 8 (N.lxor x k) 8 = ror 8 (N.lxor y k) 8 ->
  ror 8 (N.lxor x k) 16 = ror 8 (N.lxor y k) 16 -> ror 8 (N.lxor x k) 24 = ror 8 (N.lxor y k) 24 -> ror 8 (N.lxor x k) 32 = ror 8 (N.lxor y k) 32 ->
  ror 8 (N.lxor x k) 40 = ror 8 (N.lxor y k) 40 -> ror 8 (N.lxor x k) 48 = ror 8 (N.lxor y k) 48 -> ror 8 (N.lxor x k) 56 = ror 8 (N.lxor y k) 56 -> x = y.
Proof.
  intros Hx Hy H0 H1 H2 H3 H4 H5 H6 H7. apply (xor_same 64 k); [exact Hx|exact Hy|]. apply (bytes_same 8). intros j Hj.
  do 8 (destruct j as [|j]; [assumption|]). lia.
Qed.
Lemma shows_round_t a b c x y mul : bnd 64 x -> bnd 64 y -> shows (x = y) (LkTiger.round a b c x mul) (LkTiger.round a b c y mul).
Proof.
  intros Hx Hy. unfold LkTiger.round. change LkTiger.tT with (look TigerTables.tTable). cbv zeta. rewrite !(N.lxor_comm c).
  do 8 lookup. assert (x = y) as <- by (apply (word64_same c); assumption). now apply shows_same.
Qed.
Lemma shows_pass x y a b c mul : length x = 8 -> length y = 8 -> Forall (bnd 64) x -> Forall (bnd 64) y ->
  shows (x = y) (LkTiger.pass x a b c mul) (LkTiger.pass y a b c mul).
Proof.
  intros Lx Ly Hx Hy. destruct fixed_round_t as [k Hk]. unfold LkTiger.pass.
  assert (forall i v, snd (aget x i) = Res.Ok v -> bnd 64 v) as Bx by (intros i v E; apply get_ok, nth_error_In in E; rewrite Forall_forall in Hx; auto).
  assert (forall i v, snd (aget y i) = Res.Ok v -> bnd 64 v) as By by (intros i v E; apply get_ok, nth_error_In in E; rewrite Forall_forall in Hy; auto).
  do 8 (eapply shows_step; [apply fixed_get..|]; intros ? ? ? ?; eapply shows_bind; [apply Hk|apply Hk|apply shows_round_t; eauto|]; intros [[? ?] ?] _ ->).
  apply shows_same. apply nth_ext_error; [congruence|]. rewrite Lx. intros i Hi.
  do 8 (destruct i as [|i]; [match goal with E : snd (aget x ?n) = _, F : snd (aget y ?n) = _ |- nth_error x ?n = _ => now rewrite (get_ok _ _ _ E), (get_ok _ _ _ F) end|]). lia.
Qed.
Lemma shows_tiger m q h : bytes_ok m -> bytes_ok q -> 64 <= length m -> 64 <= length q ->
  shows (firstn 64 m = firstn 64 q) (LkTiger.compress m h) (LkTiger.compress q h).
Proof.
  intros Hm Hq Lm Lq. destruct fixed_pass as [k Hk]. destruct h as [[aa bb] cc]. unfold LkTiger.compress.
  assert (forall m, bytes_ok m -> 64 <= length m ->
    snd (for_ 0 8 (fun j x => bind (load_le 8 m j) (fun w => aset x j w)) (repeat 0%N 8)) = Res.Ok (le_words 8 (firstn 64 m)) /\ Forall (bnd 64) (le_words 8 (firstn 64 m)) /\ length (le_words 8 (firstn 64 m)) = 8 /\
    (forall i, i < 8 -> snd (load_le 8 m i) = Res.Ok (nth i (le_words 8 (firstn 64 m)) 0%N))) as Hload.
  { clear. intros m Hm Lm. assert (length (firstn 64 m) = 64) as L by (rewrite firstn_length; lia).
    destruct (Verif.Proof.Tiger.load_ok (firstn 64 m) (skipn 64 m) L (bytes_ok_firstn _ _ Hm)) as [E [E1 E2]]. rewrite firstn_skipn in E.
    split; [|split; [exact E2|split; [exact E1|]]].
    - rewrite <- E. apply er_for. intros. apply er_bind; [apply er_le|intros; apply er_set].
    - intros i Hi. rewrite (er_le 8 m i). rewrite <- (firstn_skipn 64 m) at 1. apply (load_le_ok 8 8); [lia|exact L|apply bytes_ok_firstn, Hm|exact Hi]. }
  destruct (Hload m Hm Lm) as (Em & Fm & Nm & Wm). destruct (Hload q Hq Lq) as (Eq & Fq & Nq & Wq). clear Hload.
  eapply shows_step; [fx|fx|]. intros x y Ex Ey. rewrite Em in Ex. rewrite Eq in Ey. apply Ok_inj in Ex, Ey. subst x y. cbv beta iota.
  eapply shows_bind; [apply Hk|apply Hk|apply shows_pass; [exact Nm|exact Nq|exact Fm|exact Fq]|]. intros r _ E. rewrite E. apply shows_same.
  apply (parts_eq 8 8). intros i Hi. eapply le_shows; [exact Hm|exact Hq|lia|lia|apply Wm, Hi|rewrite E; apply Wq, Hi].
Qed.

(** ** Whirlpool *)
Lemma fixed_func : exists c, forall x a b c0 d e f g h, fixed c (LkWhirlpool.func x a b c0 d e f g h).
Proof. eexists. intros. unfold LkWhirlpool.func. change LkWhirlpool.cT with (look WhirlpoolTables.cTable). fx. Qed.
Lemma fixed_round_w : exists c, forall r s, fixed c (LkWhirlpool.round r s).
Proof.
  destruct fixed_func as [c Hc]. eexists. intros r [k s]. unfold LkWhirlpool.round. cbv beta iota zeta.
  repeat (eapply fixed_bind; [first [apply Hc|apply fixed_get]|intros]). apply fixed_ok.
Qed.
Lemma fixed_whirlpool : exists c, forall m h, fixed c (LkWhirlpool.compress m h).
Proof.
  destruct fixed_round_w as [c Hc]. eexists. intros m h. unfold LkWhirlpool.compress. eapply fixed_bind; [fx|]. intros ks.
  eapply fixed_bind; [eapply fixed_for; intros; apply Hc|]. intros. fx.
Qed.
(** byte s of entry i of two arrays *)
Definition same_at (x y : list N) (i : nat) (s : N) : Prop := forall u v, nth_error x i = Some u -> nth_error y i = Some v -> ror 8 u s = ror 8 v s.
Lemma shows_func x y a b c d e f g h :
  shows (same_at x y a 56 /\ same_at x y b 48 /\ same_at x y c 40 /\ same_at x y d 32 /\ same_at x y e 24 /\ same_at x y f 16 /\ same_at x y g 8 /\ same_at x y h 0)
    (LkWhirlpool.func x a b c d e f g h) (LkWhirlpool.func y a b c d e f g h).
Proof.
  unfold LkWhirlpool.func. change LkWhirlpool.cT with (look WhirlpoolTables.cTable).
  do 8 (eapply shows_step; [apply fixed_get..|]; intros ? ? ? ?; lookup). apply shows_same.
  unfold same_at. split; [|split; [|split; [|split; [|split; [|split; [|split]]]]]]; intros u v Eu Ev;
  repeat match goal with E : snd (aget _ _) = Res.Ok _ |- _ => apply get_ok in E end; congruence.
Qed.
Lemma shows_round_w r k x y : shows (forall i s, i < 8 -> In s [0; 8; 16; 24; 32; 40; 48; 56]%N -> same_at x y i s) (LkWhirlpool.round r (k, x)) (LkWhirlpool.round r (k, y)).
Proof.
  destruct fixed_func as [c Hc]. unfold LkWhirlpool.round. cbv beta iota zeta.
  do 9 (eapply (shows_bind True); [first [apply Hc|apply fixed_get]..|apply shows_same; exact I|]; intros ? _ _).
  do 8 (eapply shows_bind; [apply Hc|apply Hc|apply shows_func|]; intros ? _ (? & ? & ? & ? & ? & ? & ? & ?)).
  apply shows_same. intros i s Hi Hs. cbn [In] in Hs.
  do 8 (destruct i as [|i]; [repeat (destruct Hs as [<-|Hs]; [assumption|]); contradiction|]). lia.
Qed.
Lemma load_ws m h ks :
  snd (for_ 0 8 (fun j (ks : list N * list N) =>
      bind (aget h j) (fun hj => bind (aset (fst ks) j hj) (fun k => bind (load_be 8 m j) (fun mj => bind (aget k j) (fun kj =>
      bind (aset (snd ks) j (N.lxor mj kj)) (fun s => Ok (k, s))))))) (repeat 0%N 8, repeat 0%N 8)) = Res.Ok ks ->
  exists h0 h1 h2 h3 h4 h5 h6 h7 t w0 w1 w2 w3 w4 w5 w6 w7, h = h0 :: h1 :: h2 :: h3 :: h4 :: h5 :: h6 :: h7 :: t /\
    ks = ([h0; h1; h2; h3; h4; h5; h6; h7], [N.lxor w0 h0; N.lxor w1 h1; N.lxor w2 h2; N.lxor w3 h3; N.lxor w4 h4; N.lxor w5 h5; N.lxor w6 h6; N.lxor w7 h7]) /\
    forall i, i < 8 -> snd (load_be 8 m i) = Res.Ok (nth i [w0; w1; w2; w3; w4; w5; w6; w7] 0%N).
Proof.
  intros E. assert (snd (for_ 0 8 (fun j (ks : list N * list N) =>
      bind (aget h j) (fun hj => bind (aset (fst ks) j hj) (fun k => bind (load_be 8 m j) (fun mj => bind (aget k j) (fun kj =>
      bind (aset (snd ks) j (N.lxor mj kj)) (fun s => Ok (k, s))))))) (repeat 0%N 8, repeat 0%N 8))
    = Res.for_ 0 8 (fun j (ks : list N * list N) =>
      Res.bind (Res.aget h j) (fun hj => Res.bind (Res.aset (fst ks) j hj) (fun k => Res.bind (Stream.load_be 8 m j) (fun mj => Res.bind (Res.aget k j) (fun kj =>
      Res.bind (Res.aset (snd ks) j (N.lxor mj kj)) (fun s => Res.Ok (k, s))))))) (repeat 0%N 8, repeat 0%N 8)) as T.
  { apply er_for. intros i s. repeat (apply er_bind; [first [apply er_get|apply er_set|apply er_be]|intros]). apply er_ok. }
  rewrite T in E. clear T.
  assert (forall i, snd (load_be 8 m i) = Stream.load_be 8 m i) as G by (intros; apply er_be).
  set (ld := Stream.load_be 8 m) in *. clearbody ld. cbn [repeat Res.for_] in E.
  destruct h as [|h0 h]; [discriminate E|]. destruct (ld 0) as [w0| |] eqn:E0; try discriminate E. cbn in E.
  destruct h as [|h1 h]; [discriminate E|]. destruct (ld 1) as [w1| |] eqn:E1; try discriminate E. cbn in E.
  destruct h as [|h2 h]; [discriminate E|]. destruct (ld 2) as [w2| |] eqn:E2; try discriminate E. cbn in E.
  destruct h as [|h3 h]; [discriminate E|]. destruct (ld 3) as [w3| |] eqn:E3; try discriminate E. cbn in E.
  destruct h as [|h4 h]; [discriminate E|]. destruct (ld 4) as [w4| |] eqn:E4; try discriminate E. cbn in E.
  destruct h as [|h5 h]; [discriminate E|]. destruct (ld 5) as [w5| |] eqn:E5; try discriminate E. cbn in E.
  destruct h as [|h6 h]; [discriminate E|]. destruct (ld 6) as [w6| |] eqn:E6; try discriminate E. cbn in E.
  destruct h as [|h7 h]; [discriminate E|]. destruct (ld 7) as [w7| |] eqn:E7; try discriminate E. cbn in E.
  exists h0, h1, h2, h3, h4, h5, h6, h7, h, w0, w1, w2, w3, w4, w5, w6, w7. split; [reflexivity|]. split; [congruence|].
  intros i Hi. rewrite G. do 8 (destruct i as [|i]; [assumption|]). lia.
Qed.
Lemma shows_whirlpool m q h : bytes_ok m -> bytes_ok q -> 64 <= length m -> 64 <= length q ->
  shows (firstn 64 m = firstn 64 q) (LkWhirlpool.compress m h) (LkWhirlpool.compress q h).
Proof.
  intros Hm Hq Lm Lq. destruct fixed_round_w as [k Hk]. unfold LkWhirlpool.compress.
  eapply shows_step; [fx|fx|]. intros x y Ex Ey.
  destruct (load_ws _ _ _ Ex) as (h0 & h1 & h2 & h3 & h4 & h5 & h6 & h7 & t & a0 & a1 & a2 & a3 & a4 & a5 & a6 & a7 & Eh & -> & Wm).
  destruct (load_ws _ _ _ Ey) as (g0 & g1 & g2 & g3 & g4 & g5 & g6 & g7 & t' & b0 & b1 & b2 & b3 & b4 & b5 & b6 & b7 & Eg & -> & Wq).
  rewrite Eh in Eg. injection Eg as <- <- <- <- <- <- <- <- <-. clear Ex Ey.
  assert (forall i v, i < 8 -> nth i [a0; a1; a2; a3; a4; a5; a6; a7] 0%N = v -> bnd 64 v) as Ba by (intros i v Hi <-; exact (be_bnd 8 m i _ (Wm i Hi))).
  assert (forall i v, i < 8 -> nth i [b0; b1; b2; b3; b4; b5; b6; b7] 0%N = v -> bnd 64 v) as Bb by (intros i v Hi <-; exact (be_bnd 8 q i _ (Wq i Hi))).
  eapply (shows_bind ([a0; a1; a2; a3; a4; a5; a6; a7] = [b0; b1; b2; b3; b4; b5; b6; b7])); [eapply fixed_for, Hk|eapply fixed_for, Hk| |].
  - cbn [for_]. apply shows_tell. eapply shows_bind; [apply Hk|apply Hk|apply shows_round_w|]. intros r _ K. apply shows_same.
    assert (forall i a b, i < 8 -> nth i [a0; a1; a2; a3; a4; a5; a6; a7] 0%N = a -> nth i [b0; b1; b2; b3; b4; b5; b6; b7] 0%N = b ->
      (exists g, nth_error [N.lxor a0 h0; N.lxor a1 h1; N.lxor a2 h2; N.lxor a3 h3; N.lxor a4 h4; N.lxor a5 h5; N.lxor a6 h6; N.lxor a7 h7] i = Some (N.lxor a g) /\
                 nth_error [N.lxor b0 h0; N.lxor b1 h1; N.lxor b2 h2; N.lxor b3 h3; N.lxor b4 h4; N.lxor b5 h5; N.lxor b6 h6; N.lxor b7 h7] i = Some (N.lxor b g)) -> a = b) as Q.
    { intros i a b Hi Ea Eb (g & Ga & Gb). apply (word64_same g); [eapply Ba; eassumption|eapply Bb; eassumption|..]; eapply (fun s I => K i s Hi I _ _ Ga Gb); cbn; tauto. }
    f_equal; [apply (Q 0)|f_equal; [apply (Q 1)|f_equal; [apply (Q 2)|f_equal; [apply (Q 3)|f_equal; [apply (Q 4)|f_equal; [apply (Q 5)|f_equal; [apply (Q 6)|f_equal; apply (Q 7)]]]]]]];
      try lia; try reflexivity; eexists; split; reflexivity.
  - intros ks _ E. rewrite <- E in Wq. eapply shows_weak; cycle 1.
    + eapply (shows_for (fun _ => True)); [fx|fx|]. intros j s Hj.
      eapply (shows_bind True); [apply fixed_get..|apply shows_same; exact I|]. intros sj _ _.
      eapply (shows_bind True); [apply fixed_get..|apply shows_same; exact I|]. intros hj _ _.
      eapply shows_step; [apply fixed_be..|]. intros u v Eu Ev. rewrite Wm in Eu by lia. rewrite Wq in Ev by lia. rewrite Eu in Ev. apply Ok_inj in Ev. subst v.
      apply shows_same. exact I.
    + intros _. apply (parts_eq 8 8). intros i Hi. eapply be_shows; [exact Hm|exact Hq|lia|lia|apply Wm, Hi|apply Wq, Hi].
Qed.

(** ** the classes *)
Lemma bind_bind {A B C} (x : res A) (f : A -> res B) (g : B -> res C) : bind (bind x f) g = bind x (fun a => bind (f a) g).
Proof. unfold bind. cbn [fst snd]. destruct (snd x) as [a| |]; cbn; f_equal; now rewrite <- ?app_assoc, ?app_nil_r. Qed.
Lemma bind_unit {A B} (a : A) (f : A -> res B) : bind (Ok a) f = f a.
Proof. unfold bind, Ok. cbn. now destruct (f a). Qed.
Lemma bind_tell {A B} e (x : res A) (f : A -> res B) : bind (tell e x) f = tell e (bind x f).
Proof. reflexivity. Qed.
Lemma app_head {A} (r s t u : list A) : length r = length s -> r ++ t = s ++ u -> r = s.
Proof. intros L E. apply (app_inv_len _ _ _ _ L E). Qed.
Lemma canon_alike cap r s : length r = length s -> alike (canon cap r) (canon cap s).
Proof. intros L. split; cbn; [exact L|]. rewrite !app_length, !repeat_length. lia. Qed.

Section Stream.
  Context {St : Type} (B cap : nat) (dbg : bool) (impl : list N -> St -> res St) (fin : Buffer * St -> res (Buffer * St)) (F : nat -> nat).
  Hypothesis HB : 0 < B.
  Hypothesis Hcap : B <= cap.
  Hypothesis Hfix : forall d s, fixed (F (length d)) (impl d s).
  Hypothesis Hshow : forall d e s, length d = length e -> bytes_ok d -> bytes_ok e -> length d mod B = 0 -> shows (d = e) (impl d s) (impl e s).
  Hypothesis Hfin : forall r t s, length r = length t -> length r < B -> bytes_ok r -> bytes_ok t -> shows (r = t) (fin (canon cap r, s)) (fin (canon cap t, s)).

  Lemma shows_stream m q s : length m = length q -> bytes_ok m -> bytes_ok q ->
    shows (m = q) (bind (addData St B cap dbg impl m (buf_new cap, s)) fin) (bind (addData St B cap dbg impl q (buf_new cap, s)) fin).
  Proof using HB Hcap Hfix Hshow Hfin.
    intros L Hm Hq. unfold addData. rewrite !bind_tell. apply shows_tell. cbn [negb buf_empty buf_size buf_new b_end Nat.eqb].
    unfold addData_tail. cbv zeta. rewrite <- L. rewrite !bind_tell. apply shows_tell.
    assert (forall d, length d < B -> snd (buf_of_range dbg cap d) = Res.Ok (canon cap d)) as Hr
      by (intros d Hd; rewrite (er_range dbg cap d); apply of_range_canon; lia).
    destruct (Nat.ltb_spec (length m) B) as [Hlt|Hge].
    - rewrite !bind_bind. eapply shows_ct; [apply ct_range, L|]. intros a b _ Ea Eb. rewrite !bind_unit. rewrite Hr in Ea by lia. rewrite Hr in Eb by lia.
      apply Ok_inj in Ea, Eb. subst a b. apply Hfin; assumption.
    - set (len := length m - length m mod B) in *. pose proof (Nat.mod_upper_bound (length m) B ltac:(lia)) as Hu.
      assert (len mod B = 0) as Hal.
      { unfold len. pose proof (Nat.div_mod (length m) B ltac:(lia)). replace (length m - length m mod B) with (length m / B * B) by lia. apply Nat.mod_mul. lia. }
      rewrite !bind_bind. eapply shows_ct; [apply ct_first, L|]. intros a b _ Ea Eb. rewrite (er_first len m) in Ea. rewrite (er_first len q) in Eb. unfold Stream.span_first in *.
      assert ((len <=? length m) = true) as T by (apply Nat.leb_le; unfold len; lia). rewrite T in Ea. rewrite <- L, T in Eb. apply Ok_inj in Ea, Eb. subst a b.
      rewrite !bind_bind. assert (length (firstn len m) = len) as L1 by (rewrite firstn_length; lia). assert (length (firstn len q) = len) as L2 by (rewrite firstn_length; lia).
      eapply shows_bind; [apply Hfix|replace (length (firstn len m)) with (length (firstn len q)) by congruence; apply Hfix|apply Hshow; [congruence|apply bytes_ok_firstn; assumption..|rewrite L1; exact Hal]|].
      intros s' _ E. rewrite !bind_tell. apply shows_tell. destruct (Nat.ltb_spec len (length m)) as [Hl|Hl].
      + rewrite !bind_bind. eapply shows_ct; [apply ct_range, sl_skip, L|]. intros a b _ Ea Eb. rewrite !bind_unit.
        rewrite Hr in Ea by (rewrite skipn_length; unfold len; lia). rewrite Hr in Eb by (rewrite skipn_length; unfold len; lia). apply Ok_inj in Ea, Eb. subst a b.
        eapply shows_weak; [|apply Hfin; [rewrite !skipn_length; lia|rewrite skipn_length; unfold len; lia|apply bytes_ok_skipn; assumption..]].
        intros E2. rewrite <- (firstn_skipn len m), <- (firstn_skipn len q). congruence.
      + rewrite !bind_unit. apply shows_same. rewrite <- (firstn_all2 m Hl), <- (firstn_all2 (n := len) q ltac:(lia)). exact E.
  Qed.
End Stream.

Lemma pad_app {A} (r t x y : list A) : length r = length t -> r ++ x = t ++ y -> r = t.
Proof. apply app_head. Qed.

Section MD.
  Context {H : Type} (B c : nat) (dbg : bool) (padbyte : N) (write_len : N -> Buffer -> res Buffer) (write' : N -> Buffer -> Res.res Buffer) (compress : list N -> H -> res H).
  Hypothesis HB : 8 <= B.
  Hypothesis H64 : (N.of_nat (2 * B) < 2 ^ 64)%N.
  Hypothesis Hp : (padbyte < 256)%N.
  Hypothesis Hfix : forall m h, fixed c (compress m h).
  Hypothesis Hshow : forall m q h, bytes_ok m -> bytes_ok q -> B <= length m -> B <= length q ->
    shows (firstn B m = firstn B q) (compress m h) (compress q h).
  Hypothesis Her : forall bits b, er (write_len bits b) (write' bits b).
  Hypothesis Hct : forall bits b d, alike b d -> ct alike (write_len bits b) (write_len bits d).
  Hypothesis Hw : forall cap x bits, length x + 8 <= cap -> exists e, length e = 8 /\ bytes_ok e /\ write' bits (canon cap (x ++ repeat 0%N 8)) = Res.Ok (canon cap (x ++ e)).

  Definition md_F (n : nat) : nat := 1 + (n / B * (c + 1) + 1 + 0).
  Lemma fixed_md_impl d s : fixed (md_F (length d)) (md_impl B dbg compress d s).
  Proof using Hfix.
    unfold md_impl, md_F. cbv zeta. apply fixed_bind.
    - unfold assert_aligned. apply fixed_tell. destruct (_ && _); [apply fixed_throw|apply fixed_ok].
    - intros _. apply fixed_bind; [apply fixed_blocks, Hfix|]. intros. apply fixed_ok.
  Qed.
  Lemma shows_md_impl d e s : length d = length e -> bytes_ok d -> bytes_ok e -> length d mod B = 0 -> shows (d = e) (md_impl B dbg compress d s) (md_impl B dbg compress e s).
  Proof using HB H64 Hp Hfix Hshow Her Hct Hw.
    intros L Hd He Ha. unfold md_impl, assert_aligned. cbv zeta. rewrite <- L. rewrite !bind_tell. apply shows_tell.
    rewrite Ha. cbn [Nat.eqb negb]. rewrite andb_false_r, !bind_unit.
    eapply shows_bind; [apply fixed_blocks, Hfix|rewrite L; apply fixed_blocks, Hfix|apply (shows_blocks B c); [lia|exact Hfix|exact Hshow|exact L|exact Hd|exact He]|].
    intros s' _ E. apply shows_same. assert (length d <= length d / B * B) as Hle by (pose proof (Nat.div_mod (length d) B ltac:(lia)); lia).
    rewrite (firstn_all2 d Hle), (firstn_all2 (n := length d / B * B) e ltac:(lia)) in E. exact E.
  Qed.
  Lemma shows_md_fin r t s : length r = length t -> length r < B -> bytes_ok r -> bytes_ok t ->
    shows (r = t) (md_finalize B dbg padbyte write_len (md_impl B dbg compress) (canon (2 * B) r, s)) (md_finalize B dbg padbyte write_len (md_impl B dbg compress) (canon (2 * B) t, s)).
  Proof using HB H64 Hp Hfix Hshow Her Hct Hw.
    intros L Hlt Hr Ht. unfold md_finalize. cbv zeta. rewrite !canon_size. rewrite <- L.
    assert (forall v n x b, 1 <= length x + n -> length x + n <= 2 * B -> snd (buf_fill dbg v n (canon (2 * B) x)) = Res.Ok b -> b = canon (2 * B) (x ++ repeat v n)) as Hf.
    { intros v n x b E1 E2 E. rewrite (er_fill dbg v n (canon (2 * B) x)), fill_canon in E by assumption. now apply Ok_inj in E. }
    eapply shows_ct; [apply ct_fill, canon_alike, L|]. intros b1 d1 K1 E1 F1. apply Hf in E1; [|lia..]. apply Hf in F1; [|lia..]. subst b1 d1. clear K1. cbn [repeat].
    rewrite !canon_size, !app_length, <- L. cbn [length].
    destruct (Count.pad_len_data B 8 r ltac:(lia) Hlt HB H64) as (k & Ek & Hk & Hm & Hle). rewrite Ek.
    eapply shows_ct; [apply ct_fill, canon_alike; rewrite !app_length; congruence|]. intros b2 d2 K2 E2 F2.
    apply Hf in E2; [|rewrite app_length; cbn [length]; lia..]. apply Hf in F2; [|rewrite app_length; cbn [length]; lia..]. subst b2 d2.
    rewrite repeat_app, !app_assoc in *.
    set (bits := umul 64 (uadd 64 _ _) 8).
    eapply shows_ct; [apply Hct; exact K2|]. intros b3 d3 K3 E3 F3. rewrite (Her bits _) in E3. rewrite (Her bits _) in F3.
    destruct (Hw (2 * B) ((r ++ [padbyte]) ++ repeat 0%N k) bits) as (e & Le & Be & We); [rewrite !app_length, repeat_length; cbn [length]; lia|].
    destruct (Hw (2 * B) ((t ++ [padbyte]) ++ repeat 0%N k) bits) as (g & Lg & Bg & Wg); [rewrite !app_length, repeat_length; cbn [length]; lia|].
    rewrite E3 in We. rewrite F3 in Wg. apply Ok_inj in We, Wg. subst b3 d3. rewrite !canon_span.
    assert (length (((r ++ [padbyte]) ++ repeat 0%N k) ++ e) = length r + 1 + k + 8) as N1 by (rewrite !app_length, repeat_length, Le; cbn [length]; lia).
    assert (length (((t ++ [padbyte]) ++ repeat 0%N k) ++ g) = length r + 1 + k + 8) as N2 by (rewrite !app_length, repeat_length, Lg; cbn [length]; lia).
    eapply shows_bind; [apply fixed_md_impl|rewrite (eq_trans N1 (eq_sym N2)); apply fixed_md_impl|apply shows_md_impl|].
    - congruence.
    - apply bytes_ok_app; split; [apply bytes_ok_app; split; [apply bytes_ok_app; split; [exact Hr|repeat constructor; exact Hp]|apply bytes_ok_repeat; lia]|exact Be].
    - apply bytes_ok_app; split; [apply bytes_ok_app; split; [apply bytes_ok_app; split; [exact Ht|repeat constructor; exact Hp]|apply bytes_ok_repeat; lia]|exact Bg].
    - rewrite N1. exact Hm.
    - intros s' _ E. rewrite (alike_clear _ _ K3). apply shows_same. rewrite <- !app_assoc in E. exact (pad_app _ _ _ _ L E).
  Qed.
  Lemma shows_md m q h : length m = length q -> bytes_ok m -> bytes_ok q ->
    shows (m = q) (bind (addData (Stream.MD H) B (2 * B) dbg (md_impl B dbg compress) m (buf_new (2 * B), h)) (md_finalize B dbg padbyte write_len (md_impl B dbg compress)))
      (bind (addData (Stream.MD H) B (2 * B) dbg (md_impl B dbg compress) q (buf_new (2 * B), h)) (md_finalize B dbg padbyte write_len (md_impl B dbg compress))).
  Proof using HB H64 Hp Hfix Hshow Her Hct Hw.
    apply (shows_stream B (2 * B) dbg _ _ md_F); [lia|lia|apply fixed_md_impl|apply shows_md_impl|apply shows_md_fin].
  Qed.
End MD.

Lemma write_128 cap x bits : length x + 16 <= cap ->
  exists e, length e = 16 /\ bytes_ok e /\ Stream.write_len_be128 bits (canon cap (x ++ repeat 0%N 16)) = Res.Ok (canon cap (x ++ e)).
Proof.
  intros Hc. unfold Stream.write_len_be128. cbn [Res.for_ Res.bind].
  repeat (rewrite MD.set_from_end_canon by (cbn [length Res.upd repeat]; lia); cbn [Res.bind length Res.upd repeat Nat.sub Nat.add]).
  eexists. split; [|split; [|reflexivity]]; [reflexivity|].
  repeat (apply Forall_cons; [rewrite ror_spec; apply N.mod_lt; discriminate|]). apply Forall_nil.
Qed.
Section MD128.
  Context {H : Type} (B reserve c : nat) (dbg : bool) (compress : list N -> H -> res H).
  Hypothesis HB : reserve <= B.
  Hypothesis Hres : 16 <= reserve.
  Hypothesis H64 : (N.of_nat (2 * B) < 2 ^ 64)%N.
  Hypothesis Hfix : forall m h, fixed c (compress m h).
  Hypothesis Hshow : forall m q h, bytes_ok m -> bytes_ok q -> B <= length m -> B <= length q ->
    shows (firstn B m = firstn B q) (compress m h) (compress q h).

  Definition md128_F (n : nat) : nat := 1 + (n / B * (c + 1) + 1 + 0).
  Lemma fixed_md128_impl d s : fixed (md128_F (length d)) (md128_impl B dbg compress d s).
  Proof using Hfix.
    unfold md128_impl, md128_F. cbv zeta. apply fixed_bind.
    - unfold assert_aligned. apply fixed_tell. destruct (_ && _); [apply fixed_throw|apply fixed_ok].
    - intros _. apply fixed_bind; [apply fixed_blocks, Hfix|]. intros. apply fixed_ok.
  Qed.
  Lemma shows_md128_impl d e s : length d = length e -> bytes_ok d -> bytes_ok e -> length d mod B = 0 -> shows (d = e) (md128_impl B dbg compress d s) (md128_impl B dbg compress e s).
  Proof using HB H64 Hres Hfix Hshow.
    intros L Hd He Ha. unfold md128_impl, assert_aligned. cbv zeta. rewrite <- L. rewrite !bind_tell. apply shows_tell.
    rewrite Ha. cbn [Nat.eqb negb]. rewrite andb_false_r, !bind_unit.
    eapply shows_bind; [apply fixed_blocks, Hfix|rewrite L; apply fixed_blocks, Hfix|apply (shows_blocks B c); [lia|exact Hfix|exact Hshow|exact L|exact Hd|exact He]|].
    intros s' _ E. apply shows_same. assert (length d <= length d / B * B) as Hle by (pose proof (Nat.div_mod (length d) B ltac:(lia)); lia).
    rewrite (firstn_all2 d Hle), (firstn_all2 (n := length d / B * B) e ltac:(lia)) in E. exact E.
  Qed.
  Lemma shows_md128_fin r t s : length r = length t -> length r < B -> bytes_ok r -> bytes_ok t ->
    shows (r = t) (md128_finalize B reserve dbg (md128_impl B dbg compress) (canon (2 * B) r, s)) (md128_finalize B reserve dbg (md128_impl B dbg compress) (canon (2 * B) t, s)).
  Proof using HB H64 Hres Hfix Hshow.
    intros L Hlt Hr Ht. unfold md128_finalize. cbv zeta. rewrite !canon_size. rewrite <- L.
    assert (forall v n x b, 1 <= length x + n -> length x + n <= 2 * B -> snd (buf_fill dbg v n (canon (2 * B) x)) = Res.Ok b -> b = canon (2 * B) (x ++ repeat v n)) as Hf.
    { intros v n x b E1 E2 E. rewrite (er_fill dbg v n (canon (2 * B) x)), fill_canon in E by assumption. now apply Ok_inj in E. }
    eapply shows_ct; [apply ct_fill, canon_alike, L|]. intros b1 d1 K1 E1 F1. apply Hf in E1; [|lia..]. apply Hf in F1; [|lia..]. subst b1 d1. clear K1. cbn [repeat].
    rewrite !canon_size, !app_length, <- L. cbn [length].
    destruct (Count.pad_len_data B reserve r ltac:(lia) Hlt HB H64) as (k & Ek & Hk & Hm & Hle). rewrite Ek.
    eapply shows_ct; [apply ct_fill, canon_alike; rewrite !app_length; congruence|]. intros b2 d2 K2 E2 F2.
    apply Hf in E2; [|rewrite app_length; cbn [length]; lia..]. apply Hf in F2; [|rewrite app_length; cbn [length]; lia..]. subst b2 d2.
    replace (k + reserve) with (k + (reserve - 16) + 16) in * by lia. rewrite (repeat_app _ (k + (reserve - 16))), !app_assoc in *.
    set (bits := u128_mul8 _).
    eapply shows_ct; [apply ct_len_128; exact K2|]. intros b3 d3 K3 E3 F3. rewrite (er_len_128 bits _) in E3. rewrite (er_len_128 bits _) in F3.
    destruct (write_128 (2 * B) ((r ++ [128%N]) ++ repeat 0%N (k + (reserve - 16))) bits) as (e & Le & Be & We); [rewrite !app_length, repeat_length; cbn [length]; lia|].
    destruct (write_128 (2 * B) ((t ++ [128%N]) ++ repeat 0%N (k + (reserve - 16))) bits) as (g & Lg & Bg & Wg); [rewrite !app_length, repeat_length; cbn [length]; lia|].
    rewrite E3 in We. rewrite F3 in Wg. apply Ok_inj in We, Wg. subst b3 d3. rewrite !canon_span.
    assert (length (((r ++ [128%N]) ++ repeat 0%N (k + (reserve - 16))) ++ e) = length r + 1 + k + reserve) as N1 by (rewrite !app_length, repeat_length, Le; cbn [length]; lia).
    assert (length (((t ++ [128%N]) ++ repeat 0%N (k + (reserve - 16))) ++ g) = length r + 1 + k + reserve) as N2 by (rewrite !app_length, repeat_length, Lg; cbn [length]; lia).
    eapply shows_bind; [apply fixed_md128_impl|rewrite (eq_trans N1 (eq_sym N2)); apply fixed_md128_impl|apply shows_md128_impl|].
    - congruence.
    - apply bytes_ok_app; split; [apply bytes_ok_app; split; [apply bytes_ok_app; split; [exact Hr|repeat constructor]|apply bytes_ok_repeat; lia]|exact Be].
    - apply bytes_ok_app; split; [apply bytes_ok_app; split; [apply bytes_ok_app; split; [exact Ht|repeat constructor]|apply bytes_ok_repeat; lia]|exact Bg].
    - rewrite N1. exact Hm.
    - intros s' _ E. rewrite (alike_clear _ _ K3). apply shows_same. rewrite <- !app_assoc in E. exact (pad_app _ _ _ _ L E).
  Qed.
  Lemma shows_md128 m q h : length m = length q -> bytes_ok m -> bytes_ok q ->
    shows (m = q) (bind (addData (Stream.MD128 H) B (2 * B) dbg (md128_impl B dbg compress) m (buf_new (2 * B), h)) (md128_finalize B reserve dbg (md128_impl B dbg compress)))
      (bind (addData (Stream.MD128 H) B (2 * B) dbg (md128_impl B dbg compress) q (buf_new (2 * B), h)) (md128_finalize B reserve dbg (md128_impl B dbg compress))).
  Proof using HB H64 Hres Hfix Hshow.
    apply (shows_stream B (2 * B) dbg _ _ md128_F); [lia|lia|apply fixed_md128_impl|apply shows_md128_impl|apply shows_md128_fin].
  Qed.
End MD128.

(** MD2 *)
Definition md2_F (c n : nat) : nat := n / 16 * (c + 1) + 1.
Lemma shows_md2_impl c : (forall m s, fixed c (LkMd2.compress m s)) -> forall d e s, length d = length e -> bytes_ok d -> bytes_ok e -> length d mod 16 = 0 ->
  shows (d = e) (LkMd2.addDataImpl d s) (LkMd2.addDataImpl e s).
Proof.
  intros Hc d e s L Hd He Ha. unfold LkMd2.addDataImpl. eapply shows_weak; [|apply (shows_blocks 16 c); [lia|exact Hc|exact shows_md2|exact L|exact Hd|exact He]].
  assert (length d <= length d / 16 * 16) as Hle by (pose proof (Nat.div_mod (length d) 16 ltac:(lia)); lia).
  rewrite (firstn_all2 d Hle), (firstn_all2 (n := length d / 16 * 16) e ltac:(lia)). auto.
Qed.
Lemma shows_md2_fin dbg r t s : length r = length t -> length r < 16 -> bytes_ok r -> bytes_ok t ->
  shows (r = t) (LkMd2.finalize dbg (canon 32 r, s)) (LkMd2.finalize dbg (canon 32 t, s)).
Proof.
  intros L Hlt Hr Ht. destruct fixed_md2 as [c Hc]. unfold LkMd2.finalize. cbv zeta. rewrite !canon_size. rewrite <- L.
  rewrite Nat.mod_small by exact Hlt. set (n := 16 - length r). set (v := trunc 8 (N.of_nat n)).
  assert (forall x b, length x = length r -> snd (buf_fill dbg v n (canon 32 x)) = Res.Ok b -> b = canon 32 (x ++ repeat v n)) as Hf.
  { intros x b Ex E. rewrite (er_fill dbg v n (canon 32 x)), fill_canon in E by (unfold n; lia). now apply Ok_inj in E. }
  eapply shows_ct; [apply ct_fill, canon_alike, L|]. intros b d K E1 F1. apply Hf in E1; [|reflexivity]. apply Hf in F1; [|congruence]. subst b d. rewrite !canon_span.
  assert (bytes_ok (repeat v n)) as Hv by (apply bytes_ok_repeat; unfold v; rewrite trunc_mod; apply N.mod_lt; discriminate).
  assert (length (r ++ repeat v n) = 16) as N1 by (rewrite app_length, repeat_length; unfold n; lia).
  assert (length (t ++ repeat v n) = 16) as N2 by (rewrite app_length, repeat_length; unfold n; lia).
  eapply (shows_bind (r ++ repeat v n = t ++ repeat v n)); [apply (fixed_blocks 16 c), Hc|rewrite (eq_trans N1 (eq_sym N2)); apply (fixed_blocks 16 c), Hc| |].
  - apply (shows_md2_impl c Hc); [congruence|apply bytes_ok_app; auto|apply bytes_ok_app; auto|rewrite N1; reflexivity].
  - intros s' _ E. rewrite (alike_clear _ _ K). apply shows_same. exact (app_head _ _ _ _ L E).
Qed.
Lemma write_64 cap x bits : length x + 8 <= cap ->
  exists e, length e = 8 /\ bytes_ok e /\ Stream.write_len_le bits (canon cap (x ++ repeat 0%N 8)) = Res.Ok (canon cap (x ++ e)).
Proof. intros H. exists (le_bytes 8 bits). split; [apply le_bytes_length|]. split; [apply le_bytes_ok|]. apply MD.write_len_le_ok, H. Qed.

(** hashing a message in a new object *)
Definition hashing (a : alg) (dbg : bool) (m : list N) : res (Obj (class a dbg)) := bind (l_add (leaky a dbg) m (c_new (class a dbg))) (l_finalize (leaky a dbg)).
Lemma shows_tiger_class V size dbg m q h : length m = length q -> bytes_ok m -> bytes_ok q ->
  shows (m = q) (bind (l_add (tiger V size dbg) m (buf_new 128, h)) (l_finalize (tiger V size dbg))) (bind (l_add (tiger V size dbg) q (buf_new 128, h)) (l_finalize (tiger V size dbg))).
Proof.
  destruct fixed_tiger as [c Hc]. unfold tiger, md_leaky. cbn [l_add l_finalize]. change 128 with (2 * 64).
  apply (shows_md 64 c dbg _ write_len_le Stream.write_len_le LkTiger.compress); [lia|reflexivity|destruct (V =? 1); reflexivity|exact Hc|exact shows_tiger|apply er_len_le|apply ct_len_le|exact write_64].
Qed.
Theorem shows_library a dbg m q : tabled a = true -> length m = length q -> bytes_ok m -> bytes_ok q -> shows (m = q) (hashing a dbg m) (hashing a dbg q).
Proof.
  intros T L Hm Hq. unfold hashing. destruct a; try discriminate T.
  - destruct fixed_block as [c Hc]. cbn [leaky l_add l_finalize]. eapply (shows_bind (m = q)).
    + eapply (fixed_bind _ _ _ _ (fixed_blocks 16 c _ Hc m _)). intros. eapply fixed_for. intros. unfold LkCrc32.byte. change LkCrc32.lut with (look Crc32Table.crc32LUT). fx.
    + rewrite L. eapply (fixed_bind _ _ _ _ (fixed_blocks 16 c _ Hc q _)). intros. eapply fixed_for. intros. unfold LkCrc32.byte. change LkCrc32.lut with (look Crc32Table.crc32LUT). fx.
    + apply shows_crc; assumption.
    + intros h _ E. apply shows_same, E.
  - destruct fixed_md2 as [c Hc]. cbn [leaky l_add l_finalize stream_leaky].
    apply (shows_stream 16 32 dbg LkMd2.addDataImpl (LkMd2.finalize dbg) (md2_F c)); [lia|lia|intros; apply (fixed_blocks 16 c), Hc|apply (shows_md2_impl c Hc)|apply shows_md2_fin|assumption..].
  - apply shows_tiger_class; assumption.
  - apply shows_tiger_class; assumption.
  - apply shows_tiger_class; assumption.
  - apply shows_tiger_class; assumption.
  - apply shows_tiger_class; assumption.
  - apply shows_tiger_class; assumption.
  - destruct fixed_whirlpool as [c Hc]. cbn [leaky]. unfold md128_leaky. cbn [l_add l_finalize]. change (c_new (class Library.Whirlpool dbg)) with (buf_new (2 * 64), snd (c_new (class Library.Whirlpool dbg))).
    apply (shows_md128 64 32 c dbg LkWhirlpool.compress); [lia|lia|reflexivity|exact Hc|exact shows_whirlpool|assumption..].
Qed.

Lemma hashing_trace a dbg m : trace (observed a dbg [On 0 (AddData m); On 0 Finalize]) = trace (hashing a dbg m) /\
  (okd (observed a dbg [On 0 (AddData m); On 0 Finalize]) -> okd (hashing a dbg m)).
Proof.
  unfold observed, hashing, okd, trace. cbn [run run_op]. generalize (class a dbg) (leaky a dbg). intros C L. unfold bind, Ok. cbn [fst snd].
  destruct (snd (l_add L m (c_new C))) as [x| |]; cbn [Res.bind fst snd].
  - change (put C (fun _ => c_new C) 0 x 0) with x. destruct (snd (l_finalize L x)) as [y| |]; cbn [Res.bind fst snd]; rewrite ?app_nil_r; (split; [reflexivity|]); intros [b E]; [eauto|discriminate E..].
  - rewrite !app_nil_r. split; [reflexivity|]. intros [b E]. discriminate E.
  - rewrite !app_nil_r. split; [reflexivity|]. intros [b E]. discriminate E.
Qed.
Lemma tabled_formed a : tabled a = true -> well_formed a.
Proof. destruct a; try discriminate; intros _; exact I. Qed.
Lemma hashing_okd a dbg m : tabled a = true -> span_ok m -> okd (hashing a dbg m).
Proof.
  intros T Hm. apply hashing_trace. unfold okd. pose proof (observed_erases a dbg [On 0 (AddData m); On 0 Finalize]) as E. unfold outcome in E. rewrite E.
  destruct (AnyOrderLibrary.library_any_order a [On 0 (AddData m); On 0 Finalize] (tabled_formed a T)) as (os & st & st' & E1 & E2).
  - split; [split; [exact Hm|intros [=]]|]. split; [split; [exact I|intros [=]]|exact I].
  - destruct dbg; rewrite ?E1, ?E2; eauto.
Qed.
Theorem tables_show a dbg m q : tabled a = true -> span_ok m -> span_ok q -> length m = length q ->
  trace (observed a dbg [On 0 (AddData m); On 0 Finalize]) = trace (observed a dbg [On 0 (AddData q); On 0 Finalize]) -> m = q.
Proof.
  intros T Hm Hq L E. rewrite !(proj1 (hashing_trace _ _ _)) in E. apply (shows_library a dbg m q T L (proj1 Hm) (proj1 Hq)); [now apply hashing_okd..|exact E].
Qed.
