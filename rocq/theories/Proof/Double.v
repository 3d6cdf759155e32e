(** Rounding to 53 bits, and the byte count of leftEncode and rightEncode. *)
From Coq Require Import NArith Arith Bool Lia.
From Verif.Base Require Import Res CWord Double.
From Verif.Spec Require Import Log2.
From Verif.Model Require Import CShake.
Local Open Scope N_scope.

Lemma pow2_pos n : 0 < 2 ^ n.
Proof. apply N.neq_0_lt_0, N.pow_nonzero. discriminate. Qed.
Lemma ulp_pos x : 0 < ulp x.
Proof. apply pow2_pos. Qed.

Lemma ulp_divide x y : N.log2 x <= N.log2 y -> (ulp x | ulp y).
Proof.
  intros H. exists (2 ^ ((N.log2 y - 52) - (N.log2 x - 52))). unfold ulp.
  rewrite <- N.pow_add_r. f_equal. lia.
Qed.

Lemma rep_divide x : representable x -> (ulp x | x).
Proof. intros H. apply N.mod_divide; [apply N.neq_0_lt_0, ulp_pos|exact H]. Qed.

Lemma round_cases x : exists q r, x = q * ulp x + r /\ r < ulp x /\
  (round53 x = q * ulp x \/ (r <> 0 /\ round53 x = (q + 1) * ulp x)).
Proof.
  pose proof (ulp_pos x) as Hu. exists (x / ulp x), (x mod ulp x). unfold round53. set (u := ulp x) in *.
  pose proof (N.div_mod x u ltac:(lia)) as E. pose proof (N.mod_lt x u ltac:(lia)) as L.
  split; [lia|]. split; [exact L|].
  destruct (N.ltb_spec (2 * (x mod u)) u) as [H|H]; [left; reflexivity|].
  destruct (N.eqb_spec (2 * (x mod u)) u) as [H1|H1]; cbn [orb andb].
  - destruct (N.even (x / u)); [left; reflexivity|right; split; [lia|reflexivity]].
  - right. split; [lia|reflexivity].
Qed.

Lemma multiple_gap u q g x : 0 < u -> (u | g) -> q * u < x -> x <= g -> (q + 1) * u <= g.
Proof. intros Hu [k ->] H1 H2. assert (q < k) by nia. nia. Qed.

Lemma round_le x g : representable g -> x <= g -> round53 x <= g.
Proof.
  intros Hg Hle. destruct (round_cases x) as (q & r & E & Hr & [->|[Hr0 ->]]); [lia|].
  apply (multiple_gap (ulp x) q g x); [apply ulp_pos| |lia|exact Hle].
  apply N.divide_trans with (ulp g); [|now apply rep_divide].
  apply ulp_divide, N.log2_le_mono, Hle.
Qed.

Lemma round_ge x g : representable g -> g <= x -> g <= round53 x.
Proof.
  intros Hg Hle. destruct (round_cases x) as (q & r & E & Hr & Hc).
  cut (g <= q * ulp x); [intros H; destruct Hc as [->|[_ ->]]; lia|]. clear Hc.
  destruct (N.lt_ge_cases (N.log2 g) (N.log2 x)) as [Hl|Hl].
  - destruct (N.eq_dec x 0) as [->|Hx]; [unfold N.log2 in Hl; lia|].
    destruct (N.log2_spec x ltac:(lia)) as [H1 _].
    assert (g < 2 ^ N.log2 x) as H2.
    { destruct (N.eq_dec g 0) as [->|Hg0]; [apply pow2_pos|]. apply N.log2_lt_pow2; lia. }
    apply N.lt_le_incl, (N.lt_le_trans _ _ _ H2). clear H2.
    assert (ulp x | 2 ^ N.log2 x) as [k Hk].
    { unfold ulp. exists (2 ^ (N.log2 x - (N.log2 x - 52))). rewrite <- N.pow_add_r. f_equal. lia. }
    rewrite Hk in H1 |- *. pose proof (ulp_pos x). assert (k <= q) by nia. nia.
  - assert (ulp x | g) as [k ->].
    { apply N.divide_trans with (ulp g); [|now apply rep_divide]. now apply ulp_divide. }
    pose proof (ulp_pos x). assert (k <= q) by nia. nia.
Qed.

Lemma round_rep x : representable x -> round53 x = x.
Proof. intros H. apply N.le_antisymm; [apply round_le|apply round_ge]; (exact H || lia). Qed.

Lemma small_rep x : x < 2 ^ 53 -> representable x.
Proof.
  intros H. unfold representable, ulp. replace (N.log2 x - 52) with 0; [apply N.mod_1_r|].
  destruct (N.eq_dec x 0) as [->|Hx]; [reflexivity|].
  assert (N.log2 x < 53) by (apply N.log2_lt_pow2; lia). lia.
Qed.

Lemma scaled_rep m e : m < 2 ^ 53 -> representable (m * 2 ^ e).
Proof.
  intros H. destruct (N.eq_dec m 0) as [->|Hm]; [reflexivity|].
  unfold representable, ulp. rewrite N.log2_mul_pow2 by lia.
  assert (N.log2 m < 53) by (apply N.log2_lt_pow2; lia).
  apply N.mod_divide; [apply N.pow_nonzero; discriminate|].
  apply N.divide_trans with (2 ^ e); [|apply N.divide_factor_r].
  exists (2 ^ (e - (N.log2 m + e - 52))). rewrite <- N.pow_add_r. f_equal. lia.
Qed.

(** the result of rounding is a double *)
Lemma round_representable x : representable (round53 x).
Proof.
  destruct (N.eq_dec x 0) as [->|Hx]; [reflexivity|].
  destruct (N.log2_spec x ltac:(lia)) as [H1 H2].
  assert (forall q, q * ulp x <= 2 ^ N.succ (N.log2 x) -> representable (q * ulp x)) as G.
  { intros q Hq. destruct (N.le_gt_cases (N.log2 x) 52) as [Hs|Hs].
    - unfold ulp in *. replace (N.log2 x - 52) with 0 in * by lia. rewrite N.pow_0_r, N.mul_1_r in *.
      destruct (N.eq_dec q (2 ^ 53)) as [->|N1]; [reflexivity|]. apply small_rep.
      assert (2 ^ N.succ (N.log2 x) <= 2 ^ 53) by (apply N.pow_le_mono_r; [discriminate|lia]). lia.
    - unfold ulp in *. replace (N.succ (N.log2 x)) with (53 + (N.log2 x - 52)) in Hq by lia. rewrite N.pow_add_r in Hq.
      pose proof (pow2_pos (N.log2 x - 52)). set (u := 2 ^ (N.log2 x - 52)) in *.
      assert (q <= 2 ^ 53) by nia.
      destruct (N.eq_dec q (2 ^ 53)) as [->|N1].
      + unfold u. replace (2 ^ 53 * 2 ^ (N.log2 x - 52)) with (1 * 2 ^ (53 + (N.log2 x - 52))) by (rewrite N.pow_add_r; lia).
        apply scaled_rep. reflexivity.
      + apply scaled_rep. lia. }
  destruct (round_cases x) as (q & r & E & Hr & Hc).
  assert (ulp x | 2 ^ N.succ (N.log2 x)) as [k Hk].
  { unfold ulp. exists (2 ^ (N.succ (N.log2 x) - (N.log2 x - 52))). rewrite <- N.pow_add_r. f_equal. lia. }
  rewrite Hk in *. pose proof (ulp_pos x).
  assert (q < k) by nia.
  destruct Hc as [->|[_ ->]]; apply G; nia.
Qed.

(** ** powers *)

Lemma pow_1_le a b : 1 <= a -> 1 <= a ^ b.
Proof. intros H. rewrite <- (N.pow_1_l b). apply N.pow_le_mono_l, H. Qed.

(** Bernoulli, second order: (1 + 1/m)^k >= 1 + k/m + k(k-1)/(2 m^2) *)
Lemma bernoulli2 m k : m ^ k * (2 * m * m + 2 * k * m + k * k) <= (m + 1) ^ k * (2 * m * m) + m ^ k * k.
Proof.
  induction k as [|k IH] using N.peano_ind.
  - rewrite !N.pow_0_r. lia.
  - rewrite !N.pow_succ_r'. set (a := m ^ k) in *. set (b := (m + 1) ^ k) in *. clearbody a b.
    apply (N.mul_le_mono_l _ _ (m + 1)) in IH. assert (k <= k * k) as Hk by nia. apply (N.mul_le_mono_l _ _ a) in Hk. lia.
Qed.

Lemma pow_half m : 1 <= m -> m ^ m * 2 <= (m + 1) ^ m.
Proof. intros H. pose proof (bernoulli2 m m). set (a := m ^ m) in *. set (b := (m + 1) ^ m) in *. clearbody a b. nia. Qed.

Lemma pow_12_5 m : 5 <= m -> m ^ m * 12 <= (m + 1) ^ m * 5.
Proof. intros H. pose proof (bernoulli2 m m). set (a := m ^ m) in *. set (b := (m + 1) ^ m) in *. clearbody a b. nia. Qed.

(** if d <= 2^a m / (m + 1) then d^E X <= 2^(a E), for X <= (1 + 1/m)^E *)
Lemma gap_pow d a m E X : 1 <= m -> d * (m + 1) <= 2 ^ a * m -> m ^ E * X <= (m + 1) ^ E ->
  d ^ E * X <= 2 ^ (a * E).
Proof.
  intros Hm Hd HX. apply (N.pow_le_mono_l _ _ E) in Hd. rewrite !N.pow_mul_l, <- N.pow_mul_r in Hd.
  pose proof (pow_1_le m E Hm) as H1.
  set (D := d ^ E) in *. set (P := 2 ^ (a * E)) in *. set (x := m ^ E) in *. set (y := (m + 1) ^ E) in *. clearbody D P x y.
  assert (D * (x * X) <= P * x) by nia. nia.
Qed.

(** m^(j m) X^j <= (m+1)^(j m) *)
Lemma pow_iter m j e A B : m ^ e * A <= (m + 1) ^ e * B -> (m ^ (e * j)) * A ^ j <= (m + 1) ^ (e * j) * B ^ j.
Proof. intros H. rewrite !N.pow_mul_r, <- !N.pow_mul_l. apply N.pow_le_mono_l, H. Qed.

Lemma pow_more m e E X : e <= E -> m ^ e * X <= (m + 1) ^ e -> m ^ E * X <= (m + 1) ^ E.
Proof.
  intros He H. replace E with (e + (E - e)) by lia. rewrite !N.pow_add_r.
  pose proof (N.pow_le_mono_l m (m + 1) (E - e) ltac:(lia)) as H2.
  set (x := m ^ e) in *. set (y := (m + 1) ^ e) in *. set (x' := m ^ (E - e)) in *. set (y' := (m + 1) ^ (E - e)) in *. clearbody x y x' y'.
  nia.
Qed.

(** (1 + 1/m)^(128 m) > 2^161 *)
Lemma pow_161 m E : 5 <= m -> 128 * m <= E -> m ^ E * 2 ^ 161 <= (m + 1) ^ E.
Proof.
  intros Hm HE. apply (pow_more m (m * 128)); [lia|].
  pose proof (pow_iter m 128 m 12 5 (pow_12_5 m Hm)) as H.
  set (x := m ^ (m * 128)) in *. set (y := (m + 1) ^ (m * 128)) in *. clearbody x y.
  assert (2 ^ 161 * 5 ^ 128 <= 12 ^ 128) as C by (apply N.leb_le; reflexivity).
  assert (0 < 5 ^ 128) as C0 by reflexivity.
  generalize dependent (5 ^ 128). generalize dependent (12 ^ 128). generalize dependent (2 ^ 161). intros; nia.
Qed.

Lemma pow_500 m E : 1 <= m -> 500 * m <= E -> m ^ E * 2 ^ 500 <= (m + 1) ^ E.
Proof.
  intros Hm HE. apply (pow_more m (m * 500)); [lia|].
  assert (m ^ m * 2 <= (m + 1) ^ m * 1) as H0 by (rewrite N.mul_1_r; now apply pow_half).
  pose proof (pow_iter m 500 m 2 1 H0) as H. rewrite N.pow_1_l, N.mul_1_r in H. exact H.
Qed.

(** ** the byte count *)

Section Count.
  Variable log2 : N -> N.
  Hypothesis Hlog : log2_accurate log2.

  Lemma ulp_small p : p < 2 ^ 58 -> ulp p <= 32.
  Proof.
    intros H. unfold ulp. change 32 with (2 ^ 5). apply N.pow_le_mono_r; [discriminate|].
    destruct (N.eq_dec p 0) as [->|Hp]; [change (N.log2 0) with 0; lia|].
    assert (N.log2 p < 58) by (apply N.log2_lt_pow2; lia). lia.
  Qed.

  Lemma ulp_rel p : ulp p <= 1 + p / 2 ^ 52.
  Proof.
    unfold ulp. destruct (N.le_gt_cases (N.log2 p) 52) as [H|H].
    - replace (N.log2 p - 52) with 0 by lia. rewrite N.pow_0_r. apply N.le_add_r.
    - assert (0 < p) as Hp by (destruct (N.eq_dec p 0) as [->|]; [change (N.log2 0) with 0 in H|]; lia). destruct (N.log2_spec p Hp) as [H1 _].
      assert (2 ^ (N.log2 p - 52) <= p / 2 ^ 52); [|lia].
      apply N.div_le_lower_bound; [discriminate|]. rewrite <- N.pow_add_r. replace (52 + (N.log2 p - 52)) with (N.log2 p) by lia. exact H1.
  Qed.

  (** the bounds, with the huge powers kept out of the context *)
  Lemma log_bounds d : 1 <= d <= 2 ^ 64 -> representable d -> let p := log2 d in
    representable p /\
    (forall a, 2 ^ a <= d ^ (2 ^ 55) -> a <= 8 * p + 5 * ulp p) /\
    (forall x b, d ^ (2 ^ 55) * 2 ^ x <= 2 ^ b -> 8 * p - 5 * ulp p + x <= b).
  Proof.
    intros Hd Hr p. destruct (Hlog d Hd Hr) as (Hp & Hl & Hu). fold p in Hp, Hl, Hu.
    split; [exact Hp|]. split.
    - intros a Ha. apply (N.pow_le_mono_r_iff 2); [reflexivity|]. exact (N.le_trans _ _ _ Ha Hu).
    - intros x b Hb. apply (N.pow_le_mono_r_iff 2); [reflexivity|]. rewrite N.pow_add_r.
      refine (N.le_trans _ _ _ _ Hb). apply N.mul_le_mono_r. exact Hl.
  Qed.

  (** log2 of at least 2^a is not below a *)
  Lemma log_lower d k : k <= 8 -> 1 <= d <= 2 ^ 64 -> representable d -> 2 ^ (8 * k) <= d -> k * 2 ^ 55 <= log2 d.
  Proof.
    intros Hk Hd Hr Hle. destruct (log_bounds d Hd Hr) as (Hp & Hu & _).
    specialize (Hu (8 * k * 2 ^ 55)). rewrite (N.pow_mul_r 2) in Hu. specialize (Hu (N.pow_le_mono_l _ _ _ Hle)).
    set (p := log2 d) in *. clearbody p. destruct (N.le_gt_cases (k * 2 ^ 55) p) as [|Hlt]; [assumption|exfalso].
    pose proof (rep_divide p Hp) as [c Hc].
    assert (ulp p | k * 2 ^ 55) as [c' Hc'].
    { apply N.divide_mul_r. unfold ulp. assert (N.log2 p < 58).
      { destruct (N.eq_dec p 0) as [->|N0]; [reflexivity|]. apply N.log2_lt_pow2; [lia|]. change (2 ^ 58) with (8 * 2 ^ 55). nia. }
      exists (2 ^ (55 - (N.log2 p - 52))). rewrite <- N.pow_add_r. f_equal. lia. }
    pose proof (ulp_pos p) as Hup. assert (p + ulp p <= k * 2 ^ 55) as Hgap.
    { assert (c < c') by nia. nia. }
    set (u := ulp p) in *. clearbody u. lia.
  Qed.

  (** log2 of at most 2^(8k) - 1 (and 2^56 - 256) stays 32 units below 8k *)
  Lemma log_upper d k : 1 <= k <= 7 -> 1 <= d -> d < 2 ^ (8 * k) -> d <= 2 ^ 56 - 2 ^ 8 -> representable d ->
    log2 d + 32 <= k * 2 ^ 55.
  Proof.
    intros Hk Hd1 Hlt Hmax Hr.
    assert (2 ^ 56 - 2 ^ 8 <= 2 ^ 64) as Hc by (apply N.leb_le; reflexivity).
    assert (1 <= d <= 2 ^ 64) as Hd by lia. clear Hc.
    destruct (log_bounds d Hd Hr) as (Hp & _ & Hl).
    set (p := log2 d) in *. clearbody p. destruct (N.le_gt_cases (p + 32) (k * 2 ^ 55)) as [|Hgt]; [assumption|exfalso].
    assert (d <> 0) as Hd0 by lia.
    (* p is below 2^58 *)
    assert (8 * p - 5 * ulp p <= 56 * 2 ^ 55) as Hb.
    { rewrite <- (N.add_0_r (_ - _)). apply Hl. rewrite N.pow_0_r, N.mul_1_r, N.pow_mul_r. apply N.pow_le_mono_l. lia. }
    assert (p < 2 ^ 58) as Hp58.
    { pose proof (ulp_rel p) as Hur. assert (p / 2 ^ 52 * 2 ^ 52 <= p) by (rewrite N.mul_comm; apply N.mul_div_le; discriminate).
      change (56 * 2 ^ 55) with 2017612633061982208 in Hb. change (2 ^ 58) with 288230376151711744. change (2 ^ 52) with 4503599627370496 in *.
      set (u := ulp p) in *. set (t := p / 4503599627370496) in *. clearbody u t. lia. }
    pose proof (ulp_small p Hp58) as Hu32. clear Hb.
    destruct (N.le_gt_cases k 4) as [Hk4|Hk4].
    - (* far below *)
      assert (d * (4294967295 + 1) <= 2 ^ (8 * k) * 4294967295) as Hg.
      { assert (2 ^ (8 * k) <= 4294967296) by (change 4294967296 with (2 ^ 32); apply N.pow_le_mono_r; [discriminate|lia]). lia. }
      assert (4294967295 ^ (2 ^ 55) * 2 ^ 500 <= (4294967295 + 1) ^ (2 ^ 55)) as HX.
      { apply pow_500; [discriminate|apply N.leb_le; reflexivity]. }
      pose proof (Hl _ _ (gap_pow d (8 * k) 4294967295 (2 ^ 55) (2 ^ 500) ltac:(discriminate) Hg HX)) as H3. clear HX Hg.
      set (u := ulp p) in *. clearbody u. set (A := 2 ^ 55) in *. clearbody A. lia.
    - (* the neighbouring double *)
      assert (2 ^ 57 <= p) as Hp57.
      { change (2 ^ 57) with (4 * 2 ^ 55). assert (32 <= 2 ^ 55) as C by (apply N.leb_le; reflexivity).
        set (A := 2 ^ 55) in *. clearbody A. nia. }
      assert (N.log2 p = 57) as Hlp.
      { apply N.log2_unique; [lia|]. split; [exact Hp57|exact Hp58]. }
      assert (ulp p = 32) as Hu by (unfold ulp; rewrite Hlp; reflexivity).
      pose proof (rep_divide p Hp) as [c Hc]. rewrite Hu in *.
      assert (k * 2 ^ 55 <= p) as Hge.
      { change (2 ^ 55) with (1125899906842624 * 32) in Hgt |- *. nia. }
      assert (d * (281474976710655 + 1) <= 2 ^ (8 * k) * 281474976710655) as Hg.
      { change (2 ^ 56 - 2 ^ 8) with 72057594037927680 in Hmax.
        destruct (N.eq_dec k 7) as [->|N7]; [change (2 ^ (8 * 7)) with 72057594037927936; lia|].
        assert (2 ^ (8 * k) <= 281474976710656) by (change 281474976710656 with (2 ^ 48); apply N.pow_le_mono_r; [discriminate|lia]). lia. }
      assert (281474976710655 ^ (2 ^ 55) * 2 ^ 161 <= (281474976710655 + 1) ^ (2 ^ 55)) as HX.
      { apply pow_161; [discriminate|apply N.leb_le; reflexivity]. }
      pose proof (Hl _ _ (gap_pow d (8 * k) 281474976710655 (2 ^ 55) (2 ^ 161) ltac:(discriminate) Hg HX)) as H3. clear HX Hg.
      set (A := 2 ^ 55) in *. clearbody A. lia.
  Qed.
End Count.

Section Encode.
  Variable log2 : N -> N.
  Hypothesis Hlog : log2_accurate log2.

  Lemma max_rep : representable (2 ^ 56 - 2 ^ 8).
  Proof. reflexivity. Qed.

  Lemma sum_upper l k : k <= 7 -> l + 32 <= k * 2 ^ 55 -> (round53 (l + 2 ^ 54) + 2 ^ 54) / 2 ^ 55 <= k.
  Proof.
    intros Hk Hl. assert (round53 (l + 2 ^ 54) <= (k * 2 ^ 50 + (2 ^ 49 - 1)) * 2 ^ 5) as H.
    { apply round_le.
      - apply scaled_rep. change (2 ^ 53) with 9007199254740992. change (2 ^ 50) with 1125899906842624. change (2 ^ 49) with 562949953421312. lia.
      - change (2 ^ 55) with 36028797018963968 in Hl. change (2 ^ 54) with 18014398509481984. change (2 ^ 50) with 1125899906842624. change (2 ^ 49) with 562949953421312. change (2 ^ 5) with 32. lia. }
    apply N.lt_succ_r. apply N.div_lt_upper_bound; [discriminate|]. set (s := round53 (l + 2 ^ 54)) in *. clearbody s.
    change (2 ^ 55) with 36028797018963968. change (2 ^ 54) with 18014398509481984. change (2 ^ 50) with 1125899906842624 in H. change (2 ^ 49) with 562949953421312 in H. change (2 ^ 5) with 32 in H. lia.
  Qed.

  Lemma sum_lower l k : k <= 8 -> k * 2 ^ 55 <= l -> k + 1 <= (round53 (l + 2 ^ 54) + 2 ^ 54) / 2 ^ 55.
  Proof.
    intros Hk Hl. assert ((2 * k + 1) * 2 ^ 54 <= round53 (l + 2 ^ 54)) as H.
    { apply round_ge.
      - apply scaled_rep. change (2 ^ 53) with 9007199254740992. lia.
      - change (2 ^ 55) with 36028797018963968 in Hl. change (2 ^ 54) with 18014398509481984. lia. }
    apply N.div_le_lower_bound; [discriminate|]. set (s := round53 (l + 2 ^ 54)) in *. clearbody s.
    change (2 ^ 55) with 36028797018963968. change (2 ^ 54) with 18014398509481984 in *. lia.
  Qed.

  Lemma round_1 v : 1 <= v -> 1 <= round53 v.
  Proof. intros H. apply round_ge; [reflexivity|exact H]. Qed.
  Lemma round_64 v : v <= 2 ^ 64 -> round53 v <= 2 ^ 64.
  Proof. intros H. apply round_le; [reflexivity|exact H]. Qed.

  (** the smallest k with value < 2^(8k) *)
  Theorem encodeCount_ok v k : v <= 2 ^ 56 - 2 ^ 8 -> 1 <= k -> v < 2 ^ (8 * k) -> (k = 1 \/ 2 ^ (8 * (k - 1)) <= v) ->
    encodeCount log2 v = k.
  Proof.
    intros Hmax Hk Hlt Hge. unfold encodeCount. destruct (N.eqb_spec v 0) as [->|Hv].
    { destruct Hge as [->|H]; [reflexivity|]. pose proof (pow2_pos (8 * (k - 1))) as C. rewrite (proj1 (N.le_0_r _) H) in C. discriminate. }
    assert (k <= 7) as Hk7.
    { destruct Hge as [->|H]; [discriminate|]. destruct (N.le_gt_cases k 7) as [|C]; [assumption|exfalso].
      assert (2 ^ 56 <= 2 ^ (8 * (k - 1))) by (apply N.pow_le_mono_r; [discriminate|lia]).
      change (2 ^ 56 - 2 ^ 8) with 72057594037927680 in Hmax. change (2 ^ 56) with 72057594037927936 in *. lia. }
    assert (1 <= v) as H1 by lia. assert (v <= 2 ^ 64) as H64 by (apply (N.le_trans _ _ _ Hmax); apply N.leb_le; reflexivity).
    pose proof (round_1 v H1) as R1. pose proof (round_64 v H64) as R64. pose proof (round_representable v) as Rr.
    assert (round53 v < 2 ^ (8 * k)) as Ru.
    { destruct (N.eq_dec k 7) as [->|N7].
      - apply N.le_lt_trans with (2 ^ 56 - 2 ^ 8); [apply round_le; [apply max_rep|exact Hmax]|reflexivity].
      - rewrite round_rep; [exact Hlt|]. apply small_rep. apply (N.lt_le_trans _ _ _ Hlt). apply N.pow_le_mono_r; [discriminate|lia]. }
    assert (round53 v <= 2 ^ 56 - 2 ^ 8) as Rm by (apply round_le; [apply max_rep|exact Hmax]).
    pose proof (log_upper log2 Hlog (round53 v) k (conj Hk Hk7) R1 Ru Rm Rr) as U.
    assert ((k - 1) * 2 ^ 55 <= log2 (round53 v)) as L.
    { destruct Hge as [->|H]; [apply N.le_0_l|].
      apply (log_lower log2 Hlog); [lia|split; assumption|exact Rr|]. apply round_ge; [|exact H].
      rewrite <- (N.mul_1_l (2 ^ _)). apply scaled_rep. reflexivity. }
    cbv zeta. set (l := log2 (round53 v)) in *. clearbody l.
    pose proof (sum_upper l k Hk7 U) as A. pose proof (sum_lower l (k - 1) ltac:(lia) L) as B.
    set (t := (round53 (l + 2 ^ 54) + 2 ^ 54) / 2 ^ 55) in *. clearbody t. assert (t = k) as -> by lia.
    unfold trunc. change (mask 8) with (N.ones 8). rewrite N.land_ones. apply N.mod_small. change (2 ^ 8) with 256. lia.
  Qed.

  (** from 2^56 - 4 on, eight bytes are counted (the first four of these values need only seven) *)
  Theorem encodeCount_8 v : 2 ^ 56 - 4 <= v <= 2 ^ 63 -> encodeCount log2 v = 8.
  Proof.
    intros [Hl Hu]. unfold encodeCount. destruct (N.eqb_spec v 0) as [->|Hv]; [exfalso; now apply Hl|].
    assert (1 <= v) as H1 by lia. assert (v <= 2 ^ 64) as H64 by (apply (N.le_trans _ _ _ Hu); apply N.leb_le; reflexivity).
    pose proof (round_1 v H1) as R1. pose proof (round_64 v H64) as R64. pose proof (round_representable v) as Rr.
    assert (2 ^ (8 * 7) <= round53 v) as Rl.
    { destruct (N.le_gt_cases (2 ^ 56) v) as [H|H]; [apply round_ge; [reflexivity|exact H]|].
      change (2 ^ 56 - 4) with 72057594037927932 in Hl. change (2 ^ 56) with 72057594037927936 in H. change (2 ^ (8 * 7)) with 72057594037927936.
      assert (v = 72057594037927932 \/ v = 72057594037927933 \/ v = 72057594037927934 \/ v = 72057594037927935) as [->|[->|[->| ->]]] by lia;
        apply N.leb_le; reflexivity. }
    pose proof (log_lower log2 Hlog (round53 v) 7 ltac:(discriminate) (conj R1 R64) Rr Rl) as L.
    assert (round53 v <= 2 ^ 63) as R63 by (apply round_le; [reflexivity|exact Hu]).
    destruct (log_bounds log2 Hlog (round53 v) (conj R1 R64) Rr) as (_ & _ & U).
    specialize (U 0 (63 * 2 ^ 55)). rewrite N.pow_0_r, N.mul_1_r in U.
    rewrite (N.pow_mul_r 2) in U. specialize (U (N.pow_le_mono_l _ _ _ R63)).
    cbv zeta. set (l := log2 (round53 v)) in *. clearbody l.
    assert (l <= 127 * 2 ^ 51) as U2.
    { pose proof (ulp_rel l) as Hur. assert (l / 2 ^ 52 * 2 ^ 52 <= l) by (rewrite N.mul_comm; apply N.mul_div_le; discriminate).
      change (2 ^ 55) with 36028797018963968 in *. change (2 ^ 52) with 4503599627370496 in *. change (2 ^ 51) with 2251799813685248.
      set (u := ulp l) in *. set (t := l / 4503599627370496) in *. clearbody u t. lia. }
    pose proof (sum_lower l 7 ltac:(discriminate) L) as B.
    assert (round53 (l + 2 ^ 54) <= 135 * 2 ^ 51) as A.
    { apply round_le; [apply scaled_rep; reflexivity|]. change (2 ^ 51) with 2251799813685248 in *. change (2 ^ 54) with 18014398509481984. lia. }
    assert ((round53 (l + 2 ^ 54) + 2 ^ 54) / 2 ^ 55 < 9) as C.
    { apply N.div_lt_upper_bound; [discriminate|]. change (2 ^ 55) with 36028797018963968. change (2 ^ 54) with 18014398509481984 in *.
      change (2 ^ 51) with 2251799813685248 in *. lia. }
    set (t := (round53 (l + 2 ^ 54) + 2 ^ 54) / 2 ^ 55) in *. clearbody t. assert (t = 8) as -> by lia. reflexivity.
  Qed.
End Encode.
