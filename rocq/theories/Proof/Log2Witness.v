(** The assumption on std::log2 can be met: the correctly rounded logarithm does. *)
From Coq Require Import NArith Bool Lia ZifyN ZifyBool.
From Verif.Base Require Import Double.
From Verif.Spec Require Import Log2.
From Verif.Proof Require Import Double.
Local Open Scope N_scope.

Lemma round_near x : 2 * round53 x <= 2 * x + ulp x /\ 2 * x <= 2 * round53 x + ulp x.
Proof.
  pose proof (ulp_pos x) as Hu. unfold round53. set (u := ulp x) in *. clearbody u.
  pose proof (N.div_mod x u ltac:(lia)) as E. pose proof (N.mod_lt x u ltac:(lia)) as L.
  set (q := x / u) in *. set (r := x mod u) in *. clearbody q r.
  destruct (N.ltb_spec (2 * r) u) as [H|H]; cbn [orb]; [nia|].
  destruct (N.eqb_spec (2 * r) u) as [H'|H']; cbn [andb]; [destruct (N.even q); nia|nia].
Qed.

Lemma pow_le_inv a b k : k <> 0 -> a ^ k <= b ^ k -> a <= b.
Proof.
  intros Hk H. destruct (N.le_gt_cases a b) as [L|L]; [exact L|].
  pose proof (N.pow_lt_mono_l b a k Hk L). lia.
Qed.

Definition nearest (E d : N) : N := round53 (N.log2 (d ^ E)) / 2 ^ 8.

Section Near.
  Variables (E' E d : N).
  Hypothesis HE : E = E' * 32.
  Hypothesis HE60 : 2 ^ 60 <= E.
  Hypothesis Hd : 2 <= d.

  Lemma nearest_ok : let p := nearest E d in
    representable p /\ 2 ^ (8 * p - 5 * ulp p) <= d ^ E' <= 2 ^ (8 * p + 5 * ulp p).
  Proof.
    unfold nearest. set (F := N.log2 (d ^ E)). set (G := round53 F).
    assert (2 ^ F <= d ^ E < 2 ^ N.succ F) as HF.
    { apply N.log2_spec. apply N.neq_0_lt_0, N.pow_nonzero. lia. }
    assert (E <= F) as HEF.
    { unfold F. rewrite <- (N.log2_pow2 E) at 1 by lia. apply N.log2_le_mono, N.pow_le_mono_l, Hd. }
    assert (2 ^ 60 <= F) as HF60 by lia.
    assert (2 ^ 60 <= G) as HG60.
    { apply round_ge; [|exact HF60]. rewrite <- (N.mul_1_l (2 ^ 60)). apply scaled_rep. reflexivity. }
    assert (F <> 0) as F0 by (change (2 ^ 60) with 1152921504606846976 in HF60; lia).
    assert (G <> 0) as G0 by (change (2 ^ 60) with 1152921504606846976 in HG60; lia).
    assert (60 <= N.log2 G) as LG by (apply N.log2_le_pow2; lia).
    assert (N.log2 F <= N.log2 G) as LFG.
    { apply N.log2_le_pow2; [lia|]. apply round_ge; [|apply N.log2_spec; lia].
      rewrite <- (N.mul_1_l (2 ^ N.log2 F)). apply scaled_rep. reflexivity. }
    assert (representable G) as RG by apply round_representable.
    assert (exists p, G = p * 2 ^ 8) as [p Ep].
    { destruct (rep_divide G RG) as [k Ek]. exists (k * 2 ^ (N.log2 G - 60)). rewrite Ek at 1. unfold ulp.
      rewrite <- N.mul_assoc, <- N.pow_add_r. do 2 f_equal. lia. }
    assert (G / 2 ^ 8 = p) as -> by (rewrite Ep; apply N.div_mul; discriminate).
    assert (0 < p) as Hp0 by (destruct (N.eq_dec p 0) as [->|]; [rewrite N.mul_0_l in Ep|]; lia).
    assert (N.log2 G = N.log2 p + 8) as LGp by (rewrite Ep, N.log2_mul_pow2 by lia; lia).
    assert (ulp G = ulp p * 256) as UG.
    { unfold ulp. change 256 with (2 ^ 8). rewrite <- N.pow_add_r. f_equal. lia. }
    assert (ulp F <= ulp G) as UF by (unfold ulp; apply N.pow_le_mono_r; [discriminate|lia]).
    destruct (round_near F) as [N1 N2]. fold G in N1, N2. pose proof (ulp_pos p) as Up.
    cbv zeta. split.
    - unfold representable in *. rewrite UG, Ep in RG. change (2 ^ 8) with 256 in RG.
      rewrite N.mul_mod_distr_r in RG by lia. apply N.eq_mul_0 in RG. destruct RG as [RG|RG]; [exact RG|discriminate RG].
    - change (2 ^ 8) with 256 in Ep. clear HEF HF60 HG60 F0 G0 LG LFG RG LGp HE60.
      split; apply (pow_le_inv _ _ 32); try discriminate; rewrite <- !N.pow_mul_r, <- HE.
      + apply N.le_trans with (2 ^ F); [|apply HF]. apply N.pow_le_mono_r; [discriminate|]. lia.
      + apply N.le_trans with (2 ^ N.succ F); [apply N.lt_le_incl, HF|]. apply N.pow_le_mono_r; [discriminate|]. lia.
  Qed.
End Near.

Definition correct_log2 (d : N) : N := nearest (2 ^ 55 * 32) d.

Theorem correct_log2_accurate : log2_accurate correct_log2.
Proof.
  intros d [H1 H2] _. destruct (N.eq_dec d 1) as [->|Hd].
  - unfold correct_log2, nearest. rewrite !N.pow_1_l. cbv zeta. rewrite <- (N.pow_0_r 2) at 3.
    split; [reflexivity|]. split; [|apply (N.pow_le_mono_r 2 0); [discriminate|apply N.le_0_l]].
    apply (N.pow_le_mono_r 2 _ 0); [discriminate|]. apply N.leb_le. reflexivity.
  - unfold correct_log2. apply nearest_ok; [reflexivity| |lia]. discriminate.
Qed.
