(** C++ word operations (Base/CWord) agree with the arithmetic ones (Spec/Words). *)
From Coq Require Import NArith List Lia Bool.
From Verif.Base Require Import CWord.
From Verif.Spec Require Words.
Import ListNotations.
Local Open Scope N_scope.
Module W := Verif.Spec.Words.

Definition bnd (w x : N) : Prop := x < 2 ^ w.

Lemma mask_ones w : mask w = N.ones w.
Proof.
  unfold mask.
  repeat match goal with
  | |- context [match ?x with _ => _ end] => destruct x; try reflexivity
  end.
Qed.

Lemma pow2_pos w : 0 < 2 ^ w.
Proof. apply N.neq_0_lt_0, N.pow_nonzero; discriminate. Qed.
#[export] Hint Resolve pow2_pos : core.

Lemma pow2_nz w : 2 ^ w <> 0.
Proof. apply N.pow_nonzero; discriminate. Qed.
#[export] Hint Resolve pow2_nz : core.

Lemma trunc_mod w x : trunc w x = x mod 2 ^ w.
Proof. unfold trunc; rewrite mask_ones; apply N.land_ones. Qed.

Lemma trunc_id w x : bnd w x -> trunc w x = x.
Proof. intros H; rewrite trunc_mod; apply N.mod_small, H. Qed.

Lemma testbit_trunc w x i : N.testbit (trunc w x) i = N.testbit x i && (i <? w).
Proof.
  rewrite trunc_mod. destruct (N.ltb_spec i w) as [H|H].
  - rewrite N.mod_pow2_bits_low by exact H. now rewrite andb_true_r.
  - rewrite N.mod_pow2_bits_high by exact H. now rewrite andb_false_r.
Qed.

(** ** Bounds *)

Lemma bnd_mod w x : bnd w (x mod 2 ^ w).
Proof. apply N.mod_lt, pow2_nz. Qed.

Lemma bnd_trunc w x : bnd w (trunc w x).
Proof. rewrite trunc_mod; apply bnd_mod. Qed.

Lemma bnd_uadd w x y : bnd w (uadd w x y).
Proof. apply bnd_trunc. Qed.

Lemma bnd_usub w x y : bnd w (usub w x y).
Proof. apply bnd_trunc. Qed.

Lemma bnd_umul w x y : bnd w (umul w x y).
Proof. apply bnd_trunc. Qed.

Lemma bnd_ushl w x s : bnd w (ushl w x s).
Proof. apply bnd_trunc. Qed.

Lemma bnd_bits w x : (forall i, w <= i -> N.testbit x i = false) -> bnd w x.
Proof.
  intros H. unfold bnd.
  assert (x mod 2 ^ w = x) as E.
  { apply N.bits_inj; intros i. destruct (N.ltb_spec i w) as [Hi|Hi].
    - now rewrite N.mod_pow2_bits_low.
    - rewrite N.mod_pow2_bits_high, H; auto. }
  rewrite <- E. apply N.mod_lt, pow2_nz.
Qed.

Lemma bnd_high w x i : bnd w x -> w <= i -> N.testbit x i = false.
Proof.
  intros H Hi. destruct (N.eq_dec x 0) as [->|Hx]; [apply N.bits_0|].
  apply N.bits_above_log2. apply N.lt_le_trans with w; [|exact Hi].
  apply N.log2_lt_pow2; [lia|exact H].
Qed.

Lemma bnd_lxor w x y : bnd w x -> bnd w y -> bnd w (N.lxor x y).
Proof.
  intros Hx Hy; apply bnd_bits; intros i Hi.
  rewrite N.lxor_spec, (bnd_high _ _ _ Hx Hi), (bnd_high _ _ _ Hy Hi); reflexivity.
Qed.

Lemma bnd_lor w x y : bnd w x -> bnd w y -> bnd w (N.lor x y).
Proof.
  intros Hx Hy; apply bnd_bits; intros i Hi.
  rewrite N.lor_spec, (bnd_high _ _ _ Hx Hi), (bnd_high _ _ _ Hy Hi); reflexivity.
Qed.

Lemma bnd_land_l w x y : bnd w x -> bnd w (N.land x y).
Proof.
  intros Hx; apply bnd_bits; intros i Hi.
  rewrite N.land_spec, (bnd_high _ _ _ Hx Hi); reflexivity.
Qed.

Lemma bnd_land_r w x y : bnd w y -> bnd w (N.land x y).
Proof. rewrite N.land_comm; apply bnd_land_l. Qed.

Lemma bnd_ushr w x s : bnd w x -> bnd w (ushr x s).
Proof.
  intros Hx; apply bnd_bits; intros i Hi. unfold ushr.
  rewrite N.shiftr_spec by lia. apply (bnd_high _ _ _ Hx). lia.
Qed.

Lemma bnd_unot w x : bnd w x -> bnd w (unot w x).
Proof.
  intros Hx; unfold unot; rewrite mask_ones. apply bnd_lxor; [exact Hx|].
  apply bnd_bits; intros i Hi. apply N.ones_spec_high, Hi.
Qed.

Lemma bnd_rotl w x s : bnd w x -> bnd w (rotl w x s).
Proof.
  intros Hx; unfold rotl; destruct s; [exact Hx|].
  apply bnd_lor; [apply bnd_ushl|apply bnd_ushr, Hx].
Qed.

Lemma bnd_rotr w x s : bnd w x -> bnd w (rotr w x s).
Proof.
  intros Hx; unfold rotr; destruct s; [exact Hx|].
  apply bnd_lor; [apply bnd_ushr, Hx|apply bnd_ushl].
Qed.

Lemma bnd_ror w x s : bnd w (ror w x s).
Proof. apply bnd_trunc. Qed.

Lemma bnd_mono w v x : w <= v -> bnd w x -> bnd v x.
Proof.
  unfold bnd; intros Hwv H. eapply N.lt_le_trans; [exact H|].
  apply N.pow_le_mono_r; [discriminate|exact Hwv].
Qed.

Lemma bnd_0 w : bnd w 0.
Proof. apply pow2_pos. Qed.

Create HintDb wb.
#[export] Hint Resolve bnd_trunc bnd_uadd bnd_usub bnd_umul bnd_ushl bnd_lxor bnd_lor bnd_land_l
  bnd_land_r bnd_ushr bnd_unot bnd_rotl bnd_rotr bnd_ror bnd_0 bnd_mod : wb.
#[export] Hint Extern 1 (bnd _ (N.pos _)) => reflexivity : wb.

(** ** Agreement with the specification's operations *)

Lemma uadd_spec w x y : uadd w x y = W.add w x y.
Proof. unfold uadd, W.add; apply trunc_mod. Qed.

Lemma umul_spec w x y : umul w x y = W.mul w x y.
Proof. unfold umul, W.mul; apply trunc_mod. Qed.

Lemma usub_spec w x y : usub w x y = W.sub w x y.
Proof.
  unfold usub, W.sub. rewrite !trunc_mod, N.shiftl_1_l. reflexivity.
Qed.

Lemma ushl_spec w x s : ushl w x s = W.SHL w s x.
Proof. unfold ushl, W.SHL; rewrite trunc_mod, N.shiftl_mul_pow2; reflexivity. Qed.

Lemma ushr_spec x s : ushr x s = W.SHR s x.
Proof. unfold ushr, W.SHR; apply N.shiftr_div_pow2. Qed.

Lemma ror_spec r x s : ror r x s = (x / 2 ^ s) mod 2 ^ r.
Proof. unfold ror; rewrite trunc_mod, N.shiftr_div_pow2; reflexivity. Qed.

Lemma unot_spec w x : bnd w x -> unot w x = W.compl w x.
Proof.
  intros H. unfold unot, W.compl. rewrite mask_ones.
  change (N.lxor x (N.ones w)) with (N.lnot x w).
  destruct (N.eq_dec x 0) as [->|Hx].
  - rewrite N.sub_0_r. unfold N.lnot. rewrite N.lxor_0_l. rewrite N.ones_equiv. lia.
  - rewrite N.lnot_sub_low.
    + rewrite N.ones_equiv. f_equal; lia.
    + apply N.log2_lt_pow2; [lia|exact H].
Qed.

Lemma lor_add_disjoint a b s :
  (forall i, i < s -> N.testbit a i = false) -> bnd s b -> N.lor a b = a + b.
Proof.
  intros Ha Hb.
  assert (N.land a b = 0) as E.
  { apply N.bits_inj; intros i. rewrite N.land_spec, N.bits_0.
    destruct (N.ltb_spec i s) as [Hi|Hi].
    - rewrite Ha by exact Hi; reflexivity.
    - rewrite (bnd_high s b i Hb Hi); apply andb_false_r. }
  rewrite N.add_nocarry_lxor by exact E. symmetry; apply N.lxor_lor, E.
Qed.

Lemma shl_low w x s i : i < s -> N.testbit (ushl w x s) i = false.
Proof.
  intros Hi. unfold ushl. rewrite testbit_trunc.
  rewrite N.shiftl_spec_low by exact Hi. reflexivity.
Qed.

Lemma shr_bnd w x s : s <= w -> bnd w x -> bnd (w - s) (ushr x s).
Proof.
  intros Hs H. apply bnd_bits; intros i Hi. unfold ushr.
  rewrite N.shiftr_spec by lia. apply (bnd_high w); [exact H|lia].
Qed.

Lemma rotl_spec w x s : s <= w -> bnd w x -> rotl w x s = W.ROTL w s x.
Proof.
  intros Hs Hx. unfold W.ROTL.
  destruct s as [|p].
  - cbn [rotl]. rewrite N.pow_0_r, N.mul_1_r, N.sub_0_r.
    rewrite (N.mod_small x) by exact Hx. rewrite (N.div_small x) by exact Hx. lia.
  - cbn [rotl]. set (s := N.pos p) in *.
    rewrite (lor_add_disjoint _ _ s).
    + rewrite ushl_spec, ushr_spec. reflexivity.
    + intros i Hi; apply shl_low, Hi.
    + replace s with (w - (w - s)) at 1 by lia. apply shr_bnd; [lia|exact Hx].
Qed.

Lemma rotr_spec w x s : s <= w -> bnd w x -> rotr w x s = W.ROTR w s x.
Proof.
  intros Hs Hx. unfold W.ROTR.
  destruct s as [|p].
  - cbn [rotr]. rewrite N.pow_0_r, N.div_1_r, N.mod_1_r. lia.
  - cbn [rotr]. set (s := N.pos p) in *.
    rewrite N.lor_comm, (lor_add_disjoint _ _ (w - s)).
    + rewrite ushl_spec, ushr_spec. rewrite N.add_comm. f_equal.
      unfold W.SHL.
      replace (2 ^ w) with (2 ^ s * 2 ^ (w - s)) by (rewrite <- N.pow_add_r; f_equal; lia).
      rewrite N.mul_mod_distr_r; auto.
    + intros i Hi; apply shl_low, Hi.
    + apply shr_bnd; [lia|exact Hx].
Qed.

(** ** Bitwise description of rotations, and rotation algebra *)

Lemma testbit_rotl w x s i : 0 < s -> s < w -> bnd w x ->
  N.testbit (rotl w x s) i =
  (if i <? s then N.testbit x (i + (w - s)) else if i <? w then N.testbit x (i - s) else false).
Proof.
  intros H0 Hs Hx. unfold rotl. destruct s as [|p]; [lia|]. set (s := N.pos p) in *.
  rewrite N.lor_spec. unfold ushl, ushr.
  rewrite testbit_trunc, N.shiftr_spec by lia.
  destruct (N.ltb_spec i s) as [Hi|Hi].
  - rewrite N.shiftl_spec_low by exact Hi. reflexivity.
  - rewrite N.shiftl_spec_high by lia.
    rewrite (bnd_high w x (i + (w - s))) by (try exact Hx; lia).
    rewrite orb_false_r. destruct (i <? w); [apply andb_true_r|apply andb_false_r].
Qed.

Lemma rotl_lxor w x y s : 0 < s -> s < w -> bnd w x -> bnd w y ->
  rotl w (N.lxor x y) s = N.lxor (rotl w x s) (rotl w y s).
Proof.
  intros H0 Hs Hx Hy. apply N.bits_inj; intros i.
  rewrite N.lxor_spec, !testbit_rotl by (auto using bnd_lxor).
  destruct (i <? s); [apply N.lxor_spec|]. destruct (i <? w); [apply N.lxor_spec|reflexivity].
Qed.

Lemma rotl_rotl w x s t : 0 < s -> 0 < t -> s + t < w -> bnd w x ->
  rotl w (rotl w x s) t = rotl w x (s + t).
Proof.
  intros H0 H1 Hs Hx. apply N.bits_inj; intros i.
  rewrite (testbit_rotl w (rotl w x s)) by (auto using bnd_rotl; lia).
  rewrite (testbit_rotl w x (s + t)) by (auto; lia).
  destruct (N.ltb_spec i t) as [Hi|Hi].
  - rewrite testbit_rotl by (auto; lia).
    destruct (N.ltb_spec i (s + t)); [|lia].
    destruct (N.ltb_spec (i + (w - t)) s); [lia|].
    destruct (N.ltb_spec (i + (w - t)) w); [|lia]. f_equal; lia.
  - destruct (N.ltb_spec i w) as [Hw|Hw].
    + rewrite testbit_rotl by (auto; lia).
      destruct (N.ltb_spec (i - t) s); destruct (N.ltb_spec i (s + t)); try lia.
      * f_equal; lia.
      * destruct (N.ltb_spec (i - t) w); [f_equal; lia|lia].
    + destruct (N.ltb_spec i (s + t)); [lia|reflexivity].
Qed.

Lemma rotl_rotr w x s : 0 < s -> s < w -> bnd w x -> rotl w x s = rotr w x (w - s).
Proof.
  intros H0 Hs Hx. unfold rotl, rotr.
  destruct s as [|p]; [lia|]. destruct (w - N.pos p) as [|q] eqn:E; [lia|].
  replace (w - N.pos q) with (N.pos p) by lia. apply N.lor_comm.
Qed.

(** ** Boolean identities *)

(** decide an identity between and/or/xor/ldiff expressions *)
Ltac bitwise :=
  apply N.bits_inj; let i := fresh "i" in intros i;
  repeat first [rewrite N.lxor_spec | rewrite N.land_spec | rewrite N.lor_spec | rewrite N.ldiff_spec];
  repeat match goal with |- context [N.testbit ?x i] => destruct (N.testbit x i) end; reflexivity.

Lemma testbit_unot w x i : bnd w x -> N.testbit (unot w x) i = negb (N.testbit x i) && (i <? w).
Proof.
  intros H. unfold unot. rewrite mask_ones, N.lxor_spec.
  destruct (N.ltb_spec i w) as [Hi|Hi].
  - rewrite N.ones_spec_low by exact Hi. rewrite xorb_true_r, andb_true_r; reflexivity.
  - rewrite N.ones_spec_high by exact Hi. rewrite (bnd_high w x i H Hi). reflexivity.
Qed.

(** a & ~b for a w-bit a *)
Lemma land_compl w a b : bnd w a -> bnd w b -> N.land (W.compl w b) a = N.ldiff a b.
Proof.
  intros Ha Hb. rewrite <- unot_spec by exact Hb. apply N.bits_inj; intros i.
  rewrite N.land_spec, N.ldiff_spec, testbit_unot by exact Hb.
  destruct (N.ltb_spec i w) as [Hi|Hi].
  - rewrite andb_true_r. apply andb_comm.
  - rewrite andb_false_r, (bnd_high w a i Ha Hi). reflexivity.
Qed.

(** the "choose" function: the usual optimised form *)
Lemma ch_alt w x y z : bnd w x -> bnd w z ->
  N.lxor (N.land x (N.lxor y z)) z = N.lxor (N.land x y) (N.land (W.compl w x) z).
Proof. intros Hx Hz. rewrite land_compl by assumption. bitwise. Qed.

Lemma ch_alt_or w x y z : bnd w x -> bnd w z ->
  N.lxor (N.land x (N.lxor y z)) z = N.lor (N.land x y) (N.land (W.compl w x) z).
Proof. intros Hx Hz. rewrite land_compl by assumption. bitwise. Qed.

(** majority: several equivalent forms *)
Lemma maj_alt1 x y z :
  N.lor (N.land x (N.lor y z)) (N.land y z) = N.lxor (N.lxor (N.land x y) (N.land x z)) (N.land y z).
Proof. bitwise. Qed.

Lemma maj_alt2 x y z :
  N.lor (N.land x y) (N.land z (N.lor x y)) = N.lxor (N.lxor (N.land x y) (N.land x z)) (N.land y z).
Proof. bitwise. Qed.

Lemma maj_alt3 x y z :
  N.lor (N.land x y) (N.land z (N.lor x y)) = N.lor (N.lor (N.land x y) (N.land x z)) (N.land y z).
Proof. bitwise. Qed.

(** ** Modular sums *)

Lemma add_mod_l w x y : W.add w (x mod 2 ^ w) y = W.add w x y.
Proof. unfold W.add. apply N.add_mod_idemp_l, pow2_nz. Qed.

Lemma add_mod_r w x y : W.add w x (y mod 2 ^ w) = W.add w x y.
Proof. unfold W.add. apply N.add_mod_idemp_r, pow2_nz. Qed.

Lemma add_assoc w x y z : W.add w (W.add w x y) z = W.add w x (W.add w y z).
Proof.
  unfold W.add. rewrite N.add_mod_idemp_l, N.add_mod_idemp_r by apply pow2_nz.
  f_equal; lia.
Qed.

Lemma add_comm w x y : W.add w x y = W.add w y x.
Proof. unfold W.add; f_equal; lia. Qed.

Lemma sum_mod w x l : W.sum w (x mod 2 ^ w :: l) = W.sum w (x :: l).
Proof. unfold W.sum; cbn [fold_right]. apply N.add_mod_idemp_l, pow2_nz. Qed.

Lemma uadd_sum w x y : uadd w x y = W.sum w [x; y].
Proof. rewrite uadd_spec. unfold W.add, W.sum; cbn [fold_right]. rewrite N.add_0_r; reflexivity. Qed.

(** Normalise nested uadd into one [mod]: [uadd w (uadd w a b) c = (a + b + c) mod 2^w]. *)
Lemma uadd_mod w x y : uadd w x y = (x + y) mod 2 ^ w.
Proof. apply trunc_mod. Qed.

(** congruence modulo n, and a tactic that removes inner reductions *)
Definition eqm (n x y : N) : Prop := x mod n = y mod n.

Lemma eqm_refl n x : eqm n x x.
Proof. reflexivity. Qed.
Lemma eqm_trans2 n x y x' y' : eqm n x x' -> eqm n y y' -> x' = y' -> eqm n x y.
Proof. unfold eqm; intros -> -> ->; reflexivity. Qed.
Lemma eqm_add w a b a' b' : eqm (2 ^ w) a a' -> eqm (2 ^ w) b b' -> eqm (2 ^ w) (a + b) (a' + b').
Proof.
  unfold eqm; intros Ha Hb. rewrite (N.add_mod a), Ha, Hb, <- N.add_mod by apply pow2_nz; reflexivity.
Qed.
Lemma eqm_mod w a a' : eqm (2 ^ w) a a' -> eqm (2 ^ w) (a mod 2 ^ w) a'.
Proof. unfold eqm; intros Ha. rewrite N.mod_mod by apply pow2_nz; exact Ha. Qed.
Lemma eqm_uadd w a b a' b' : eqm (2 ^ w) a a' -> eqm (2 ^ w) b b' -> eqm (2 ^ w) (uadd w a b) (a' + b').
Proof. intros Ha Hb. rewrite uadd_mod. apply eqm_mod, eqm_add; assumption. Qed.
Lemma eqm_wadd w a b a' b' : eqm (2 ^ w) a a' -> eqm (2 ^ w) b b' -> eqm (2 ^ w) (W.add w a b) (a' + b').
Proof. intros Ha Hb. unfold W.add. apply eqm_mod, eqm_add; assumption. Qed.
Lemma eqm_sum w l a' : eqm (2 ^ w) (fold_right N.add 0 l) a' -> eqm (2 ^ w) (W.sum w l) a'.
Proof. apply eqm_mod. Qed.
Lemma eqm_top w x y : bnd w x -> bnd w y -> eqm (2 ^ w) x y -> x = y.
Proof. unfold eqm, bnd; intros Hx Hy. rewrite !N.mod_small by assumption. auto. Qed.
Lemma bnd_sum w l : bnd w (W.sum w l).
Proof. apply bnd_mod. Qed.
Lemma bnd_wadd w x y : bnd w (W.add w x y).
Proof. apply bnd_mod. Qed.
#[export] Hint Resolve bnd_sum bnd_wadd : wb.

Ltac eqm_norm :=
  cbn [fold_right];
  repeat first
    [ apply eqm_uadd | apply eqm_wadd | apply eqm_add | apply eqm_mod
    | apply eqm_sum; cbn [fold_right] | apply eqm_refl ].
(** solve [x = y] where both are sums modulo 2^w *)
Ltac sum_eq w :=
  apply (eqm_top w); [auto with wb | auto with wb | ];
  eapply eqm_trans2; [eqm_norm | eqm_norm | lia].

(** ** Bytes *)

Lemma le_bytes_length n x : length (W.le_bytes n x) = n.
Proof. revert x; induction n; intros; cbn; auto. Qed.

Lemma be_bytes_length n x : length (W.be_bytes n x) = n.
Proof. unfold W.be_bytes; rewrite rev_length; apply le_bytes_length. Qed.

Lemma le_bytes_ok n x : W.bytes_ok (W.le_bytes n x).
Proof.
  revert x; induction n as [|n IH]; intros x; cbn; constructor; [|apply IH].
  apply N.mod_lt; discriminate.
Qed.

Lemma be_bytes_ok n x : W.bytes_ok (W.be_bytes n x).
Proof. unfold W.be_bytes, W.bytes_ok. apply Forall_rev, le_bytes_ok. Qed.

Lemma le_value_bytes n x : W.le_value (W.le_bytes n x) = x mod 256 ^ N.of_nat n.
Proof.
  revert x; induction n as [|n IH]; intros x.
  - cbn [W.le_bytes W.le_value]. rewrite N.mod_1_r; reflexivity.
  - cbn [W.le_bytes W.le_value]. rewrite IH.
    rewrite Nnat.Nat2N.inj_succ, N.pow_succ_r'.
    rewrite N.mod_mul_r by (try apply N.pow_nonzero; discriminate). reflexivity.
Qed.

Lemma le_value_bound l : W.bytes_ok l -> W.le_value l < 256 ^ N.of_nat (length l).
Proof.
  induction 1 as [|b l Hb Hl IH]; cbn [W.le_value length]; [reflexivity|].
  rewrite Nnat.Nat2N.inj_succ, N.pow_succ_r'. unfold W.byte_ok in Hb. nia.
Qed.

Lemma be_value_app l b : W.be_value (l ++ [b]) = W.be_value l * 256 + b.
Proof. unfold W.be_value; rewrite fold_left_app; reflexivity. Qed.

Lemma be_value_rev l : W.be_value (rev l) = W.le_value l.
Proof.
  induction l as [|b l IH]; [reflexivity|]. cbn [rev W.le_value].
  rewrite be_value_app, IH. lia.
Qed.

Lemma be_value_bytes n x : W.be_value (W.be_bytes n x) = x mod 256 ^ N.of_nat n.
Proof. unfold W.be_bytes. rewrite be_value_rev. apply le_value_bytes. Qed.

Lemma le_bytes_value l : W.bytes_ok l -> W.le_bytes (length l) (W.le_value l) = l.
Proof.
  induction 1 as [|b l Hb Hl IH]; cbn [length W.le_bytes W.le_value]; [reflexivity|].
  unfold W.byte_ok in Hb. f_equal.
  - rewrite N.mul_comm, N.mod_add by discriminate. apply N.mod_small, Hb.
  - rewrite N.mul_comm, N.div_add by discriminate. rewrite N.div_small by exact Hb. exact IH.
Qed.

Lemma be_bytes_value l : W.bytes_ok l -> W.be_bytes (length l) (W.be_value l) = l.
Proof.
  intros H. unfold W.be_bytes.
  rewrite <- (rev_involutive l) at 2. rewrite be_value_rev.
  rewrite <- (rev_length l). rewrite le_bytes_value by (apply Forall_rev, H).
  apply rev_involutive.
Qed.
