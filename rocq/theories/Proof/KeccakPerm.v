(** KECCAK-f is injective. *)
From Coq Require Import List NArith ZArith Arith Bool Lia Btauto.
From Verif.Spec Require Import Words Keccak.
Import ListNotations.

(** two states agree on the 5 x 5 x 64 bits *)
Definition same (A B : state) : Prop := forall x y z, x < 5 -> y < 5 -> z < 64 -> A x y z = B x y z.

Lemma iota_inj ir A B : same (iota ir A) (iota ir B) -> same A B.
Proof.
  intros H x y z Hx Hy Hz. specialize (H x y z Hx Hy Hz). unfold iota in H. destruct (_ && _); [|exact H].
  destruct (A x y z), (B x y z), (RC ir z); first [reflexivity|discriminate H].
Qed.

Definition row := (bool * bool * bool * bool * bool)%type.
Definition chi5 (r : row) : row :=
  let '(a, b, c, d, e) := r in
  let f p q s := xorb p (andb (xorb q true) s) in (f a b c, f b c d, f c d e, f d e a, f e a b).
Definition same_row (r s : row) : bool :=
  let '(a, b, c, d, e) := r in let '(a', b', c', d', e') := s in
  eqb a a' && eqb b b' && eqb c c' && eqb d d' && eqb e e'.
Definition rows : list row :=
  flat_map (fun a => flat_map (fun b => flat_map (fun c => flat_map (fun d => map (fun e => (a, b, c, d, e)) [false; true])
    [false; true]) [false; true]) [false; true]) [false; true].
Definition unchi5 (r : row) : option row := find (fun s => same_row (chi5 s) r) rows.
Lemma unchi5_ok r : unchi5 (chi5 r) = Some r.
Proof. destruct r as [[[[[] []] []] []] []]; reflexivity. Qed.
Lemma chi5_inj r s : chi5 r = chi5 s -> r = s.
Proof. intros E. apply (f_equal unchi5) in E. rewrite !unchi5_ok in E. now injection E. Qed.

Lemma chi_inj A B : same (chi A) (chi B) -> same A B.
Proof.
  intros H x y z Hx Hy Hz.
  assert (chi5 (A 0 y z, A 1 y z, A 2 y z, A 3 y z, A 4 y z) = chi5 (B 0 y z, B 1 y z, B 2 y z, B 3 y z, B 4 y z)) as E.
  { pose proof (H 0 y z ltac:(lia) Hy Hz) as E0. pose proof (H 1 y z ltac:(lia) Hy Hz) as E1. pose proof (H 2 y z ltac:(lia) Hy Hz) as E2.
    pose proof (H 3 y z ltac:(lia) Hy Hz) as E3. pose proof (H 4 y z ltac:(lia) Hy Hz) as E4.
    unfold chi in E0, E1, E2, E3, E4. cbn in E0, E1, E2, E3, E4. unfold chi5. now rewrite E0, E1, E2, E3, E4. }
  apply chi5_inj in E. injection E as E0 E1 E2 E3 E4.
  do 5 (destruct x as [|x]; [assumption|]). lia.
Qed.

Lemma pi_inj A B : same (pi A) (pi B) -> same A B.
Proof.
  intros H u v z Hu Hv Hz. pose (y := 2 * (u + 5 - v) mod 5).
  assert (y < 5) as Hy by (apply Nat.mod_upper_bound; discriminate).
  pose proof (H v y z Hv Hy Hz) as E. unfold pi in E.
  assert ((v + 3 * y) mod 5 = u) as Ev.
  { unfold y. clear - Hu Hv. do 5 (destruct u as [|u]; [do 5 (destruct v as [|v]; [reflexivity|]); lia|]). lia. }
  now rewrite Ev in E.
Qed.

Lemma rho_inj A B : same (rho A) (rho B) -> same A B.
Proof.
  intros H x y w Hx Hy Hw. set (k := offset x y mod 64).
  assert (k < 64) as Hk by (apply Nat.mod_upper_bound; discriminate).
  pose proof (H x y ((w + k) mod 64) Hx Hy ltac:(apply Nat.mod_upper_bound; discriminate)) as E. unfold rho in E. fold k in E.
  rewrite Nat.add_mod_idemp_l in E by discriminate. replace (w + k + (64 - k)) with (w + 1 * 64) in E by lia.
  rewrite Nat.mod_add, Nat.mod_small in E by (discriminate || exact Hw). exact E.
Qed.

(** ** theta: the parities of the columns of the difference satisfy c(x, z) = c(x - 1, z) + c(x + 1, z - 1);
    applied to itself, the equation holds with steps of 2, 4, ..., 64, where z drops out *)
Section Parity.
  Variable c : Z -> Z -> bool.
  Hypothesis px : forall x z, c (x + 5) z = c x z.
  Hypothesis pz : forall x z, c x (z + 64) = c x z.
  Let eqn (a : Z) : Prop := forall x z, c x z = xorb (c (x - a) z) (c (x + a) (z - a)).
  Lemma parity_double a : eqn a -> eqn (2 * a).
  Proof.
    intros H x z. rewrite (H x z), (H (x - a)%Z z), (H (x + a)%Z (z - a)%Z).
    replace (x - a - a)%Z with (x - 2 * a)%Z by lia. replace (x - a + a)%Z with x by lia.
    replace (x + a - a)%Z with x by lia. replace (x + a + a)%Z with (x + 2 * a)%Z by lia.
    replace (z - a - a)%Z with (z - 2 * a)%Z by lia. btauto.
  Qed.
  Lemma px_mul k : forall x z, c (x + 5 * Z.of_nat k) z = c x z.
  Proof.
    induction k as [|k IH]; intros x z; [f_equal; lia|].
    replace (x + 5 * Z.of_nat (S k))%Z with (x + 5 * Z.of_nat k + 5)%Z by lia. now rewrite px.
  Qed.
  Lemma parity_zero : eqn 1 -> forall x z, c x z = false.
  Proof.
    intros H1 x z. assert (eqn 64) as H64 by (do 6 apply parity_double in H1; exact H1).
    assert (forall x, c (x + 1) z = xorb (c x z) (c (x + 2) z)) as H.
    { clear x. intros x. rewrite (H64 (x + 1)%Z z). rewrite xorb_comm. f_equal.
      - rewrite <- (pz _ (z - 64)). replace (z - 64 + 64)%Z with z by lia.
        replace (x + 1 + 64)%Z with (x + 5 * Z.of_nat 13)%Z by lia. apply px_mul.
      - rewrite <- (px_mul 13 (x + 1 - 64)). f_equal. lia. }
    pose proof (H x) as E0. pose proof (H (x + 1)%Z) as E1. pose proof (H (x + 2)%Z) as E2. pose proof (H (x + 3)%Z) as E3. pose proof (H (x + 4)%Z) as E4.
    replace (x + 1 + 1)%Z with (x + 2)%Z in * by lia. replace (x + 1 + 2)%Z with (x + 3)%Z in * by lia.
    replace (x + 2 + 1)%Z with (x + 3)%Z in * by lia. replace (x + 2 + 2)%Z with (x + 4)%Z in * by lia.
    replace (x + 3 + 1)%Z with (x + 4)%Z in * by lia. replace (x + 3 + 2)%Z with (x + 5)%Z in * by lia.
    replace (x + 4 + 1)%Z with (x + 5)%Z in * by lia. replace (x + 4 + 2)%Z with (x + 1 + 5)%Z in * by lia.
    rewrite !px in *. destruct (c x z), (c (x + 1)%Z z), (c (x + 2)%Z z), (c (x + 3)%Z z), (c (x + 4)%Z z); try reflexivity; discriminate.
  Qed.
End Parity.

Lemma theta_inj A B : same (theta A) (theta B) -> same A B.
Proof.
  intros H. set (E := fun x y z => xorb (A x y z) (B x y z)).
  set (c := fun x z => xorb (xorb (xorb (xorb (E x 0 z) (E x 1 z)) (E x 2 z)) (E x 3 z)) (E x 4 z)).
  assert (forall x y z, x < 5 -> y < 5 -> z < 64 -> E x y z = xorb (c ((x + 4) mod 5) z) (c ((x + 1) mod 5) ((z + 63) mod 64))) as HE.
  { intros x y z Hx Hy Hz. pose proof (H x y z Hx Hy Hz) as T. unfold theta in T. unfold c, E.
    revert T. generalize (A x y z) (B x y z). intros a b T.
    match type of T with xorb a ?d = xorb b ?e => set (DA := d) in *; set (DB := e) in * end.
    transitivity (xorb DA DB); [destruct a, b, DA, DB; first [reflexivity|discriminate T]|]. unfold DA, DB. btauto. }
  assert (forall x z, x < 5 -> z < 64 -> c x z = xorb (c ((x + 4) mod 5) z) (c ((x + 1) mod 5) ((z + 63) mod 64))) as Hc.
  { intros x z Hx Hz. unfold c at 1. rewrite (HE x 0), (HE x 1), (HE x 2), (HE x 3), (HE x 4) by lia. btauto. }
  set (cz := fun x z : Z => c (Z.to_nat (x mod 5)) (Z.to_nat (z mod 64))).
  assert (forall x z, cz x z = false) as H0.
  { apply parity_zero.
    - intros x z. unfold cz. replace (x + 5)%Z with (x + 1 * 5)%Z by lia. now rewrite Z.mod_add by discriminate.
    - intros x z. unfold cz. replace (z + 64)%Z with (z + 1 * 64)%Z by lia. now rewrite Z.mod_add by discriminate.
    - intros x z. unfold cz. pose proof (Z.mod_pos_bound x 5 eq_refl) as Bx. pose proof (Z.mod_pos_bound z 64 eq_refl) as Bz.
      rewrite Hc by lia. f_equal; f_equal.
      + apply Nat2Z.inj. rewrite Nat2Z.inj_mod, Nat2Z.inj_add, !Z2Nat.id by (try apply Z.mod_pos_bound; lia).
        change (Z.of_nat 4) with 4%Z. change (Z.of_nat 5) with 5%Z. rewrite Zplus_mod_idemp_l.
        replace (x + 4)%Z with (x - 1 + 1 * 5)%Z by lia. now rewrite Z.mod_add by discriminate.
      + apply Nat2Z.inj. rewrite Nat2Z.inj_mod, Nat2Z.inj_add, !Z2Nat.id by (try apply Z.mod_pos_bound; lia).
        change (Z.of_nat 1) with 1%Z. change (Z.of_nat 5) with 5%Z. now rewrite Zplus_mod_idemp_l.
      + apply Nat2Z.inj. rewrite Nat2Z.inj_mod, Nat2Z.inj_add, !Z2Nat.id by (try apply Z.mod_pos_bound; lia).
        change (Z.of_nat 63) with 63%Z. change (Z.of_nat 64) with 64%Z. rewrite Zplus_mod_idemp_l.
        replace (z + 63)%Z with (z - 1 + 1 * 64)%Z by lia. now rewrite Z.mod_add by discriminate. }
  assert (forall x z, x < 5 -> z < 64 -> c x z = false) as Hz.
  { intros x z Hx Hz. specialize (H0 (Z.of_nat x) (Z.of_nat z)). unfold cz in H0.
    rewrite !Z.mod_small, !Nat2Z.id in H0 by lia. exact H0. }
  intros x y z Hx Hy Hzz. pose proof (HE x y z Hx Hy Hzz) as T.
  rewrite !Hz in T by (try (apply Nat.mod_upper_bound; discriminate); exact Hzz). unfold E in T.
  destruct (A x y z), (B x y z); first [reflexivity|discriminate T].
Qed.

Lemma Rnd_inj ir A B : same (Rnd ir A) (Rnd ir B) -> same A B.
Proof. intros H. now apply theta_inj, rho_inj, pi_inj, chi_inj, (iota_inj ir). Qed.

Lemma to_string_nth A i : i < 1600 -> nth i (to_string A) false = A (i / 64 mod 5) (i / 64 / 5) (i mod 64).
Proof.
  intros H. unfold to_string. set (f := fun i => A (i / 64 mod 5) (i / 64 / 5) (i mod 64)).
  rewrite (nth_indep _ false (f 0)) by (rewrite map_length, seq_length; exact H).
  rewrite map_nth, seq_nth by exact H. reflexivity.
Qed.
Lemma to_string_same A B : to_string A = to_string B -> same A B.
Proof.
  intros E x y z Hx Hy Hz. assert (64 * (5 * y + x) + z < 1600) as Hi by lia.
  assert ((64 * (5 * y + x) + z) / 64 = 5 * y + x) as D by (symmetry; apply (Nat.div_unique _ 64 _ z); lia).
  assert ((64 * (5 * y + x) + z) mod 64 = z) as M by (symmetry; apply (Nat.mod_unique _ 64 (5 * y + x)); lia).
  assert ((5 * y + x) / 5 = y) as D5 by (symmetry; apply (Nat.div_unique _ 5 _ x); lia).
  assert ((5 * y + x) mod 5 = x) as M5 by (symmetry; apply (Nat.mod_unique _ 5 y); lia).
  apply (f_equal (fun s => nth (64 * (5 * y + x) + z) s false)) in E. rewrite !to_string_nth in E by exact Hi.
  rewrite D, M, D5, M5 in E. exact E.
Qed.
Lemma of_string_inj s t : length s = 1600 -> length t = 1600 -> same (of_string s) (of_string t) -> s = t.
Proof.
  intros Ls Lt H. apply (nth_ext _ _ false false); [congruence|]. intros i Hi. rewrite Ls in Hi.
  pose proof (Nat.mod_upper_bound (i / 64) 5 ltac:(discriminate)) as Bx. pose proof (Nat.mod_upper_bound i 64 ltac:(discriminate)) as Bz.
  assert (i / 64 / 5 < 5) as By by (rewrite Nat.div_div by discriminate; apply Nat.div_lt_upper_bound; lia).
  specialize (H _ _ _ Bx By Bz). unfold of_string in H.
  replace (64 * (5 * (i / 64 / 5) + i / 64 mod 5) + i mod 64) with i in H; [exact H|].
  rewrite <- Nat.div_mod by discriminate. now rewrite <- Nat.div_mod by discriminate.
Qed.
Lemma to_string_length A : length (to_string A) = 1600.
Proof. unfold to_string. now rewrite map_length, seq_length. Qed.

Lemma fold_inj {S} (f : S -> nat -> S) (P : S -> Prop) : (forall r s t, P s -> P t -> f s r = f t r -> s = t) -> (forall s r, P (f s r)) ->
  forall l s t, P s -> P t -> fold_left f l s = fold_left f l t -> s = t.
Proof.
  intros H1 H2. induction l as [|r l IH]; intros s t Hs Ht E; [exact E|].
  apply (H1 r s t Hs Ht). apply (IH (f s r) (f t r)); auto.
Qed.
Lemma round_inj r s t : length s = 1600 -> length t = 1600 -> to_string (Rnd r (of_string s)) = to_string (Rnd r (of_string t)) -> s = t.
Proof. intros Hs Ht E. exact (of_string_inj s t Hs Ht (Rnd_inj r _ _ (to_string_same _ _ E))). Qed.
Theorem keccak_f_injective s t : length s = 1600 -> length t = 1600 -> keccak_f s = keccak_f t -> s = t.
Proof.
  exact (fold_inj (fun s ir => to_string (Rnd ir (of_string s))) (fun s => length s = 1600) round_inj
           (fun s r => to_string_length (Rnd r (of_string s))) (seq 0 24) s t).
Qed.
