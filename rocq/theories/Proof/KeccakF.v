(** The permutation: the word-wise rounds of sha3.h compute the bit-wise ones of FIPS 202. *)
From Coq Require Import List NArith Ndigits Arith Bool Lia.
From Verif.Base Require Import Res CWord.
From Verif.Spec Require Import Words.
From Verif.Model Require Import Buffer Stream Api.
From Verif.Model.Gen Require Import KeccakTables.
From Verif.Proof Require Import Words Streaming Blocks Rounds.
From Verif.Spec Require Keccak.
From Verif.Model Require Keccak.
Import ListNotations.
Local Open Scope N_scope.
Module S := Verif.Spec.Keccak.
Module M := Verif.Model.Keccak.

Definition lane (l : list N) (x y : nat) : N := nth (5 * y + x) l 0.

(** ** the rounds as functions *)
Definition column (l : list N) (x : nat) : N :=
  N.lxor (N.lxor (N.lxor (N.lxor (lane l x 0) (lane l x 1)) (lane l x 2)) (lane l x 3)) (lane l x 4).
Definition dword (l : list N) (x : nat) : N := N.lxor (column l ((x + 4) mod 5)) (rotl 64 (column l ((x + 1) mod 5)) 1).
Definition theta (l : list N) : list N := map (fun i => N.lxor (nth i l 0) (dword l (i mod 5))) (seq 0 25).
Definition rhoPiF (l : list N) : list N := map (fun e : nat * nat * N => let '(a, b, c) := e in rotl 64 (lane l b a) (c mod 64)) rhoPi.
Definition chi (t : list N) : list N :=
  map (fun i => N.lxor (nth i t 0) (N.land (unot 64 (lane t ((i mod 5 + 1) mod 5) (i / 5))) (lane t ((i mod 5 + 2) mod 5) (i / 5)))) (seq 0 25).
Definition iota (r : nat) (l : list N) : list N :=
  match l with a :: t => N.lxor a (nth r roundConstantTable 0) :: t | [] => [] end.
Definition round (r : nat) (l : list N) : list N := iota r (chi (rhoPiF (theta l))).
Definition keccak_f (l : list N) : list N := fold_left (fun l r => round r l) (seq 0 24) l.

Lemma list25 (l : list N) : length l = 25%nat -> exists a0 a1 a2 a3 a4 a5 a6 a7 a8 a9 a10 a11 a12 a13 a14 a15 a16 a17 a18 a19 a20 a21 a22 a23 a24,
  l = [a0; a1; a2; a3; a4; a5; a6; a7; a8; a9; a10; a11; a12; a13; a14; a15; a16; a17; a18; a19; a20; a21; a22; a23; a24].
Proof.
  intros H. do 25 (destruct l as [|? l]; [discriminate|]). destruct l; [|discriminate].
  repeat eexists.
Qed.

Ltac open25 l H :=
  let E := fresh in
  destruct (list25 l H) as (? & ? & ? & ? & ? & ? & ? & ? & ? & ? & ? & ? & ? & ? & ? & ? & ? & ? & ? & ? & ? & ? & ? & ? & ? & E);
  rewrite E; clear H E l.

Lemma theta_ok l : length l = 25%nat -> M.theta l = Ok (theta l).
Proof. intros H. open25 l H. reflexivity. Qed.
Lemma rhoPi_ok l : length l = 25%nat -> M.rhoPi_tmp l = Ok (rhoPiF l).
Proof. intros H. open25 l H. reflexivity. Qed.
Lemma chi_ok t l : length t = 25%nat -> length l = 25%nat -> M.chi t l = Ok (chi t).
Proof. intros Ht H. open25 l H. open25 t Ht. reflexivity. Qed.
Lemma iota_ok r l : length l = 25%nat -> (r < 24)%nat -> M.iota r l = Ok (iota r l).
Proof.
  intros H Hr. open25 l H. unfold M.iota. rewrite (aget_ok 0 roundConstantTable) by exact Hr. reflexivity.
Qed.

Lemma theta_length l : length (theta l) = 25%nat.
Proof. unfold theta. now rewrite map_length, seq_length. Qed.
Lemma rhoPi_length l : length (rhoPiF l) = 25%nat.
Proof. unfold rhoPiF. now rewrite map_length. Qed.
Lemma chi_length l : length (chi l) = 25%nat.
Proof. unfold chi. now rewrite map_length, seq_length. Qed.
Lemma iota_length r l : length (iota r l) = length l.
Proof. destruct l; reflexivity. Qed.
Lemma round_length r l : length (round r l) = 25%nat.
Proof. unfold round. now rewrite iota_length, chi_length. Qed.

Lemma round_ok r l : length l = 25%nat -> (r < 24)%nat -> M.roundFunction r l = Ok (round r l).
Proof.
  intros H Hr. unfold M.roundFunction, M.rhoPiChi, round.
  rewrite theta_ok, bind_ok by exact H. rewrite rhoPi_ok, bind_ok by apply theta_length.
  rewrite chi_ok, bind_ok by (apply rhoPi_length || apply theta_length).
  apply iota_ok; [apply chi_length|exact Hr].
Qed.

Lemma rounds_ok l : length l = 25%nat -> for_ 0 24 M.roundFunction l = Ok (keccak_f l) /\ length (keccak_f l) = 25%nat.
Proof.
  intros H. apply (for_fold (fun _ l => length l = 25%nat) round); [exact H|].
  intros i s Hi Hs. split; [apply round_ok; [exact Hs|lia]|apply round_length].
Qed.

(** ** bounds *)
Lemma bnd_lane l x y : Forall (bnd 64) l -> bnd 64 (lane l x y).
Proof. intros H. now apply Forall_nth_bnd. Qed.
Lemma bnd_column l x : Forall (bnd 64) l -> bnd 64 (column l x).
Proof. intros H. unfold column. repeat apply bnd_lxor; now apply bnd_lane. Qed.
Lemma bnd_theta l : Forall (bnd 64) l -> Forall (bnd 64) (theta l).
Proof.
  intros H. unfold theta. apply Forall_map, Forall_forall. intros i _.
  apply bnd_lxor; [now apply Forall_nth_bnd|]. unfold dword. apply bnd_lxor; [|apply bnd_rotl]; now apply bnd_column.
Qed.
Lemma bnd_rhoPi l : Forall (bnd 64) l -> Forall (bnd 64) (rhoPiF l).
Proof.
  intros H. unfold rhoPiF. apply Forall_map, Forall_forall. intros [[a b] c] _. apply bnd_rotl. now apply bnd_lane.
Qed.
Lemma bnd_chi l : Forall (bnd 64) l -> Forall (bnd 64) (chi l).
Proof.
  intros H. unfold chi. apply Forall_map, Forall_forall. intros i _.
  apply bnd_lxor; [now apply Forall_nth_bnd|]. apply bnd_land_r. now apply bnd_lane.
Qed.
Lemma rc_bnd : Forall (bnd 64) roundConstantTable.
Proof. apply Forall_bndb. reflexivity. Qed.
Lemma bnd_iota r l : Forall (bnd 64) l -> Forall (bnd 64) (iota r l).
Proof.
  intros H. destruct H as [|a l Ha H]; [constructor|]. cbn [iota]. constructor; [|exact H].
  apply bnd_lxor; [exact Ha|]. apply Forall_nth_bnd, rc_bnd.
Qed.
Lemma bnd_round r l : Forall (bnd 64) l -> Forall (bnd 64) (round r l).
Proof. intros. now apply bnd_iota, bnd_chi, bnd_rhoPi, bnd_theta. Qed.
Lemma keccak_f_ok l : length l = 25%nat -> Forall (bnd 64) l ->
  length (keccak_f l) = 25%nat /\ Forall (bnd 64) (keccak_f l).
Proof.
  intros Hl Hb. unfold keccak_f. generalize (seq 0 24). intros L. revert l Hl Hb.
  induction L as [|r L IH]; intros l Hl Hb; [auto|]. cbn [fold_left].
  apply IH; [apply round_length|now apply bnd_round].
Qed.

(** ** words and bits *)

(** the lanes hold the state array *)
Definition rep (l : list N) (A : S.state) : Prop :=
  forall x y z, (x < 5)%nat -> (y < 5)%nat -> (z < 64)%nat -> A x y z = N.testbit_nat (lane l x y) z.

Lemma tb x z : N.testbit_nat x z = N.testbit x (N.of_nat z).
Proof. symmetry. apply Ntestbit_Nbit. Qed.

Lemma testbit_rotl_mod v s z : bnd 64 v -> (s < 64)%nat -> (z < 64)%nat ->
  N.testbit_nat (rotl 64 v (N.of_nat s)) z = N.testbit_nat v ((z + (64 - s)) mod 64).
Proof.
  intros Hv Hs Hz. rewrite !tb. destruct s as [|s].
  - cbn [rotl N.of_nat]. f_equal. rewrite Nat.sub_0_r. replace (z + 64)%nat with (z + 1 * 64)%nat by lia.
    rewrite Nat.mod_add, Nat.mod_small by lia. reflexivity.
  - rewrite testbit_rotl by (auto; lia). destruct (N.ltb_spec (N.of_nat z) (N.of_nat (Datatypes.S s))).
    + f_equal. rewrite Nat.mod_small by lia. lia.
    + destruct (N.ltb_spec (N.of_nat z) 64); [|lia]. f_equal.
      replace (z + (64 - Datatypes.S s))%nat with (z - Datatypes.S s + 1 * 64)%nat by lia.
      rewrite Nat.mod_add, Nat.mod_small by lia. lia.
Qed.

Lemma lxor_tb x y z : N.testbit_nat (N.lxor x y) z = xorb (N.testbit_nat x z) (N.testbit_nat y z).
Proof. rewrite !tb. apply N.lxor_spec. Qed.

Lemma lane_index x y : (x < 5)%nat -> (y < 5)%nat ->
  ((5 * y + x < 25)%nat /\ (5 * y + x) mod 5 = x /\ (5 * y + x) / 5 = y)%nat.
Proof.
  intros Hx Hy. split; [lia|]. rewrite (Nat.mul_comm 5). split.
  - rewrite Nat.add_comm, Nat.mod_add, Nat.mod_small by lia. reflexivity.
  - rewrite Nat.div_add_l, Nat.div_small by lia. lia.
Qed.

Lemma nth_seq_map (f : nat -> N) i n : (i < n)%nat -> nth i (map f (seq 0 n)) 0 = f i.
Proof.
  intros H. rewrite (nth_indep _ 0 (f 0%nat)) by (now rewrite map_length, seq_length).
  rewrite map_nth, seq_nth by exact H. reflexivity.
Qed.

Lemma mod5_lt x : (x mod 5 < 5)%nat.
Proof. apply Nat.mod_upper_bound. discriminate. Qed.
Lemma mod64_lt x : (x mod 64 < 64)%nat.
Proof. apply Nat.mod_upper_bound. discriminate. Qed.

Lemma rep_theta l A : Forall (bnd 64) l -> rep l A -> rep (theta l) (S.theta A).
Proof.
  intros Hb H x y z Hx Hy Hz. destruct (lane_index x y Hx Hy) as (Hi & Em & _).
  unfold lane at 1, theta. rewrite nth_seq_map by exact Hi. rewrite Em. fold (lane l x y).
  unfold dword. rewrite !lxor_tb. unfold S.theta.
  rewrite (testbit_rotl_mod _ 1 z (bnd_column l _ Hb)) by lia.
  pose proof (mod5_lt (x + 4)) as H4. pose proof (mod5_lt (x + 1)) as H1. pose proof (mod64_lt (z + 63)) as H63.
  change (64 - 1)%nat with 63%nat.
  unfold column. rewrite !lxor_tb. rewrite !H by (assumption || lia). reflexivity.
Qed.

Lemma rhoPi_table : forallb (fun i =>
    let '(a, b, c) := nth i rhoPi (0%nat, 0%nat, 0) in
    let x := (i mod 5)%nat in let y := (i / 5)%nat in
    ((a =? x) && (b =? (x + 3 * y) mod 5) && (N.to_nat (c mod 64) =? S.offset ((x + 3 * y) mod 5) x mod 64))%nat)
  (seq 0 25) = true.
Proof. vm_compute. reflexivity. Qed.

Lemma rep_rhoPi l A : Forall (bnd 64) l -> rep l A -> rep (rhoPiF l) (S.pi (S.rho A)).
Proof.
  intros Hb H x y z Hx Hy Hz. destruct (lane_index x y Hx Hy) as (Hi & Em & Ed).
  pose proof rhoPi_table as T. rewrite forallb_forall in T. specialize (T (5 * y + x)%nat).
  rewrite in_seq in T. specialize (T ltac:(lia)). rewrite Em, Ed in T. cbv zeta in T.
  unfold lane at 1, rhoPiF.
  set (f := fun e : nat * nat * N => let '(a, b, c) := e in rotl 64 (lane l b a) (c mod 64)).
  rewrite (nth_indep _ 0 (f (0%nat, 0%nat, 0))) by (rewrite map_length; exact Hi).
  rewrite (map_nth f rhoPi (0%nat, 0%nat, 0)). subst f. cbv beta.
  destruct (nth (5 * y + x) rhoPi (0%nat, 0%nat, 0)) as [[a b] c].
  apply andb_prop in T as [T T3]. apply andb_prop in T as [T1 T2].
  apply Nat.eqb_eq in T1, T2, T3. subst a b.
  unfold S.pi, S.rho. rewrite <- T3.
  rewrite <- (N2Nat.id (c mod 64)) at 2.
  assert (N.to_nat (c mod 64) < 64)%nat as Hc by (pose proof (N.mod_lt c 64); lia).
  rewrite (testbit_rotl_mod _ _ z (bnd_lane l _ _ Hb) Hc Hz).
  apply H; [apply mod5_lt|exact Hx|apply mod64_lt].
Qed.

Lemma rep_chi l A : Forall (bnd 64) l -> rep l A -> rep (chi l) (S.chi A).
Proof.
  intros Hb H x y z Hx Hy Hz. destruct (lane_index x y Hx Hy) as (Hi & Em & Ed).
  unfold lane at 1, chi. rewrite nth_seq_map by exact Hi. rewrite Em, Ed. fold (lane l x y).
  pose proof (mod5_lt (x + 1)) as H1. pose proof (mod5_lt (x + 2)) as H2.
  unfold S.chi. rewrite !H by assumption. rewrite lxor_tb. f_equal.
  rewrite !tb, N.land_spec, testbit_unot by now apply bnd_lane.
  destruct (N.ltb_spec (N.of_nat z) 64); [|lia]. now rewrite andb_true_r, xorb_true_r.
Qed.

Lemma rc_table : forallb (fun r => forallb (fun z =>
    Bool.eqb (N.testbit_nat (nth r roundConstantTable 0) z) (S.RC r z)) (seq 0 64)) (seq 0 24) = true.
Proof. vm_compute. reflexivity. Qed.

Lemma rep_iota r l A : (r < 24)%nat -> length l = 25%nat -> rep l A -> rep (iota r l) (S.iota r A).
Proof.
  intros Hr Hl H x y z Hx Hy Hz. unfold S.iota. cbv beta. rewrite !(H x y z Hx Hy Hz).
  destruct l as [|a l]; [discriminate|]. cbn [iota]. unfold lane.
  destruct (Nat.eqb_spec x 0) as [->|Nx]; [destruct (Nat.eqb_spec y 0) as [->|Ny]|]; cbn [andb].
  - change (5 * 0 + 0)%nat with 0%nat. cbn [nth]. rewrite lxor_tb. f_equal.
    pose proof rc_table as T. rewrite forallb_forall in T. specialize (T r). rewrite in_seq in T. specialize (T ltac:(lia)).
    rewrite forallb_forall in T. specialize (T z). rewrite in_seq in T. specialize (T ltac:(lia)).
    apply Bool.eqb_prop in T. now symmetry.
  - destruct (5 * y + 0)%nat as [|k] eqn:E; [lia|]. reflexivity.
  - destruct (5 * y + x)%nat as [|k] eqn:E; [lia|]. reflexivity.
Qed.

(** ** the state as a bit string *)
Definition word_bits (w : N) : S.bits := map (N.testbit_nat w) (seq 0 64).
Definition lane_bits (l : list N) : S.bits := flat_map word_bits l.

Lemma word_bits_length w : length (word_bits w) = 64%nat.
Proof. unfold word_bits. now rewrite map_length, seq_length. Qed.

Lemma word_bits_nth w z : (z < 64)%nat -> nth z (word_bits w) false = N.testbit_nat w z.
Proof.
  intros H. unfold word_bits. rewrite (nth_indep _ false (N.testbit_nat w 0)) by (now rewrite map_length, seq_length).
  rewrite map_nth, seq_nth by exact H. reflexivity.
Qed.

Lemma lane_bits_length l : length (lane_bits l) = (64 * length l)%nat.
Proof.
  induction l as [|a l IH]; [reflexivity|]. unfold lane_bits in *. cbn [flat_map length].
  rewrite app_length, word_bits_length, IH. lia.
Qed.

Lemma lane_bits_nth l : forall j z, (z < 64)%nat -> (j < length l)%nat ->
  nth (64 * j + z) (lane_bits l) false = N.testbit_nat (nth j l 0) z.
Proof.
  induction l as [|a l IH]; intros j z Hz Hj; [cbn in Hj; lia|]. unfold lane_bits in *. cbn [flat_map].
  destruct j as [|j].
  - rewrite app_nth1 by (rewrite word_bits_length; lia). rewrite Nat.mul_0_r, Nat.add_0_l. now apply word_bits_nth.
  - rewrite app_nth2 by (rewrite word_bits_length; lia). rewrite word_bits_length.
    replace (64 * Datatypes.S j + z - 64)%nat with (64 * j + z)%nat by lia. cbn [nth]. apply IH; [exact Hz|].
    cbn [length] in Hj. lia.
Qed.

Lemma rep_string l : length l = 25%nat -> rep l (S.of_string (lane_bits l)).
Proof. intros Hl x y z Hx Hy Hz. unfold S.of_string. apply lane_bits_nth; lia. Qed.

Lemma to_string_length A : length (S.to_string A) = 1600%nat.
Proof. unfold S.to_string. now rewrite map_length, seq_length. Qed.

Lemma string_rep l A : length l = 25%nat -> rep l A -> S.to_string A = lane_bits l.
Proof.
  intros Hl H. apply (nth_ext _ _ false false).
  - rewrite to_string_length, lane_bits_length, Hl. reflexivity.
  - intros i Hi. rewrite to_string_length in Hi. unfold S.to_string.
    set (f := fun i => A (i / 64 mod 5)%nat (i / 64 / 5)%nat (i mod 64)%nat).
    rewrite (nth_indep _ false (f 0%nat)) by (now rewrite map_length, seq_length).
    rewrite map_nth, seq_nth by exact Hi. unfold f. rewrite Nat.add_0_l.
    assert (i / 64 < 25)%nat as Hj by (apply Nat.div_lt_upper_bound; lia).
    rewrite H by (apply mod5_lt || apply mod64_lt || (apply Nat.div_lt_upper_bound; lia)).
    rewrite (Nat.div_mod i 64) at 4 by discriminate.
    rewrite lane_bits_nth by (try apply mod64_lt; lia). unfold lane. do 2 f_equal.
    rewrite (Nat.div_mod (i / 64) 5) at 3 by discriminate. reflexivity.
Qed.

Theorem keccak_f_bits l : length l = 25%nat -> Forall (bnd 64) l -> S.keccak_f (lane_bits l) = lane_bits (keccak_f l).
Proof.
  unfold S.keccak_f, keccak_f. assert (Forall (fun r => (r < 24)%nat) (seq 0 24)) as HL.
  { apply Forall_forall. intros r Hr. apply in_seq in Hr. lia. }
  revert HL. generalize (seq 0 24). intros L HL. revert l. induction HL as [|r L Hr HL IH]; intros l Hl Hb; [reflexivity|].
  cbn [fold_left]. rewrite <- IH by (apply round_length || now apply bnd_round). f_equal.
  apply string_rep; [apply round_length|]. unfold S.Rnd, round.
  apply rep_iota; [exact Hr|apply chi_length|].
  apply rep_chi; [now apply bnd_rhoPi, bnd_theta|].
  apply rep_rhoPi; [now apply bnd_theta|]. apply rep_theta; [exact Hb|]. now apply rep_string.
Qed.
