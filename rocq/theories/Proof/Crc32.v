(** crc_32.h computes CRC-32; linearity and burst detection. *)
From Coq Require Import List NArith Arith Bool Btauto Lia.
From Verif.Base Require Import Res CWord.
From Verif.Spec Require Import Words Client.
From Verif.Model Require Import Buffer Stream Api.
From Verif.Model.Gen Require Import Crc32Table.
From Verif.Proof Require Import Words Streaming Blocks Api.
From Verif.Spec Require Crc32.
From Verif.Model Require Crc32.
Module S := Verif.Spec.Crc32.
Module M := Verif.Model.Crc32.
Import ListNotations.
Local Open Scope N_scope.

(** ** the shift register is linear *)

Definition step (s : N) : N := S.next s false.
Fixpoint steps (n : nat) (s : N) : N := match n with O => s | Datatypes.S k => steps k (step s) end.

Lemma step_eq s : step s = N.lxor (N.div2 s) (if N.odd s then S.polynomial else 0).
Proof.
  unfold step, S.next. rewrite N.div2_div, xorb_false_r. destruct (N.odd s); [reflexivity|]. now rewrite N.lxor_0_r.
Qed.

Lemma odd_lxor a b : N.odd (N.lxor a b) = xorb (N.odd a) (N.odd b).
Proof. rewrite <- !N.bit0_odd. apply N.lxor_spec. Qed.
Lemma div2_lxor a b : N.div2 (N.lxor a b) = N.lxor (N.div2 a) (N.div2 b).
Proof.
  rewrite !N.div2_spec. apply N.shiftr_lxor.
Qed.

Ltac xors := apply N.bits_inj; intros ?; rewrite ?N.lxor_spec, ?N.bits_0; repeat match goal with |- context [N.testbit ?a ?b] => destruct (N.testbit a b) end; reflexivity.

Lemma step_lxor a b : step (N.lxor a b) = N.lxor (step a) (step b).
Proof.
  rewrite !step_eq, odd_lxor, div2_lxor. destruct (N.odd a), (N.odd b); cbn [xorb]; xors.
Qed.
Lemma step_0 : step 0 = 0. Proof. reflexivity. Qed.
Lemma steps_lxor n : forall a b, steps n (N.lxor a b) = N.lxor (steps n a) (steps n b).
Proof. induction n as [|n IH]; intros a b; cbn [steps]; [reflexivity|]. now rewrite step_lxor, IH. Qed.
Lemma steps_0 n : steps n 0 = 0. Proof. induction n; cbn [steps]; auto. Qed.
Lemma steps_add n m s : steps (n + m) s = steps m (steps n s).
Proof. revert s; induction n as [|n IH]; intros s; cbn [steps Nat.add]; auto. Qed.

Definition bit (b : bool) : N := if b then 1 else 0.
Lemma next_step s b : S.next s b = step (N.lxor s (bit b)).
Proof.
  unfold step, S.next. rewrite odd_lxor, xorb_false_r, <- !N.div2_div, div2_lxor.
  destruct b; cbn [bit]; rewrite N.lxor_0_r; reflexivity.
Qed.

Lemma polynomial_value : S.polynomial = 0xEDB88320. Proof. vm_compute. reflexivity. Qed.

Lemma step_bnd s : bnd 32 s -> bnd 32 (step s).
Proof.
  intros H. rewrite step_eq. apply bnd_lxor.
  - rewrite N.div2_spec. now apply bnd_ushr.
  - destruct (N.odd s); [rewrite polynomial_value; unfold bnd; apply N.ltb_lt; reflexivity|apply bnd_0].
Qed.
Lemma steps_bnd n s : bnd 32 s -> bnd 32 (steps n s).
Proof. revert s; induction n as [|n IH]; intros s H; cbn [steps]; auto using step_bnd. Qed.

(** ** feeding a byte: add it to the register, then eight steps *)

Lemma low_bits_value b n : fold_right N.lxor 0 (map (fun i => bit (N.testbit b (N.of_nat i)) * 2 ^ N.of_nat i) (seq 0 n)) = b mod 2 ^ N.of_nat n.
Proof.
  induction n as [|n IH]; [now rewrite N.mod_1_r|].
  assert (forall l a, fold_right N.lxor 0 (l ++ [a]) = N.lxor (fold_right N.lxor 0 l) a) as Happ.
  { induction l as [|x l IHl]; intros a; cbn [fold_right app]; [now rewrite N.lxor_0_r|]. now rewrite IHl, N.lxor_assoc. }
  rewrite seq_S, map_app. cbn [map]. rewrite Happ, IH, Nat.add_0_l. clear IH Happ.
  apply N.bits_inj. intros i. rewrite N.lxor_spec, Nnat.Nat2N.inj_succ. set (k := N.of_nat n).
  destruct (N.lt_trichotomy i k) as [H|[H|H]].
  - rewrite !N.mod_pow2_bits_low by lia. rewrite N.mul_pow2_bits_low by exact H. now rewrite xorb_false_r.
  - subst i. rewrite N.mod_pow2_bits_high, N.mod_pow2_bits_low by lia. rewrite <- (N.add_0_l k) at 3.
    rewrite N.mul_pow2_bits_add. destruct (N.testbit b k); reflexivity.
  - rewrite !N.mod_pow2_bits_high by lia. replace i with ((i - k) + k) by lia. rewrite N.mul_pow2_bits_add.
    destruct (N.testbit b k); cbn [bit].
    + destruct (i - k) eqn:E; [lia|reflexivity].
    + now rewrite N.bits_0.
Qed.

(** shifting a value with low zero bits *)
Lemma step_even x : step (2 * x) = x.
Proof. rewrite step_eq, N.div2_double. rewrite N.odd_mul. cbn [N.odd andb]. now rewrite N.lxor_0_r. Qed.
Lemma steps_shift n : forall x, steps n (x * 2 ^ N.of_nat n) = x.
Proof.
  induction n as [|n IH]; intros x; [cbn; apply N.mul_1_r|]. cbn [steps].
  rewrite Nnat.Nat2N.inj_succ, N.pow_succ_r', N.mul_assoc, (N.mul_comm x), <- N.mul_assoc, step_even. apply IH.
Qed.

Lemma lxor_mul a b k : N.lxor a b * 2 ^ k = N.lxor (a * 2 ^ k) (b * 2 ^ k).
Proof. rewrite <- !N.shiftl_mul_pow2. apply N.shiftl_lxor. Qed.

(** feeding the bits of a word one by one or all at once *)
Definition word (bs : list bool) : N := fold_right (fun b w => N.lxor (bit b) (2 * w)) 0 bs.
Lemma remainder_word bs : forall s, S.remainder s bs = steps (length bs) (N.lxor s (word bs)).
Proof.
  induction bs as [|b bs IH]; intros s; [cbn; now rewrite N.lxor_0_r|].
  unfold S.remainder in *. cbn [fold_left length steps word fold_right]. fold (word bs).
  rewrite IH, next_step. f_equal. rewrite <- N.lxor_assoc, !step_lxor, step_even. reflexivity.
Qed.
Lemma remainder_app s a b : S.remainder s (a ++ b) = S.remainder (S.remainder s a) b.
Proof. apply fold_left_app. Qed.
Lemma bits_app a b : S.bits (a ++ b) = S.bits a ++ S.bits b.
Proof. apply flat_map_app. Qed.

Lemma byte_word b : b < 256 -> word (S.byte_bits b) = b.
Proof.
  intros H. rewrite <- (N.mod_small b (2 ^ N.of_nat 8)) at 2 by exact H. rewrite <- low_bits_value.
  unfold S.byte_bits, word. cbn [seq map fold_right].
  repeat match goal with |- context [bit (N.testbit b ?k)] => destruct (N.testbit b k) end; reflexivity.
Qed.

Definition feed (s b : N) : N := steps 8 (N.lxor s b).
Lemma remainder_byte s b : b < 256 -> S.remainder s (S.byte_bits b) = feed s b.
Proof. intros H. rewrite remainder_word, byte_word by exact H. reflexivity. Qed.
Lemma remainder_bytes m : bytes_ok m -> forall s, S.remainder s (S.bits m) = fold_left feed m s.
Proof.
  induction 1 as [|b m Hb Hm IH]; intros s; [reflexivity|].
  unfold S.bits. cbn [flat_map fold_left]. rewrite remainder_app, remainder_byte by exact Hb. apply IH.
Qed.
Lemma feed_bnd s b : bnd 32 s -> b < 256 -> bnd 32 (feed s b).
Proof. intros Hs Hb. apply steps_bnd, bnd_lxor; [exact Hs|]. apply (bnd_mono 8); [discriminate|exact Hb]. Qed.
Lemma feeds_bnd m : bytes_ok m -> forall s, bnd 32 s -> bnd 32 (fold_left feed m s).
Proof. induction 1 as [|b m Hb Hm IH]; intros s Hs; cbn [fold_left]; auto using feed_bnd. Qed.

(** ** the tables *)

Definition row_ok (k : nat) (row : list N) : Prop := row = map (fun i => steps (8 * Datatypes.S k) (N.of_nat i)) (seq 0 256).

(** each table is the previous one after eight more steps *)
Fixpoint rows_from (prev : list N) (rows : list (list N)) : bool :=
  match rows with
  | [] => true
  | r :: rest => (fix eqb (a b : list N) : bool := match a, b with
      | [], [] => true | x :: a', y :: b' => (steps 8 x =? y) && eqb a' b' | _, _ => false end) prev r
      && rows_from r rest
  end.

Lemma rows_from_ok rows : forall prev k, prev = map (fun i => steps (8 * k) (N.of_nat i)) (seq 0 256) -> rows_from prev rows = true ->
  forall j, (j < length rows)%nat -> row_ok (k + j) (nth j rows []).
Proof.
  induction rows as [|r rest IH]; intros prev k Hp Hr j Hj; cbn [length] in Hj; [lia|].
  cbn [rows_from] in Hr. apply andb_true_iff in Hr as [H1 H2].
  assert (row_ok k r) as Hk.
  { unfold row_ok. assert (r = map (steps 8) prev) as ->.
    - clear -H1. revert r H1. induction prev as [|x p IH]; intros [|y r] H; try discriminate; [reflexivity|].
      apply andb_true_iff in H as [E H]. apply N.eqb_eq in E. cbn [map]. rewrite E. f_equal. apply IH, H.
    - rewrite Hp, map_map. apply map_ext. intros i. rewrite <- steps_add. f_equal. lia. }
  destruct j as [|j]; [now rewrite Nat.add_0_r|]. cbn [nth]. replace (k + Datatypes.S j)%nat with (Datatypes.S k + j)%nat by lia.
  apply (IH r); [exact Hk|exact H2|lia].
Qed.

Lemma tables_checked : rows_from (map N.of_nat (seq 0 256)) crc32LUT = true.
Proof. vm_compute. reflexivity. Qed.

Theorem table_ok k : (k < 16)%nat -> row_ok k (nth k crc32LUT []).
Proof.
  intros H. apply (rows_from_ok crc32LUT (map N.of_nat (seq 0 256)) 0); [|exact tables_checked|exact H].
  apply map_ext. reflexivity.
Qed.

Lemma lut_ok k i : (k < 16)%nat -> i < 256 -> M.lut k i = Ok (steps (8 * Datatypes.S k) i).
Proof.
  intros Hk Hi. unfold M.lut. rewrite (aget_ok []) by exact Hk. rewrite bind_ok, (table_ok k Hk).
  rewrite (aget_ok 0) by (rewrite map_length, seq_length; lia).
  rewrite (nth_indep _ 0 (steps (8 * Datatypes.S k) (N.of_nat 0))) by (rewrite map_length, seq_length; lia).
  rewrite (map_nth (fun i => steps (8 * Datatypes.S k) (N.of_nat i))), seq_nth, Nat.add_0_l, Nnat.N2Nat.id by lia. reflexivity.
Qed.

(** as the table entry is prescribed: the remainder of the byte followed by k zero bytes *)
Lemma repeat_steps n s : S.remainder s (repeat false n) = steps n s.
Proof. revert s; induction n as [|n IH]; intros s; [reflexivity|]. exact (IH (step s)). Qed.
Theorem table_entry k i : (k < 16)%nat -> (i < 256)%nat ->
  nth i (nth k crc32LUT []) 0 = S.remainder 0 (S.byte_bits (N.of_nat i) ++ repeat false (8 * k)).
Proof.
  intros Hk Hi. rewrite remainder_app, repeat_steps, remainder_byte by lia. unfold feed. rewrite N.lxor_0_l, <- steps_add.
  rewrite (table_ok k Hk).
  rewrite (nth_indep _ 0 (steps (8 * Datatypes.S k) (N.of_nat 0))) by (rewrite map_length, seq_length; lia).
  rewrite (map_nth (fun i => steps (8 * Datatypes.S k) (N.of_nat i))), seq_nth, Nat.add_0_l by lia. f_equal. lia.
Qed.
Theorem table_shape : length crc32LUT = 16%nat /\ Forall (fun row => length row = 256%nat) crc32LUT.
Proof. split; [reflexivity|]. repeat constructor. Qed.

(** ** one byte by table *)

Lemma split_low s k : s = N.lxor (s mod 2 ^ k) (s / 2 ^ k * 2 ^ k).
Proof.
  apply N.bits_inj. intros i. rewrite N.lxor_spec. destruct (N.lt_ge_cases i k) as [H|H].
  - rewrite N.mod_pow2_bits_low, N.mul_pow2_bits_low by exact H. now destruct (N.testbit s i).
  - rewrite N.mod_pow2_bits_high by exact H. replace i with ((i - k) + k) at 2 by lia.
    rewrite N.mul_pow2_bits_add, <- N.shiftr_div_pow2, N.shiftr_spec by lia.
    rewrite xorb_false_l. f_equal; lia.
Qed.

Lemma feed_table s b : feed s b = N.lxor (ushr s 8) (steps 8 (N.lxor (ror 8 s 0) b)).
Proof.
  unfold feed. rewrite !steps_lxor, <- N.lxor_assoc. f_equal.
  rewrite (split_low s 8) at 1. rewrite steps_lxor, (steps_shift 8), N.lxor_comm.
  rewrite ror_spec, ushr_spec. change (2 ^ 0) with 1. rewrite N.div_1_r. reflexivity.
Qed.

(** ** sixteen bytes by tables *)

Lemma word_lt bs : word bs < 2 ^ N.of_nat (length bs).
Proof.
  induction bs as [|b bs IH]; [reflexivity|]. cbn [length word fold_right]. fold (word bs).
  rewrite Nnat.Nat2N.inj_succ. apply bnd_lxor.
  - apply (bnd_mono 1); [lia|]. destruct b; reflexivity.
  - unfold bnd. rewrite N.pow_succ_r'. lia.
Qed.
Lemma word_app a b : word (a ++ b) = N.lxor (word a) (word b * 2 ^ N.of_nat (length a)).
Proof.
  induction a as [|x a IH]; [cbn [app length]; change (2 ^ N.of_nat 0) with 1; now rewrite N.mul_1_r|].
  cbn [app length word fold_right]. fold (word (a ++ b)) (word a). rewrite IH, Nnat.Nat2N.inj_succ, N.pow_succ_r'.
  rewrite N.lxor_assoc. f_equal.
  rewrite (N.mul_comm 2), (N.mul_comm 2 (word a)). change 2 with (2 ^ 1) at 2. rewrite lxor_mul. f_equal. change (2 ^ 1) with 2. lia.
Qed.
Lemma bits_length m : length (S.bits m) = (8 * length m)%nat.
Proof. induction m as [|b m IH]; [reflexivity|]. unfold S.bits in *. cbn [flat_map]. rewrite app_length, IH. cbn [S.byte_bits map seq length]. lia. Qed.
Lemma lxor_add_high a b k : a < 2 ^ k -> N.lxor a (b * 2 ^ k) = a + b * 2 ^ k.
Proof.
  intros H. symmetry. apply N.add_nocarry_lxor. apply N.bits_inj. intros i. rewrite N.land_spec, N.bits_0.
  destruct (N.lt_ge_cases i k) as [L|L]; [rewrite N.mul_pow2_bits_low by exact L; apply andb_false_r|].
  now rewrite (bnd_high k a) by assumption.
Qed.
Lemma word_bytes m : bytes_ok m -> word (S.bits m) = le_value m.
Proof.
  induction 1 as [|b m Hb Hm IH]; [reflexivity|]. unfold S.bits in *. cbn [flat_map le_value].
  rewrite word_app, IH, byte_word by exact Hb. change (N.of_nat (length (S.byte_bits b))) with 8.
  rewrite lxor_add_high by exact Hb. change (2 ^ 8) with 256. lia.
Qed.

Lemma feeds_word m s : bytes_ok m -> fold_left feed m s = steps (8 * length m) (N.lxor s (le_value m)).
Proof. intros H. now rewrite <- remainder_bytes, remainder_word, bits_length, word_bytes by exact H. Qed.

(** the four bytes of a word *)
Lemma steps_word n w : bnd 32 w ->
  steps (32 + n) w = N.lxor (N.lxor (N.lxor (steps (8 + n) (ror 8 w 24)) (steps (16 + n) (ror 8 w 16))) (steps (24 + n) (ror 8 w 8))) (steps (32 + n) (ror 8 w 0)).
Proof.
  intros H. assert (forall k m x, steps (k + m) (x * 2 ^ N.of_nat k) = steps m x) as Hs by (intros; now rewrite steps_add, steps_shift).
  assert (w = N.lxor (N.lxor (N.lxor (ror 8 w 24 * 2 ^ N.of_nat 24) (ror 8 w 16 * 2 ^ N.of_nat 16)) (ror 8 w 8 * 2 ^ N.of_nat 8)) (ror 8 w 0)) as E.
  { rewrite !ror_spec. change (2 ^ 0) with 1. rewrite N.div_1_r.
    change (N.of_nat 24) with (8 + (8 + 8)). change (N.of_nat 16) with (8 + 8). change (N.of_nat 8) with 8.
    change 24 with (8 + (8 + 8)) at 1. change (2 ^ 16) with (2 ^ (8 + 8)).
    rewrite !N.pow_add_r, !N.mul_assoc, <- !N.div_div, <- !lxor_mul by discriminate.
    rewrite (N.mod_small (w / 2 ^ 8 / 2 ^ 8 / 2 ^ 8)) by (rewrite !N.div_div by discriminate; apply N.div_lt_upper_bound; [discriminate|exact H]).
    rewrite (N.lxor_comm _ (w / 2 ^ 8 / 2 ^ 8 mod 2 ^ 8)), <- split_low.
    rewrite (N.lxor_comm _ (w / 2 ^ 8 mod 2 ^ 8)), <- split_low.
    rewrite (N.lxor_comm _ (w mod 2 ^ 8)), <- split_low. reflexivity. }
  rewrite E at 1. rewrite !steps_lxor.
  rewrite <- (Hs 24%nat (8 + n)%nat (ror 8 w 24)), <- (Hs 16%nat (16 + n)%nat (ror 8 w 16)), <- (Hs 8%nat (24 + n)%nat (ror 8 w 8)). reflexivity.
Qed.

Lemma le_value_app a b : le_value (a ++ b) = le_value a + 256 ^ N.of_nat (length a) * le_value b.
Proof.
  induction a as [|x a IH]; [cbn [app le_value length]; change (256 ^ N.of_nat 0) with 1; lia|].
  cbn [app le_value length]. rewrite IH, Nnat.Nat2N.inj_succ, N.pow_succ_r'. lia.
Qed.
Lemma steps_app n a b : bytes_ok a -> length a = 4%nat -> steps (32 + n) (le_value (a ++ b)) = N.lxor (steps (32 + n) (le_value a)) (steps n (le_value b)).
Proof.
  intros Ha La. rewrite le_value_app, La. change (256 ^ N.of_nat 4) with (2 ^ N.of_nat 32). rewrite (N.mul_comm (2 ^ N.of_nat 32)).
  rewrite <- lxor_add_high.
  - rewrite steps_lxor. f_equal. now rewrite steps_add, steps_shift.
  - generalize (le_value_bound a Ha). now rewrite La.
Qed.

Lemma block_ok blk tl h : length blk = 16%nat -> bytes_ok blk -> bnd 32 h -> M.block (blk ++ tl) h = Ok (fold_left feed blk h).
Proof.
  intros Hl Hb Hh. unfold M.block.
  assert (exists p q r s, blk = p ++ q ++ r ++ s /\ length p = 4%nat /\ length q = 4%nat /\ length r = 4%nat /\ length s = 4%nat) as (p & q & r & s & E & Lp & Lq & Lr & Ls).
  { assert (forall n (l : list N), length l = (4 + n)%nat -> exists x t, l = x ++ t /\ length x = 4%nat /\ length t = n) as Hs.
    { intros n l Hn. exists (firstn 4 l), (skipn 4 l). rewrite firstn_skipn, firstn_length, skipn_length. split; [reflexivity|lia]. }
    destruct (Hs 12%nat blk Hl) as (p & t & -> & Lp & Lt). destruct (Hs 8%nat t Lt) as (q & u & -> & Lq & Lu).
    destruct (Hs 4%nat u Lu) as (r & s & -> & Lr & Ls). exists p, q, r, s. auto. }
  assert (le_words 4 blk = [le_value p; le_value q; le_value r; le_value s]) as Ew.
  { unfold le_words. rewrite E, !pieces_cons by (lia || assumption). rewrite pieces_one by (lia || assumption). reflexivity. }
  assert (bytes_ok p /\ bytes_ok q /\ bytes_ok r /\ bytes_ok s) as (Bp & Bq & Br & Bs).
  { rewrite E in Hb. apply bytes_ok_app in Hb as [? Hb]. apply bytes_ok_app in Hb as [? Hb]. apply bytes_ok_app in Hb as [? Hb]. auto. }
  assert (forall x, bytes_ok x -> length x = 4%nat -> bnd 32 (le_value x)) as Hbnd.
  { intros x Hx Lx. generalize (le_value_bound x Hx). now rewrite Lx. }
  rewrite !(load_le_ok 4 4 blk) by (lia || assumption). rewrite Ew. cbn [nth]. rewrite !bind_ok.
  rewrite !lut_ok by (lia || apply bnd_ror). rewrite !bind_ok. apply (f_equal Ok).
  rewrite feeds_word, Hl, E by assumption. change (8 * 16)%nat with (32 + (32 + (32 + (32 + 0))))%nat.
  rewrite steps_lxor, steps_app, steps_app, steps_app by assumption. rewrite <- N.lxor_assoc, <- steps_lxor.
  rewrite (N.lxor_comm h).
  rewrite (steps_word _ (N.lxor _ h)), (steps_word _ (le_value q)), (steps_word _ (le_value r)), (steps_word _ (le_value s)) by auto using bnd_lxor.
  cbn [fold_left Nat.mul Nat.add].
  repeat match goal with |- context [steps ?n ?x] => generalize (steps n x) end. intros.
  apply N.bits_inj. intros i. rewrite !N.lxor_spec. btauto.
Qed.

Lemma byte_ok data i h : (i < length data)%nat -> bytes_ok data -> M.byte data i h = Ok (feed h (nth i data 0)).
Proof.
  intros Hi Hb. unfold M.byte. rewrite (aget_ok 0) by exact Hi. rewrite bind_ok.
  assert (nth i data 0 < 256) as Hn by (apply (proj1 (Forall_forall _ _) Hb), nth_In, Hi).
  rewrite lut_ok; [|lia|apply (bnd_lxor 8); [apply bnd_ror|exact Hn]]. rewrite bind_ok, feed_table. reflexivity.
Qed.

Lemma firstn_more {A} (d : A) l i : (i < length l)%nat -> firstn (Datatypes.S i) l = firstn i l ++ [nth i l d].
Proof. revert i. induction l as [|x l IH]; intros [|i] H; cbn [length] in H; try lia; [reflexivity|]. cbn [firstn nth app]. f_equal. apply IH. lia. Qed.

Lemma firstn_plus {A} a b (l : list A) : firstn (a + b) l = firstn a l ++ firstn b (skipn a l).
Proof. revert l. induction a as [|a IH]; intros [|x l]; cbn [Nat.add firstn skipn app]; [reflexivity..|now rewrite firstn_nil|now rewrite IH]. Qed.

Lemma addDataImpl_ok data h : bytes_ok data -> bnd 32 h -> M.addDataImpl data h = Ok (fold_left feed data h).
Proof.
  intros Hb Hh. unfold M.addDataImpl, block_loop. set (n := (length data / 16)%nat).
  assert (n * 16 <= length data)%nat as Hn by (pose proof (Nat.div_mod_eq (length data) 16); lia).
  assert (forall k, bytes_ok (firstn k data)) as Hf.
  { intros k. rewrite <- (firstn_skipn k data) in Hb. now apply bytes_ok_app in Hb as [? _]. }
  assert (forall k, bytes_ok (skipn k data)) as Hs.
  { intros k. rewrite <- (firstn_skipn k data) in Hb. now apply bytes_ok_app in Hb as [_ ?]. }
  destruct (for_inv (fun i g => g = fold_left feed (firstn (i * 16) data) h) (fun i g => M.block (skipn (i * 16) data) g) n 0 h) as (g & E & Hg).
  - reflexivity.
  - intros i g Hi ->. set (t := skipn (i * 16) data).
    assert (16 <= length t)%nat as Ht by (unfold t; rewrite skipn_length; lia).
    rewrite <- (firstn_skipn 16 t).
    rewrite block_ok.
    + eexists; split; [reflexivity|]. rewrite <- fold_left_app. f_equal.
      replace (Datatypes.S i * 16)%nat with (i * 16 + 16)%nat by lia.
      symmetry. apply firstn_plus.
    + rewrite firstn_length. lia.
    + specialize (Hs (i * 16)%nat). fold t in Hs. rewrite <- (firstn_skipn 16 t) in Hs. now apply bytes_ok_app in Hs as [? _].
    + apply feeds_bnd; auto.
  - rewrite E, bind_ok. cbn [Nat.add] in Hg.
    destruct (for_inv (fun i g => g = fold_left feed (firstn i data) h) (M.byte data) (length data - n * 16) (n * 16) g) as (g' & E' & Hg').
    + exact Hg.
    + intros i x Hi ->. rewrite byte_ok by (lia || assumption). eexists; split; [reflexivity|].
      rewrite (firstn_more 0) by lia. now rewrite fold_left_app.
    + rewrite E', Hg'. replace (n * 16 + (length data - n * 16))%nat with (length data) by lia. now rewrite firstn_all.
Qed.

(** ** the class *)

Definition absorb (m : list N) : N := fold_left feed m (2 ^ 32 - 1).
Definition done (m : list N) : N := S.crc32 m.

Lemma absorb_bnd m : bytes_ok m -> bnd 32 (absorb m).
Proof. intros H. apply feeds_bnd; [exact H|]. reflexivity. Qed.
Lemma crc32_absorb m : bytes_ok m -> S.crc32 m = compl 32 (absorb m).
Proof. intros H. unfold S.crc32. now rewrite remainder_bytes by exact H. Qed.

Theorem implements : Implements M.cls (fun m => be_bytes 4 (S.crc32 m)) (fun _ => True) absorb done.
Proof.
  constructor.
  - reflexivity.
  - intros m d Hm Hd. cbn [c_add M.cls]. rewrite addDataImpl_ok by (auto using absorb_bnd; apply Hd).
    unfold absorb. now rewrite fold_left_app.
  - intros m Hm _. cbn [c_finalize M.cls]. unfold M.finalize, done. rewrite crc32_absorb by exact Hm.
    now rewrite unot_spec by now apply absorb_bnd.
  - intros m Hm _. cbn [c_array M.cls]. unfold M.toArray, done. rewrite word_bytes_be_ok. apply store_array_eq, be_bytes_length.
  - reflexivity.
  - reflexivity.
  - intros m Hm _. apply be_bytes_ok.
Qed.

(** ** burst errors *)

Lemma step_kernel x : bnd 32 x -> step x = 0 -> x = 0.
Proof.
  intros H. rewrite step_eq. destruct (N.odd x) eqn:E; intros Z.
  - apply N.lxor_eq in Z. exfalso. assert (N.div2 x < 2 ^ 31) as L.
    { rewrite N.div2_div. apply N.div_lt_upper_bound; [discriminate|exact H]. }
    rewrite Z, polynomial_value in L. now apply N.ltb_lt in L.
  - rewrite N.lxor_0_r in Z. rewrite (N.div2_odd x), Z, E. reflexivity.
Qed.
Lemma steps_kernel n : forall x, bnd 32 x -> steps n x = 0 -> x = 0.
Proof. induction n as [|n IH]; intros x H Z; [exact Z|]. apply step_kernel; [exact H|]. apply IH; [now apply step_bnd|exact Z]. Qed.
Lemma steps_inj n x y : bnd 32 x -> bnd 32 y -> steps n x = steps n y -> x = y.
Proof.
  intros Hx Hy E. apply N.lxor_eq, (steps_kernel n); [now apply bnd_lxor|]. now rewrite steps_lxor, E, N.lxor_nilpotent.
Qed.
Lemma word_inj a : forall b, length a = length b -> word a = word b -> a = b.
Proof.
  induction a as [|x a IH]; intros [|y b] L E; try discriminate; [reflexivity|].
  cbn [word fold_right] in E. fold (word a) (word b) in E.
  assert (forall z w, N.odd (N.lxor (bit z) (2 * w)) = z) as Ho.
  { intros z w. rewrite odd_lxor, N.odd_mul. cbn [N.odd andb]. rewrite xorb_false_r. now destruct z. }
  assert (forall z w, N.div2 (N.lxor (bit z) (2 * w)) = w) as Hd.
  { intros z w. rewrite div2_lxor, N.div2_double. now destruct z. }
  f_equal; [now rewrite <- (Ho x (word a)), E, Ho|]. apply IH; [now injection L|]. now rewrite <- (Hd x (word a)), E, Hd.
Qed.
Lemma next_bnd s b : bnd 32 s -> bnd 32 (S.next s b).
Proof. intros H. rewrite next_step. apply step_bnd, bnd_lxor; [exact H|]. apply (bnd_mono 1); [discriminate|]. now destruct b. Qed.
Lemma remainder_bnd bs : forall s, bnd 32 s -> bnd 32 (S.remainder s bs).
Proof. induction bs as [|b bs IH]; intros s H; [exact H|]. apply IH, next_bnd, H. Qed.
Lemma remainder_inj_state bs : forall s t, bnd 32 s -> bnd 32 t -> S.remainder s bs = S.remainder t bs -> s = t.
Proof.
  induction bs as [|b bs IH]; intros s t Hs Ht E; [exact E|].
  apply IH in E; [|now apply next_bnd..]. rewrite !next_step, !step_lxor in E.
  apply (steps_inj 1); [exact Hs|exact Ht|]. change (step s = step t).
  rewrite <- (N.lxor_0_r (step s)), <- (N.lxor_0_r (step t)), <- (N.lxor_nilpotent (step (bit b))), <- !N.lxor_assoc. now rewrite E.
Qed.
Lemma remainder_inj_burst s a b : bnd 32 s -> length a = length b -> (length a <= 32)%nat -> S.remainder s a = S.remainder s b -> a = b.
Proof.
  intros Hs L H E. apply word_inj; [exact L|]. rewrite !remainder_word, <- L in E.
  assert (forall x, (length x <= 32)%nat -> bnd 32 (word x)) as Hw.
  { intros x Hx. apply (bnd_mono (N.of_nat (length x))); [lia|apply word_lt]. }
  apply steps_inj in E; [|apply bnd_lxor; auto; apply Hw; lia..].
  rewrite <- (N.lxor_0_l (word a)), <- (N.lxor_0_l (word b)), <- (N.lxor_nilpotent s), !N.lxor_assoc. now rewrite E.
Qed.

Lemma compl_inj x y : bnd 32 x -> bnd 32 y -> compl 32 x = compl 32 y -> x = y.
Proof. unfold compl, bnd. intros Hx Hy E. set (k := 2 ^ 32) in *. clearbody k. lia. Qed.

Lemma crc32_bnd m : bnd 32 (S.crc32 m).
Proof. unfold S.crc32, compl, bnd. set (k := 2 ^ 32). assert (0 < k) by reflexivity. clearbody k. lia. Qed.

Theorem burst x y p a b s : S.bits x = p ++ a ++ s -> S.bits y = p ++ b ++ s ->
  length a = length b -> (length a <= 32)%nat -> a <> b -> S.crc32 x <> S.crc32 y.
Proof.
  intros Ex Ey L H Hne E. unfold S.crc32 in E. assert (bnd 32 (2 ^ 32 - 1)) as H0 by reflexivity.
  apply compl_inj in E; [|now apply remainder_bnd..]. rewrite Ex, Ey, !remainder_app in E.
  apply remainder_inj_state in E; [|apply remainder_bnd, remainder_bnd, H0..].
  apply Hne, (remainder_inj_burst _ a b (remainder_bnd p _ H0)); assumption.
Qed.

Lemma Ok_inj {A} (a b : A) : Ok a = Ok b -> a = b.
Proof. now injection 1. Qed.
Lemma be_bytes_inj n x y : x < 256 ^ N.of_nat n -> y < 256 ^ N.of_nat n -> be_bytes n x = be_bytes n y -> x = y.
Proof. intros Hx Hy E. rewrite <- (N.mod_small x _ Hx), <- (N.mod_small y _ Hy), <- !be_value_bytes. now rewrite E. Qed.

Theorem burst_digest xs ys p a b s : Forall span_ok xs -> Forall span_ok ys ->
  S.bits (concat xs) = p ++ a ++ s -> S.bits (concat ys) = p ++ b ++ s ->
  length a = length b -> (length a <= 32)%nat -> a <> b ->
  hash_chunks M.cls xs <> hash_chunks M.cls ys.
Proof.
  intros Hx Hy Ex Ey L H Hne E.
  rewrite !(correct_chunks _ _ _ (ex_intro _ _ (ex_intro _ _ implements))) in E by (assumption || exact I).
  apply Ok_inj, (be_bytes_inj 4) in E; [|apply crc32_bnd..]. exact (burst _ _ _ _ _ _ Ex Ey L H Hne E).
Qed.

(** ** the CRC is affine *)

Lemma le_value_xor a : forall b, bytes_ok a -> bytes_ok b -> length a = length b -> le_value (S.xor_bytes a b) = N.lxor (le_value a) (le_value b).
Proof.
  induction a as [|x a IH]; intros [|y b] Ha Hb L; try discriminate; [reflexivity|].
  inversion Ha; inversion Hb; subst. unfold S.xor_bytes in *. cbn [combine map fst snd le_value]. injection L as L.
  rewrite IH by assumption. rewrite !(N.mul_comm 256). change 256 with (2 ^ 8).
  rewrite <- !lxor_add_high; [|assumption..|apply (bnd_lxor 8); assumption]. rewrite lxor_mul. xors.
Qed.
Lemma xor_bytes_ok a : forall b, bytes_ok a -> bytes_ok b -> bytes_ok (S.xor_bytes a b).
Proof.
  induction a as [|x a IH]; intros [|y b] Ha Hb; try constructor.
  - inversion Ha; inversion Hb; subst. apply (bnd_lxor 8); assumption.
  - inversion Ha; inversion Hb; subst. now apply IH.
Qed.
Lemma xor_bytes_length a b : length a = length b -> length (S.xor_bytes a b) = length a.
Proof. intros H. unfold S.xor_bytes. rewrite map_length, combine_length. lia. Qed.

Lemma compl_lxor x : bnd 32 x -> compl 32 x = N.lxor x (mask 32).
Proof. intros H. symmetry. exact (unot_spec 32 x H). Qed.

Theorem affine x y z : bytes_ok x -> bytes_ok y -> bytes_ok z -> length x = length y -> length y = length z ->
  S.crc32 (S.xor_bytes x (S.xor_bytes y z)) = N.lxor (S.crc32 x) (N.lxor (S.crc32 y) (S.crc32 z)).
Proof.
  intros Hx Hy Hz L1 L2. rewrite !crc32_absorb by auto using xor_bytes_ok. rewrite !compl_lxor by auto using absorb_bnd, xor_bytes_ok.
  unfold absorb. rewrite !feeds_word by auto using xor_bytes_ok.
  rewrite !xor_bytes_length by (rewrite ?xor_bytes_length; congruence). rewrite <- L2, <- L1, !le_value_xor by (auto using xor_bytes_ok; rewrite ?xor_bytes_length; congruence).
  rewrite !steps_lxor. repeat match goal with |- context [steps ?n ?x] => generalize (steps n x) end. intros. xors.
Qed.

Lemma be_bytes_xor n x y : be_bytes n (N.lxor x y) = S.xor_bytes (be_bytes n x) (be_bytes n y).
Proof.
  unfold be_bytes.
  assert (forall l g h, map (fun p => N.lxor (fst p) (snd p)) (combine (map g l) (map h l)) = map (fun i : nat => N.lxor (g i) (h i)) l) as Hc.
  { induction l as [|a l IH]; intros g h; [reflexivity|]. cbn [map combine fst snd]. now rewrite IH. }
  unfold S.xor_bytes. rewrite !le_bytes_seq, <- !map_rev, Hc. apply map_ext. intros i.
  change 256 with (2 ^ 8). rewrite <- !N.shiftr_div_pow2, <- !N.land_ones, N.shiftr_lxor. apply N.bits_inj. intros j.
  rewrite ?N.lxor_spec, !N.land_spec, ?N.lxor_spec. btauto.
Qed.

Theorem affine_digest x y z dx dy dz : span_ok x -> span_ok y -> span_ok z -> length x = length y -> length y = length z ->
  hash_chunks M.cls [x] = Ok dx -> hash_chunks M.cls [y] = Ok dy -> hash_chunks M.cls [z] = Ok dz ->
  hash_chunks M.cls [S.xor_bytes x (S.xor_bytes y z)] = Ok (S.xor_bytes dx (S.xor_bytes dy dz)).
Proof.
  intros [Hx Lx] [Hy Ly] [Hz Lz] L1 L2 Ex Ey Ez.
  rewrite (correct_chunks _ _ _ (ex_intro _ _ (ex_intro _ _ implements))) in * by (repeat constructor; auto || exact I).
  apply Ok_inj in Ex as <-. apply Ok_inj in Ey as <-. apply Ok_inj in Ez as <-. cbn [concat]. rewrite !app_nil_r.
  rewrite (correct_chunks _ _ _ (ex_intro _ _ (ex_intro _ _ implements))).
  - cbn [concat]. rewrite app_nil_r, affine, !be_bytes_xor by assumption. reflexivity.
  - constructor; [|constructor]. split; [auto using xor_bytes_ok|]. now rewrite !xor_bytes_length by (rewrite ?xor_bytes_length; congruence).
  - exact I.
Qed.

Theorem crc32_correct : Correct M.cls (fun m => be_bytes 4 (S.crc32 m)) (fun _ => True).
Proof. exists absorb, done. exact implements. Qed.
