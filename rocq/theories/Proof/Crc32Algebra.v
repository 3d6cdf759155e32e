(** CRC-32 of concatenations: combining, the residue, and the four bytes that force a value. *)
From Coq Require Import List NArith Arith Bool Lia.
From Verif.Base Require Import Res CWord.
From Verif.Spec Require Import Words.
From Verif.Spec Require Crc32.
From Verif.Model Require Import Api.
From Verif.Model Require Crc32.
From Verif.Proof Require Import Words Blocks Api Crc32.
Import ListNotations.
Local Open Scope N_scope.
Module S := Spec.Crc32.
Module M := Model.Crc32.

Lemma chunks_ok ds : Forall span_ok ds -> hash_chunks M.cls ds = Ok (be_bytes 4 (S.crc32 (concat ds))).
Proof. intros H. exact (correct_chunks _ _ _ crc32_correct ds H I). Qed.
Lemma chunks_bytes ds : Forall span_ok ds -> bytes_ok (concat ds).
Proof. induction 1 as [|d ds [Hd _] _ IH]; [constructor|]. cbn [concat]. apply Forall_app. split; assumption. Qed.
Lemma be_value4 x : bnd 32 x -> be_value (be_bytes 4 x) = x.
Proof. intros H. rewrite be_value_bytes. apply N.mod_small, H. Qed.
Lemma le_value4 x : bnd 32 x -> le_value (le_bytes 4 x) = x.
Proof. intros H. rewrite le_value_bytes. apply N.mod_small, H. Qed.

(** ** combining *)
Lemma crc_app x y : bytes_ok x -> bytes_ok y ->
  S.crc32 (x ++ y) = N.lxor (S.remainder (S.crc32 x) (repeat false (8 * length y))) (S.crc32 y).
Proof.
  intros Hx Hy. rewrite repeat_steps, !crc32_absorb by (try apply Forall_app; auto).
  rewrite !compl_lxor by (apply absorb_bnd; try apply Forall_app; auto).
  unfold absorb at 1 3. rewrite fold_left_app. fold (absorb x). rewrite !feeds_word by assumption.
  change (2 ^ 32 - 1) with (mask 32). rewrite !steps_lxor.
  repeat match goal with |- context [steps ?n ?z] => generalize (steps n z) end. generalize (mask 32). intros. xors.
Qed.

Theorem combine xs ys zs dx dy : Forall span_ok xs -> Forall span_ok ys -> Forall span_ok zs -> concat zs = concat xs ++ concat ys ->
  hash_chunks M.cls xs = Ok dx -> hash_chunks M.cls ys = Ok dy ->
  hash_chunks M.cls zs = Ok (be_bytes 4 (N.lxor (S.remainder (be_value dx) (repeat false (8 * length (concat ys)))) (be_value dy))).
Proof.
  intros Hx Hy Hz E Ex Ey. rewrite chunks_ok in * by assumption. apply Ok_inj in Ex as <-. apply Ok_inj in Ey as <-.
  rewrite !be_value4 by apply crc32_bnd. now rewrite E, crc_app by now apply chunks_bytes.
Qed.

(** ** stepping back *)
Definition unstep (t : N) : N := if N.testbit t 31 then 2 * N.lxor t S.polynomial + 1 else 2 * t.
Lemma top_bit x : bnd 32 x -> N.testbit x 31 = false -> x < 2 ^ 31.
Proof.
  intros H T. apply N.nle_gt. intros G. rewrite N.testbit_eqb in T.
  assert (x / 2 ^ 31 = 1) as Q by (symmetry; apply (N.div_unique x (2 ^ 31) 1 (x - 2 ^ 31)); change (2 ^ 31) with 2147483648 in *; unfold bnd in H; change (2 ^ 32) with 4294967296 in H; lia).
  rewrite Q in T. discriminate.
Qed.
Lemma poly_top : N.testbit S.polynomial 31 = true. Proof. vm_compute. reflexivity. Qed.
Lemma poly_bnd : bnd 32 S.polynomial. Proof. rewrite polynomial_value. reflexivity. Qed.
Lemma unstep_bnd t : bnd 32 t -> bnd 32 (unstep t).
Proof.
  intros H. unfold unstep. destruct (N.testbit t 31) eqn:T.
  - assert (N.lxor t S.polynomial < 2 ^ 31) as L.
    { apply top_bit; [apply bnd_lxor; [exact H|exact poly_bnd]|]. now rewrite N.lxor_spec, T, poly_top. }
    unfold bnd. change (2 ^ 31) with 2147483648 in L. change (2 ^ 32) with 4294967296. lia.
  - apply top_bit in T; [|exact H]. unfold bnd. change (2 ^ 31) with 2147483648 in T. change (2 ^ 32) with 4294967296. lia.
Qed.
Lemma step_unstep t : step (unstep t) = t.
Proof.
  rewrite step_eq. unfold unstep. destruct (N.testbit t 31).
  - rewrite N.div2_div. replace (2 * N.lxor t S.polynomial + 1) with (1 + N.lxor t S.polynomial * 2) by lia.
    rewrite N.div_add by discriminate. rewrite (N.mul_comm _ 2), N.odd_add_mul_2. cbn [N.odd]. change (1 / 2) with 0. rewrite N.add_0_l, N.lxor_assoc, N.lxor_nilpotent.
    apply N.lxor_0_r.
  - rewrite N.div2_double, N.odd_mul. cbn [N.odd andb]. apply N.lxor_0_r.
Qed.
Fixpoint unsteps (n : nat) (t : N) : N := match n with O => t | Datatypes.S k => unstep (unsteps k t) end.
Lemma unsteps_bnd n t : bnd 32 t -> bnd 32 (unsteps n t).
Proof. intros H. induction n as [|n IH]; [exact H|]. apply unstep_bnd, IH. Qed.
Lemma steps_unsteps n t : steps n (unsteps n t) = t.
Proof. induction n as [|n IH]; [reflexivity|]. cbn [steps unsteps]. now rewrite step_unstep. Qed.

(** ** four bytes more *)
Lemma crc_four m s : bytes_ok m -> bytes_ok s -> length s = 4%nat ->
  S.crc32 (m ++ s) = compl 32 (steps 32 (N.lxor (absorb m) (le_value s))).
Proof.
  intros Hm Hs L. rewrite crc32_absorb by now apply Forall_app. unfold absorb at 1. rewrite fold_left_app. fold (absorb m).
  now rewrite feeds_word, L by exact Hs.
Qed.
Lemma le_value_bnd4 s : bytes_ok s -> length s = 4%nat -> bnd 32 (le_value s).
Proof. intros Hs L. rewrite <- word_bytes by exact Hs. pose proof (word_lt (S.bits s)) as H. rewrite bits_length, L in H. exact H. Qed.
Lemma le_value_inj4 s t : bytes_ok s -> bytes_ok t -> length s = length t -> le_value s = le_value t -> s = t.
Proof.
  intros Hs. revert t. induction Hs as [|x s Hx Hs IH]; intros [|y t] Ht L E; try discriminate; [reflexivity|].
  apply Forall_cons_iff in Ht. destruct Ht as [Hy Ht]. cbn [le_value] in E. unfold Words.byte_ok in *.
  assert (x = y) as -> by lia. f_equal. apply IH; [exact Ht|now injection L|lia].
Qed.
Definition patch (m : list N) (v : N) : list N := le_bytes 4 (N.lxor (absorb m) (unsteps 32 (compl 32 v))).
Lemma compl_bnd v : bnd 32 (compl 32 v).
Proof. unfold compl, bnd. set (k := 2 ^ 32). assert (0 < k) by reflexivity. clearbody k. lia. Qed.
Lemma compl_compl v : bnd 32 v -> compl 32 (compl 32 v) = v.
Proof. unfold compl, bnd. set (k := 2 ^ 32). assert (0 < k) by reflexivity. clearbody k. lia. Qed.
Lemma patch_ok m v : bytes_ok m -> bnd 32 v -> S.crc32 (m ++ patch m v) = v.
Proof.
  intros Hm Hv. assert (bnd 32 (unsteps 32 (compl 32 v))) as Hu by apply unsteps_bnd, compl_bnd.
  rewrite crc_four by first [assumption|apply le_bytes_ok|apply le_bytes_length]. unfold patch.
  rewrite le_value4 by (apply bnd_lxor; [now apply absorb_bnd|exact Hu]).
  rewrite <- N.lxor_assoc, N.lxor_nilpotent, N.lxor_0_l, steps_unsteps. now apply compl_compl.
Qed.
Lemma four_inj m s t : bytes_ok m -> bytes_ok s -> bytes_ok t -> length s = 4%nat -> length t = 4%nat ->
  S.crc32 (m ++ s) = S.crc32 (m ++ t) -> s = t.
Proof.
  intros Hm Hs Ht Ls Lt E. rewrite !crc_four in E by assumption.
  assert (forall u, bytes_ok u -> length u = 4%nat -> bnd 32 (N.lxor (absorb m) (le_value u))) as B.
  { intros u Hu Lu. apply bnd_lxor; [now apply absorb_bnd|now apply le_value_bnd4]. }
  apply compl_inj in E; [|apply steps_bnd; auto..]. apply steps_inj in E; [|auto..].
  apply le_value_inj4; [assumption..|congruence|].
  rewrite <- (N.lxor_0_l (le_value s)), <- (N.lxor_0_l (le_value t)), <- (N.lxor_nilpotent (absorb m)), !N.lxor_assoc. now rewrite E.
Qed.

(** exactly one four-byte ending gives a wanted digest *)
Theorem forge m v : bytes_ok m -> bytes_ok v -> length v = 4%nat -> exists s, bytes_ok s /\ length s = 4%nat /\
  (forall ds, Forall span_ok ds -> concat ds = m ++ s -> hash_chunks M.cls ds = Ok v) /\
  (forall t ds, bytes_ok t -> length t = 4%nat -> Forall span_ok ds -> concat ds = m ++ t -> hash_chunks M.cls ds = Ok v -> t = s).
Proof.
  intros Hm Hv L. assert (be_bytes 4 (be_value v) = v) as Ev.
  { unfold be_bytes. rewrite <- (rev_involutive v) at 2. f_equal. apply le_value_inj4;
    [apply le_bytes_ok|now apply Forall_rev|now rewrite le_bytes_length, rev_length|].
    rewrite <- (rev_involutive v) at 1. rewrite be_value_rev. apply le_value4. apply le_value_bnd4; [now apply Forall_rev|now rewrite rev_length]. }
  assert (bnd 32 (be_value v)) as Bv.
  { rewrite <- (rev_involutive v), be_value_rev. apply le_value_bnd4; [now apply Forall_rev|now rewrite rev_length]. }
  exists (patch m (be_value v)). split; [apply le_bytes_ok|]. split; [apply le_bytes_length|]. split.
  - intros ds Hds E. rewrite chunks_ok, E, patch_ok, Ev by assumption. reflexivity.
  - intros t ds Ht Lt Hds E Et. rewrite chunks_ok, E in Et by assumption. apply Ok_inj in Et.
    apply (four_inj m); [assumption|assumption|apply le_bytes_ok|assumption|apply le_bytes_length|].
    rewrite patch_ok by assumption. rewrite <- Et. symmetry. apply be_value4, crc32_bnd.
Qed.

(** ** the residue: appending the digest, least significant byte first, always gives the same digest, and nothing else does *)
Definition residue : list N := [0x21; 0x44; 0xDF; 0x1C].
Theorem residue_iff xs zs d s : Forall span_ok xs -> Forall span_ok zs -> length s = 4%nat -> concat zs = concat xs ++ s ->
  hash_chunks M.cls xs = Ok d -> (hash_chunks M.cls zs = Ok residue <-> s = rev d).
Proof.
  intros Hx Hz L E Ed. rewrite chunks_ok in * by assumption. apply Ok_inj in Ed as <-. rewrite E.
  pose proof (chunks_bytes xs Hx) as Bx. pose proof (chunks_bytes zs Hz) as Bz. rewrite E in Bz. apply Forall_app in Bz. destruct Bz as [_ Bs].
  unfold be_bytes at 2. rewrite rev_involutive.
  assert (S.crc32 (concat xs ++ le_bytes 4 (S.crc32 (concat xs))) = 0x2144DF1C) as R.
  { rewrite crc_four by first [assumption|apply le_bytes_ok|apply le_bytes_length]. rewrite le_value4 by apply crc32_bnd.
    rewrite crc32_absorb, (compl_lxor (absorb (concat xs))) by (try apply absorb_bnd; assumption). rewrite <- N.lxor_assoc, N.lxor_nilpotent, N.lxor_0_l.
    vm_compute. reflexivity. }
  split.
  - intros H. apply Ok_inj in H. apply (four_inj (concat xs)); [assumption|assumption|apply le_bytes_ok|assumption|apply le_bytes_length|].
    rewrite R. rewrite <- (be_value4 (S.crc32 (concat xs ++ s)) (crc32_bnd _)), H. reflexivity.
  - intros ->. rewrite R. reflexivity.
Qed.
