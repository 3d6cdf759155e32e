(** The Whirlpool code computes Whirlpool. *)
From Coq Require Import List NArith Arith Bool Lia ZArith ZifyNat.
From Verif.Base Require Import Res CWord.
From Verif.Spec Require Import Words Client Merkle.
From Verif.Model Require Import Buffer Stream Api.
From Verif.Model.Gen Require Import WhirlpoolTables.
From Verif.Proof Require Import Words Streaming Blocks Rounds Api MD MD128.
From Verif.Spec Require Whirlpool.
From Verif.Model Require Whirlpool.
Import ListNotations.
Local Open Scope N_scope.
Module S := Verif.Spec.Whirlpool.
Module M := Verif.Model.Whirlpool.

(** ** xor of byte strings and of their values *)

Lemma testbit_byte x b i : b < 256 ->
  N.testbit (x * 256 + b) i = if i <? 8 then N.testbit b i else N.testbit x (i - 8).
Proof.
  intros Hb. change 256 with (2 ^ 8) in *. destruct (N.ltb_spec i 8) as [Hi|Hi].
  - rewrite <- (N.mod_pow2_bits_low _ 8) by exact Hi.
    rewrite N.add_comm, N.mod_add, N.mod_small by (exact Hb || discriminate). reflexivity.
  - replace i with (i - 8 + 8) at 1 by lia. rewrite <- N.div_pow2_bits.
    rewrite N.div_add_l, N.div_small, N.add_0_r by (exact Hb || discriminate). reflexivity.
Qed.

Lemma lxor_bytes x y b c : b < 256 -> c < 256 ->
  N.lxor (x * 256 + b) (y * 256 + c) = N.lxor x y * 256 + N.lxor b c.
Proof.
  intros Hb Hc. apply N.bits_inj; intros i. rewrite N.lxor_spec.
  rewrite !testbit_byte; try assumption.
  - destruct (i <? 8); now rewrite N.lxor_spec.
  - apply (bnd_lxor 8); assumption.
Qed.

Lemma be_value_lxor {A} (f g : A -> N) l : (forall j, In j l -> f j < 256 /\ g j < 256) ->
  N.lxor (be_value (map f l)) (be_value (map g l)) = be_value (map (fun j => N.lxor (f j) (g j)) l).
Proof.
  induction l as [|a l IH] using rev_ind; intros H; [reflexivity|].
  rewrite !map_app. cbn [map]. rewrite !be_value_app.
  rewrite lxor_bytes by (apply H, in_app_iff; right; left; reflexivity).
  rewrite IH; [reflexivity|]. intros j Hj. apply H, in_app_iff. left; exact Hj.
Qed.

Lemma be_value_zero {A} (l : list A) : be_value (map (fun _ => 0) l) = 0.
Proof. induction l as [|a l IH] using rev_ind; [reflexivity|]. rewrite map_app. cbn [map]. rewrite be_value_app, IH. reflexivity. Qed.

(** ** bytes *)

Lemma all_bytes (P : N -> bool) : forallb (fun i => P (N.of_nat i)) (seq 0 256) = true -> forall x, x < 256 -> P x = true.
Proof.
  rewrite forallb_forall. intros H x Hx. rewrite <- (Nnat.N2Nat.id x). apply H, in_seq. lia.
Qed.

Lemma xtime_byte a : a < 256 -> S.xtime a < 256.
Proof. intros H. apply N.ltb_lt. apply (all_bytes (fun a => S.xtime a <? 256)); [vm_compute; reflexivity|exact H]. Qed.

Lemma gmul_bits_byte n : forall a b, a < 256 -> S.gmul_bits n a b < 256.
Proof.
  induction n as [|n IH]; intros a b H; [reflexivity|]. cbn [S.gmul_bits].
  apply (bnd_lxor 8).
  - destruct (N.odd b); [exact H|reflexivity].
  - apply IH, xtime_byte, H.
Qed.
Lemma gmul_byte a b : a < 256 -> S.gmul a b < 256.
Proof. apply gmul_bits_byte. Qed.
Lemma S_byte x : x < 256 -> S.S x < 256.
Proof. intros H. apply N.ltb_lt. apply (all_bytes (fun a => S.S a <? 256)); [vm_compute; reflexivity|exact H]. Qed.

(** ** the lookup tables *)

Definition entry (k : nat) (b : N) : N := be_value (map (fun j => S.gmul (S.S b) (S.C k j)) (seq 0 8)).

Lemma tables_ok : cTable = map (fun k => map (fun b => entry k (N.of_nat b)) (seq 0 256)) (seq 0 8).
Proof. vm_compute. reflexivity. Qed.

Lemma cT_ok k b : (k < 8)%nat -> b < 256 -> M.cT k b = Ok (entry k b).
Proof.
  intros Hk Hb. unfold M.cT. rewrite tables_ok.
  rewrite (aget_ok []) by (rewrite map_length, seq_length; exact Hk). rewrite bind_ok.
  set (g := fun k => map (fun b => entry k (N.of_nat b)) (seq 0 256)).
  assert (nth k (map g (seq 0 8)) [] = g k) as ->.
  { rewrite (nth_indep _ [] (g 0%nat)) by (rewrite map_length, seq_length; exact Hk).
    rewrite map_nth, seq_nth by exact Hk. reflexivity. }
  unfold g. rewrite (aget_ok 0) by (rewrite map_length, seq_length; lia).
  f_equal. set (e := fun b => entry k (N.of_nat b)).
  rewrite (nth_indep _ 0 (e 0%nat)) by (rewrite map_length, seq_length; lia).
  rewrite map_nth, seq_nth by lia. unfold e. f_equal. lia.
Qed.

(** ** matrices and rows *)

Definition row_ok (row : list N) : Prop := length row = 8%nat /\ bytes_ok row.
Definition mat_ok (A : list (list N)) : Prop := length A = 8%nat /\ Forall row_ok A.
Definition fun_ok (f : nat -> nat -> N) : Prop := forall i j, (i < 8)%nat -> (j < 8)%nat -> f i j < 256.
Definition rowv (f : nat -> nat -> N) (i : nat) : N := be_value (map (f i) (seq 0 8)).

Lemma words_matrix f : map be_value (S.matrix f) = map (rowv f) (seq 0 8).
Proof. unfold S.matrix. rewrite map_map. reflexivity. Qed.

Lemma matrix_ext f g : (forall i j, (i < 8)%nat -> (j < 8)%nat -> f i j = g i j) -> S.matrix f = S.matrix g.
Proof.
  intros H. unfold S.matrix. apply map_ext_in. intros i Hi. apply map_ext_in. intros j Hj.
  apply in_seq in Hi. apply in_seq in Hj. apply H; lia.
Qed.

Lemma at_matrix f i j : (i < 8)%nat -> (j < 8)%nat -> S.at_ (S.matrix f) i j = f i j.
Proof.
  intros Hi Hj. unfold S.at_, S.matrix.
  rewrite (nth_indep _ [] (map (f 0%nat) (seq 0 8))) by (rewrite map_length, seq_length; exact Hi).
  rewrite (map_nth (fun i => map (f i) (seq 0 8))), seq_nth by exact Hi.
  rewrite (nth_indep _ 0 (f i 0%nat)) by (rewrite map_length, seq_length; exact Hj).
  rewrite (Nat.add_0_l i).
  rewrite map_nth, seq_nth by exact Hj. reflexivity.
Qed.

Lemma matrix_ok f : fun_ok f -> mat_ok (S.matrix f).
Proof.
  intros H. split; [reflexivity|]. unfold S.matrix. apply Forall_forall. intros row Hr.
  apply in_map_iff in Hr as (i & <- & Hi). apply in_seq in Hi. split; [now rewrite map_length, seq_length|].
  apply Forall_forall. intros b Hb. apply in_map_iff in Hb as (j & <- & Hj). apply in_seq in Hj. apply H; lia.
Qed.

Lemma mat_at A : mat_ok A -> fun_ok (S.at_ A).
Proof.
  intros [Hl HA] i j Hi Hj. rewrite Forall_forall in HA.
  destruct (HA (nth i A [])) as [Hr Hb]; [apply nth_In; lia|].
  unfold bytes_ok in Hb. rewrite Forall_forall in Hb. apply Hb, nth_In. lia.
Qed.

Lemma mat_matrix A : mat_ok A -> A = S.matrix (S.at_ A).
Proof.
  intros [Hl HA]. unfold S.matrix. rewrite (list_as_nth [] A 8 Hl) at 1. apply map_ext_in.
  intros i Hi. apply in_seq in Hi. rewrite Forall_forall in HA.
  destruct (HA (nth i A [])) as [Hr _]; [apply nth_In; lia|].
  exact (list_as_nth 0 (nth i A []) 8 Hr).
Qed.

Lemma words_rowv A : mat_ok A -> map be_value A = map (rowv (S.at_ A)) (seq 0 8).
Proof. intros H. rewrite (mat_matrix A H) at 1. apply words_matrix. Qed.

Lemma byte_of_row f i k t : fun_ok f -> (i < 8)%nat -> (k < 8)%nat -> t = 8 * N.of_nat (7 - k) ->
  ror 8 (rowv f i) t = f i k.
Proof.
  intros Hf Hi Hk ->. set (row := map (f i) (seq 0 8)).
  assert (bytes_ok row) as Hb.
  { apply Forall_forall. intros b Hb. apply in_map_iff in Hb as (j & <- & Hj). apply in_seq in Hj. apply Hf; lia. }
  pose proof (be_bytes_value row Hb) as E. change (length row) with 8%nat in E.
  rewrite <- word_bytes_be_ok in E. change (be_value row) with (rowv f i) in E.
  assert (nth k row 0 = f i k) as <-.
  { unfold row. rewrite (nth_indep _ 0 (f i 0%nat)) by (rewrite map_length, seq_length; exact Hk).
    rewrite map_nth, seq_nth by exact Hk. reflexivity. }
  rewrite <- E. unfold word_bytes_be. cbn [rev seq app map].
  do 8 (destruct k as [|k]; [reflexivity|]). lia.
Qed.

Lemma rowv_lxor f g i : fun_ok f -> fun_ok g -> (i < 8)%nat ->
  N.lxor (rowv f i) (rowv g i) = rowv (fun i j => N.lxor (f i j) (g i j)) i.
Proof.
  intros Hf Hg Hi. apply be_value_lxor. intros j Hj. apply in_seq in Hj. split; [apply Hf|apply Hg]; lia.
Qed.

(** ** one row of gamma, pi, theta *)

Definition mix (f : nat -> nat -> N) (i j : nat) : N :=
  S.xor_all (map (fun k => S.gmul (S.S (f ((i + 8 - k) mod 8)%nat k)) (S.C k j)) (seq 0 8)).

Lemma sub_shift_mix A : mat_ok A -> S.theta (S.pi (S.gamma A)) = S.matrix (mix (S.at_ A)).
Proof.
  intros HA. unfold S.theta. apply matrix_ext. intros i j Hi Hj. unfold mix. f_equal. apply map_ext_in. intros k Hk. apply in_seq in Hk.
  unfold S.pi. rewrite at_matrix by lia. unfold S.gamma.
  rewrite at_matrix by (try apply Nat.mod_upper_bound; lia). reflexivity.
Qed.

Lemma mix_ok f : fun_ok f -> fun_ok (mix f).
Proof.
  intros Hf i j Hi Hj. unfold mix.
  assert (forall l, Forall byte_ok l -> S.xor_all l < 256) as G.
  { induction 1 as [|b l Hb Hl IH]; [reflexivity|]. apply (bnd_lxor 8); assumption. }
  apply G, Forall_forall. intros b Hb. apply in_map_iff in Hb as (k & <- & Hk). apply in_seq in Hk.
  apply gmul_byte, S_byte, Hf; [apply Nat.mod_upper_bound; lia|lia].
Qed.

Definition args (i : nat) : list nat := map (fun k => (i + 8 - k) mod 8)%nat (seq 0 8).

Lemma func_ok f a b c d e g h i0 : fun_ok f -> (a < 8 /\ b < 8 /\ c < 8 /\ d < 8 /\ e < 8 /\ g < 8 /\ h < 8 /\ i0 < 8)%nat ->
  M.func (map (rowv f) (seq 0 8)) a b c d e g h i0 =
  Ok (be_value (map (fun j => S.xor_all [S.gmul (S.S (f a 0%nat)) (S.C 0 j); S.gmul (S.S (f b 1%nat)) (S.C 1 j);
                 S.gmul (S.S (f c 2%nat)) (S.C 2 j); S.gmul (S.S (f d 3%nat)) (S.C 3 j);
                 S.gmul (S.S (f e 4%nat)) (S.C 4 j); S.gmul (S.S (f g 5%nat)) (S.C 5 j);
                 S.gmul (S.S (f h 6%nat)) (S.C 6 j); S.gmul (S.S (f i0 7%nat)) (S.C 7 j)]) (seq 0 8))).
Proof.
  intros Hf (Ha & Hb & Hc & Hd & He & Hg & Hh & Hi). unfold M.func.
  assert (forall i, (i < 8)%nat -> aget (map (rowv f) (seq 0 8)) i = Ok (rowv f i)) as G.
  { intros i H. do 8 (destruct i as [|i]; [reflexivity|]). lia. }
  rewrite (G a Ha), bind_ok, (byte_of_row f a 0 56 Hf Ha ltac:(lia) eq_refl), cT_ok, bind_ok by (lia || apply Hf; lia).
  rewrite (G b Hb), bind_ok, (byte_of_row f b 1 48 Hf Hb ltac:(lia) eq_refl), cT_ok, bind_ok by (lia || apply Hf; lia).
  rewrite (G c Hc), bind_ok, (byte_of_row f c 2 40 Hf Hc ltac:(lia) eq_refl), cT_ok, bind_ok by (lia || apply Hf; lia).
  rewrite (G d Hd), bind_ok, (byte_of_row f d 3 32 Hf Hd ltac:(lia) eq_refl), cT_ok, bind_ok by (lia || apply Hf; lia).
  rewrite (G e He), bind_ok, (byte_of_row f e 4 24 Hf He ltac:(lia) eq_refl), cT_ok, bind_ok by (lia || apply Hf; lia).
  rewrite (G g Hg), bind_ok, (byte_of_row f g 5 16 Hf Hg ltac:(lia) eq_refl), cT_ok, bind_ok by (lia || apply Hf; lia).
  rewrite (G h Hh), bind_ok, (byte_of_row f h 6 8 Hf Hh ltac:(lia) eq_refl), cT_ok, bind_ok by (lia || apply Hf; lia).
  rewrite (G i0 Hi), bind_ok, (byte_of_row f i0 7 0 Hf Hi ltac:(lia) eq_refl), cT_ok, bind_ok by (lia || apply Hf; lia).
  f_equal. unfold entry.
  assert (forall i k j, (i < 8)%nat -> (k < 8)%nat -> S.gmul (S.S (f i k)) (S.C k j) < 256) as B
    by (intros; apply gmul_byte, S_byte, Hf; assumption).
  repeat (rewrite be_value_lxor by
    (intros j _; split; repeat first [apply B; lia | apply (bnd_lxor 8)])).
  f_equal. apply map_ext. intros j. unfold S.xor_all. cbn [fold_right].
  rewrite N.lxor_0_r, !N.lxor_assoc. reflexivity.
Qed.

Lemma func_row f i a b c d e g h i0 : fun_ok f ->
  a = ((i + 8 - 0) mod 8)%nat -> b = ((i + 8 - 1) mod 8)%nat -> c = ((i + 8 - 2) mod 8)%nat ->
  d = ((i + 8 - 3) mod 8)%nat -> e = ((i + 8 - 4) mod 8)%nat -> g = ((i + 8 - 5) mod 8)%nat ->
  h = ((i + 8 - 6) mod 8)%nat -> i0 = ((i + 8 - 7) mod 8)%nat ->
  M.func (map (rowv f) (seq 0 8)) a b c d e g h i0 = Ok (rowv (mix f) i).
Proof.
  intros Hf Ha Hb Hc Hd He Hg Hh Hi.
  rewrite (func_ok _ _ _ _ _ _ _ _ _ Hf) by (subst; repeat split; apply Nat.mod_upper_bound; discriminate).
  rewrite Ha, Hb, Hc, Hd, He, Hg, Hh, Hi. reflexivity.
Qed.

Lemma func0 f : fun_ok f -> M.func (map (rowv f) (seq 0 8)) 0 7 6 5 4 3 2 1 = Ok (rowv (mix f) 0).
Proof. exact (fun H => func_row f 0 0 7 6 5 4 3 2 1 H eq_refl eq_refl eq_refl eq_refl eq_refl eq_refl eq_refl eq_refl). Qed.
Lemma func1 f : fun_ok f -> M.func (map (rowv f) (seq 0 8)) 1 0 7 6 5 4 3 2 = Ok (rowv (mix f) 1).
Proof. exact (fun H => func_row f 1 1 0 7 6 5 4 3 2 H eq_refl eq_refl eq_refl eq_refl eq_refl eq_refl eq_refl eq_refl). Qed.
Lemma func2 f : fun_ok f -> M.func (map (rowv f) (seq 0 8)) 2 1 0 7 6 5 4 3 = Ok (rowv (mix f) 2).
Proof. exact (fun H => func_row f 2 2 1 0 7 6 5 4 3 H eq_refl eq_refl eq_refl eq_refl eq_refl eq_refl eq_refl eq_refl). Qed.
Lemma func3 f : fun_ok f -> M.func (map (rowv f) (seq 0 8)) 3 2 1 0 7 6 5 4 = Ok (rowv (mix f) 3).
Proof. exact (fun H => func_row f 3 3 2 1 0 7 6 5 4 H eq_refl eq_refl eq_refl eq_refl eq_refl eq_refl eq_refl eq_refl). Qed.
Lemma func4 f : fun_ok f -> M.func (map (rowv f) (seq 0 8)) 4 3 2 1 0 7 6 5 = Ok (rowv (mix f) 4).
Proof. exact (fun H => func_row f 4 4 3 2 1 0 7 6 5 H eq_refl eq_refl eq_refl eq_refl eq_refl eq_refl eq_refl eq_refl). Qed.
Lemma func5 f : fun_ok f -> M.func (map (rowv f) (seq 0 8)) 5 4 3 2 1 0 7 6 = Ok (rowv (mix f) 5).
Proof. exact (fun H => func_row f 5 5 4 3 2 1 0 7 6 H eq_refl eq_refl eq_refl eq_refl eq_refl eq_refl eq_refl eq_refl). Qed.
Lemma func6 f : fun_ok f -> M.func (map (rowv f) (seq 0 8)) 6 5 4 3 2 1 0 7 = Ok (rowv (mix f) 6).
Proof. exact (fun H => func_row f 6 6 5 4 3 2 1 0 7 H eq_refl eq_refl eq_refl eq_refl eq_refl eq_refl eq_refl eq_refl). Qed.
Lemma func7 f : fun_ok f -> M.func (map (rowv f) (seq 0 8)) 7 6 5 4 3 2 1 0 = Ok (rowv (mix f) 7).
Proof. exact (fun H => func_row f 7 7 6 5 4 3 2 1 0 H eq_refl eq_refl eq_refl eq_refl eq_refl eq_refl eq_refl eq_refl). Qed.

(** ** rounds *)

Definition addf (f g : nat -> nat -> N) (i j : nat) : N := N.lxor (f i j) (g i j).
Lemma addf_ok f g : fun_ok f -> fun_ok g -> fun_ok (addf f g).
Proof. intros Hf Hg i j Hi Hj. apply (bnd_lxor 8); [apply Hf|apply Hg]; assumption. Qed.

Definition rcf (r : nat) (i j : nat) : N := match i with O => S.S (N.of_nat (8 * (r - 1) + j)) | _ => 0 end.

Lemma constants_ok r : (r < 10)%nat -> aget roundConstant r = Ok (rowv (rcf (Datatypes.S r)) 0).
Proof. intros H. do 10 (destruct r as [|r]; [vm_compute; reflexivity|]). lia. Qed.

Lemma rcf_ok r : (1 <= r <= 10)%nat -> fun_ok (rcf r).
Proof. intros H i j Hi Hj. unfold rcf. destruct i; [|reflexivity]. apply S_byte. lia. Qed.

Definition words (A : list (list N)) : list N := map be_value A.

Lemma rho_matrix f A : mat_ok A -> S.rho (S.matrix f) A = S.matrix (addf (mix (S.at_ A)) f).
Proof.
  intros HA. unfold S.rho, S.sigma. rewrite sub_shift_mix by exact HA.
  apply matrix_ext. intros i j Hi Hj. rewrite !at_matrix by lia. reflexivity.
Qed.

Lemma round_ok r K A : (r < 10)%nat -> mat_ok K -> mat_ok A ->
  let st := S.round (K, A) (Datatypes.S r) in
  M.round r (words K, words A) = Ok (words (fst st), words (snd st)) /\ mat_ok (fst st) /\ mat_ok (snd st).
Proof.
  intros Hr HK HA. cbn zeta. unfold S.round. cbn [fst snd].
  change (S.rc (Datatypes.S r)) with (S.matrix (rcf (Datatypes.S r))).
  pose proof (mat_at K HK) as FK. pose proof (mat_at A HA) as FA.
  rewrite rho_matrix by exact HK. set (kf := addf (mix (S.at_ K)) (rcf (Datatypes.S r))).
  assert (fun_ok kf) as Fk by (apply addf_ok; [apply mix_ok, FK|apply rcf_ok; lia]).
  rewrite rho_matrix by exact HA.
  assert (fun_ok (mix (S.at_ A))) as Fs by (apply mix_ok, FA).
  split; [|split; apply matrix_ok; [exact Fk|apply addf_ok; assumption]].
  unfold words. rewrite (words_rowv K HK), (words_rowv A HA), !words_matrix.
  unfold M.round.
  rewrite (func0 _ FK), bind_ok, constants_ok, bind_ok by exact Hr.
  rewrite (func1 _ FK), bind_ok, (func2 _ FK), bind_ok, (func3 _ FK), bind_ok, (func4 _ FK), bind_ok,
    (func5 _ FK), bind_ok, (func6 _ FK), bind_ok, (func7 _ FK), bind_ok.
  rewrite (func0 _ FA), bind_ok, (func1 _ FA), bind_ok, (func2 _ FA), bind_ok, (func3 _ FA), bind_ok,
    (func4 _ FA), bind_ok, (func5 _ FA), bind_ok, (func6 _ FA), bind_ok, (func7 _ FA), bind_ok.
  assert (forall i, (i < 8)%nat -> rowv kf i = N.lxor (rowv (mix (S.at_ K)) i) (rowv (rcf (Datatypes.S r)) i)) as Ek.
  { intros i Hi. symmetry. apply rowv_lxor; [apply mix_ok, FK|apply rcf_ok; lia|exact Hi]. }
  assert (forall i, (0 < i < 8)%nat -> rowv kf i = rowv (mix (S.at_ K)) i) as Ek'.
  { intros i Hi. rewrite Ek by lia. replace (rowv (rcf (Datatypes.S r)) i) with 0; [apply N.lxor_0_r|].
    destruct i; [lia|]. symmetry. apply (be_value_zero (seq 0 8)). }
  assert (forall i, (i < 8)%nat -> rowv (addf (mix (S.at_ A)) kf) i = N.lxor (rowv (mix (S.at_ A)) i) (rowv kf i)) as Es.
  { intros i Hi. symmetry. apply rowv_lxor; assumption. }
  cbn [seq map]. rewrite !Es by lia. rewrite (Ek 0%nat) by lia. rewrite !Ek' by lia. reflexivity.
Qed.

Lemma rounds_ok K A : mat_ok K -> mat_ok A ->
  let st := fold_left S.round (seq 1 10) (K, A) in
  for_ 0 10 M.round (words K, words A) = Ok (words (fst st), words (snd st)) /\ mat_ok (fst st) /\ mat_ok (snd st).
Proof.
  intros HK HA. cbv zeta.
  destruct (for_inv (fun r ks => let st := fold_left S.round (seq 1 r) (K, A) in
      ks = (words (fst st), words (snd st)) /\ mat_ok (fst st) /\ mat_ok (snd st)) M.round 10 0 (words K, words A))
    as (ks & E & Hk & H1 & H2).
  - cbv zeta. cbn [seq fold_left fst snd]. auto.
  - intros r ks Hr. cbv zeta. intros (-> & H1 & H2). rewrite seq_S, fold_left_app.
    set (st := fold_left S.round (seq 1 r) (K, A)) in *. destruct st as [K' A']. cbn [fst snd] in *.
    cbn [fold_left]. rewrite Nat.add_1_l.
    destruct (round_ok r K' A' ltac:(lia) H1 H2) as (E & Q1 & Q2).
    eexists. split; [exact E|]. auto.
  - rewrite E, Hk. cbn [Nat.add]. auto.
Qed.

(** ** the compression function *)

Lemma sigma_ok K A : mat_ok K -> mat_ok A ->
  mat_ok (S.sigma K A) /\ words (S.sigma K A) = map (fun i => N.lxor (rowv (S.at_ A) i) (rowv (S.at_ K) i)) (seq 0 8).
Proof.
  intros HK HA. pose proof (mat_at K HK) as FK. pose proof (mat_at A HA) as FA.
  change (S.sigma K A) with (S.matrix (addf (S.at_ A) (S.at_ K))). split; [apply matrix_ok, addf_ok; assumption|].
  unfold words. rewrite words_matrix. apply map_ext_in. intros i Hi. apply in_seq in Hi.
  symmetry. apply rowv_lxor; try assumption. lia.
Qed.

Lemma nth_words A i : mat_ok A -> (i < 8)%nat -> nth i (words A) 0 = rowv (S.at_ A) i.
Proof.
  intros HA Hi. unfold words. rewrite (words_rowv A HA).
  rewrite (nth_indep _ 0 (rowv (S.at_ A) 0%nat)) by (rewrite map_length, seq_length; exact Hi).
  rewrite map_nth, seq_nth by exact Hi. reflexivity.
Qed.

Lemma block_mat blk : length blk = 64%nat -> bytes_ok blk -> mat_ok (pieces 8 blk).
Proof.
  intros Hl Hb. assert (aligned 8 blk) as Ha by (unfold aligned; rewrite Hl; reflexivity).
  split; [rewrite pieces_length, Hl by (lia || exact Ha); reflexivity|].
  pose proof (pieces_all 8 blk ltac:(lia) Ha) as H1. pose proof (pieces_bytes 8 blk ltac:(lia) Ha Hb) as H2.
  rewrite Forall_forall in *. intros r Hr. split; auto.
Qed.

Definition mat_of (h : list N) : list (list N) := map (be_bytes 8) h.
Definition cf (h : list N) (blk : list N) : list N := words (S.compress (mat_of h) blk).
Definition inv_h (h : list N) : Prop := exists A, mat_ok A /\ h = words A.

Lemma mat_of_words A : mat_ok A -> mat_of (words A) = A.
Proof.
  intros [_ HA]. unfold mat_of, words. rewrite map_map. rewrite <- map_id. apply map_ext_in. intros r Hr.
  rewrite Forall_forall in HA. destruct (HA r Hr) as [Hl Hb]. rewrite <- Hl. apply be_bytes_value, Hb.
Qed.

Lemma spec_compress_ok H blk : mat_ok H -> length blk = 64%nat -> bytes_ok blk -> mat_ok (S.compress H blk).
Proof.
  intros HH Hl Hb. pose proof (block_mat blk Hl Hb) as HA. unfold S.compress, S.W.
  apply sigma_ok; [exact HH|]. apply sigma_ok; [exact HA|].
  apply (rounds_ok H (S.sigma H (pieces 8 blk))); [exact HH|]. apply sigma_ok; assumption.
Qed.

Lemma compress_ok blk tl h : inv_h h -> length blk = 64%nat -> bytes_ok blk ->
  M.compress (blk ++ tl) h = Ok (cf h blk) /\ inv_h (cf h blk).
Proof.
  intros (H & HH & ->) Hl Hb. unfold cf. rewrite (mat_of_words H HH).
  split; [|exists (S.compress H blk); split; [apply spec_compress_ok; assumption|reflexivity]].
  pose proof (block_mat blk Hl Hb) as HA.
  assert (forall i, (i < 8)%nat -> load_be 8 (blk ++ tl) i = Ok (rowv (S.at_ (pieces 8 blk)) i)) as L.
  { intros i Hi. rewrite (load_be_ok 8 8 blk) by (try assumption; lia). f_equal.
    apply (nth_words (pieces 8 blk)); assumption. }
  unfold S.compress. set (A := pieces 8 blk) in *. clearbody A.
  assert (forall i, (i < 8)%nat -> aget (words H) i = Ok (rowv (S.at_ H) i)) as G.
  { intros i Hi. rewrite (aget_ok 0) by (unfold words; rewrite map_length, (proj1 HH); exact Hi).
    now rewrite nth_words. }
  destruct (sigma_ok H A HH HA) as [HS ES].
  unfold M.compress.
  destruct (for_inv (fun i ks => ks = (firstn i (words H) ++ repeat 0 (8 - i), firstn i (words (S.sigma H A)) ++ repeat 0 (8 - i)))
     (fun j (ks : list N * list N) =>
      let! hj := aget (words H) j in
      let! k := aset (fst ks) j hj in
      let! mj := load_be 8 (blk ++ tl) j in
      let! kj := aget k j in
      let! s := aset (snd ks) j (N.lxor mj kj) in
      Ok (k, s)) 8 0 (repeat 0 8, repeat 0 8)) as (ks & E & Hk).
  { reflexivity. }
  { intros i ks Hi ->. cbn [fst snd]. rewrite G, bind_ok by lia.
    rewrite L by lia.
    assert (forall M : list (list N), mat_ok M -> length (words M) = 8%nat) as LW.
    { intros M0 [HM _]. unfold words. now rewrite map_length. }
    assert (forall M v, mat_ok M -> v = rowv (S.at_ M) i ->
      aset (firstn i (words M) ++ repeat 0 (8 - i)) i v = Ok (firstn (Datatypes.S i) (words M) ++ repeat 0 (8 - Datatypes.S i))) as P.
    { intros M0 v HM ->. replace (8 - i)%nat with (Datatypes.S (8 - Datatypes.S i)) by lia. cbn [repeat].
      rewrite <- (nth_words M0 i HM) by lia.
      rewrite aset_mid by (apply firstn_length_le; rewrite LW; [lia|exact HM]).
      rewrite (firstn_S_nth 0) by (rewrite LW; [lia|exact HM]). rewrite <- app_assoc. reflexivity. }
    rewrite (P H) by auto. rewrite !bind_ok.
    rewrite (aget_ok 0) by (rewrite app_length, firstn_length, repeat_length, LW by exact HH; lia).
    rewrite bind_ok.
    rewrite app_nth1 by (rewrite firstn_length, LW by exact HH; lia).
    rewrite nth_firstn_lt, (nth_words H) by (exact HH || lia).
    rewrite (P (S.sigma H A)); [|exact HS|].
    - rewrite bind_ok. eexists. split; reflexivity.
    - rewrite <- (nth_words (S.sigma H A)), ES by (exact HS || lia).
      symmetry. apply (nth_map_seq (fun i => N.lxor (rowv (S.at_ A) i) (rowv (S.at_ H) i))). lia. }
  rewrite E, bind_ok, Hk. clear E Hk ks.
  change (0 + 8)%nat with 8%nat. rewrite Nat.sub_diag. cbn [repeat]. rewrite !app_nil_r.
  rewrite !firstn_all2 by (unfold words; rewrite map_length; first [rewrite (proj1 HH)|rewrite (proj1 HS)]; lia).
  destruct (rounds_ok H (S.sigma H A) HH HS) as (E & _ & HW). cbv zeta in E, HW.
  change (snd (fold_left S.round (seq 1 10) (H, S.sigma H A))) with (S.W H A) in *.
  rewrite E, bind_ok. clear E. cbn [snd]. generalize dependent (S.W H A). intros W HW.
  destruct (sigma_ok A W HA HW) as [HT ET]. destruct (sigma_ok H _ HH HT) as [_ EU]. rewrite EU.
  rewrite (for_update 0 (fun i x => N.lxor (N.lxor (rowv (S.at_ W) i) x) (rowv (S.at_ A) i))).
  - f_equal. apply map_ext_in. intros i Hi. apply in_seq in Hi.
    rewrite <- (nth_words (S.sigma A W)), ET by (exact HT || lia).
    rewrite (nth_map_seq (fun i => N.lxor (rowv (S.at_ W) i) (rowv (S.at_ A) i))) by lia.
    rewrite nth_words by (exact HH || lia).
    rewrite !N.lxor_assoc. f_equal. apply N.lxor_comm.
  - intros i s Hi Hs. rewrite (aget_ok 0) by (unfold words; rewrite map_length, (proj1 HW); exact Hi).
    rewrite bind_ok, nth_words by assumption. rewrite (aget_ok 0) by lia. rewrite bind_ok, L, bind_ok by exact Hi.
    apply aset_ok. lia.
  - unfold words. rewrite map_length. apply HH.
Qed.

(** ** the class *)

Definition dom : list N -> Prop := S.short_enough.

Lemma length_field x : x < 2 ^ 128 -> be_bytes 32 x = repeat 0 16 ++ be_bytes 16 x.
Proof.
  intros H. unfold be_bytes. rewrite !le_bytes_seq. cbn [seq map rev app repeat].
  assert (forall k, 128 <= k -> (x / 2 ^ k) mod 256 = 0) as Z.
  { intros k Hk. rewrite N.div_small; [reflexivity|]. eapply N.lt_le_trans; [exact H|]. apply N.pow_le_mono_r; [discriminate|exact Hk]. }
  rewrite !Z by discriminate. reflexivity.
Qed.

Lemma iv_words : M.iv = words S.iv.
Proof. reflexivity. Qed.
Lemma iv_mat : mat_ok S.iv.
Proof. apply matrix_ok. intros i j _ _. reflexivity. Qed.

Lemma chain_words d : bytes_ok d -> aligned 64 d -> forall H, mat_ok H ->
  chain 64 cf (words H) d = words (chain 64 S.compress H d) /\ mat_ok (chain 64 S.compress H d).
Proof.
  intros Hd Ha. unfold chain.
  pose proof (pieces_all 64 d ltac:(lia) Ha) as H1. pose proof (pieces_bytes 64 d ltac:(lia) Ha Hd) as H2.
  revert H1 H2. generalize (pieces 64 d). induction l as [|b l IH]; intros H1 H2 H HH; cbn [fold_left]; [auto|].
  inversion_clear H1. inversion_clear H2. unfold cf at 2. rewrite (mat_of_words H HH).
  apply IH; try assumption. apply spec_compress_ok; assumption.
Qed.

Lemma out_ok h : inv_h h -> M.toArray h = Ok (concat (mat_of h)) /\ bytes_ok (concat (mat_of h)).
Proof.
  intros (A & HA & ->). unfold M.toArray. split.
  - assert (flat_map (word_bytes_be 8) (words A) = concat (mat_of (words A))) as ->.
    { rewrite flat_map_concat_map. unfold mat_of. f_equal. apply map_ext. intros x. apply word_bytes_be_ok. }
    rewrite (mat_of_words A HA). destruct HA as [Hl HA].
    assert (forall l, Forall row_ok l -> length (concat l) = (8 * length l)%nat) as G.
    { induction 1 as [|r l [Hr _] _ IH]; [reflexivity|]. cbn [concat length]. rewrite app_length, Hr, IH. lia. }
    pose proof (G A HA) as L. rewrite Hl in L. rewrite store_array_ok by lia. rewrite L. cbn. now rewrite app_nil_r.
  - rewrite (mat_of_words A HA). destruct HA as [_ HA].
    induction HA as [|r l [_ Hr] _ IH]; [constructor|]. cbn [concat]. apply bytes_ok_app. split; assumption.
Qed.

(** the length field the code writes: 16 zero bytes and its 128-bit counter *)
Definition coded_length (x : N) : list N := repeat 0 16 ++ be_bytes 16 x.
Definition coded (m : list N) : list N := concat (mat_of (md8_hash 64 32 coded_length M.iv cf m)).

Theorem coded_correct dbg : Correct (M.cls dbg) coded (fun _ => True).
Proof.
  do 2 eexists.
  apply (md128_implements 64 32 dbg coded_length (fun _ => True) M.compress M.iv M.toArray cf (fun h => concat (mat_of h)) inv_h).
  - lia.
  - lia.
  - reflexivity.
  - intros x. unfold coded_length. rewrite app_length, repeat_length, be_bytes_length. reflexivity.
  - intros x. unfold coded_length. apply bytes_ok_app. split; [|apply be_bytes_ok]. repeat constructor.
  - intros m _. reflexivity.
  - exists S.iv. split; [exact iv_mat|exact iv_words].
  - apply compress_ok.
  - apply out_ok.
Qed.

Theorem correct dbg : Correct (M.cls dbg) S.whirlpool dom.
Proof.
  apply (correct_sub (fun _ => True) _ coded); [auto| |apply coded_correct].
  intros m Hm Hd. unfold coded, md8_hash, S.whirlpool.
  replace (pad 64 32 128 coded_length m) with (pad 64 32 128 (be_bytes 32) m)
    by (unfold pad, coded_length; rewrite <- length_field by exact Hd; reflexivity).
  rewrite iv_words.
  destruct (chain_words (pad 64 32 128 (be_bytes 32) m)
    (pad_bytes 64 32 128 _ m Hm ltac:(reflexivity) (be_bytes_ok 32))
    (pad_aligned 64 32 128 _ m ltac:(lia) (be_bytes_length 32)) S.iv iv_mat) as [-> HA].
  now rewrite mat_of_words.
Qed.
