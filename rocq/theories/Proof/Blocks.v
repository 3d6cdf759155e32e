(** Cutting byte strings into pieces; the block loop; word loading. *)
From Coq Require Import List NArith Arith Bool Lia ZArith ZifyNat.
From Verif.Base Require Import Res CWord.
From Verif.Spec Require Import Words Merkle.
From Verif.Model Require Import Buffer Stream.
From Verif.Proof Require Import Words Streaming.
Import ListNotations.

(** ** pieces *)

Lemma pieces_fuel_stable {A} n : 0 < n -> forall f g (l : list A),
  length l <= f -> length l <= g -> pieces_fuel f n l = pieces_fuel g n l.
Proof.
  intros Hn. induction f as [|f IH]; intros g l Hf Hg.
  - destruct l; [|cbn in Hf; lia]. destruct g; reflexivity.
  - destruct g as [|g]; [destruct l; [reflexivity|cbn in Hg; lia]|].
    cbn [pieces_fuel]. destruct l as [|a l]; [reflexivity|]. f_equal.
    apply IH; rewrite skipn_length; cbn [length] in *; lia.
Qed.

Lemma pieces_nil {A} n : @pieces A n [] = [].
Proof. reflexivity. Qed.

Lemma pieces_cons {A} n (b t : list A) : 0 < n -> length b = n -> pieces n (b ++ t) = b :: pieces n t.
Proof.
  intros Hn Hb. unfold pieces. rewrite app_length.
  destruct b as [|x b]; [cbn in Hb; lia|]. cbn [length Nat.add pieces_fuel app].
  rewrite app_comm_cons. rewrite firstn_app, <- Hb, Nat.sub_diag, firstn_all, skipn_app, Nat.sub_diag, skipn_all.
  cbn [firstn skipn app]. rewrite app_nil_r. f_equal. apply pieces_fuel_stable; cbn; lia.
Qed.

Lemma pieces_one {A} n (b : list A) : 0 < n -> length b = n -> pieces n b = [b].
Proof. intros Hn Hb. rewrite <- (app_nil_r b). rewrite pieces_cons by assumption. now rewrite app_nil_r. Qed.

(** induction over whole pieces *)
Lemma aligned_ind n (P : list N -> Prop) : 0 < n ->
  P [] -> (forall b t, length b = n -> aligned n t -> P t -> P (b ++ t)) ->
  forall l, aligned n l -> P l.
Proof.
  intros Hn H0 Hs l Hl. unfold aligned in Hl.
  apply Nat.mod_divides in Hl as [k Hk]; [|lia].
  revert l Hk; induction k as [|k IH]; intros l Hk.
  - destruct l; [exact H0|cbn in Hk; lia].
  - rewrite <- (firstn_skipn n l). apply Hs.
    + apply firstn_length_le. lia.
    + unfold aligned. rewrite skipn_length.
      replace (length l - n) with (k * n) by lia. apply Nat.mod_mul. lia.
    + apply IH. rewrite skipn_length. lia.
Qed.

Lemma pieces_app n (x y : list N) : 0 < n -> aligned n x -> pieces n (x ++ y) = pieces n x ++ pieces n y.
Proof.
  intros Hn Hx. revert x Hx. apply (aligned_ind n); [exact Hn|reflexivity|].
  intros b t Hb Ht IH. rewrite <- app_assoc.
  rewrite (pieces_cons n b (t ++ y)), (pieces_cons n b t) by assumption. rewrite IH. reflexivity.
Qed.

Lemma pieces_all n (l : list N) : 0 < n -> aligned n l -> Forall (fun b => length b = n) (pieces n l).
Proof.
  intros Hn. revert l. apply (aligned_ind n); [exact Hn|constructor|].
  intros b t Hb Ht IH. rewrite pieces_cons by assumption. constructor; assumption.
Qed.

Lemma pieces_length n (l : list N) : 0 < n -> aligned n l -> length (pieces n l) = length l / n.
Proof.
  intros Hn. revert l. apply (aligned_ind n); [exact Hn|cbn; now rewrite Nat.div_0_l by lia|].
  intros b t Hb Ht IH. rewrite pieces_cons by assumption. cbn [length]. rewrite IH, app_length, Hb.
  replace (n + length t) with (1 * n + length t) by lia. rewrite Nat.div_add_l by lia. lia.
Qed.

Lemma pieces_bytes n (l : list N) : 0 < n -> aligned n l -> bytes_ok l -> Forall bytes_ok (pieces n l).
Proof.
  intros Hn Ha. revert l Ha. apply (aligned_ind n (fun l => bytes_ok l -> Forall bytes_ok (pieces n l)));
    [exact Hn|constructor|].
  intros b t Hb Ht IH Hbt. rewrite pieces_cons by assumption. apply bytes_ok_app in Hbt.
  constructor; tauto.
Qed.

Lemma pieces_nth n (l : list N) i : 0 < n -> aligned n l -> i < length l / n ->
  nth i (pieces n l) [] = firstn n (skipn (n * i) l).
Proof.
  intros Hn Ha. revert l Ha i. apply (aligned_ind n (fun l => forall i, i < length l / n ->
    nth i (pieces n l) [] = firstn n (skipn (n * i) l))); [exact Hn|intros i Hi; cbn in Hi; rewrite Nat.div_0_l in Hi; lia|].
  intros b t Hb Ht IH i Hi. rewrite pieces_cons by assumption.
  destruct i as [|i].
  - rewrite Nat.mul_0_r. cbn [skipn nth]. rewrite firstn_app, <- Hb, Nat.sub_diag, firstn_all. cbn. now rewrite app_nil_r.
  - cbn [nth]. rewrite IH.
    + rewrite Nat.mul_succ_r, skipn_app. rewrite (skipn_all2 b) by lia. cbn [app]. do 2 f_equal. lia.
    + rewrite app_length, Hb in Hi. replace (n + length t) with (1 * n + length t) in Hi by lia.
      rewrite Nat.div_add_l in Hi by lia. lia.
Qed.

(** ** the block loop *)

Section Loop.
  Context {H : Type} (B : nat) (compress : list N -> H -> res H) (cf : H -> list N -> H) (inv : H -> Prop).
  Hypothesis HB : 0 < B.
  Hypothesis Hc : forall blk tl h, inv h -> length blk = B -> bytes_ok blk ->
    compress (blk ++ tl) h = Ok (cf h blk) /\ inv (cf h blk).

  Lemma for_shift (f : nat -> H -> res H) k n h : for_ (S k) n f h = for_ k n (fun i => f (S i)) h.
  Proof.
    revert k h; induction n as [|n IH]; intros k h; cbn; [reflexivity|].
    apply bind_ext; intros a. apply IH.
  Qed.

  Lemma block_loop_ok data : aligned B data -> bytes_ok data -> forall h, inv h ->
    block_loop H B compress data h = Ok (chain B cf h data) /\ inv (chain B cf h data).
  Proof.
    unfold chain. intros Ha. revert data Ha.
    apply (aligned_ind B (fun data => bytes_ok data -> forall h, inv h ->
      block_loop H B compress data h = Ok (fold_left cf (pieces B data) h) /\
      inv (fold_left cf (pieces B data) h))); [exact HB| |].
    - intros _ h Hh. unfold block_loop. cbn [length]. rewrite Nat.div_0_l by lia. cbn. auto.
    - intros b t Hb Ht IH Hbt h Hh. apply bytes_ok_app in Hbt as [Hbb Hbt].
      rewrite pieces_cons by assumption. cbn [fold_left].
      destruct (Hc b t h Hh Hb Hbb) as [E Hi].
      destruct (IH Hbt (cf h b) Hi) as [E2 Hi2]. split; [|exact Hi2].
      rewrite <- E2. unfold block_loop. rewrite app_length, Hb.
      replace (B + length t) with (1 * B + length t) by lia. rewrite Nat.div_add_l by lia.
      cbn [Nat.add for_ Nat.mul skipn]. rewrite E. cbn [bind]. rewrite for_shift.
      apply for_ext. intros i s Hi'. f_equal. rewrite skipn_app, skipn_all2 by lia.
      cbn [app]. f_equal. lia.
  Qed.
End Loop.

Lemma assert_ok B dbg data : aligned B data -> assert_aligned B dbg data = Ok tt.
Proof.
  unfold aligned, assert_aligned. intros ->. cbn. now rewrite andb_false_r.
Qed.

(** ** Loader *)

Lemma be_value_cons b t : be_value (b :: t) = (b * 256 ^ N.of_nat (length t) + be_value t)%N.
Proof.
  unfold be_value. cbn [fold_left]. rewrite N.mul_0_l, N.add_0_l.
  assert (forall l a, fold_left (fun a b => a * 256 + b)%N l a
            = (a * 256 ^ N.of_nat (length l) + fold_left (fun a b => a * 256 + b)%N l 0)%N) as G.
  { induction l as [|x l IH]; intros a; cbn [fold_left length].
    - cbn. lia.
    - rewrite IH. rewrite (IH (0 * 256 + x)%N). rewrite Nnat.Nat2N.inj_succ, N.pow_succ_r'. lia. }
  apply G.
Qed.

Lemma be_value_lt l : bytes_ok l -> (be_value l < 2 ^ (8 * N.of_nat (length l)))%N.
Proof.
  intros H. pose proof (le_value_bound (rev l) (Forall_rev H)) as Hl.
  rewrite <- be_value_rev, rev_involutive, rev_length in Hl.
  rewrite N.pow_mul_r. exact Hl.
Qed.

Lemma le_value_lt l : bytes_ok l -> (le_value l < 2 ^ (8 * N.of_nat (length l)))%N.
Proof. intros H. rewrite N.pow_mul_r. apply le_value_bound, H. Qed.

Lemma or_be_ok w l : bytes_ok l -> (8 * N.of_nat (length l) <= w)%N -> or_be w l = be_value l.
Proof.
  induction 1 as [|b t Hb Ht IH]; intros Hw; [reflexivity|].
  cbn [or_be length] in *. rewrite IH by lia. rewrite be_value_cons.
  rewrite (lor_add_disjoint _ _ (8 * N.of_nat (length t))).
  - f_equal. rewrite ushl_spec. unfold SHL. rewrite N.pow_mul_r. change (2 ^ 8)%N with 256%N.
    apply N.mod_small. change 256%N with (2 ^ 8)%N. rewrite <- N.pow_mul_r.
    unfold byte_ok in Hb. apply N.lt_le_trans with (2 ^ 8 * 2 ^ (8 * N.of_nat (length t)))%N.
    + apply N.mul_lt_mono_pos_r; [auto|exact Hb].
    + rewrite <- N.pow_add_r. apply N.pow_le_mono_r; [discriminate|lia].
  - intros i Hi. apply shl_low, Hi.
  - apply be_value_lt, Ht.
Qed.

Lemma or_le_ok w l : bytes_ok l -> forall s, (s + 8 * N.of_nat (length l) <= w)%N ->
  or_le w s l = (2 ^ s * le_value l)%N.
Proof.
  induction 1 as [|b t Hb Ht IH]; intros s Hw; cbn [or_le le_value length] in *; [lia|].
  rewrite IH by lia. rewrite N.lor_comm.
  rewrite (lor_add_disjoint _ _ (s + 8)).
  - rewrite ushl_spec. unfold SHL. unfold byte_ok in Hb. rewrite N.mod_small.
    + rewrite N.pow_add_r. change (2 ^ 8)%N with 256%N. lia.
    + apply N.lt_le_trans with (2 ^ 8 * 2 ^ s)%N.
      * apply N.mul_lt_mono_pos_r; [auto|exact Hb].
      * rewrite <- N.pow_add_r. apply N.pow_le_mono_r; [discriminate|lia].
  - intros i Hi. rewrite N.mul_comm. apply N.mul_pow2_bits_low, Hi.
  - rewrite ushl_spec. unfold SHL, bnd. eapply N.le_lt_trans; [apply N.mod_le; auto|].
    unfold byte_ok in Hb. rewrite N.add_comm, N.pow_add_r. apply N.mul_lt_mono_pos_r; [auto|exact Hb].
Qed.

Lemma load_bytes_ok nb mem idx : nb * idx + nb <= length mem ->
  load_bytes nb mem idx = Ok (firstn nb (skipn (nb * idx) mem)).
Proof.
  intros H. unfold load_bytes.
  rewrite (mapM_ok _ (fun i => nth i mem 0%N)).
  - f_equal. generalize (nb * idx) H; clear H. induction nb as [|n IH]; intros k H; [reflexivity|].
    cbn [seq map]. rewrite IH by lia.
    assert (skipn k mem = nth k mem 0%N :: skipn (S k) mem) as ->.
    { clear IH. revert mem H. induction k as [|k IHk]; intros [|a mem] H; cbn in *; try lia; [reflexivity|].
      apply IHk. lia. }
    reflexivity.
  - intros a Ha. apply in_seq in Ha. apply aget_ok. lia.
Qed.

Section Load.
  Variables (nb cnt : nat) (blk : list N).
  Hypothesis Hnb : 0 < nb.
  Hypothesis Hlen : length blk = nb * cnt.
  Hypothesis Hok : bytes_ok blk.

  Lemma blk_aligned : aligned nb blk.
  Proof. unfold aligned. rewrite Hlen, Nat.mul_comm. apply Nat.mod_mul. lia. Qed.

  Lemma blk_count : length blk / nb = cnt.
  Proof. rewrite Hlen, Nat.mul_comm. apply Nat.div_mul. lia. Qed.

  Lemma load_bytes_blk tl i : i < cnt ->
    load_bytes nb (blk ++ tl) i = Ok (nth i (pieces nb blk) []).
  Proof.
    intros Hi. rewrite load_bytes_ok by (rewrite app_length; nia). f_equal.
    rewrite pieces_nth by (auto using blk_aligned; rewrite blk_count; exact Hi).
    rewrite skipn_app, firstn_app, skipn_length.
    replace (nb - (length blk - nb * i)) with 0 by nia. cbn. now rewrite app_nil_r.
  Qed.

  Lemma piece_ok i : i < cnt -> bytes_ok (nth i (pieces nb blk) []) /\ length (nth i (pieces nb blk) []) = nb.
  Proof.
    intros Hi. pose proof (pieces_bytes nb blk Hnb blk_aligned Hok) as H1.
    pose proof (pieces_all nb blk Hnb blk_aligned) as H2.
    rewrite Forall_forall in H1, H2.
    assert (In (nth i (pieces nb blk) []) (pieces nb blk)) as Hin
      by (apply nth_In; rewrite pieces_length, blk_count by auto using blk_aligned; exact Hi).
    auto.
  Qed.

  Lemma load_be_ok tl i : i < cnt -> load_be nb (blk ++ tl) i = Ok (nth i (be_words nb blk) 0%N).
  Proof.
    intros Hi. unfold load_be. rewrite load_bytes_blk by exact Hi. cbn [bind].
    destruct (piece_ok i Hi) as [H1 H2].
    rewrite or_be_ok by (auto; rewrite H2; lia). f_equal.
    unfold be_words. change 0%N with (be_value []). now rewrite map_nth.
  Qed.

  Lemma load_le_ok tl i : i < cnt -> load_le nb (blk ++ tl) i = Ok (nth i (le_words nb blk) 0%N).
  Proof.
    intros Hi. unfold load_le. rewrite load_bytes_blk by exact Hi. cbn [bind].
    destruct (piece_ok i Hi) as [H1 H2].
    rewrite or_le_ok by (auto; rewrite H2; lia). f_equal. rewrite N.mul_1_l.
    unfold le_words. change 0%N with (le_value []). now rewrite map_nth.
  Qed.

  Lemma be_words_length : length (be_words nb blk) = cnt.
  Proof. unfold be_words. rewrite map_length, pieces_length, blk_count; auto using blk_aligned. Qed.

  Lemma le_words_length : length (le_words nb blk) = cnt.
  Proof. unfold le_words. rewrite map_length, pieces_length, blk_count; auto using blk_aligned. Qed.

  Lemma be_words_bnd : Forall (bnd (8 * N.of_nat nb)) (be_words nb blk).
  Proof.
    unfold be_words. apply Forall_map. rewrite Forall_forall. intros p Hp.
    pose proof (pieces_bytes nb blk Hnb blk_aligned Hok) as H1.
    pose proof (pieces_all nb blk Hnb blk_aligned) as H2.
    rewrite Forall_forall in H1, H2. unfold bnd. rewrite <- (H2 p Hp). apply be_value_lt; auto.
  Qed.

  Lemma le_words_bnd : Forall (bnd (8 * N.of_nat nb)) (le_words nb blk).
  Proof.
    unfold le_words. apply Forall_map. rewrite Forall_forall. intros p Hp.
    pose proof (pieces_bytes nb blk Hnb blk_aligned Hok) as H1.
    pose proof (pieces_all nb blk Hnb blk_aligned) as H2.
    rewrite Forall_forall in H1, H2. unfold bnd. rewrite <- (H2 p Hp). apply le_value_lt; auto.
  Qed.
End Load.

(** ** Storing words *)

Lemma le_bytes_seq n x : le_bytes n x = map (fun i => (x / 2 ^ (8 * N.of_nat i)) mod 256)%N (seq 0 n).
Proof.
  revert x; induction n as [|n IH]; intros x; [reflexivity|].
  cbn [le_bytes seq map]. f_equal.
  - cbn. now rewrite N.div_1_r.
  - rewrite IH, <- seq_shift, map_map. apply map_ext. intros i.
    rewrite N.div_div by (try apply N.pow_nonzero; discriminate).
    do 2 f_equal. change 256%N with (2 ^ 8)%N at 1. rewrite <- N.pow_add_r. f_equal. lia.
Qed.

Lemma ror8_spec x s : ror 8 x s = ((x / 2 ^ s) mod 256)%N.
Proof. apply ror_spec. Qed.

Lemma word_bytes_le_ok n x : word_bytes_le n x = le_bytes n x.
Proof.
  unfold word_bytes_le. rewrite le_bytes_seq. apply map_ext. intros i. apply ror8_spec.
Qed.

Lemma word_bytes_be_ok n x : word_bytes_be n x = be_bytes n x.
Proof.
  unfold word_bytes_be, be_bytes. rewrite map_rev. f_equal. apply word_bytes_le_ok.
Qed.

Lemma store_array_ok size bytes : length bytes <= size ->
  store_array size bytes = Ok (bytes ++ repeat 0%N (size - length bytes)).
Proof.
  intros H. unfold store_array.
  assert (forall l done0 z, length l <= z ->
    foldM (fun b (st : list N * nat) => let! a := aset (fst st) (snd st) b in Ok (a, S (snd st))) l
      (done0 ++ repeat 0%N z, length done0)
    = Ok ((done0 ++ l) ++ repeat 0%N (z - length l), length done0 + length l)) as G.
  { induction l as [|b l IH]; intros d z Hz; cbn [foldM length].
    - rewrite app_nil_r, Nat.sub_0_r, Nat.add_0_r. reflexivity.
    - cbn [fst snd length] in *. replace (length d) with (length d + 0) at 1 by lia.
      destruct z as [|z]; [lia|].
      rewrite aset_app_r by (rewrite repeat_length; lia). cbn [bind repeat upd].
      replace (d ++ b :: repeat 0%N z) with ((d ++ [b]) ++ repeat 0%N z) by (rewrite <- app_assoc; reflexivity).
      replace (S (length d)) with (length (d ++ [b])) by (rewrite app_length; cbn; lia).
      rewrite IH by lia. rewrite <- !app_assoc, app_length. cbn [app length Nat.sub]. do 2 f_equal. lia. }
  specialize (G bytes [] size H). cbn [app length Nat.add] in G. rewrite G. reflexivity.
Qed.

Lemma store_array_exact bytes : store_array (length bytes) bytes = Ok bytes.
Proof. rewrite store_array_ok by lia. rewrite Nat.sub_diag. cbn. now rewrite app_nil_r. Qed.

Lemma store_array_eq size bytes : length bytes = size -> store_array size bytes = Ok bytes.
Proof. intros <-. apply store_array_exact. Qed.

Lemma bytes_ok_flat_map {A} (f : A -> list N) l : (forall x, bytes_ok (f x)) -> bytes_ok (flat_map f l).
Proof.
  intros Hf. induction l as [|x l IH]; cbn [flat_map]; [constructor|].
  unfold bytes_ok in *. apply Forall_app. split; [apply Hf|exact IH].
Qed.
