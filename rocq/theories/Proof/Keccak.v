(** sha3.h computes the sponge functions of FIPS 202. *)
From Coq Require Import List NArith Ndigits Arith Bool Lia.
From Verif.Base Require Import Res CWord.
From Verif.Spec Require Import Words Client Merkle.
From Verif.Model Require Import Buffer Stream Api.
From Verif.Proof Require Import Words Streaming Blocks Api MD Rounds Class Blake1 KeccakF.
From Verif.Spec Require Keccak.
From Verif.Model Require Keccak.
Import ListNotations.
Local Open Scope N_scope.
Module S := Verif.Spec.Keccak.
Module M := Verif.Model.Keccak.
Notation bits_of := Verif.Spec.Keccak.bits_of.
Notation byte_bits := Verif.Spec.Keccak.byte_bits.

(** ** bytes and bits *)

Lemma bits_of_app x y : bits_of (x ++ y) = bits_of x ++ bits_of y.
Proof. apply flat_map_app. Qed.

Lemma byte_bits_length b : length (byte_bits b) = 8%nat.
Proof. unfold S.byte_bits. now rewrite map_length, seq_length. Qed.

Lemma bits_of_length x : length (bits_of x) = (8 * length x)%nat.
Proof.
  induction x as [|b x IH]; [reflexivity|]. unfold S.bits_of in *. cbn [flat_map length].
  rewrite app_length, byte_bits_length, IH. lia.
Qed.

Lemma bits_of_zeros n : bits_of (repeat 0 n) = repeat false (8 * n).
Proof.
  induction n as [|n IH]; [reflexivity|]. replace (8 * Datatypes.S n)%nat with (8 + 8 * n)%nat by lia.
  rewrite repeat_app, <- IH. reflexivity.
Qed.

Lemma bits_of_firstn n x : firstn (8 * n) (bits_of x) = bits_of (firstn n x).
Proof.
  revert n; induction x as [|b x IH]; intros n; [now rewrite !firstn_nil|].
  destruct n as [|n]; [now rewrite Nat.mul_0_r|]. unfold S.bits_of in *. cbn [firstn flat_map].
  rewrite firstn_app, byte_bits_length, firstn_all2 by (rewrite byte_bits_length; lia).
  replace (8 * Datatypes.S n - 8)%nat with (8 * n)%nat by lia. now rewrite IH.
Qed.

Lemma map_seq_shift {A} (f : nat -> A) k n : forall s, map f (seq (k + s) n) = map (fun i => f (k + i)%nat) (seq s n).
Proof.
  induction n as [|n IH]; intros s; [reflexivity|]. cbn [seq map]. f_equal. rewrite <- IH. now rewrite Nat.add_succ_r.
Qed.

Lemma le_value_bits l : bytes_ok l -> map (N.testbit_nat (le_value l)) (seq 0 (8 * length l)) = bits_of l.
Proof.
  induction 1 as [|b l Hb Hl IH]; [reflexivity|]. unfold byte_ok in Hb.
  cbn [length le_value]. replace (8 * Datatypes.S (length l))%nat with (8 + 8 * length l)%nat by lia.
  rewrite seq_app, map_app. unfold S.bits_of. cbn [flat_map]. f_equal.
  - unfold S.byte_bits. apply map_ext_in. intros i Hi. apply in_seq in Hi. rewrite !tb.
    rewrite <- (N.mod_pow2_bits_low _ 8) by lia. change (2 ^ 8) with 256.
    rewrite (N.mul_comm 256), N.mod_add by discriminate. now rewrite N.mod_small by exact Hb.
  - rewrite <- (IH : _ = flat_map S.byte_bits l). change (0 + 8)%nat with (8 + 0)%nat.
    rewrite map_seq_shift.
    apply map_ext. intros i. rewrite !tb.
    replace (N.of_nat (8 + i)) with (N.of_nat i + 8) by lia. rewrite <- N.div_pow2_bits. change (2 ^ 8) with 256.
    rewrite (N.mul_comm 256), N.div_add by discriminate. now rewrite N.div_small by exact Hb.
Qed.

Lemma word_bits_le l : bytes_ok l -> length l = 8%nat -> word_bits (le_value l) = bits_of l.
Proof. intros H E. rewrite <- le_value_bits by exact H. now rewrite E. Qed.

Lemma lane_bits_words blk : aligned 8 blk -> bytes_ok blk -> lane_bits (le_words 8 blk) = bits_of blk.
Proof.
  intros Ha. revert blk Ha. apply (aligned_ind 8 (fun blk => bytes_ok blk -> lane_bits (le_words 8 blk) = bits_of blk)); [lia|reflexivity|].
  intros b t Hb Ht IH Hbt. apply bytes_ok_app in Hbt as [Hbb Hbt]. unfold le_words in *.
  rewrite pieces_cons by (assumption || lia). unfold lane_bits in *. cbn [map flat_map]. rewrite IH by exact Hbt.
  rewrite word_bits_le by assumption. now rewrite bits_of_app.
Qed.

Lemma lane_bits_bytes l : Forall (bnd 64) l -> lane_bits l = bits_of (flat_map (le_bytes 8) l).
Proof.
  induction 1 as [|a l Ha Hl IH]; [reflexivity|]. unfold lane_bits in *. cbn [flat_map]. rewrite bits_of_app, IH. f_equal.
  rewrite <- word_bits_le by (apply le_bytes_ok || apply le_bytes_length). f_equal.
  rewrite le_value_bytes. symmetry. apply N.mod_small, Ha.
Qed.

Lemma pieces_bits R m : (0 < R)%nat -> aligned R m -> pieces (8 * R) (bits_of m) = map bits_of (pieces R m).
Proof.
  intros HR. revert m. apply (aligned_ind R); [exact HR|reflexivity|].
  intros b t Hb Ht IH. rewrite bits_of_app. rewrite pieces_cons by (try rewrite bits_of_length; lia).
  rewrite (pieces_cons R b t) by assumption. cbn [map]. now rewrite IH.
Qed.

Lemma bit_value_byte b : b < 256 -> S.bit_value (byte_bits b) = b.
Proof.
  intros H. assert (forallb (fun b => S.bit_value (byte_bits (N.of_nat b)) =? N.of_nat b) (seq 0 256) = true) as T
    by (vm_compute; reflexivity).
  rewrite forallb_forall in T. specialize (T (N.to_nat b)). rewrite in_seq in T. specialize (T ltac:(lia)).
  apply N.eqb_eq in T. now rewrite N2Nat.id in T.
Qed.

Lemma bytes_of_bits l : bytes_ok l -> S.bytes_of (bits_of l) = l.
Proof.
  unfold S.bytes_of. induction 1 as [|b l Hb Hl IH]; [reflexivity|].
  change (bits_of (b :: l)) with (byte_bits b ++ bits_of l).
  rewrite pieces_cons by (try apply byte_bits_length; lia). cbn [map]. now rewrite IH, bit_value_byte.
Qed.

Lemma xor_bits_nth x y i : length x = length y -> nth i (S.xor_bits x y) false = xorb (nth i x false) (nth i y false).
Proof.
  intros H. unfold S.xor_bits. change false with ((fun p : bool * bool => xorb (fst p) (snd p)) (false, false)) at 1.
  rewrite map_nth, combine_nth by exact H. reflexivity.
Qed.

(** ** one block *)
Section Sponge.
  Variables (q : nat) (P : N) (dbg : bool).
  Hypothesis Hq : (0 < q)%nat.
  Hypothesis Hq25 : (q <= 25)%nat.
  Notation R := (8 * q)%nat.

  Definition xorw (ws l : list N) : list N := map (fun i => N.lxor (nth i l 0) (nth i ws 0)) (seq 0 25).
  Definition step (l blk : list N) : list N := keccak_f (xorw (le_words 8 blk) l).

  Definition sok (l : list N) : Prop := length l = 25%nat /\ Forall (bnd 64) l.

  Lemma sok_xorw ws l : Forall (bnd 64) ws -> sok l -> sok (xorw ws l).
  Proof.
    intros Hw [Hl Hb]. split; unfold xorw; [now rewrite map_length, seq_length|].
    apply Forall_map, Forall_forall. intros i _. apply bnd_lxor; now apply Forall_nth_bnd.
  Qed.
  Lemma sok_f l : sok l -> sok (keccak_f l).
  Proof. intros [H1 H2]. now apply keccak_f_ok. Qed.

  Lemma ws_len blk : length blk = R -> length (le_words 8 blk) = q.
  Proof. intros H. apply le_words_length; [lia|exact H]. Qed.
  Lemma ws_bnd blk : length blk = R -> bytes_ok blk -> Forall (bnd 64) (le_words 8 blk).
  Proof. intros H Hb. apply (le_words_bnd 8 q); [lia|exact H|exact Hb]. Qed.

  Lemma compress_ok blk tl l : sok l -> length blk = R -> bytes_ok blk ->
    M.compress R (blk ++ tl) l = Ok (step l blk) /\ sok (step l blk).
  Proof.
    intros Hs Hl Hb. assert (sok (xorw (le_words 8 blk) l)) as Hx by (apply sok_xorw; [now apply ws_bnd|exact Hs]).
    split; [|now apply sok_f]. unfold M.compress. replace (R / 8)%nat with q by (rewrite Nat.mul_comm, Nat.div_mul; lia).
    destruct Hs as [H25 _].
    set (ws := le_words 8 blk) in *.
    destruct (for_inv (fun i s => length s = 25%nat /\ forall j, nth j s 0 = N.lxor (nth j l 0) (if (j <? i)%nat then nth j ws 0 else 0))
      (fun i l => let! v := aget l i in let! w := load_le 8 (blk ++ tl) i in aset l i (N.lxor v w)) q 0 l) as (s & E & Hsl & Hsn).
    - split; [exact H25|]. intros j. now rewrite N.lxor_0_r.
    - intros i s Hi [Hls Hns]. rewrite (aget_ok 0) by lia. rewrite bind_ok.
      rewrite (load_le_ok 8 q) by (auto; lia). rewrite bind_ok, aset_ok by lia. eexists. split; [reflexivity|].
      split; [now rewrite upd_length|]. intros j. destruct (Nat.eq_dec i j) as [<-|N].
      + rewrite nth_upd_same by lia. rewrite Hns. destruct (Nat.ltb_spec i i); [lia|].
        destruct (Nat.ltb_spec i (Datatypes.S i)); [|lia]. now rewrite N.lxor_0_r.
      + rewrite nth_upd_other by exact N. rewrite Hns. destruct (Nat.ltb_spec j i), (Nat.ltb_spec j (Datatypes.S i)); (reflexivity || lia).
    - rewrite E, bind_ok. assert (s = xorw ws l) as ->.
      { apply (nth_ext _ _ 0 0); [unfold xorw; now rewrite map_length, seq_length|]. intros j Hj. rewrite Hsl in Hj.
        unfold xorw. rewrite nth_seq_map by exact Hj. rewrite Hsn, Nat.add_0_l. f_equal.
        destruct (Nat.ltb_spec j q); [reflexivity|]. symmetry. apply nth_overflow. unfold ws. rewrite ws_len by exact Hl. lia. }
      destruct (rounds_ok (xorw ws l)) as [E2 _]; [apply Hx|]. exact E2.
  Qed.

  Lemma step_bits l blk : sok l -> length blk = R -> bytes_ok blk ->
    S.keccak_f (S.xor_bits (lane_bits l) (bits_of blk ++ repeat false (1600 - 8 * R))) = lane_bits (step l blk).
  Proof.
    intros Hs Hl Hb. pose proof (sok_xorw _ _ (ws_bnd blk Hl Hb) Hs) as [Hx1 Hx2].
    unfold step. rewrite <- keccak_f_bits by assumption. f_equal. destruct Hs as [H25 _].
    assert (aligned 8 blk) as Ha by (unfold aligned; rewrite Hl, Nat.mul_comm; apply Nat.mod_mul; discriminate).
    rewrite <- (lane_bits_words blk Ha Hb). set (ws := le_words 8 blk) in *.
    assert (length ws = q) as Hw by now apply ws_len.
    assert (length (lane_bits l) = 1600%nat) as L1 by (rewrite lane_bits_length, H25; reflexivity).
    assert (length (lane_bits ws ++ repeat false (1600 - 8 * R)) = 1600%nat) as L2
      by (rewrite app_length, repeat_length, lane_bits_length, Hw; lia).
    apply (nth_ext _ _ false false).
    - unfold S.xor_bits. rewrite map_length, combine_length, L1, L2, lane_bits_length, Hx1. reflexivity.
    - intros i Hi. unfold S.xor_bits in Hi. rewrite map_length, combine_length, L1, L2, Nat.min_id in Hi.
      rewrite xor_bits_nth by (rewrite L1, L2; reflexivity).
      rewrite (Nat.div_mod i 64) by discriminate. pose proof (mod64_lt i) as Hz.
      assert (i / 64 < 25)%nat as Hj by (apply Nat.div_lt_upper_bound; lia).
      set (j := (i / 64)%nat) in *. set (z := (i mod 64)%nat) in *. clearbody j z. clear i Hi.
      rewrite !lane_bits_nth by lia. unfold xorw. rewrite nth_seq_map by exact Hj. rewrite lxor_tb. f_equal.
      destruct (Nat.lt_ge_cases j q) as [Hlt|Hge].
      + rewrite app_nth1 by (rewrite lane_bits_length; lia). apply lane_bits_nth; lia.
      + rewrite app_nth2 by (rewrite lane_bits_length; lia). rewrite nth_repeat. rewrite (nth_overflow ws) by lia. now rewrite tb, N.bits_0.
  Qed.

  (** ** the absorbing loop *)
  Definition run (d : list N) (s : M.St) : M.St := M.mkSt (chain R step (M.k_state s) d) (M.k_final s) (M.k_len s).
  Definition inv (s : M.St) : Prop := sok (M.k_state s).

  Lemma impl_ok d s : inv s -> bytes_ok d -> aligned R d -> M.impl R dbg d s = Ok (run d s) /\ inv (run d s).
  Proof.
    intros Hs Hd Ha. unfold M.impl. rewrite assert_ok, bind_ok by exact Ha.
    destruct (block_loop_ok R (M.compress R) step sok ltac:(lia) compress_ok d Ha Hd (M.k_state s) Hs) as [E Hi].
    rewrite E, bind_ok. split; [reflexivity|exact Hi].
  Qed.

  Lemma run_app x y s : aligned R x -> run (x ++ y) s = run y (run x s).
  Proof. intros Ha. unfold run, chain. cbn [M.k_state M.k_final M.k_len]. now rewrite pieces_app, fold_left_app by (assumption || lia). Qed.

  Lemma run_bits d s : inv s -> bytes_ok d -> aligned R d ->
    fold_left (fun S Pi => S.keccak_f (S.xor_bits S (Pi ++ repeat false (1600 - 8 * R)))) (pieces (8 * R) (bits_of d)) (lane_bits (M.k_state s)) =
    lane_bits (M.k_state (run d s)).
  Proof.
    intros Hs Hd Ha. rewrite pieces_bits by (assumption || lia). unfold run. cbn [M.k_state]. unfold chain.
    unfold inv in Hs. revert Hs. generalize (M.k_state s).
    pose proof (pieces_all R d ltac:(lia) Ha) as H1. pose proof (pieces_bytes R d ltac:(lia) Ha Hd) as H2.
    revert H1 H2. induction (pieces R d) as [|b L IH]; intros H1 H2 l Hl; [reflexivity|].
    inversion H1; inversion H2; subst. cbn [map fold_left]. rewrite step_bits by assumption.
    apply IH; [assumption..|]. destruct (compress_ok b [] l) as [_ G]; assumption.
  Qed.

  (** ** padding *)
  Variable sfx : S.bits.
  Hypothesis Hsfx : (length sfx <= 5)%nat.
  Hypothesis HP : byte_bits P = sfx ++ [true] ++ repeat false (7 - length sfx).
  Hypothesis HPb : P < 128.

  Definition fillc (m : list N) : nat := (R - 1 - length m mod R)%nat.
  Definition padding (m : list N) : list N :=
    match fillc m with
    | O => [N.lor P 128]
    | Datatypes.S k => P :: repeat 0 k ++ [128]
    end.

  Lemma padding_length m : length (padding m) = (1 + fillc m)%nat.
  Proof. unfold padding. destruct (fillc m) as [|k]; [reflexivity|]. cbn [length]. rewrite app_length, repeat_length. cbn. lia. Qed.

  Lemma modR_lt (m : list N) : (length m mod R < R)%nat.
  Proof. apply Nat.mod_upper_bound. lia. Qed.

  Lemma padded_aligned m : aligned R (m ++ padding m).
  Proof.
    unfold aligned. rewrite app_length, padding_length. unfold fillc. pose proof (modR_lt m).
    rewrite <- Nat.add_mod_idemp_l by lia. replace (length m mod R + (1 + (R - 1 - length m mod R)))%nat with R by lia.
    apply Nat.mod_same. lia.
  Qed.

  Lemma P128 : byte_bits (N.lor P 128) = sfx ++ [true] ++ repeat false (6 - length sfx) ++ [true].
  Proof.
    assert (byte_bits (N.lor P 128) = firstn 7 (byte_bits P) ++ [true]) as E.
    { unfold S.byte_bits. change (seq 0 8) with (seq 0 7 ++ [7%nat]). rewrite !map_app.
      rewrite firstn_app, map_length, seq_length, Nat.sub_diag, firstn_all2 by (now rewrite map_length, seq_length).
      rewrite firstn_O, app_nil_r. f_equal.
      - apply map_ext_in. intros i Hi. apply in_seq in Hi. rewrite !tb, N.lor_spec.
        change 128 with (2 ^ 7). rewrite N.pow2_bits_eqb. destruct (N.eqb_spec 7 (N.of_nat i)); [lia|apply orb_false_r].
      - cbn [map]. rewrite tb, N.lor_spec. now rewrite (orb_comm _ (N.testbit 128 _)). }
    rewrite E, HP. replace (7 - length sfx)%nat with (Datatypes.S (6 - length sfx)) by lia.
    rewrite repeat_S_end, !app_assoc. f_equal.
    rewrite firstn_app. rewrite !app_length, repeat_length. cbn [length].
    replace (7 - (length sfx + 1 + (6 - length sfx)))%nat with 0%nat by lia. rewrite firstn_O, app_nil_r.
    apply firstn_all2. rewrite !app_length, repeat_length. cbn [length]. lia.
  Qed.

  Lemma padding_bits m : bits_of m ++ sfx ++ S.pad101 (8 * R) (length (bits_of m ++ sfx)) = bits_of (m ++ padding m).
  Proof.
    rewrite bits_of_app. f_equal. unfold S.pad101. rewrite app_length, bits_of_length.
    pose proof (modR_lt m) as Hr. unfold padding, fillc.
    assert ((8 * R - (8 * length m + length sfx + 2) mod (8 * R)) mod (8 * R) = 8 * (R - 1 - length m mod R) + (6 - length sfx))%nat as ->.
    { assert ((8 * length m + length sfx + 2) mod (8 * R) = 8 * (length m mod R) + length sfx + 2)%nat as ->.
      { rewrite (Nat.div_mod (length m) R) at 1 by lia. set (r := (length m mod R)%nat) in *. set (k := (length m / R)%nat). clearbody r k.
        replace (8 * (R * k + r) + length sfx + 2)%nat with ((8 * r + length sfx + 2) + k * (8 * R))%nat by lia.
        rewrite Nat.mod_add by lia. apply Nat.mod_small. lia. }
      rewrite Nat.mod_small by lia. lia. }
    destruct (R - 1 - length m mod R)%nat as [|k].
    - rewrite Nat.mul_0_r, Nat.add_0_l. change (bits_of [N.lor P 128]) with (byte_bits (N.lor P 128) ++ []).
      rewrite app_nil_r, P128. reflexivity.
    - change (bits_of (P :: repeat 0 k ++ [128])) with (byte_bits P ++ bits_of (repeat 0 k ++ [128])).
      rewrite HP, bits_of_app, bits_of_zeros. change (bits_of [128]) with (repeat false 7 ++ [true]).
      rewrite <- !app_assoc. do 2 f_equal. rewrite !app_assoc. f_equal. rewrite <- !repeat_app. f_equal. lia.
  Qed.

  Lemma padding_bytes m : bytes_ok (padding m).
  Proof.
    unfold padding. destruct (fillc m).
    - constructor; [|constructor]. change (bnd 8 (N.lor P 128)). apply bnd_lor; [unfold bnd; lia|reflexivity].
    - constructor; [unfold byte_ok; lia|]. apply bytes_ok_app. split; [apply bytes_ok_repeat; reflexivity|repeat constructor].
  Qed.

  (** ** squeezing *)
  Variable d : nat.
  Definition s0 : M.St := M.mkSt (repeat 0 25) [] d.

  Lemma inv0 : inv s0.
  Proof. split; [reflexivity|]. apply Forall_bndb. reflexivity. Qed.

  Definition sqF (l : list N) : list N := firstn R (flat_map (le_bytes 8) l).
  Lemma sqF_length l : sok l -> length (sqF l) = R.
  Proof. intros [H _]. unfold sqF. rewrite firstn_length, (flat_length _ 8), H by apply le_bytes_length. lia. Qed.
  Lemma sqF_bytes l : bytes_ok (sqF l).
  Proof. apply bytes_ok_firstn, bytes_ok_flat_map, le_bytes_ok. Qed.
  Lemma sqF_bits l : sok l -> firstn (8 * R) (lane_bits l) = bits_of (sqF l).
  Proof. intros [_ H]. rewrite lane_bits_bytes by exact H. apply bits_of_firstn. Qed.

  Lemma zero_block s : inv s -> M.impl R dbg (repeat 0 R) s = Ok (M.mkSt (keccak_f (M.k_state s)) (M.k_final s) (M.k_len s)).
  Proof.
    intros Hs. assert (aligned R (repeat 0 R)) as Ha by (unfold aligned; rewrite repeat_length; apply Nat.mod_same; lia).
    destruct (impl_ok (repeat 0 R) s Hs) as [E _]; [apply bytes_ok_repeat; reflexivity|exact Ha|].
    rewrite E. unfold run, chain. rewrite pieces_one by (try apply repeat_length; lia). cbn [fold_left].
    do 2 f_equal. unfold step. f_equal. destruct Hs as [Hl _].
    apply (nth_ext _ _ 0 0); [unfold xorw; now rewrite map_length, seq_length|].
    intros i Hi. unfold xorw in *. rewrite map_length, seq_length in Hi. rewrite nth_seq_map by exact Hi.
    rewrite <- (N.lxor_0_r (nth i (M.k_state s) 0)) at 2. f_equal.
    assert (Forall (fun w => w = 0) (le_words 8 (repeat 0 R))) as Hz.
    { clear. unfold le_words. induction q as [|k IH]; [constructor|]. replace (8 * Datatypes.S k)%nat with (8 + 8 * k)%nat by lia.
      rewrite repeat_app, pieces_cons by (try reflexivity; lia). cbn [map]. constructor; [reflexivity|exact IH]. }
    destruct (Nat.lt_ge_cases i (length (le_words 8 (repeat 0 R)))) as [H|H]; [|now apply nth_overflow].
    rewrite Forall_forall in Hz. apply Hz. now apply nth_In.
  Qed.

  (** the loop of finalize and the one of the standard, in step *)
  Lemma squish_ok : forall fuel s F, inv s -> M.k_final s = F -> bytes_ok F -> M.k_len s = d -> (d <= length F + fuel * R)%nat ->
    exists s', M.squish R dbg (Datatypes.S fuel) s = Ok s' /\ inv s' /\ M.k_len s' = d /\ bytes_ok (M.k_final s') /\ (d <= length (M.k_final s'))%nat /\
      forall fuel', (fuel <= fuel')%nat ->
        S.squeeze fuel' (8 * R) (8 * d) (bits_of F) (lane_bits (M.k_state s)) = bits_of (firstn d (M.k_final s')).
  Proof.
    induction fuel as [|fuel IH]; intros s F Hs HF Hb Hd Hf.
    all: rewrite <- HF in *; clear F HF.
    all: set (n := M.squish R dbg (Datatypes.S _)); subst n; cbn [M.squish].
    all: assert (M.stateToVector (M.k_state s) = flat_map (le_bytes 8) (M.k_state s)) as ->
      by (unfold M.stateToVector; apply flat_map_ext; intros; apply word_bytes_le_ok).
    all: assert (length (flat_map (le_bytes 8) (M.k_state s)) = 200%nat) as L
      by (rewrite (flat_length _ 8) by apply le_bytes_length; destruct Hs as [Hl _]; rewrite Hl; reflexivity).
    all: rewrite L; destruct (Nat.leb_spec R 200); [|lia]; rewrite bind_ok; cbn [M.k_state M.k_final M.k_len];
      fold (sqF (M.k_state s)); rewrite Hd; pose proof (sqF_length _ Hs) as LF; rewrite app_length, LF.
    all: assert (forall fuel', S.squeeze fuel' (8 * R) (8 * d) (bits_of (M.k_final s)) (lane_bits (M.k_state s)) =
        if (d <=? length (M.k_final s) + R)%nat then bits_of (firstn d (M.k_final s ++ sqF (M.k_state s)))
        else match fuel' with O => [] | Datatypes.S k => S.squeeze k (8 * R) (8 * d) (bits_of (M.k_final s ++ sqF (M.k_state s))) (lane_bits (keccak_f (M.k_state s))) end) as ES.
    1,3: intros fuel'; destruct Hs as [Hs1 Hs2]; destruct fuel' as [|fuel']; cbn [S.squeeze];
      rewrite (sqF_bits (M.k_state s)) by (split; assumption); rewrite <- bits_of_app, bits_of_length, app_length, LF;
      rewrite <- (keccak_f_bits (M.k_state s)) || idtac; try assumption;
      (destruct (Nat.leb_spec (8 * d) (8 * (length (M.k_final s) + R))), (Nat.leb_spec d (length (M.k_final s) + R)); try lia);
      first [apply bits_of_firstn|reflexivity].
    - destruct (Nat.leb_spec d (length (M.k_final s) + R)) as [Hle|Hgt]; [|lia].
      eexists. split; [reflexivity|]. cbn [M.k_state M.k_final M.k_len].
      split; [exact Hs|]. split; [reflexivity|]. split; [apply bytes_ok_app; split; [exact Hb|apply sqF_bytes]|].
      split; [rewrite app_length, LF; exact Hle|]. intros fuel' _. apply ES.
    - destruct (Nat.leb_spec d (length (M.k_final s) + R)) as [Hle|Hgt].
      + eexists. split; [reflexivity|]. cbn [M.k_state M.k_final M.k_len].
        split; [exact Hs|]. split; [reflexivity|]. split; [apply bytes_ok_app; split; [exact Hb|apply sqF_bytes]|].
        split; [rewrite app_length, LF; exact Hle|]. intros fuel' _. apply ES.
      + rewrite zero_block by exact Hs. rewrite bind_ok. cbn [M.k_state M.k_final M.k_len].
        match goal with |- context [match fuel with _ => _ end] => idtac | _ => idtac end.
        destruct (IH (M.mkSt (keccak_f (M.k_state s)) (M.k_final s ++ sqF (M.k_state s)) d) (M.k_final s ++ sqF (M.k_state s))) as (s' & E & H1 & H2 & H3 & H4 & H5);
          [apply sok_f, Hs|reflexivity|apply bytes_ok_app; split; [exact Hb|apply sqF_bytes]|reflexivity|rewrite app_length, LF; lia|].
        exists s'. split; [exact E|]. do 4 (split; [assumption|]).
        intros fuel' Hf'. destruct fuel' as [|fuel']; [lia|]. rewrite ES. apply H5. lia.
  Qed.

  Lemma iter_inside {A} n (f : A -> A) x : Nat.iter (Datatypes.S n) f x = Nat.iter n f (f x).
  Proof using. induction n as [|n IH]; [reflexivity|]. change (f (Nat.iter (Datatypes.S n) f x) = f (Nat.iter n f (f x))). now rewrite IH. Qed.
  (** how often the loop applies the permutation: an output of at most one block is taken from the absorbed state as it is *)
  Lemma squish_count : forall fuel s s', inv s -> M.k_len s = d -> M.squish R dbg fuel s = Ok s' ->
    M.k_state s' = Nat.iter ((d - length (M.k_final s) - 1) / R) keccak_f (M.k_state s).
  Proof.
    induction fuel as [|fuel IH]; intros s s' Hs Hd E; [discriminate|]. cbn [M.squish] in E.
    assert (length (M.stateToVector (M.k_state s)) = 200%nat) as L.
    { unfold M.stateToVector. rewrite (flat_length _ 8) by (intros x; rewrite word_bytes_le_ok; apply le_bytes_length).
      destruct Hs as [Hl _]. rewrite Hl. reflexivity. }
    rewrite L in E. destruct (Nat.leb_spec R 200); [|lia]. rewrite bind_ok in E. cbn [M.k_state M.k_final M.k_len] in E.
    rewrite app_length, firstn_length, L, Nat.min_l, Hd in E by lia.
    destruct (Nat.leb_spec d (length (M.k_final s) + R)) as [Hle|Hgt].
    - apply (f_equal (fun r => match r with Ok y => M.k_state y | _ => [] end)) in E. cbn [M.k_state] in E. rewrite <- E.
      rewrite Nat.div_small by lia. reflexivity.
    - rewrite zero_block in E by exact Hs. rewrite bind_ok in E. cbn [M.k_state M.k_final M.k_len] in E.
      apply IH in E; [|apply sok_f, Hs|reflexivity]. cbn [M.k_state M.k_final] in E. rewrite app_length, firstn_length, L, Nat.min_l in E by lia. rewrite E.
      set (f := length (M.k_final s)) in *. replace (d - f - 1)%nat with ((d - (f + R) - 1) + 1 * R)%nat by lia.
      rewrite Nat.div_add by lia. rewrite Nat.add_1_r. rewrite iter_inside. reflexivity.
  Qed.

  (** ** the class *)
  Definition hash (m : list N) : list N := S.bytes_of (S.sponge (8 * R) (8 * d) (bits_of m ++ sfx)).

  Definition absorbed (m : list N) : M.St := run (m ++ padding m) s0.

  Lemma absorbed_ok m : bytes_ok m -> inv (absorbed m).
  Proof. intros H. apply impl_ok; [apply inv0|apply bytes_ok_app; split; [exact H|apply padding_bytes]|apply padded_aligned]. Qed.

  Lemma lane_bits_zero n : lane_bits (repeat 0 n) = repeat false (64 * n).
  Proof.
    induction n as [|n IH]; [reflexivity|]. replace (64 * Datatypes.S n)%nat with (64 + 64 * n)%nat by lia.
    rewrite repeat_app, <- IH. reflexivity.
  Qed.

  (** what finalize leaves *)
  Lemma squish_hash m : bytes_ok m -> exists s', M.squish R dbg (Datatypes.S d) (absorbed m) = Ok s' /\ M.k_len s' = d /\
    M.resize d (M.k_final s') = hash m /\ bytes_ok (hash m).
  Proof.
    intros Hm. destruct (squish_ok d (absorbed m) [] (absorbed_ok m Hm) eq_refl (Forall_nil _) eq_refl) as (s' & E & _ & H2 & H3 & H4 & H5).
    { assert (0 < R)%nat by lia. cbn [length]. nia. }
    exists s'. split; [exact E|]. split; [exact H2|].
    assert (hash m = firstn d (M.k_final s')) as Eh.
    { unfold hash, S.sponge. rewrite <- app_assoc, padding_bits.
      replace (repeat false 1600) with (lane_bits (M.k_state s0)) by (unfold s0; cbn [M.k_state]; rewrite lane_bits_zero; reflexivity).
      rewrite run_bits; [|apply inv0|apply bytes_ok_app; split; [exact Hm|apply padding_bytes]|apply padded_aligned].
      fold (absorbed m). change (@nil bool) with (bits_of []). rewrite H5 by lia.
      apply bytes_of_bits. now apply bytes_ok_firstn. }
    rewrite Eh. split; [|now apply bytes_ok_firstn]. unfold M.resize.
    replace (d - length (M.k_final s'))%nat with 0%nat by lia. apply app_nil_r.
  Qed.

  Lemma padding_mod m : padding (rest R m) = padding m.
  Proof.
    unfold padding, fillc. rewrite rest_length by lia. now rewrite Nat.mod_mod by lia.
  Qed.

  Lemma finalize_ok m : bytes_ok m -> exists o, M.finalize R P dbg (absorb R R run s0 m) = Ok o /\
    M.k_final (snd o) = hash m /\ M.k_len (snd o) = d /\ length (b_arr (fst o)) = R /\ bytes_ok (hash m) /\
    M.k_state (snd o) = Nat.iter ((d - 1) / R) keccak_f (M.k_state (absorbed m)).
  Proof.
    intros Hm. pose proof (rest_lt R m ltac:(lia)) as Hr. pose proof (rest_length R m ltac:(lia)) as Hrl.
    unfold M.finalize, absorb. rewrite fill_canon by lia. rewrite bind_ok, canon_size, app_length. cbn [length repeat].
    assert ((2 * R - (length (rest R m) + 1)) mod R = fillc m)%nat as ->.
    { unfold fillc. rewrite Hrl. pose proof (modR_lt m).
      replace (2 * R - (length m mod R + 1))%nat with ((R - 1 - length m mod R) + 1 * R)%nat by lia.
      rewrite Nat.mod_add by lia. apply Nat.mod_small. lia. }
    assert (length (rest R m) + 1 + fillc m = R)%nat as Hfull by (unfold fillc; rewrite Hrl; pose proof (modR_lt m); lia).
    rewrite fill_canon by (rewrite ?app_length; cbn [length]; lia). rewrite bind_ok.
    assert (exists buf, (let! v := buf_get_from_end 1 (canon R ((rest R m ++ [P]) ++ repeat 0 (fillc m))) in
        buf_set_from_end 1 0 (N.lor v 128) (canon R ((rest R m ++ [P]) ++ repeat 0 (fillc m)))) = Ok buf /\
        buf = canon R (rest R m ++ padding m)) as (buf & Eb & Hbuf).
    { unfold padding. destruct (fillc m) as [|k] eqn:Ek.
      - cbn [repeat]. rewrite app_nil_r. rewrite (get_from_end_canon R (rest R m) P []) by (cbn [length]; lia). rewrite bind_ok.
        rewrite set_from_end_canon by (cbn [length]; lia). eexists. split; reflexivity.
      - rewrite repeat_S_end, app_assoc. rewrite (get_from_end_canon R _ 0 []) by (rewrite ?app_length, ?repeat_length; cbn [length]; lia).
        rewrite bind_ok. rewrite set_from_end_canon by (rewrite ?app_length, ?repeat_length; cbn [length]; lia). eexists. split; [reflexivity|].
        rewrite <- !app_assoc. reflexivity. }
    rewrite <- bind_assoc. rewrite Eb, Hbuf, bind_ok, canon_span.
    assert (length (rest R m ++ padding m) = R) as LB by (rewrite app_length, padding_length; lia).
    destruct (impl_ok (rest R m ++ padding m) (run (pre R m) s0)) as [Ei _].
    { apply impl_ok; [apply inv0|now apply bytes_ok_pre|apply pre_aligned; lia]. }
    { apply bytes_ok_app. split; [now apply bytes_ok_rest|apply padding_bytes]. }
    { unfold aligned. rewrite LB. apply Nat.mod_same. lia. }
    rewrite Ei, bind_ok, <- run_app by (apply pre_aligned; lia).
    rewrite app_assoc, pre_rest. fold (absorbed m). change (M.k_len (absorbed m)) with d.
    destruct (squish_hash m Hm) as (s' & Es & E1 & E2 & E3). rewrite Es, bind_ok. eexists. split; [reflexivity|].
    cbn [fst snd M.k_final M.k_len M.k_state]. rewrite E1. split; [exact E2|]. split; [reflexivity|]. split; [|split; [exact E3|]].
    - rewrite canon_clear by lia. apply canon_arr_length. cbn; lia.
    - rewrite (squish_count (Datatypes.S d) (absorbed m) s' (absorbed_ok m Hm) eq_refl Es).
      change (length (M.k_final (absorbed m))) with 0%nat. now rewrite Nat.sub_0_r.
  Qed.

  Definition done (m : list N) : Buffer * M.St :=
    match M.finalize R P dbg (absorb R R run s0 m) with Ok o => o | _ => absorb R R run s0 m end.

  Theorem core_implements : Implements (M.cls R P dbg d) hash (fun _ => True) (absorb R R run s0) done.
  Proof.
    unfold done.
    assert (M.new R d = (canon R [], s0)) as Enew.
    { unfold M.new, M.reset. cbn [fst snd M.k_len]. rewrite <- canon_nil, canon_clear by (cbn; lia). reflexivity. }
    constructor; unfold M.cls; cbn [c_new c_add c_finalize c_reset c_array Obj].
    - rewrite Enew, absorb_nil by (try reflexivity; lia). now rewrite canon_nil.
    - intros m e Hm He. unfold M.addData.
      apply (addData_ok R R dbg (M.impl R dbg) inv run s0); try lia; auto using inv0.
      + intros x s Hs [Hx _] Ha. now apply impl_ok.
      + intros x s Hs Hx Ha. now apply impl_ok.
      + intros x y s _ _ Ha _ _. now apply run_app.
    - intros m Hm _. destruct (finalize_ok m Hm) as (o & -> & _). reflexivity.
    - intros m Hm _. destruct (finalize_ok m Hm) as (o & -> & E & _). unfold M.toVector. now rewrite E.
    - intros m Hm. rewrite Enew. unfold M.reset, absorb. cbn [fst snd M.k_len run].
      rewrite canon_clear by (pose proof (rest_lt R m ltac:(lia)); lia). reflexivity.
    - intros m Hm _. rewrite Enew. destruct (finalize_ok m Hm) as (o & -> & _ & E2 & E3 & _). unfold M.reset. rewrite E2.
      unfold buf_clear. rewrite E3, canon_nil. reflexivity.
    - intros m Hm _. now destruct (finalize_ok m Hm) as (o & _ & _ & _ & _ & E & _).
  Qed.

  Lemma done_squeezed m : bytes_ok m ->
    M.k_state (snd (done m)) = Nat.iter ((d - 1) / R) keccak_f (chain R step (repeat 0 25) (m ++ padding m)).
  Proof. intros Hm. unfold done. destruct (finalize_ok m Hm) as (o & -> & _ & _ & _ & _ & E). exact E. Qed.
  Lemma done_state m : bytes_ok m -> (d <= R)%nat -> M.k_state (snd (done m)) = chain R step (repeat 0 25) (m ++ padding m).
  Proof. intros Hm Hd. rewrite done_squeezed by exact Hm. rewrite Nat.div_small by lia. reflexivity. Qed.

  Theorem core_correct : Correct (M.cls R P dbg d) hash (fun _ => True).
  Proof. exists (absorb R R run s0), done. exact core_implements. Qed.
End Sponge.

Definition sfx_sha3 : S.bits := [false; true].
Definition sfx_shake : S.bits := [true; true; true; true].


(** an instance: the same rate and length, however they are written *)
Lemma instance q P dbg sfx d Rb dl r dbits (hash' : list N -> list N) :
  (0 < q)%nat -> (q <= 25)%nat -> (length sfx <= 5)%nat ->
  byte_bits P = sfx ++ [true] ++ repeat false (7 - length sfx) -> P < 128 ->
  Rb = (8 * q)%nat -> dl = d -> r = (8 * (8 * q))%nat -> dbits = (8 * d)%nat ->
  (forall m, hash' m = S.bytes_of (S.sponge r dbits (bits_of m ++ sfx))) ->
  Correct (M.cls Rb P dbg dl) hash' (fun _ => True).
Proof.
  intros H1 H2 H3 H4 H5 -> -> -> -> Hh. apply (correct_ext (hash q sfx d)); [intros m _; symmetry; apply Hh|].
  now apply core_correct.
Qed.

(** the same for all output lengths at once *)
Lemma instance_uniform q P dbg sfx Rb r (hash' : nat -> list N -> list N) :
  (0 < q)%nat -> (q <= 25)%nat -> (length sfx <= 5)%nat ->
  byte_bits P = sfx ++ [true] ++ repeat false (7 - length sfx) -> P < 128 ->
  Rb = (8 * q)%nat -> r = (8 * (8 * q))%nat ->
  (forall d m, hash' d m = S.bytes_of (S.sponge r (8 * d) (bits_of m ++ sfx))) ->
  exists absorb done : nat -> list N -> Buffer * M.St,
    forall d, Implements (M.cls Rb P dbg d) (hash' d) (fun _ => True) (absorb d) (done d).
Proof.
  intros H1 H2 H3 H4 H5 -> -> Hh. exists (fun d => absorb (8 * q) (8 * q) (run q) (s0 d)), (done q P dbg). intros d.
  destruct (core_implements q P dbg H1 H2 sfx H3 H4 H5 d) as [I1 I2 I3 I4 I5 I6 I7].
  constructor; try assumption.
  - intros m Hm Hd. rewrite Hh. now apply I4.
  - intros m Hm Hd. rewrite Hh. now apply I7.
Qed.

Theorem sha3_224_correct dbg : Correct (M.cls224 dbg) S.sha3_224 (fun _ => True).
Proof. apply (instance 18 0x06 dbg sfx_sha3 28 _ _ 1152 224); try reflexivity; cbn; lia. Qed.
Theorem sha3_256_correct dbg : Correct (M.cls256 dbg) S.sha3_256 (fun _ => True).
Proof. apply (instance 17 0x06 dbg sfx_sha3 32 _ _ 1088 256); try reflexivity; cbn; lia. Qed.
Theorem sha3_384_correct dbg : Correct (M.cls384 dbg) S.sha3_384 (fun _ => True).
Proof. apply (instance 13 0x06 dbg sfx_sha3 48 _ _ 832 384); try reflexivity; cbn; lia. Qed.
Theorem sha3_512_correct dbg : Correct (M.cls512 dbg) S.sha3_512 (fun _ => True).
Proof. apply (instance 9 0x06 dbg sfx_sha3 64 _ _ 576 512); try reflexivity; cbn; lia. Qed.
Theorem shake128_correct dbg d : Correct (M.shake128 dbg d) (S.shake128 d) (fun _ => True).
Proof. apply (instance 21 0x1F dbg sfx_shake d _ _ 1344 (8 * d)); try reflexivity; cbn; lia. Qed.
Theorem shake256_correct dbg d : Correct (M.shake256 dbg d) (S.shake256 d) (fun _ => True).
Proof. apply (instance 17 0x1F dbg sfx_shake d _ _ 1088 (8 * d)); try reflexivity; cbn; lia. Qed.
