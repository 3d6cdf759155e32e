(** Correctness of the padding code and of the whole class for length-strengthened hashes. *)
From Coq Require Import List NArith Arith Bool Lia ZArith ZifyNat ZifyN.
From Verif.Base Require Import Res CWord.
From Verif.Spec Require Import Words Merkle.
From Verif.Model Require Import Buffer Stream Api.
From Verif.Proof Require Import Words Streaming Blocks Api.
Import ListNotations.

(** ** lengths *)

Lemma pad_len_spec B r size : 0 < B -> size + r <= 2 * B -> (N.of_nat (2 * B) < 2 ^ 64)%N ->
  pad_len B r size = (2 * B - (size + r)) mod B.
Proof.
  intros HB Hs H64. unfold pad_len. rewrite usub_spec. unfold sub.
  pose proof (pow2_nz 64) as Hnz. set (P := (2 ^ 64)%N) in *. clearbody P.
  rewrite (N.mod_small (N.of_nat size + N.of_nat r)) by lia.
  replace (2 * N.of_nat B + (P - (N.of_nat size + N.of_nat r)))%N
    with (N.of_nat (2 * B - (size + r)) + 1 * P)%N by lia.
  rewrite N.mod_add by exact Hnz. rewrite (N.mod_small _ P) by lia.
  rewrite <- Nnat.Nat2N.inj_mod. apply Nnat.Nat2N.id.
Qed.

Lemma zeros_rest B r m : 0 < B -> r <= B ->
  zeros B r (length m) = (2 * B - (S (length (rest B m)) + r)) mod B.
Proof.
  intros HB Hr. unfold zeros. rewrite rest_length by exact HB.
  pose proof (Nat.mod_upper_bound (length m) B ltac:(lia)) as Hlt.
  replace ((length m + 1 + r) mod B) with ((length m mod B + 1 + r) mod B)
    by (rewrite <- !Nat.add_assoc; apply Nat.add_mod_idemp_l; lia).
  set (k := length m mod B) in *.
  destruct (Nat.lt_trichotomy (k + 1 + r) B) as [H|[H|H]].
  - rewrite (Nat.mod_small (k + 1 + r)) by lia.
    replace (2 * B - (S k + r)) with ((B - (k + 1 + r)) + 1 * B) by lia.
    now rewrite Nat.mod_add by lia.
  - rewrite H, Nat.mod_same, Nat.sub_0_r by lia.
    replace (2 * B - (S k + r)) with B by lia. reflexivity.
  - destruct (Nat.eq_dec (k + 1 + r) (2 * B)) as [E|NE].
    + rewrite E. replace (2 * B) with (0 + 2 * B) at 1 by lia. rewrite Nat.mod_add by lia.
      rewrite (Nat.mod_small 0) by lia. rewrite Nat.sub_0_r, Nat.mod_same by lia.
      replace (2 * B - (S k + r)) with 0 by lia. symmetry; apply Nat.mod_0_l; lia.
    + replace (k + 1 + r) with ((k + 1 + r - B) + 1 * B) by lia. rewrite Nat.mod_add by lia.
      rewrite (Nat.mod_small (k + 1 + r - B)) by lia.
      replace (2 * B - (S k + r)) with (B - (k + 1 + r - B)) by lia. reflexivity.
Qed.

Lemma zeros_le B r len : 0 < B -> zeros B r len < B.
Proof. intros H. unfold zeros. apply Nat.mod_upper_bound. lia. Qed.

Lemma zeros_aligned B r len : 0 < B -> (len + 1 + r + zeros B r len) mod B = 0.
Proof.
  intros H. unfold zeros. rewrite Nat.add_mod_idemp_r by lia.
  rewrite <- Nat.add_mod_idemp_l by lia.
  pose proof (Nat.mod_upper_bound (len + 1 + r) B ltac:(lia)).
  replace ((len + 1 + r) mod B + (B - (len + 1 + r) mod B)) with B by lia.
  apply Nat.mod_same. lia.
Qed.

Lemma pad_aligned B r mk enc m : 0 < B -> (forall x, length (enc x) = r) -> aligned B (pad B r mk enc m).
Proof.
  intros HB He. unfold aligned, pad. rewrite !app_length, repeat_length, He. cbn [length].
  replace (length m + (1 + (zeros B r (length m) + r))) with (length m + 1 + r + zeros B r (length m)) by lia.
  apply zeros_aligned, HB.
Qed.

Lemma pad_bytes B r mk enc m : bytes_ok m -> (mk < 256)%N -> (forall x, bytes_ok (enc x)) ->
  bytes_ok (pad B r mk enc m).
Proof.
  intros Hm Hk He. unfold pad. repeat (apply bytes_ok_app; split); auto.
  - repeat constructor. exact Hk.
  - apply bytes_ok_repeat. reflexivity.
Qed.

(** the padded tail that finalize builds in the buffer *)
Lemma pad_tail B r mk enc m : pad B r mk enc m =
  pre B m ++ (rest B m ++ [mk] ++ repeat 0%N (zeros B r (length m)) ++ enc (8 * N.of_nat (length m))%N).
Proof. unfold pad. rewrite !app_assoc. do 3 f_equal. symmetry. apply pre_rest. Qed.

(** ** the length field *)

Lemma set_from_end_canon cap x y k i v : k <= length y -> i < k -> length x + length y <= cap ->
  buf_set_from_end k i v (canon cap (x ++ y)) = Ok (canon cap (x ++ upd y (length y - k + i) v)).
Proof.
  intros Hy Hi Hc. unfold buf_set_from_end, canon. cbn [b_end b_arr].
  rewrite !app_length, upd_length. destruct (Nat.ltb_spec (length x + length y + i) k); [lia|].
  rewrite <- app_assoc.
  replace (length x + length y + i - k) with (length x + (length y - k + i)) by lia.
  rewrite aset_app_r by (rewrite app_length; lia). cbn [bind].
  rewrite upd_app_l by lia. rewrite <- app_assoc. reflexivity.
Qed.

Lemma ror_ror s t r1 x : (t + 8 <= r1)%N -> ror 8 (ror r1 x s) t = ((x / 2 ^ (s + t)) mod 256)%N.
Proof.
  intros H. unfold ror. change 256%N with (2 ^ 8)%N. apply N.bits_inj; intros i.
  rewrite testbit_trunc, N.shiftr_spec, testbit_trunc, N.shiftr_spec by lia.
  destruct (N.ltb_spec i 8) as [Hi|Hi].
  - rewrite N.mod_pow2_bits_low by exact Hi. rewrite <- N.shiftr_div_pow2, N.shiftr_spec by lia.
    destruct (N.ltb_spec (i + t) r1); [|lia]. rewrite !andb_true_r. f_equal. lia.
  - rewrite N.mod_pow2_bits_high by exact Hi. now rewrite andb_false_r.
Qed.

Lemma write_len_be_ok cap x bits : length x + 8 <= cap ->
  write_len_be bits (canon cap (x ++ repeat 0%N 8)) = Ok (canon cap (x ++ be_bytes 8 bits)).
Proof.
  intros Hc. unfold write_len_be.
  cbn [for_ bind].
  repeat (rewrite set_from_end_canon by (cbn [length upd repeat]; lia);
          cbn [bind length upd repeat Nat.sub Nat.add]).
  unfold be_bytes. rewrite le_bytes_seq. cbn [seq map rev app].
  rewrite !ror_ror by (cbn; discriminate). reflexivity.
Qed.

Lemma write_len_le_ok cap x bits : length x + 8 <= cap ->
  write_len_le bits (canon cap (x ++ repeat 0%N 8)) = Ok (canon cap (x ++ le_bytes 8 bits)).
Proof.
  intros Hc. unfold write_len_le.
  cbn [for_ bind].
  repeat (rewrite set_from_end_canon by (cbn [length upd repeat]; lia);
          cbn [bind length upd repeat Nat.sub Nat.add]).
  rewrite le_bytes_seq. cbn [seq map rev app].
  rewrite !ror_ror by (cbn; discriminate). reflexivity.
Qed.

Lemma le_bytes_mod n x : le_bytes n (x mod 256 ^ N.of_nat n) = le_bytes n x.
Proof.
  revert x; induction n as [|n IH]; intros x; [reflexivity|]. cbn [le_bytes].
  rewrite Nnat.Nat2N.inj_succ, N.pow_succ_r', N.mod_mul_r by (try apply N.pow_nonzero; discriminate).
  f_equal.
  - rewrite N.mul_comm, N.mod_add, N.mod_mod by discriminate. reflexivity.
  - rewrite N.mul_comm, N.div_add by discriminate.
    rewrite N.div_small by (apply N.mod_lt; discriminate). apply IH.
Qed.

Lemma be_bytes_mod n x : be_bytes n (x mod 256 ^ N.of_nat n) = be_bytes n x.
Proof. unfold be_bytes. now rewrite le_bytes_mod. Qed.

(** ** the 64-bit counter class *)

Section MD.
  Context {H : Type}.
  Variables (B : nat) (dbg : bool) (padbyte : N).
  Variables (write_len : N -> Buffer -> res Buffer) (enc : N -> list N).
  Variables (compress : list N -> H -> res H) (iv : H) (arr : H -> res (list N)).
  Variables (cf : H -> list N -> H) (out : H -> list N) (inv : H -> Prop).
  Hypothesis HB : 8 <= B.
  Hypothesis H64 : (N.of_nat (2 * B) < 2 ^ 64)%N.
  Hypothesis Hpb : (padbyte < 256)%N.
  Hypothesis Hwrite : forall cap x bits, length x + 8 <= cap ->
    write_len bits (canon cap (x ++ repeat 0%N 8)) = Ok (canon cap (x ++ enc bits)).
  Hypothesis Henc_len : forall x, length (enc x) = 8.
  Hypothesis Henc_ok : forall x, bytes_ok (enc x).
  Hypothesis Henc_mod : forall x, enc (x mod 2 ^ 64)%N = enc x.
  Hypothesis Hiv : inv iv.
  Hypothesis Hc : forall blk tl h, inv h -> length blk = B -> bytes_ok blk ->
    compress (blk ++ tl) h = Ok (cf h blk) /\ inv (cf h blk).
  Hypothesis Harr : forall h, inv h -> arr h = Ok (out h) /\ bytes_ok (out h).

  Let HB0 : 0 < B.
  Proof. lia. Qed.

  Definition md_run (d : list N) (s : MD H) : MD H :=
    mkMD (uadd 64 (md_cnt s) (N.of_nat (length d))) (chain B cf (md_h s) d).
  Definition md_inv (s : MD H) : Prop := inv (md_h s).
  Let s0 : MD H := mkMD 0%N iv.

  Lemma md_chain_inv d h : inv h -> bytes_ok d -> aligned B d -> inv (chain B cf h d).
  Proof. intros Hh Hd Ha. apply (block_loop_ok B compress cf inv HB0 Hc d Ha Hd h Hh). Qed.

  Lemma md_impl_ok d s : md_inv s -> bytes_ok d -> aligned B d ->
    md_impl B dbg compress d s = Ok (md_run d s).
  Proof.
    intros Hs Hd Ha. unfold md_impl. rewrite assert_ok by exact Ha. cbn [bind].
    destruct (block_loop_ok B compress cf inv HB0 Hc d Ha Hd (md_h s) Hs) as [-> _]. reflexivity.
  Qed.

  Lemma md_run_app x y s : aligned B x -> md_run (x ++ y) s = md_run y (md_run x s).
  Proof.
    intros Ha. unfold md_run, chain. cbn [md_cnt md_h].
    rewrite pieces_app, fold_left_app by assumption. f_equal.
    rewrite !uadd_mod, app_length, Nnat.Nat2N.inj_add, N.add_mod_idemp_l by apply pow2_nz.
    f_equal. lia.
  Qed.

  Definition md_absorb := absorb B (2 * B) md_run s0.
  Definition md_hash (m : list N) : H := chain B cf iv (pad B 8 padbyte enc m).
  Definition md_done (m : list N) : Buffer * MD H :=
    (canon (2 * B) [], mkMD (uadd 64 (uadd 64 0 (N.of_nat (length m)))
        (N.of_nat (length (rest B m ++ [padbyte] ++ repeat 0%N (zeros B 8 (length m)) ++ enc 0%N)))) (md_hash m)).

  Lemma md_finalize_ok m : bytes_ok m ->
    md_finalize B dbg padbyte write_len (md_impl B dbg compress) (md_absorb m) = Ok (md_done m).
  Proof.
    intros Hm. unfold md_finalize, md_absorb, absorb.
    pose proof (rest_lt B m HB0) as Hr. pose proof (zeros_rest B 8 m HB0 HB) as Hz.
    pose proof (zeros_le B 8 (length m) HB0) as Hzl.
    assert (length (rest B m) + 1 + zeros B 8 (length m) + 8 <= 2 * B) as Htot.
    { pose proof (Nat.mod_le (2 * B - (S (length (rest B m)) + 8)) B ltac:(lia)). lia. }
    rewrite canon_size. rewrite fill_canon by lia. cbn [bind repeat].
    rewrite canon_size, app_length. cbn [length].
    rewrite pad_len_spec by lia. rewrite Nat.add_1_r, <- Hz.
    rewrite fill_canon by (rewrite ?app_length; cbn [length]; lia). cbn [bind].
    rewrite repeat_app, app_assoc.
    rewrite Hwrite by (rewrite !app_length, repeat_length; cbn [length]; lia). cbn [bind].
    rewrite canon_span, canon_clear by (rewrite !app_length, Henc_len, repeat_length; cbn [length]; lia).
    set (tailb := ((rest B m ++ [padbyte]) ++ repeat 0%N (zeros B 8 (length m))) ++ enc _).
    (* the counter and the encoded length *)
    cbn [md_run md_cnt md_h s0].
    assert (uadd 64 (uadd 64 0 (N.of_nat (length (pre B m)))) (N.of_nat (length (rest B m)))
            = uadd 64 0 (N.of_nat (length m))) as Ecnt.
    { rewrite !uadd_mod, N.add_mod_idemp_l by apply pow2_nz. f_equal.
      rewrite <- (pre_rest B m) at 3. rewrite app_length. lia. }
    assert (tailb = rest B m ++ [padbyte] ++ repeat 0%N (zeros B 8 (length m)) ++ enc (8 * N.of_nat (length m))%N) as Etail.
    { unfold tailb. rewrite <- !app_assoc. do 3 f_equal. cbn [md_run md_cnt s0].
      rewrite Ecnt. rewrite <- (Henc_mod (8 * N.of_nat (length m))). f_equal.
      rewrite umul_spec, uadd_mod. unfold mul. rewrite N.add_0_l.
      rewrite N.mul_mod_idemp_l by apply pow2_nz. f_equal. lia. }
    rewrite Etail.
    assert (aligned B (rest B m ++ [padbyte] ++ repeat 0%N (zeros B 8 (length m)) ++ enc (8 * N.of_nat (length m))%N)) as Hal.
    { pose proof (pad_aligned B 8 padbyte enc m HB0 Henc_len) as Hp. rewrite pad_tail in Hp.
      unfold aligned in *. rewrite app_length in Hp.
      rewrite <- Nat.add_mod_idemp_l in Hp by lia.
      pose proof (pre_aligned B m HB0) as Hpa. unfold aligned in Hpa. rewrite Hpa in Hp. exact Hp. }
    rewrite md_impl_ok.
    - cbn [bind]. unfold md_done. f_equal. f_equal. unfold md_run. cbn [md_cnt md_h]. f_equal.
      + rewrite Ecnt. f_equal. rewrite !app_length, !Henc_len. reflexivity.
      + unfold md_hash. rewrite pad_tail. unfold chain.
        rewrite (pieces_app B (pre B m)) by auto using pre_aligned. now rewrite fold_left_app.
    - unfold md_inv. cbn [md_h]. apply md_chain_inv; auto using bytes_ok_pre, pre_aligned.
    - pose proof (pad_bytes B 8 padbyte enc m Hm Hpb Henc_ok) as Hp. rewrite pad_tail in Hp.
      apply bytes_ok_app in Hp. tauto.
    - exact Hal.
  Qed.

  Theorem md_implements :
    Implements (md_class B dbg padbyte write_len compress iv arr)
      (fun m => out (md_hash m)) (fun _ => True) md_absorb md_done.
  Proof.
    assert (forall m, bytes_ok m -> inv (md_hash m)) as Hhi.
    { intros m Hm. apply md_chain_inv; [exact Hiv| |].
      - apply pad_bytes; assumption.
      - apply pad_aligned; assumption. }
    assert (md_run [] s0 = s0) as Hnil by reflexivity.
    constructor.
    - cbn [md_class c_new]. unfold md_absorb. rewrite absorb_nil by (first [reflexivity | lia]). reflexivity.
    - intros m d Hm Hd. cbn [md_class c_add]. unfold md_absorb.
      apply (addData_ok B (2 * B) dbg (md_impl B dbg compress) md_inv md_run s0); auto.
      + lia.
      + lia.
      + intros d' s Hs [Hd' _] Ha. apply md_impl_ok; assumption.
      + intros d' s Hs Hd' Ha. apply md_chain_inv; assumption.
      + intros. apply md_run_app; assumption.
    - intros m Hm _. apply md_finalize_ok, Hm.
    - intros m Hm _. cbn [md_class c_array md_done snd md_h]. apply Harr, Hhi, Hm.
    - intros m Hm. cbn [md_class c_reset c_new]. unfold buf_clear, md_absorb.
      rewrite absorb_buf_length by lia. reflexivity.
    - intros m Hm _. cbn [md_class c_reset c_new md_done fst]. unfold buf_clear.
      rewrite canon_arr_length by (cbn; lia). reflexivity.
    - intros m Hm _. apply Harr, Hhi, Hm.
  Qed.
End MD.
