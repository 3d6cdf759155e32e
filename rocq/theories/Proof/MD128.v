(** The classes with a Uint128 length counter (sha2_384.h .. sha2_512_256.h, whirlpool.h). *)
From Coq Require Import List NArith Arith Bool Lia ZArith ZifyNat ZifyN.
From Verif.Base Require Import Res CWord.
From Verif.Spec Require Import Words Merkle.
From Verif.Model Require Import Buffer Stream Api.
From Verif.Proof Require Import Words Streaming Blocks Api MD.
Import ListNotations.

(** ** Uint128 holds a number modulo 2^128 *)

Definition u128_of (v : N) : Uint128 := mkU128 (v mod 2 ^ 64) ((v / 2 ^ 64) mod 2 ^ 64).
Definition u128_val (u : Uint128) : N := (u_lo u + 2 ^ 64 * u_hi u)%N.
Definition u128_ok (u : Uint128) : Prop := (u_lo u < 2 ^ 64 /\ u_hi u < 2 ^ 64)%N.

Lemma u128_of_ok v : u128_ok (u128_of v).
Proof. split; cbn [u128_of u_lo u_hi]; apply N.mod_lt, pow2_nz. Qed.

Lemma u128_val_of v : u128_val (u128_of v) = (v mod 2 ^ 128)%N.
Proof.
  unfold u128_val, u128_of; cbn [u_lo u_hi].
  change (2 ^ 128)%N with (2 ^ 64 * 2 ^ 64)%N. rewrite N.mod_mul_r by apply pow2_nz. reflexivity.
Qed.

Lemma u128_of_mod v : u128_of (v mod 2 ^ 128) = u128_of v.
Proof.
  unfold u128_of. change (2 ^ 128)%N with (2 ^ 64 * 2 ^ 64)%N.
  rewrite N.mod_mul_r by apply pow2_nz.
  rewrite (N.mul_comm (2 ^ 64) ((v / 2 ^ 64) mod 2 ^ 64)).
  rewrite N.mod_add, N.mod_mod by apply pow2_nz.
  rewrite N.div_add by apply pow2_nz.
  rewrite (N.div_small (v mod 2 ^ 64)) by (apply N.mod_lt, pow2_nz).
  rewrite N.add_0_l, N.mod_mod by apply pow2_nz. reflexivity.
Qed.

Lemma u128_of_val u : u128_ok u -> u128_of (u128_val u) = u.
Proof.
  intros [Hl Hh]. unfold u128_of, u128_val. destruct u as [lo hi]; cbn [u_lo u_hi] in *. f_equal.
  - rewrite (N.mul_comm (2 ^ 64) hi), N.mod_add by apply pow2_nz. apply N.mod_small, Hl.
  - rewrite (N.mul_comm (2 ^ 64) hi), N.div_add by apply pow2_nz.
    rewrite N.div_small by exact Hl. apply N.mod_small, Hh.
Qed.

Lemma u128_of_add v w : u128_of (v mod 2 ^ 128 + w) = u128_of (v + w).
Proof. rewrite <- (u128_of_mod (_ + w)), N.add_mod_idemp_l by apply pow2_nz. apply u128_of_mod. Qed.

Lemma u128_add_ok u n : u128_ok u -> (n < 2 ^ 64)%N -> u128_add u n = u128_of (u128_val u + n).
Proof.
  intros [Hl Hh] Hn. unfold u128_add, u128_of, u128_val. destruct u as [lo hi]; cbn [u_lo u_hi] in *.
  rewrite !uadd_mod.
  assert ((lo + 2 ^ 64 * hi + n) = (lo + n) + hi * 2 ^ 64)%N as -> by lia.
  rewrite N.mod_add, N.div_add by apply pow2_nz. f_equal.
  destruct (N.lt_ge_cases (lo + n) (2 ^ 64)) as [H|H].
  - rewrite (N.mod_small _ _ H). rewrite (N.div_small _ _ H), N.add_0_l, (N.mod_small hi) by exact Hh.
    destruct (N.ltb_spec (lo + n) lo); [lia|reflexivity].
  - assert ((lo + n) mod 2 ^ 64 = lo + n - 2 ^ 64)%N as E.
    { replace (lo + n)%N with ((lo + n - 2 ^ 64) + 1 * 2 ^ 64)%N at 1 by lia.
      rewrite N.mod_add by apply pow2_nz. apply N.mod_small. lia. }
    rewrite E. destruct (N.ltb_spec (lo + n - 2 ^ 64) lo); [|lia].
    assert ((lo + n) / 2 ^ 64 = 1)%N as ->.
    { replace (lo + n)%N with ((lo + n - 2 ^ 64) + 1 * 2 ^ 64)%N by lia.
      rewrite N.div_add by apply pow2_nz. rewrite N.div_small by lia. reflexivity. }
    f_equal. lia.
Qed.

Lemma u128_mul8_ok v : u128_mul8 (u128_of v) = u128_of (8 * v).
Proof.
  unfold u128_mul8. cbn [u128_of u_lo u_hi]. unfold u128_of.
  set (lo := (v mod 2 ^ 64)%N).
  assert (lo < 2 ^ 64)%N as Hlo by (apply N.mod_lt, pow2_nz).
  assert (v = lo + 2 ^ 64 * (v / 2 ^ 64))%N as Ev
    by (unfold lo; rewrite N.add_comm; apply N.div_mod, pow2_nz).
  set (q := (v / 2 ^ 64)%N) in *. clearbody lo q. subst v.
  rewrite !ushl_spec, ushr_spec, trunc_mod. unfold SHL, SHR. change (2 ^ 3)%N with 8%N.
  assert (lo / 2 ^ 61 < 8)%N as Hm by (apply N.div_lt_upper_bound; [apply pow2_nz|exact Hlo]).
  rewrite (N.mod_small (lo / 2 ^ 61)) by (eapply N.lt_trans; [exact Hm|reflexivity]).
  assert ((8 * lo) / 2 ^ 64 = lo / 2 ^ 61)%N as E
    by (change (2 ^ 64)%N with (8 * 2 ^ 61)%N; apply N.div_mul_cancel_l; [apply pow2_nz|discriminate]).
  f_equal.
  - replace (8 * (lo + 2 ^ 64 * q))%N with (lo * 8 + (8 * q) * 2 ^ 64)%N by lia.
    rewrite N.mod_add by apply pow2_nz. reflexivity.
  - replace (8 * (lo + 2 ^ 64 * q))%N with (8 * lo + (8 * q) * 2 ^ 64)%N by lia.
    rewrite N.div_add, E by apply pow2_nz.
    rewrite (lor_add_disjoint _ _ 3).
    + rewrite N.mul_mod_idemp_l by apply pow2_nz.
      apply (eqm_top 64).
      * (* the sum does not overflow *)
        unfold bnd.
        assert (((q * 8) mod 2 ^ 64) mod 8 = 0)%N as Hz.
        { change (2 ^ 64)%N with (8 * 2 ^ 61)%N. rewrite N.mod_mul_r by (try apply pow2_nz; discriminate).
          rewrite (N.mod_mul q 8), (N.div_mul q 8), N.add_0_l, (N.mul_comm 8) by discriminate.
          apply N.mod_mul; discriminate. }
        assert ((q * 8) mod 2 ^ 64 < 2 ^ 64)%N as Hlt by (apply N.mod_lt, pow2_nz).
        assert (((q * 8) mod 2 ^ 64) / 8 < 2 ^ 61)%N as Hd
          by (apply N.div_lt_upper_bound; [discriminate|exact Hlt]).
        rewrite (N.div_mod ((q * 8) mod 2 ^ 64) 8), Hz by discriminate.
        change (2 ^ 64)%N with (8 * 2 ^ 61)%N in *. change (2 ^ 61)%N with 2305843009213693952%N in *. lia.
      * apply bnd_mod.
      * unfold eqm. rewrite N.add_mod_idemp_l, N.mod_mod by apply pow2_nz. f_equal. lia.
    + intros i Hi. rewrite N.mul_mod_idemp_l by apply pow2_nz.
      rewrite N.mod_pow2_bits_low by lia. change 8%N with (2 ^ 3)%N. apply N.mul_pow2_bits_low, Hi.
    + exact Hm.
Qed.

Lemma ror8_div x t : ror 8 x t = ((x / 2 ^ t) mod 256)%N.
Proof. apply ror_spec. Qed.

Lemma byte_lo v t : (t + 8 <= 64)%N -> ror 8 (v mod 2 ^ 64) t = ((v / 2 ^ t) mod 256)%N.
Proof.
  intros H.
  assert (v mod 2 ^ 64 = ror 64 v 0)%N as -> by (rewrite ror_spec, N.pow_0_r, N.div_1_r; reflexivity).
  rewrite ror_ror by exact H. reflexivity.
Qed.
Lemma byte_hi v t : (t + 8 <= 64)%N -> ror 8 ((v / 2 ^ 64) mod 2 ^ 64) t = ((v / 2 ^ (64 + t)) mod 256)%N.
Proof. intros H. rewrite <- (ror_spec 64 v 64). apply ror_ror. exact H. Qed.

Lemma write_len_be128_ok cap x v : length x + 16 <= cap ->
  write_len_be128 (u128_of v) (canon cap (x ++ repeat 0%N 16)) = Ok (canon cap (x ++ be_bytes 16 v)).
Proof.
  intros Hc. unfold write_len_be128. cbn [u128_of u_lo u_hi].
  cbn [for_ bind].
  repeat (rewrite set_from_end_canon by (cbn [length upd repeat]; lia);
          cbn [bind length upd repeat Nat.sub Nat.add]).
  unfold be_bytes. rewrite le_bytes_seq. cbn [seq map rev app].
  rewrite !byte_hi, !byte_lo by (cbn; discriminate). reflexivity.
Qed.

(** ** the class *)

Section MD128.
  Context {H : Type}.
  Variables (B reserve : nat) (dbg : bool) (enc : N -> list N) (dom : list N -> Prop).
  Variables (compress : list N -> H -> res H) (iv : H) (arr : H -> res (list N)).
  Variables (cf : H -> list N -> H) (out : H -> list N) (inv : H -> Prop).
  Hypothesis HB : reserve <= B.
  Hypothesis Hr : 16 <= reserve.
  Hypothesis H64 : (N.of_nat (2 * B) < 2 ^ 64)%N.
  Hypothesis Henc_len : forall x, length (enc x) = reserve.
  Hypothesis Henc_ok : forall x, bytes_ok (enc x).
  Hypothesis Henc : forall m, dom m -> enc (8 * N.of_nat (length m)) =
    repeat 0%N (reserve - 16) ++ be_bytes 16 (8 * N.of_nat (length m)).
  Hypothesis Hiv : inv iv.
  Hypothesis Hc : forall blk tl h, inv h -> length blk = B -> bytes_ok blk ->
    compress (blk ++ tl) h = Ok (cf h blk) /\ inv (cf h blk).
  Hypothesis Harr : forall h, inv h -> arr h = Ok (out h) /\ bytes_ok (out h).

  Let HB0 : 0 < B.
  Proof. lia. Qed.

  Definition md8_run (d : list N) (s : MD128 H) : MD128 H :=
    mkMD128 (u128_of (u128_val (md8_cnt s) + N.of_nat (length d))) (chain B cf (md8_h s) d).
  Definition md8_inv (s : MD128 H) : Prop := inv (md8_h s) /\ u128_ok (md8_cnt s).
  Let s0 : MD128 H := mkMD128 u128_zero iv.

  Lemma md8_chain_inv d h : inv h -> bytes_ok d -> aligned B d -> inv (chain B cf h d).
  Proof. intros Hh Hd Ha. apply (block_loop_ok B compress cf inv HB0 Hc d Ha Hd h Hh). Qed.

  Lemma md8_impl_ok d s : md8_inv s -> span_ok d -> aligned B d ->
    md128_impl B dbg compress d s = Ok (md8_run d s).
  Proof.
    intros [Hs Hu] [Hd Hl] Ha. unfold md128_impl. rewrite assert_ok by exact Ha. cbn [bind].
    destruct (block_loop_ok B compress cf inv HB0 Hc d Ha Hd (md8_h s) Hs) as [-> _]. cbn [bind].
    rewrite u128_add_ok by assumption. reflexivity.
  Qed.

  Lemma md8_run_app x y s : aligned B x -> md8_run (x ++ y) s = md8_run y (md8_run x s).
  Proof.
    intros Ha. unfold md8_run, chain. cbn [md8_cnt md8_h].
    rewrite pieces_app, fold_left_app by assumption. f_equal.
    rewrite u128_val_of, u128_of_add, app_length, Nnat.Nat2N.inj_add. f_equal. lia.
  Qed.

  Definition md8_absorb := absorb B (2 * B) md8_run s0.
  Definition md8_hash (m : list N) : H := chain B cf iv (pad B reserve 128 enc m).
  Definition md8_done (m : list N) : Buffer * MD128 H :=
    (canon (2 * B) [], mkMD128 (u128_of (8 * N.of_nat (length m) +
        N.of_nat (length (rest B m ++ [128%N] ++ repeat 0%N (zeros B reserve (length m)) ++ enc 0%N)))) (md8_hash m)).

  Lemma md8_finalize_ok m : bytes_ok m -> dom m ->
    md128_finalize B reserve dbg (md128_impl B dbg compress) (md8_absorb m) = Ok (md8_done m).
  Proof.
    intros Hm Hdm. unfold md128_finalize, md8_absorb, absorb.
    pose proof (rest_lt B m HB0) as Hrl. pose proof (zeros_rest B reserve m HB0 HB) as Hz.
    pose proof (zeros_le B reserve (length m) HB0) as Hzl.
    assert (length (rest B m) + 1 + zeros B reserve (length m) + reserve <= 2 * B) as Htot.
    { pose proof (Nat.mod_le (2 * B - (S (length (rest B m)) + reserve)) B ltac:(lia)). lia. }
    rewrite canon_size. rewrite fill_canon by lia. cbn [bind repeat].
    rewrite canon_size, app_length. cbn [length].
    rewrite pad_len_spec by lia. rewrite Nat.add_1_r, <- Hz.
    rewrite fill_canon by (rewrite ?app_length; cbn [length]; lia). cbn [bind].
    cbn [md8_run md8_cnt md8_h s0].
    rewrite u128_add_ok by (first [apply u128_of_ok | lia]).
    rewrite u128_val_of, u128_of_add.
    replace (u128_val u128_zero + N.of_nat (length (pre B m)) + N.of_nat (length (rest B m)))%N
      with (N.of_nat (length m))
      by (change (u128_val u128_zero) with 0%N; rewrite <- (pre_rest B m) at 1; rewrite app_length; lia).
    rewrite u128_mul8_ok.
    replace (zeros B reserve (length m) + reserve) with (zeros B reserve (length m) + (reserve - 16) + 16) by lia.
    rewrite repeat_app, app_assoc.
    rewrite write_len_be128_ok by (rewrite !app_length, !repeat_length; cbn [length]; lia). cbn [bind].
    rewrite repeat_app.
    set (tailb := ((rest B m ++ [128%N]) ++ repeat 0%N (zeros B reserve (length m)) ++ repeat 0%N (reserve - 16)) ++
      be_bytes 16 (8 * N.of_nat (length m))).
    assert (tailb = rest B m ++ [128%N] ++ repeat 0%N (zeros B reserve (length m)) ++ enc (8 * N.of_nat (length m))%N) as Etail.
    { unfold tailb. rewrite (Henc m Hdm). rewrite <- !app_assoc. reflexivity. }
    assert (length tailb <= 2 * B) as Htl.
    { rewrite Etail, !app_length, Henc_len, repeat_length. cbn [length]. lia. }
    rewrite canon_span, canon_clear by exact Htl.
    rewrite Etail in *.
    assert (aligned B (rest B m ++ [128%N] ++ repeat 0%N (zeros B reserve (length m)) ++ enc (8 * N.of_nat (length m))%N)) as Hal.
    { pose proof (pad_aligned B reserve 128 enc m HB0 Henc_len) as Hp. rewrite pad_tail in Hp.
      unfold aligned in *. rewrite app_length in Hp.
      rewrite <- Nat.add_mod_idemp_l in Hp by lia.
      pose proof (pre_aligned B m HB0) as Hpa. unfold aligned in Hpa. rewrite Hpa in Hp. exact Hp. }
    rewrite md8_impl_ok.
    - cbn [bind]. unfold md8_done. f_equal. f_equal. unfold md8_run. cbn [md8_cnt md8_h]. f_equal.
      + rewrite u128_val_of, u128_of_add. f_equal. rewrite !app_length, !Henc_len. reflexivity.
      + unfold md8_hash. rewrite pad_tail. unfold chain.
        rewrite (pieces_app B (pre B m)) by auto using pre_aligned. now rewrite fold_left_app.
    - split; cbn [md8_h md8_cnt]; [|apply u128_of_ok].
      apply md8_chain_inv; auto using bytes_ok_pre, pre_aligned.
    - split.
      + pose proof (pad_bytes B reserve 128 enc m Hm ltac:(reflexivity) Henc_ok) as Hp. rewrite pad_tail in Hp.
        apply bytes_ok_app in Hp. tauto.
      + lia.
    - exact Hal.
  Qed.

  Theorem md128_implements :
    Implements (md128_class B reserve dbg compress iv arr)
      (fun m => out (md8_hash m)) dom md8_absorb md8_done.
  Proof.
    assert (forall m, bytes_ok m -> inv (md8_hash m)) as Hhi.
    { intros m Hm. apply md8_chain_inv; [exact Hiv| |].
      - apply pad_bytes; auto. reflexivity.
      - apply pad_aligned; assumption. }
    assert (md8_run [] s0 = s0) as Hnil by reflexivity.
    assert (md8_inv s0) as Hs0 by (split; [exact Hiv|split; reflexivity]).
    constructor.
    - cbn [md128_class c_new]. unfold md8_absorb. rewrite absorb_nil by (first [reflexivity | lia]). reflexivity.
    - intros m d Hm Hd. cbn [md128_class c_add]. unfold md8_absorb.
      apply (addData_ok B (2 * B) dbg (md128_impl B dbg compress) md8_inv md8_run s0); auto.
      + lia.
      + lia.
      + intros d' s Hs Hd' Ha. apply md8_impl_ok; assumption.
      + intros d' s [Hs Hu] Hd' Ha. split; [apply md8_chain_inv; assumption|apply u128_of_ok].
      + intros. apply md8_run_app; assumption.
    - intros m Hm Hdm. apply md8_finalize_ok; assumption.
    - intros m Hm _. cbn [md128_class c_array md8_done snd md8_h]. apply Harr, Hhi, Hm.
    - intros m Hm. cbn [md128_class c_reset c_new]. unfold buf_clear, md8_absorb.
      rewrite absorb_buf_length by lia. reflexivity.
    - intros m Hm _. cbn [md128_class c_reset c_new md8_done fst]. unfold buf_clear.
      rewrite canon_arr_length by (cbn; lia). reflexivity.
    - intros m Hm _. apply Harr, Hhi, Hm.
  Qed.
End MD128.
