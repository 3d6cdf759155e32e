(** Objects of the classes in any order of calls: the programs, and the Merkle-Damgard classes. *)
From Coq Require Import List NArith Arith Bool Lia ZArith ZifyNat ZifyN.
From Verif.Base Require Import Res CWord.
From Verif.Spec Require Import Words Client Merkle AnyOrder Ledger.
From Verif.Model Require Import Buffer Stream Api.
From Verif.Proof Require Import Words Streaming Blocks Api MD MD128.
Import ListNotations.

(** ** programs *)
Record Follows (readable : bool) (k : kind) (C : HashClass) (R : Book k -> Obj C -> Prop) : Prop := {
  fo_new : R (k_new k) (c_new C);
  fo_add : forall s x d, R s x -> span_ok d -> exists y, c_add C d x = Ok y /\ R (k_add k d s) y;
  fo_fin : forall s x, R s x -> exists y, c_finalize C x = Ok y /\ R (k_finalize k s) y;
  fo_reset : forall s x, R s x -> R (k_reset k s) (c_reset C x);
  fo_arr : readable = true -> forall s x, R s x -> c_array C x = Ok (k_digest k s) /\ bytes_ok (k_digest k s) /\ k_digest k s <> []
}.

Lemma follows_op r k C R : Follows r k C R -> forall i o s x, R s x -> callable r (On i o) ->
  exists y w, exec_op C o x = Ok (y, w) /\ R (called k o s) y /\ shows (k_digest k s) o = match w with Some v => [v] | None => [] end.
Proof.
  intros F i o s x Hx Ho.
  assert (reads o = true -> c_array C x = Ok (k_digest k s) /\ bytes_ok (k_digest k s) /\ k_digest k s <> []) as HA.
  { intros E. apply (fo_arr _ _ _ _ F); auto. destruct o; try discriminate E; apply Ho, E. }
  destruct o; cbn [exec_op called reads shows callable] in *.
  - destruct (fo_add _ _ _ _ F s x d Hx Ho) as (y & -> & Hy). rewrite bind_ok. eauto.
  - destruct (fo_fin _ _ _ _ F s x Hx) as (y & -> & Hy). rewrite bind_ok. eauto.
  - exists (c_reset C x), None. split; [reflexivity|]. split; [|reflexivity]. apply (fo_reset _ _ _ _ F s x Hx).
  - destruct (HA eq_refl) as (-> & _). rewrite bind_ok. eauto 6.
  - destruct (HA eq_refl) as (-> & _). rewrite bind_ok. eauto 6.
  - destruct (HA eq_refl) as (-> & Hd & Hn). rewrite bind_ok, to_string_ok, bind_ok by assumption. eauto 6.
  - destruct (HA eq_refl) as (-> & Hd & _). rewrite bind_ok, to_uint_ok, bind_ok by exact Hd. eauto 6.
  - destruct (HA eq_refl) as (-> & Hd & _). unfold std_hash. rewrite bind_ok, to_uint_ok, bind_ok by exact Hd. eauto 6.
Qed.

Theorem follows_exec r k C R : Follows r k C R -> forall p s (st : store C), (forall i, R (s i) (st i)) -> Forall (callable r) p ->
  exists st', exec C p st = Ok (told k p s, st') /\ forall i, R (left k p s i) (st' i).
Proof.
  intros F. induction p as [|[i o|i j] p IH]; intros s st Hs Hp; cbn [exec told left] in *.
  - eauto.
  - inversion_clear Hp as [|? ? Ho Hp']. destruct (follows_op r k C R F i o (s i) (st i) (Hs i) Ho) as (y & w & -> & Hy & ->).
    rewrite bind_ok. cbn [fst snd].
    destruct (IH (enter k s i (called k o (s i))) (put C st i y)) as (st' & -> & H'); [|exact Hp'|].
    + intros n. unfold enter, put. destruct (n =? i); auto.
    + rewrite bind_ok. cbn [fst snd]. exists st'. split; [|exact H']. destruct w; reflexivity.
  - inversion_clear Hp as [|? ? Ho Hp']. apply IH; [|exact Hp'].
    intros n. unfold enter, put. destruct (n =? i); auto.
Qed.

Definition obeys (readable : bool) (k : kind) (C : HashClass) : Prop := forall p, Forall (callable readable) p ->
  exists st, exec C p (fun _ => c_new C) = Ok (told k p (fun _ => k_new k), st).
Lemma follows_obeys r k C R : Follows r k C R -> obeys r k C.
Proof.
  intros F p Hp. destruct (follows_exec r k C R F p (fun _ => k_new k) (fun _ => c_new C)) as (st & E & _); [|exact Hp|eauto].
  intros _. exact (fo_new _ _ _ _ F).
Qed.

(** ** sums in the counter *)
Lemma back_to n x P : (n < P)%N -> exists c, (c < P)%N /\ ((c + x) mod P = n)%N.
Proof.
  intros H. assert (P <> 0)%N as HP by lia. exists ((n + (P - x mod P)) mod P)%N. split; [now apply N.mod_lt|].
  rewrite N.add_mod_idemp_l by exact HP. pose proof (N.mod_lt x P HP) as Hx.
  rewrite (N.div_mod x P HP) at 2. set (q := (x / P)%N). set (r := (x mod P)%N) in *.
  replace (n + (P - r) + (P * q + r))%N with (n + (q + 1) * P)%N by nia.
  rewrite N.mod_add by exact HP. now apply N.mod_small.
Qed.

Lemma full_blocks_pre S m : full_blocks S m = pre (s_block S) m.
Proof. reflexivity. Qed.

(** rest and padding together are whole blocks *)
Lemma tail_aligned B r m t : 0 < B -> length t = 1 + zeros B r (length m) + r -> aligned B (rest B m ++ t) /\ aligned B (m ++ t).
Proof.
  intros HB Ht.
  assert (aligned B (m ++ t)) as A.
  { unfold aligned. rewrite app_length, Ht. replace (length m + (1 + zeros B r (length m) + r)) with (length m + 1 + r + zeros B r (length m)) by lia.
    now apply zeros_aligned. }
  split; [|exact A]. unfold aligned in *. rewrite app_length, rest_length by exact HB. rewrite app_length in A.
  rewrite Nat.add_mod_idemp_l by lia. exact A.
Qed.
Lemma all_pre B m : 0 < B -> aligned B m -> pre B m = m /\ rest B m = [].
Proof.
  intros HB A. apply (split_unique B m []) in A; [|exact HB|exact HB]. rewrite app_nil_r in A. exact A.
Qed.

(** ** the classes with a 64-bit counter *)
Section MD.
  Context {H : Type}.
  Variables (B : nat) (dbg : bool) (padbyte : N).
  Variables (write_len : N -> Buffer -> res Buffer) (enc : N -> list N).
  Variables (compress : list N -> H -> res H) (iv : H) (arr : H -> res (list N)).
  Variables (cf : H -> list N -> H) (out : H -> list N) (inv : H -> Prop).
  Variables (readable : bool) (shown : list N -> list N).
  Hypothesis HB : 8 <= B.
  Hypothesis H64 : (N.of_nat (2 * B) < 2 ^ 64)%N.
  Hypothesis Hpb : (padbyte < 256)%N.
  Hypothesis Hwrite : forall cap x bits, length x + 8 <= cap ->
    write_len bits (canon cap (x ++ repeat 0%N 8)) = Ok (canon cap (x ++ enc bits)).
  Hypothesis Henc_len : forall x, length (enc x) = 8.
  Hypothesis Henc_ok : forall x, bytes_ok (enc x).
  Hypothesis Hiv : inv iv.
  Hypothesis Hc : forall blk tl h, inv h -> length blk = B -> bytes_ok blk ->
    compress (blk ++ tl) h = Ok (cf h blk) /\ inv (cf h blk).
  Hypothesis Harr : readable = true -> forall h, inv h -> arr h = Ok (out h) /\ bytes_ok (out h) /\ out h <> [].
  Hypothesis Hshown : forall d, bytes_ok d -> aligned B d -> shown d = out (chain B cf iv d).

  Let HB0 : 0 < B.
  Proof using All. lia. Qed.
  Let S := mkScheme B 8 padbyte enc 64 1 shown.

  Lemma chain_ok d h : inv h -> bytes_ok d -> aligned B d -> inv (chain B cf h d).
  Proof using All. intros Hh Hd Ha. apply (block_loop_ok B compress cf inv HB0 Hc d Ha Hd h Hh). Qed.
  Lemma impl_ok d s : inv (md_h s) -> bytes_ok d -> aligned B d -> md_impl B dbg compress d s = Ok (md_run B cf d s).
  Proof using All.
    intros Hs Hd Ha. unfold md_impl. rewrite assert_ok, bind_ok by exact Ha.
    destruct (block_loop_ok B compress cf inv HB0 Hc d Ha Hd (md_h s) Hs) as [-> _]. reflexivity.
  Qed.

  Lemma run_app x y s : aligned B x -> md_run B cf (x ++ y) s = md_run B cf y (md_run B cf x s).
  Proof using All.
    intros Ha. unfold md_run, chain. cbn [md_cnt md_h]. rewrite pieces_app, fold_left_app by assumption. f_equal.
    rewrite !uadd_mod, app_length, Nnat.Nat2N.inj_add, N.add_mod_idemp_l by apply pow2_nz. f_equal. lia.
  Qed.

  Definition kept (x : ledger) (o : Buffer * MD H) : Prop :=
    bytes_ok (l_in x) /\ exists c, (c < 2 ^ 64)%N /\ o = absorb B (2 * B) (md_run B cf) (mkMD c iv) (l_in x) /\
      ((c + N.of_nat (length (l_in x))) mod 2 ^ 64 = l_length x mod 2 ^ 64)%N.

  Lemma kept_new : kept (l_new) (buf_new (2 * B), mkMD 0%N iv).
  Proof using All.
    split; [constructor|]. exists 0%N. split; [reflexivity|]. split; [|reflexivity].
    cbn [l_in l_new]. now rewrite absorb_nil by (first [reflexivity|lia]).
  Qed.

  Lemma kept_add x o d : kept x o -> span_ok d ->
    exists o', addData (MD H) B (2 * B) dbg (md_impl B dbg compress) d o = Ok o' /\ kept (l_add d x) o'.
  Proof using All.
    intros (Hm & c & Hcc & -> & Ec) Hd. eexists. split.
    - apply (addData_ok B (2 * B) dbg (md_impl B dbg compress) (md_inv inv) (md_run B cf) (mkMD c iv)); auto.
      + lia.
      + lia.
      + intros d' s Hs [Hd' _] Ha. now apply impl_ok.
      + intros d' s Hs Hd' Ha. now apply chain_ok.
      + intros. now apply run_app.
    - split; [apply bytes_ok_app; split; [exact Hm|apply Hd]|]. exists c. split; [exact Hcc|]. split; [reflexivity|].
      cbn [l_in l_add l_length]. rewrite app_length, Nnat.Nat2N.inj_add, N.add_assoc.
      pose proof (pow2_nz 64) as Hnz. rewrite <- N.add_mod_idemp_l, Ec, N.add_mod_idemp_l by exact Hnz. reflexivity.
  Qed.

  Lemma kept_finalize x o : kept x o ->
    exists o', md_finalize B dbg padbyte write_len (md_impl B dbg compress) o = Ok o' /\ kept (l_finalize S x) o'.
  Proof using All.
    destruct x as [m n]. unfold kept. cbn [l_in l_length]. intros (Hm & c & Hcc & -> & Ec).
    unfold md_finalize, absorb.
    pose proof (rest_lt B m HB0) as Hr. pose proof (zeros_rest B 8 m HB0 HB) as Hz.
    pose proof (zeros_le B 8 (length m) HB0) as Hzl.
    assert (length (rest B m) + 1 + zeros B 8 (length m) + 8 <= 2 * B) as Htot.
    { pose proof (Nat.mod_le (2 * B - (Datatypes.S (length (rest B m)) + 8)) B ltac:(lia)). lia. }
    rewrite canon_size. rewrite fill_canon by lia. rewrite bind_ok. cbn [repeat].
    rewrite canon_size, app_length. cbn [length].
    rewrite pad_len_spec by lia. rewrite Nat.add_1_r, <- Hz.
    rewrite fill_canon by (rewrite ?app_length; cbn [length]; lia). rewrite bind_ok, repeat_app, app_assoc.
    rewrite Hwrite by (rewrite !app_length, repeat_length; cbn [length]; lia). rewrite bind_ok.
    cbn [md_run md_cnt md_h].
    pose proof (pow2_nz 64) as Hnz.
    assert (uadd 64 (uadd 64 c (N.of_nat (length (pre B m)))) (N.of_nat (length (rest B m))) = n mod 2 ^ 64)%N as Ecnt.
    { rewrite !uadd_mod, N.add_mod_idemp_l by exact Hnz. rewrite <- Ec. f_equal.
      rewrite <- (pre_rest B m) at 3. rewrite app_length. lia. }
    unfold md_run. cbn [md_cnt md_h]. rewrite Ecnt.
    assert (umul 64 (n mod 2 ^ 64) 8 = (8 * n) mod 2 ^ 64)%N as Eb.
    { rewrite umul_spec. unfold mul. rewrite N.mul_mod_idemp_l by exact Hnz. f_equal. lia. }
    rewrite Eb. set (t := closed S (length m) n).
    replace (((rest B m ++ [padbyte]) ++ repeat 0%N (zeros B 8 (length m))) ++ enc ((8 * n) mod 2 ^ 64)%N) with (rest B m ++ t)
      by (unfold t, closed; cbn [S s_mark s_block s_field s_enc s_width]; now rewrite <- !app_assoc).
    assert (length t = 1 + zeros B 8 (length m) + 8) as Lt
      by (unfold t, closed; cbn [S s_mark s_block s_field s_enc s_width]; rewrite !app_length, Henc_len, repeat_length; reflexivity).
    assert (bytes_ok t) as Ht.
    { unfold t, closed. cbn [S s_mark s_block s_field s_enc s_width]. apply bytes_ok_app. split; [repeat constructor; exact Hpb|].
      apply bytes_ok_app. split; [apply bytes_ok_repeat; reflexivity|apply Henc_ok]. }
    assert (l_finalize S (mkLedger m n) = mkLedger (m ++ t) (1 * n + N.of_nat (length m mod B + length t))) as -> by reflexivity.
    clearbody t. cbn [l_in l_length]. destruct (tail_aligned B 8 m t HB0 Lt) as [A1 A2].
    rewrite canon_span, canon_clear by (rewrite app_length; lia).
    rewrite impl_ok; [| | |exact A1].
    2: { cbn [md_h]. apply chain_ok; auto using bytes_ok_pre, pre_aligned. }
    2: { apply bytes_ok_app. split; [now apply bytes_ok_rest|exact Ht]. }
    rewrite bind_ok. eexists. split; [reflexivity|]. split; [apply bytes_ok_app; auto|].
    destruct (all_pre B (m ++ t) HB0 A2) as [P1 P2].
    assert (uadd 64 (n mod 2 ^ 64) (N.of_nat (length (rest B m ++ t))) < 2 ^ 64)%N as Hu by (rewrite uadd_mod; now apply N.mod_lt).
    destruct (back_to _ (N.of_nat (length (m ++ t))) _ Hu) as (c' & Hc' & Ec').
    exists c'. split; [exact Hc'|]. split.
    - unfold absorb. rewrite P1, P2. unfold md_run. cbn [md_cnt md_h]. f_equal. f_equal.
      + rewrite <- Ec'. symmetry. apply uadd_mod.
      + unfold chain. rewrite <- fold_left_app, <- pieces_app by auto using pre_aligned. now rewrite app_assoc, pre_rest.
    - rewrite Ec', uadd_mod, N.add_mod_idemp_l by exact Hnz. f_equal.
      rewrite app_length, rest_length by exact HB0. lia.
  Qed.

  Theorem md_follows : Follows readable (ledger_kind S) (md_class B dbg padbyte write_len compress iv arr) kept.
  Proof using All.
    constructor; cbn [md_class c_new c_add c_finalize c_reset c_array Obj ledger_kind Book k_new k_add k_finalize k_reset k_digest].
    - exact kept_new.
    - intros x o d. apply kept_add.
    - intros x o. apply kept_finalize.
    - intros x o (Hm & c & _ & -> & _). replace (buf_clear _) with (buf_new (2 * B)); [exact kept_new|].
      unfold buf_clear. rewrite absorb_buf_length by lia. reflexivity.
    - intros Hr x o (Hm & c & _ & -> & _). unfold absorb, md_run. cbn [snd md_h].
      rewrite full_blocks_pre. cbn [S s_block s_shown].
      rewrite Hshown by auto using bytes_ok_pre, pre_aligned.
      apply (Harr Hr), chain_ok; auto using bytes_ok_pre, pre_aligned.
  Qed.
End MD.

(** ** the classes with a 128-bit counter *)
Section MD128.
  Context {H : Type}.
  Variables (B reserve : nat) (dbg : bool).
  Variables (compress : list N -> H -> res H) (iv : H) (arr : H -> res (list N)).
  Variables (cf : H -> list N -> H) (out : H -> list N) (inv : H -> Prop).
  Variables (shown : list N -> list N).
  Hypothesis HB : reserve <= B.
  Hypothesis Hrs : 16 <= reserve.
  Hypothesis Hfield : forall v, (v < 2 ^ 128)%N -> be_bytes reserve v = repeat 0%N (reserve - 16) ++ be_bytes 16 v.
  Hypothesis H64 : (N.of_nat (2 * B) < 2 ^ 64)%N.
  Hypothesis Hiv : inv iv.
  Hypothesis Hc : forall blk tl h, inv h -> length blk = B -> bytes_ok blk ->
    compress (blk ++ tl) h = Ok (cf h blk) /\ inv (cf h blk).
  Hypothesis Harr : forall h, inv h -> arr h = Ok (out h) /\ bytes_ok (out h) /\ out h <> [].
  Hypothesis Hshown : forall d, bytes_ok d -> aligned B d -> shown d = out (chain B cf iv d).

  Let HB0 : 0 < B.
  Proof using All. lia. Qed.
  Let S := mkScheme B reserve 128 (be_bytes reserve) 128 8 shown.
  Let P := (2 ^ 128)%N.

  Lemma chain8_ok d h : inv h -> bytes_ok d -> aligned B d -> inv (chain B cf h d).
  Proof using All. intros Hh Hd Ha. apply (block_loop_ok B compress cf inv HB0 Hc d Ha Hd h Hh). Qed.
  Lemma impl8_ok d s : md8_inv inv s -> span_ok d -> aligned B d -> md128_impl B dbg compress d s = Ok (md8_run B cf d s).
  Proof using All.
    intros [Hs Hu] [Hd Hl] Ha. unfold md128_impl. rewrite assert_ok, bind_ok by exact Ha.
    destruct (block_loop_ok B compress cf inv HB0 Hc d Ha Hd (md8_h s) Hs) as [-> _]. rewrite bind_ok, u128_add_ok by assumption. reflexivity.
  Qed.

  Lemma run8_app x y s : aligned B x -> md8_run B cf (x ++ y) s = md8_run B cf y (md8_run B cf x s).
  Proof using All.
    intros Ha. unfold md8_run, chain. cbn [md8_cnt md8_h]. rewrite pieces_app, fold_left_app by assumption. f_equal.
    rewrite u128_val_of, u128_of_add, app_length, Nnat.Nat2N.inj_add. f_equal. lia.
  Qed.

  Definition kept8 (x : ledger) (o : Buffer * MD128 H) : Prop :=
    bytes_ok (l_in x) /\ exists c, (c < P)%N /\ o = absorb B (2 * B) (md8_run B cf) (mkMD128 (u128_of c) iv) (l_in x) /\
      ((c + N.of_nat (length (l_in x))) mod P = l_length x mod P)%N.

  Lemma P_nz : P <> 0%N.
  Proof using All. apply pow2_nz. Qed.
  Lemma u128_of_nil c : u128_of (u128_val (u128_of c) + 0) = u128_of c.
  Proof using All. now rewrite N.add_0_r, u128_val_of, u128_of_mod. Qed.

  Lemma kept8_new : kept8 (l_new) (buf_new (2 * B), mkMD128 u128_zero iv).
  Proof using All.
    split; [constructor|]. exists 0%N. split; [reflexivity|]. split; [|reflexivity].
    cbn [l_in l_new]. now rewrite absorb_nil by (first [reflexivity|lia]).
  Qed.

  Lemma kept8_add x o d : kept8 x o -> span_ok d ->
    exists o', addData (MD128 H) B (2 * B) dbg (md128_impl B dbg compress) d o = Ok o' /\ kept8 (l_add d x) o'.
  Proof using All.
    intros (Hm & c & Hcc & -> & Ec) Hd. eexists. split.
    - apply (addData_ok B (2 * B) dbg (md128_impl B dbg compress) (md8_inv inv) (md8_run B cf) (mkMD128 (u128_of c) iv)); auto.
      + lia.
      + split; [exact Hiv|apply u128_of_ok].
      + lia.
      + intros d' s Hs Hd' Ha. now apply impl8_ok.
      + intros d' s [Hs Hu] Hd' Ha. split; [now apply chain8_ok|apply u128_of_ok].
      + intros. now apply run8_app.
    - split; [apply bytes_ok_app; split; [exact Hm|apply Hd]|]. exists c. split; [exact Hcc|]. split; [reflexivity|].
      cbn [l_in l_add l_length]. rewrite app_length, Nnat.Nat2N.inj_add, N.add_assoc.
      pose proof P_nz as Hnz. rewrite <- N.add_mod_idemp_l, Ec, N.add_mod_idemp_l by exact Hnz. reflexivity.
  Qed.

  Lemma kept8_finalize x o : kept8 x o ->
    exists o', md128_finalize B reserve dbg (md128_impl B dbg compress) o = Ok o' /\ kept8 (l_finalize S x) o'.
  Proof using All.
    destruct x as [m n]. unfold kept8. cbn [l_in l_length]. intros (Hm & c & Hcc & -> & Ec).
    unfold md128_finalize, absorb.
    pose proof (rest_lt B m HB0) as Hr. pose proof (zeros_rest B reserve m HB0 HB) as Hz.
    pose proof (zeros_le B reserve (length m) HB0) as Hzl.
    assert (length (rest B m) + 1 + zeros B reserve (length m) + reserve <= 2 * B) as Htot.
    { pose proof (Nat.mod_le (2 * B - (Datatypes.S (length (rest B m)) + reserve)) B ltac:(lia)). lia. }
    rewrite canon_size. rewrite fill_canon by lia. rewrite bind_ok. cbn [repeat].
    rewrite canon_size, app_length. cbn [length].
    rewrite pad_len_spec by lia. rewrite Nat.add_1_r, <- Hz.
    rewrite fill_canon by (rewrite ?app_length; cbn [length]; lia). rewrite bind_ok.
    unfold md8_run. cbn [md8_cnt md8_h].
    rewrite u128_add_ok by (first [apply u128_of_ok | lia]).
    rewrite !u128_val_of, !u128_of_add.
    pose proof P_nz as Hnz.
    assert (u128_of (c + N.of_nat (length (pre B m)) + N.of_nat (length (rest B m))) = u128_of n) as En.
    { replace (c + N.of_nat (length (pre B m)) + N.of_nat (length (rest B m)))%N with (c + N.of_nat (length m))%N
        by (rewrite <- (pre_rest B m) at 1; rewrite app_length; lia).
      rewrite <- (u128_of_mod (c + _)), <- (u128_of_mod n). f_equal. exact Ec. }
    replace (c mod 2 ^ 128 + N.of_nat (length (pre B m)) + N.of_nat (length (rest B m)))%N
      with (c + N.of_nat (length (pre B m)) + N.of_nat (length (rest B m)))%N
      by (rewrite (N.mod_small c) by exact Hcc; reflexivity).
    rewrite En, u128_mul8_ok.
    replace (zeros B reserve (length m) + reserve) with (zeros B reserve (length m) + (reserve - 16) + 16) by lia.
    rewrite repeat_app, app_assoc. rewrite <- (u128_of_mod (8 * n)).
    rewrite write_len_be128_ok by (rewrite !app_length, !repeat_length; cbn [length]; lia). rewrite bind_ok, repeat_app.
    set (t := closed S (length m) n).
    replace (((rest B m ++ [128%N]) ++ repeat 0%N (zeros B reserve (length m)) ++ repeat 0%N (reserve - 16)) ++ be_bytes 16 ((8 * n) mod 2 ^ 128)%N)
      with (rest B m ++ t)
      by (unfold t, closed; cbn [S s_mark s_block s_field s_enc s_width]; rewrite Hfield by (apply N.mod_lt, pow2_nz); now rewrite <- !app_assoc).
    assert (length t = 1 + zeros B reserve (length m) + reserve) as Lt
      by (unfold t, closed; cbn [S s_mark s_block s_field s_enc s_width]; rewrite !app_length, be_bytes_length, repeat_length; reflexivity).
    assert (bytes_ok t) as Ht.
    { unfold t, closed. cbn [S s_mark s_block s_field s_enc s_width]. apply bytes_ok_app. split; [repeat constructor|].
      apply bytes_ok_app. split; [apply bytes_ok_repeat; reflexivity|apply be_bytes_ok]. }
    assert (l_finalize S (mkLedger m n) = mkLedger (m ++ t) (8 * n + N.of_nat (length m mod B + length t))) as -> by reflexivity.
    clearbody t. cbn [l_in l_length]. destruct (tail_aligned B reserve m t HB0 Lt) as [A1 A2].
    rewrite canon_span, canon_clear by (rewrite app_length; lia).
    rewrite impl8_ok; [| | |exact A1].
    2: { split; cbn [md8_h md8_cnt]; [|apply u128_of_ok]. apply chain8_ok; auto using bytes_ok_pre, pre_aligned. }
    2: { split; [apply bytes_ok_app; split; [now apply bytes_ok_rest|exact Ht]|]. rewrite app_length. lia. }
    rewrite bind_ok. eexists. split; [reflexivity|]. split; [apply bytes_ok_app; auto|].
    destruct (all_pre B (m ++ t) HB0 A2) as [P1 P2].
    set (v := (8 * n + N.of_nat (length (rest B m ++ t)))%N).
    assert (v mod P < P)%N as Hv by (now apply N.mod_lt).
    destruct (back_to _ (N.of_nat (length (m ++ t))) _ Hv) as (c' & Hc' & Ec').
    exists c'. split; [exact Hc'|]. split.
    - unfold absorb. rewrite P1, P2. unfold md8_run. cbn [md8_cnt md8_h]. f_equal. f_equal.
      + rewrite u128_of_mod, !u128_val_of, !u128_of_add. fold v. rewrite <- (u128_of_mod v), <- (u128_of_mod (c' + _)).
        f_equal. symmetry. exact Ec'.
      + unfold chain. rewrite <- fold_left_app, <- pieces_app by auto using pre_aligned. now rewrite app_assoc, pre_rest.
    - rewrite Ec'. f_equal. unfold v. rewrite app_length, rest_length by exact HB0. reflexivity.
  Qed.

  Theorem md8_follows : Follows true (ledger_kind S) (md128_class B reserve dbg compress iv arr) kept8.
  Proof using All.
    constructor; cbn [md128_class c_new c_add c_finalize c_reset c_array Obj ledger_kind Book k_new k_add k_finalize k_reset k_digest].
    - exact kept8_new.
    - intros x o d. apply kept8_add.
    - intros x o. apply kept8_finalize.
    - intros x o (Hm & c & _ & -> & _). replace (buf_clear _) with (buf_new (2 * B)); [exact kept8_new|].
      unfold buf_clear. rewrite absorb_buf_length by lia. reflexivity.
    - intros Hr x o (Hm & c & _ & -> & _). unfold absorb, md8_run. cbn [snd md8_h].
      rewrite full_blocks_pre. cbn [S s_block s_shown].
      rewrite Hshown by auto using bytes_ok_pre, pre_aligned.
      apply Harr, chain8_ok; auto using bytes_ok_pre, pre_aligned.
  Qed.
End MD128.
