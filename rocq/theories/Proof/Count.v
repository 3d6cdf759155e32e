(** The length counters: what addData adds to them, at any value of the counter, and what finalize() appends. *)
From Coq Require Import List NArith Arith Bool Lia ZArith ZifyNat ZifyN.
From Verif.Base Require Import Res CWord.
From Verif.Spec Require Import Words Client Merkle.
From Verif.Model Require Import Buffer Stream Api Call Counter Library Counted.
From Verif.Spec Require Blake.
From Verif.Model Require Blake1 Blake2.
From Verif.Proof Require Import Words Streaming Blocks MD MD128 Post.
From Verif.Model.Gen Require Blake2Calls Blake2sCalls.
From Verif.Proof Require Blake1.
Import ListNotations.
Local Open Scope N_scope.

(** ** The size of the buffer *)
Lemma held_canon cap d : held cap d = canon cap d.
Proof. reflexivity. Qed.
Lemma holding_new cap : holding cap (buf_new cap).
Proof. exists []. split; [cbn; lia|]. rewrite held_canon. symmetry. apply canon_nil. Qed.
Lemma post_fill1 dbg cap v b : holding cap b -> post (buf_fill dbg v 1 b) (fun b' => holding cap b' /\ buf_size b' = S (buf_size b)).
Proof.
  intros [d [Hd ->]]. unfold buf_fill. apply post_any. intros _. cbn [for_]. apply (post_bind _ _ (fun b' => holding cap b' /\ buf_size b' = S (buf_size (held cap d))));
    [|intros b' Hb'; apply post_ok, Hb'].
  rewrite held_canon. destruct (Nat.lt_ge_cases (length d) cap) as [H|H].
  - rewrite put_canon by exact H. apply post_ok. rewrite !canon_size, app_length. split; [|cbn; lia].
    exists (d ++ [v]). rewrite app_length. split; [cbn; lia|reflexivity].
  - intros b' E. unfold buf_put, aset in E. rewrite canon_arr_length in E by lia. cbn [canon b_end] in E.
    destruct (Nat.ltb_spec (length d) cap); [lia|discriminate].
Qed.
Lemma post_push dbg cap d : forall b, holding cap b ->
  post (buf_push_back dbg d b) (fun b' => holding cap b' /\ buf_size b' = (buf_size b + length d)%nat).
Proof.
  induction d as [|v d IH]; intros b H; unfold buf_push_back; cbn [foldM length]; [apply post_ok; split; [exact H|lia]|].
  apply (post_bind _ _ _ _ (post_fill1 dbg cap v b H)). intros b' [Hi Hs].
  apply (post_weaken _ _ _ (IH b' Hi)). intros b2 [Hi2 Hs2]. split; [exact Hi2|lia].
Qed.
Lemma holding_clear cap b : holding cap b -> holding cap (buf_clear b) /\ buf_size (buf_clear b) = 0%nat.
Proof. intros [d [H ->]]. rewrite held_canon, canon_clear, canon_nil by exact H. split; [apply holding_new|reflexivity]. Qed.
Lemma post_range dbg cap d : post (buf_of_range dbg cap d) (fun b => holding cap b /\ buf_size b = length d).
Proof. exact (post_push dbg cap d (buf_new cap) (holding_new cap)). Qed.
Lemma span_length cap b : holding cap b -> length (buf_span b) = buf_size b.
Proof. intros [d [H ->]]. rewrite held_canon, canon_span, canon_size. reflexivity. Qed.

(** ** addData *)
Section Add.
  Context {St : Type} (B cap : nat) (dbg : bool) (impl : list N -> St -> res St).
  Variables (cnt : St -> N) (ok : St -> Prop) (u W : N).
  Hypothesis HB : (0 < B)%nat.
  Hypothesis HB64 : N.of_nat B < 2 ^ 64.
  Hypothesis HW : W <> 0.
  Hypothesis Himpl : forall d s, ok s -> (length d mod B = 0)%nat -> N.of_nat (length d) < 2 ^ 64 ->
    post (impl d s) (fun s' => ok s' /\ cnt s' mod W = (cnt s + u * N.of_nat (length d)) mod W).

  Let tot (o : Buffer * St) := cnt (snd o) + u * N.of_nat (buf_size (fst o)).
  Let goal (v : N) (o' : Buffer * St) := ok (snd o') /\ holding cap (fst o') /\ (buf_size (fst o') < B)%nat /\ tot o' mod W = v mod W.

  Lemma count_tail d b s : ok s -> holding cap b -> buf_size b = 0%nat -> N.of_nat (length d) < 2 ^ 64 ->
    post (Stream.addData_tail St B cap dbg impl d b s) (goal (cnt s + u * N.of_nat (length d))).
  Proof.
    intros Hs Hb H0 Hd. unfold Stream.addData_tail, goal, tot. destruct (Nat.ltb_spec (length d) B) as [Hlt|Hge].
    - apply (post_bind _ _ _ _ (post_range dbg cap d)). intros b' [Hi Hz]. apply post_ok. cbn [fst snd]. rewrite Hz. auto.
    - pose proof (Nat.mod_upper_bound (length d) B ltac:(lia)) as Hm. pose proof (Nat.div_mod (length d) B ltac:(lia)) as Hdm.
      set (len := (length d - length d mod B)%nat) in *.
      assert (len = length d / B * B)%nat as Hlen by lia.
      apply (post_bind _ _ (fun e => length e = len)).
      { intros e E. unfold span_first in E. destruct (len <=? length d)%nat; [|discriminate]. injection E as <-.
        rewrite firstn_length. lia. }
      intros e He. apply (post_bind _ _ _ _ (Himpl e s Hs ltac:(rewrite He, Hlen; apply Nat.mod_mul; lia) ltac:(lia))).
      intros s' [Hok Hc]. rewrite He in Hc. destruct (Nat.ltb_spec len (length d)) as [Hl|Hl].
      + apply (post_bind _ _ _ _ (post_range dbg cap (skipn len d))). intros b' [Hi Hz]. apply post_ok. cbn [fst snd].
        rewrite skipn_length in Hz. repeat (split; [first [assumption|lia]|]). rewrite Hz.
        rewrite <- N.add_mod_idemp_l, Hc, N.add_mod_idemp_l by exact HW. f_equal. nia.
      + apply post_ok. cbn [fst snd]. repeat (split; [first [assumption|lia]|]). rewrite H0, N.mul_0_r, N.add_0_r, Hc.
        f_equal. replace len with (length d) by lia. reflexivity.
  Qed.

  Theorem count_add d o : ok (snd o) -> holding cap (fst o) -> (buf_size (fst o) < B)%nat -> N.of_nat (length d) < 2 ^ 64 ->
    post (Stream.addData St B cap dbg impl d o) (goal (tot o + u * N.of_nat (length d))).
  Proof.
    destruct o as [b s]. cbn [fst snd]. intros Hs Hb Hlt Hd. unfold Stream.addData, buf_empty.
    destruct (Nat.eqb_spec (b_end b) 0) as [E|E]; cbn [negb].
    - apply (post_weaken _ _ _ (count_tail d b s Hs Hb E Hd)). intros o' Ho. unfold goal, tot in *. cbn [fst snd].
      replace (buf_size b) with 0%nat by (symmetry; exact E). rewrite N.mul_0_r, N.add_0_r. exact Ho.
    - destruct (Nat.leb_spec (buf_size b) B) as [_|Hx]; [|lia]. cbv zeta.
      set (len := min (B - buf_size b) (length d)).
      apply (post_bind _ _ _ _ (post_push dbg cap (firstn len d) b Hb)). intros b1 [Hi1 Hz1].
      rewrite firstn_length_le in Hz1 by (unfold len; lia).
      destruct (Nat.ltb_spec (buf_size b1) B) as [Hl|Hl].
      + apply post_ok. unfold goal, tot. cbn [fst snd]. repeat (split; [first [assumption|lia]|]). f_equal.
        assert (len = length d) by (unfold len in *; lia). nia.
      + assert (buf_size b1 = B) as HzB by (unfold len in *; lia).
        pose proof (span_length cap b1 Hi1) as Hsp. rewrite HzB in Hsp.
        apply (post_bind _ _ _ _ (Himpl (buf_span b1) s Hs ltac:(rewrite Hsp; apply Nat.mod_same; lia) ltac:(lia))).
        intros s' [Hok Hc]. rewrite Hsp in Hc. cbv zeta.
        apply (post_bind _ _ (fun e => length e = (length d - len)%nat)).
        { intros e E1. unfold span_subspan in E1. destruct (len <=? length d)%nat; [|discriminate]. injection E1 as <-. apply skipn_length. }
        intros e He. destruct (holding_clear cap b1 Hi1) as [Hci Hcz].
        apply (post_weaken _ _ _ (count_tail e (buf_clear b1) s' Hok Hci Hcz ltac:(lia))).
        intros o' (G1 & G2 & G3 & G4). unfold goal, tot in *. cbn [fst snd]. repeat (split; [assumption|]).
        rewrite G4, He. rewrite <- N.add_mod_idemp_l, Hc, N.add_mod_idemp_l by exact HW. f_equal. unfold len in *. nia.
  Qed.

  (** blake2.h: the last block stays in the buffer, which may be full *)
  Let goal2 (v : N) (o' : Buffer * St) := ok (snd o') /\ holding B (fst o') /\ tot o' mod W = v mod W.

  Lemma count_tail2 d s : ok s -> N.of_nat (length d) < 2 ^ 64 ->
    post (Model.Blake2.addData_tail St B dbg impl d s) (goal2 (cnt s + u * N.of_nat (length d))).
  Proof.
    intros Hs Hd. unfold Model.Blake2.addData_tail, goal2, tot. cbv zeta.
    pose proof (Nat.mod_upper_bound (length d) B ltac:(lia)) as Hm. pose proof (Nat.div_mod (length d) B ltac:(lia)) as Hdm.
    set (rem := if negb (length d mod B =? 0)%nat then (length d mod B)%nat else B).
    destruct (Nat.leb_spec rem (length d)) as [Hle|_]; [|apply post_ub].
    assert ((length d - rem) mod B = 0)%nat as Hz.
    { unfold rem in *. destruct (Nat.eqb_spec (length d mod B) 0) as [E|E]; cbn [negb] in *.
      - replace (length d - B)%nat with ((length d / B - 1) * B)%nat by nia. apply Nat.mod_mul. lia.
      - replace (length d - length d mod B)%nat with (length d / B * B)%nat by lia. apply Nat.mod_mul. lia. }
    set (len := (length d - rem)%nat) in *.
    apply (post_bind _ _ (fun e => length e = len)).
    { intros e E. unfold span_first in E. destruct (len <=? length d)%nat; [|discriminate]. injection E as <-.
      rewrite firstn_length. lia. }
    intros e He. apply (post_bind _ _ _ _ (Himpl e s Hs ltac:(rewrite He; exact Hz) ltac:(lia))).
    intros s' [Hok Hc]. rewrite He in Hc.
    apply (post_bind _ _ _ _ (post_range dbg B (skipn len d))). intros b' [Hi Hz']. apply post_ok. cbn [fst snd].
    rewrite skipn_length in Hz'. repeat (split; [assumption|]). rewrite Hz'.
    rewrite <- N.add_mod_idemp_l, Hc, N.add_mod_idemp_l by exact HW. f_equal. nia.
  Qed.

  Theorem count_add2 d o : ok (snd o) -> holding B (fst o) -> N.of_nat (length d) < 2 ^ 64 ->
    post (Model.Blake2.addData St B dbg impl d o) (goal2 (tot o + u * N.of_nat (length d))).
  Proof.
    unfold Model.Blake2.addData. generalize 3%nat. intros fuel. revert d o.
    induction fuel as [|fuel IH]; intros d [b s]; cbn [fst snd]; intros Hs Hb Hd; cbn [Model.Blake2.addData_rec]; [apply post_ub|].
    destruct d as [|d0 dt].
    { apply post_ok. unfold goal2, tot. cbn [fst snd length]. rewrite N.mul_0_r, N.add_0_r. auto. }
    set (d := d0 :: dt) in *. clearbody d.
    destruct (Nat.eqb_spec (buf_size b) B) as [E|E].
    - pose proof (span_length B b Hb) as Hsp. rewrite E in Hsp.
      apply (post_bind _ _ _ _ (Himpl (buf_span b) s Hs ltac:(rewrite Hsp; apply Nat.mod_same; lia) ltac:(lia))).
      intros s' [Hok Hc]. rewrite Hsp in Hc.
      apply (post_weaken _ _ _ (count_tail2 d s' Hok Hd)). intros o' (G1 & G2 & G3). unfold goal2. repeat (split; [assumption|]).
      rewrite G3. unfold tot. cbn [fst snd]. rewrite <- N.add_mod_idemp_l, Hc, N.add_mod_idemp_l by exact HW. f_equal. rewrite E. reflexivity.
    - unfold buf_empty. destruct (Nat.eqb_spec (b_end b) 0) as [E0|E0]; cbn [negb].
      + apply (post_weaken _ _ _ (count_tail2 d s Hs Hd)). intros o' Ho. unfold goal2, tot in *. cbn [fst snd].
        replace (buf_size b) with 0%nat by (symmetry; exact E0). rewrite N.mul_0_r, N.add_0_r. exact Ho.
      + cbv zeta. set (len := min (B - buf_size b) (length d)).
        apply (post_bind _ _ _ _ (post_push dbg B (firstn len d) b Hb)). intros b1 [Hi1 Hz1].
        rewrite firstn_length_le in Hz1 by (unfold len; lia).
        apply (post_bind _ _ (fun e => length e = (length d - len)%nat)).
        { intros e E1. unfold span_subspan in E1. destruct (len <=? length d)%nat; [|discriminate]. injection E1 as <-. apply skipn_length. }
        intros e He. assert (len <= length d)%nat by (unfold len; lia).
        apply (post_weaken _ _ _ (IH e (b1, s) Hs Hi1 ltac:(lia))). intros o' (G1 & G2 & G3). unfold goal2, tot in *. cbn [fst snd] in *.
        repeat (split; [assumption|]). rewrite G3, He. f_equal. nia.
  Qed.
End Add.

(** ** addDataImpl *)
Lemma md_count {H} B dbg (compress : list N -> H -> res H) d (s : MD H) : (0 < B)%nat ->
  post (md_impl B dbg compress d s) (fun s' => md_cnt s' < 2 ^ 64 /\ md_cnt s' mod 2 ^ 64 = (md_cnt s + 1 * N.of_nat (length d)) mod 2 ^ 64).
Proof.
  intros HB. unfold md_impl. apply post_any. intros _. apply post_any. intros h. apply post_ok. cbn [md_cnt].
  rewrite N.mul_1_l, uadd_mod, N.mod_mod by apply pow2_nz. split; [apply N.mod_lt, pow2_nz|reflexivity].
Qed.
Lemma md8_count {H} B dbg (compress : list N -> H -> res H) d (s : MD128 H) : (0 < B)%nat ->
  u128_ok (md8_cnt s) -> N.of_nat (length d) < 2 ^ 64 ->
  post (md128_impl B dbg compress d s) (fun s' => u128_ok (md8_cnt s') /\
    u128_val (md8_cnt s') mod 2 ^ 128 = (u128_val (md8_cnt s) + 1 * N.of_nat (length d)) mod 2 ^ 128).
Proof.
  intros HB Hu Hd. unfold md128_impl. apply post_any. intros _. apply post_any. intros h. apply post_ok. cbn [md8_cnt].
  rewrite u128_add_ok by assumption. split; [apply u128_of_ok|].
  rewrite u128_val_of, N.mul_1_l, N.mod_mod by apply pow2_nz. reflexivity.
Qed.

Lemma block_count {S} B (compress : list N -> S -> res S) (cnt : S -> N) (ok : S -> Prop) c W : (0 < B)%nat -> W <> 0 ->
  (forall m s, ok s -> post (compress m s) (fun s' => ok s' /\ cnt s' mod W = (cnt s + c) mod W)) ->
  forall d s, ok s -> post (block_loop S B compress d s) (fun s' => ok s' /\ cnt s' mod W = (cnt s + N.of_nat (length d / B) * c) mod W).
Proof.
  intros HB HW Hc d. unfold block_loop. generalize 0%nat. set (f := fun i h => compress (skipn (i * B) d) h).
  induction (length d / B)%nat as [|n IH]; intros i s Hs; cbn [for_].
  - apply post_ok. rewrite N.mul_0_l, N.add_0_r. auto.
  - apply (post_bind _ _ _ _ (Hc _ s Hs)). intros s1 [H1 E1]. apply (post_weaken _ _ _ (IH _ s1 H1)).
    intros s2 [H2 E2]. split; [exact H2|]. rewrite E2, <- N.add_mod_idemp_l, E1, N.add_mod_idemp_l by exact HW. f_equal. lia.
Qed.

Section Blake.
  Variables (w : N) (nb : nat) (r1 r2 r3 r4 : N) (T : list N) (F : Type) (calls : list (call F)) (K : Counter).
  Variables (val : ctr K -> N) (cok : ctr K -> Prop) (W : N).
  Hypothesis HW : W <> 0.
  Hypothesis Hnb : (1 <= nb <= 8)%nat.
  Hypothesis Hadd : forall c n, cok c -> n < 2 ^ 64 -> cok (k_add K c n) /\ val (k_add K c n) = (val c + n) mod W.

  Lemma blake1_count narrow dbg d s : cok (fst s) -> (length d mod (16 * nb) = 0)%nat ->
    post (Model.Blake1.impl w nb r1 r2 r3 r4 T F calls K narrow dbg 0 d s) (fun s' => cok (fst s') /\
      val (fst s') mod W = (val (fst s) + 8 * N.of_nat (length d)) mod W).
  Proof.
    intros Hs Hd. unfold Model.Blake1.impl. apply post_any. intros _.
    change (Model.Blake1.BLOCK_SIZE nb) with (16 * nb)%nat.
    pose proof (Nat.div_mod (length d) (16 * nb) ltac:(lia)) as Hdm.
    refine (post_weaken _ _ _ (block_count (16 * nb) _ (fun s : ctr K * list N => val (fst s)) (fun s => cok (fst s))
             (8 * N.of_nat (16 * nb)) W ltac:(lia) HW _ d s Hs) _);
      [|intros s' [H1 H2]; split; [exact H1|]; cbv beta in H2; rewrite H2; f_equal; nia].
    intros m [c h] Hc. cbn [fst] in *. unfold Model.Blake1.compress. do 2 (apply post_any; intros ?). cbv zeta.
    do 3 (apply post_any; intros ?). apply post_ok. cbn [fst].
    assert (Z.to_N (Model.Blake1.nonPaddingBits nb narrow 0 mod 2 ^ 64) = 8 * N.of_nat (16 * nb)) as ->.
    { unfold Model.Blake1.nonPaddingBits, Model.Blake1.BLOCK_SIZE. destruct narrow;
        rewrite !(Z.mod_small _ _) by (split; [lia|]; apply (Z.le_lt_trans _ 1024); [lia|reflexivity]); lia. }
    destruct (Hadd c (8 * N.of_nat (16 * nb)) Hc) as [H1 H2].
    { apply (N.le_lt_trans _ 1024); [lia|reflexivity]. }
    split; [exact H1|]. rewrite H2. apply N.mod_mod, HW.
  Qed.

  Lemma blake2_count dbg d s : cok (fst s) -> (length d mod (16 * nb) = 0)%nat ->
    post (Model.Blake2.impl w nb r1 r2 r3 r4 T F calls K dbg false 0 d s) (fun s' => cok (fst s') /\
      val (fst s') mod W = (val (fst s) + 1 * N.of_nat (length d)) mod W).
  Proof.
    intros Hs Hd. unfold Model.Blake2.impl. apply post_any. intros _.
    change (Model.Blake2.BLOCK_SIZE nb) with (16 * nb)%nat.
    pose proof (Nat.div_mod (length d) (16 * nb) ltac:(lia)) as Hdm.
    refine (post_weaken _ _ _ (block_count (16 * nb) _ (fun s : ctr K * list N => val (fst s)) (fun s => cok (fst s))
             (N.of_nat (16 * nb)) W ltac:(lia) HW _ d s Hs) _);
      [|intros s' [H1 H2]; split; [exact H1|]; cbv beta in H2; rewrite H2; f_equal; nia].
    intros m [c h] Hc. cbn [fst] in *. unfold Model.Blake2.compress. cbv zeta. 
    do 8 (apply post_any; intros ?). apply post_ok. cbn [fst].
    assert (Z.to_N ((Z.of_nat (Model.Blake2.BLOCK_SIZE nb) - Z.of_nat 0) mod 2 ^ 64) = N.of_nat (16 * nb)) as ->.
    { unfold Model.Blake2.BLOCK_SIZE. rewrite (Z.mod_small _ _) by (split; [lia|]; apply (Z.le_lt_trans _ 1024); [lia|reflexivity]). lia. }
    destruct (Hadd c (N.of_nat (16 * nb)) Hc) as [H1 H2].
    { apply (N.le_lt_trans _ 1024); [lia|reflexivity]. }
    split; [exact H1|]. rewrite H2. apply N.mod_mod, HW.
  Qed.
End Blake.

(** ** finalize *)
Lemma pad_len_data B r (data : list N) : (0 < B)%nat -> (length data < B)%nat -> (r <= B)%nat -> N.of_nat (2 * B) < 2 ^ 64 ->
  exists k, pad_len B r (length data + 1) = k /\ (k < B)%nat /\ ((length data + 1 + k + r) mod B = 0)%nat /\ (length data + 1 + k + r <= 2 * B)%nat.
Proof.
  intros HB Hd Hr H64. exists (pad_len B r (length data + 1)). split; [reflexivity|].
  rewrite pad_len_spec by lia. set (t := (length data + 1 + r)%nat).
  pose proof (Nat.mod_upper_bound (2 * B - t) B ltac:(lia)). split; [lia|].
  pose proof (Nat.div_mod (2 * B - t) B ltac:(lia)) as Hdm. split.
  - replace (length data + 1 + (2 * B - t) mod B + r)%nat with ((2 - (2 * B - t) / B) * B)%nat by (unfold t in *; nia).
    apply Nat.mod_mul. lia.
  - pose proof (Nat.mod_le (2 * B - t) B ltac:(lia)). unfold t in *. lia.
Qed.

Lemma md_field {H} B dbg padbyte write_len (enc : N -> list N) (impl : list N -> MD H -> res (MD H)) data cnt h :
  (8 <= B)%nat -> N.of_nat (2 * B) < 2 ^ 64 -> (length data < B)%nat ->
  (forall cap x bits, (length x + 8 <= cap)%nat -> write_len bits (canon cap (x ++ repeat 0 8)) = Ok (canon cap (x ++ enc bits))) ->
  (forall x, length (enc x) = 8%nat) -> (forall x, enc (x mod 2 ^ 64) = enc x) ->
  exists k, (k < B)%nat /\ ((length data + 1 + k + 8) mod B = 0)%nat /\
  md_finalize B dbg padbyte write_len impl (canon (2 * B) data, mkMD cnt h) =
  let total := (cnt + N.of_nat (length data)) mod 2 ^ 64 in
  (let! s := impl (data ++ [padbyte] ++ repeat 0 k ++ enc (8 * (cnt + N.of_nat (length data)))) (mkMD total h) in Ok (buf_new (2 * B), s)).
Proof.
  intros HB H64 Hd Hwrite Hel Hem. destruct (pad_len_data B 8 data ltac:(lia) Hd HB H64) as (k & Ek & Hk & Hm & Ht).
  exists k. split; [exact Hk|]. split; [exact Hm|]. unfold md_finalize.
  rewrite canon_size. rewrite fill_canon by lia. rewrite bind_ok. cbn [repeat].
  rewrite canon_size, app_length. cbn [length]. rewrite Ek. rewrite fill_canon by (rewrite app_length; cbn [length]; lia). rewrite bind_ok.
  rewrite repeat_app, app_assoc. rewrite Hwrite by (rewrite !app_length, repeat_length; cbn [length]; lia). rewrite bind_ok.
  cbn [md_cnt md_h]. cbv zeta.
  assert (enc (umul 64 (uadd 64 cnt (N.of_nat (length data))) 8) = enc (8 * (cnt + N.of_nat (length data)))) as ->.
  { rewrite umul_spec, uadd_mod, <- (Hem (8 * _)). unfold mul. f_equal. rewrite N.mul_mod_idemp_l by apply pow2_nz. f_equal. lia. }
  rewrite canon_span, uadd_mod, <- !app_assoc.
  destruct (impl _ _) as [s| |]; [|reflexivity..]. rewrite !bind_ok.
  rewrite canon_clear by (rewrite !app_length, repeat_length, Hel; cbn [length]; lia). rewrite canon_nil. reflexivity.
Qed.

Lemma md128_field {H} B reserve dbg (impl : list N -> MD128 H -> res (MD128 H)) data cnt h :
  (reserve <= B)%nat -> (16 <= reserve)%nat -> N.of_nat (2 * B) < 2 ^ 64 -> (length data < B)%nat -> u128_ok cnt ->
  let total := u128_val cnt + N.of_nat (length data) in
  exists k, (k < B)%nat /\ ((length data + 1 + k + reserve) mod B = 0)%nat /\
  md128_finalize B reserve dbg impl (canon (2 * B) data, mkMD128 cnt h) =
  (let! s := impl (data ++ [128] ++ repeat 0 k ++ repeat 0 (reserve - 16) ++ be_bytes 16 (8 * total))
                  (mkMD128 (u128_of (8 * total)) h) in Ok (buf_new (2 * B), s)).
Proof.
  intros HB Hr H64 Hd Hu total. destruct (pad_len_data B reserve data ltac:(lia) Hd HB H64) as (k & Ek & Hk & Hm & Ht).
  exists k. split; [exact Hk|]. split; [exact Hm|]. unfold md128_finalize.
  rewrite canon_size. rewrite fill_canon by lia. rewrite bind_ok. cbn [repeat].
  rewrite canon_size, app_length. cbn [length]. rewrite Ek. rewrite fill_canon by (rewrite app_length; cbn [length]; lia). rewrite bind_ok.
  cbn [md8_cnt md8_h]. rewrite u128_add_ok by (try exact Hu; lia). rewrite u128_mul8_ok. fold total.
  replace (k + reserve)%nat with (k + (reserve - 16) + 16)%nat by lia.
  rewrite repeat_app, app_assoc.
  rewrite write_len_be128_ok by (rewrite !app_length, !repeat_length; cbn [length]; lia). rewrite bind_ok.
  rewrite repeat_app, canon_span, <- !app_assoc.
  destruct (impl _ _) as [s| |]; [|reflexivity..]. rewrite !bind_ok.
  rewrite canon_clear by (rewrite !app_length, !repeat_length, be_bytes_length; cbn [length]; lia). rewrite canon_nil. reflexivity.
Qed.

Lemma blake1_field w nb r1 r2 r3 r4 T F calls K narrow lastbit dbg (val : ctr K -> N) (cok : ctr K -> Prop) data c h :
  (1 <= nb <= 8)%nat -> (length data < 16 * nb)%nat -> cok c ->
  (forall c n, cok c -> n < 2 ^ 64 -> cok (k_add K c n) /\ val (k_add K c n) = (val c + n) mod 2 ^ (8 * N.of_nat (2 * nb))) ->
  (forall cap x c, cok c -> (length x + 2 * nb <= cap)%nat ->
    Model.Blake1.write_len nb (k_lo K c) (k_hi K c) (canon cap (x ++ repeat 0 (2 * nb))) = Ok (canon cap (x ++ be_bytes (2 * nb) (val c)))) ->
  exists k, (k < 16 * nb)%nat /\ ((length data + 1 + k + 2 * nb) mod (16 * nb) = 0)%nat /\
  Model.Blake1.finalize w nb r1 r2 r3 r4 T F calls K narrow lastbit dbg (canon (2 * (16 * nb)) data, (c, h)) =
  (let! s := Model.Blake1.impl w nb r1 r2 r3 r4 T F calls K narrow dbg (k + 2 * nb + 1)
               (data ++ Spec.Blake.marks lastbit k ++ be_bytes (2 * nb) (val c + 8 * N.of_nat (length data))) (c, h) in
   Ok (buf_new (2 * (16 * nb)), s)).
Proof.
  intros Hnb Hd Hc Hadd Hwrite.
  assert (N.of_nat (2 * (16 * nb)) < 2 ^ 64) as H64 by (apply (N.le_lt_trans _ 1024); [lia|reflexivity]).
  destruct (pad_len_data (16 * nb) (2 * nb) data ltac:(lia) Hd ltac:(lia) H64) as (k & Ek & Hk & Hm & Ht).
  exists k. split; [exact Hk|]. split; [exact Hm|]. unfold Model.Blake1.finalize. change (Model.Blake1.BLOCK_SIZE nb) with (16 * nb)%nat.
  rewrite canon_size. rewrite fill_canon by lia. rewrite bind_ok. cbn [repeat].
  rewrite canon_size, app_length. cbn [length]. rewrite Ek. rewrite fill_canon by (rewrite app_length; cbn [length]; lia). rewrite bind_ok.
  rewrite repeat_app, app_assoc. rewrite Blake1.lastbit_ok by lia. rewrite bind_ok. cbn [fst].
  destruct (Hadd c (N.of_nat (length data) * 8) Hc) as [Hc' Ev]; [apply (N.le_lt_trans _ 1024); [lia|reflexivity]|].
  rewrite Hwrite by (try exact Hc'; rewrite app_length, Blake1.marks_length; lia). rewrite bind_ok.
  assert (be_bytes (2 * nb) (val (k_add K c (N.of_nat (length data) * 8))) = be_bytes (2 * nb) (val c + 8 * N.of_nat (length data))) as ->.
  { rewrite Ev. rewrite <- (be_bytes_mod _ (_ + 8 * _)). f_equal. change 256 with (2 ^ 8). rewrite <- N.pow_mul_r. f_equal. lia. }
  rewrite canon_span, <- app_assoc.
  destruct (Model.Blake1.impl _ _ _ _ _ _ _ _ _ _ _ _ _ _ _) as [s| |]; [|reflexivity..]. rewrite !bind_ok.
  rewrite canon_clear by (rewrite !app_length, Blake1.marks_length, be_bytes_length; lia). rewrite canon_nil. reflexivity.
Qed.

(** BLAKE2 appends no length: the counter is an input of the last compression *)
Section Final2.
  Variables (w : N) (nb : nat) (r1 r2 r3 r4 : N) (T : list N) (F : Type) (calls : list (call F)) (K : Counter).
  Variables (val : ctr K -> N) (cok : ctr K -> Prop) (W : N) (dbg : bool).
  Hypothesis HW : W <> 0.
  Hypothesis Hnb : (1 <= nb <= 8)%nat.
  Hypothesis Hadd : forall c n, cok c -> n < 2 ^ 64 -> cok (k_add K c n) /\ val (k_add K c n) = (val c + n) mod W.

  Lemma blake2_final data c h : (length data <= 16 * nb)%nat -> cok c ->
    exists c', cok c' /\ val c' = (val c + N.of_nat (length data)) mod W /\
    Model.Blake2.finalize w nb r1 r2 r3 r4 T F calls K dbg (canon (16 * nb) data, (c, h)) =
    (let blk := data ++ repeat 0 (16 * nb - length data) in
     let! s := Model.Blake2.compress w nb r1 r2 r3 r4 T F calls K true (16 * nb - length data) blk (c, h) in
     Ok (buf_new (16 * nb), s)) /\
    post (Model.Blake2.finalize w nb r1 r2 r3 r4 T F calls K dbg (canon (16 * nb) data, (c, h))) (fun o => fst (snd o) = c').
  Proof.
    intros Hd Hc. unfold Model.Blake2.finalize. change (Model.Blake2.BLOCK_SIZE nb) with (16 * nb)%nat.
    rewrite canon_size. rewrite fill_canon by lia. rewrite bind_ok, canon_span. unfold Model.Blake2.impl.
    change (Model.Blake2.BLOCK_SIZE nb) with (16 * nb)%nat.
    set (blk := data ++ repeat 0 (16 * nb - length data)).
    assert (length blk = 16 * nb)%nat as Hl by (unfold blk; rewrite app_length, repeat_length; lia).
    rewrite assert_ok by (unfold aligned; rewrite Hl; apply Nat.mod_same; lia). rewrite bind_ok.
    unfold block_loop. rewrite Hl, Nat.div_same by lia. cbn [for_]. rewrite Nat.mul_0_l. cbn [skipn].
    destruct (Hadd c (N.of_nat (length data)) Hc) as [H1 H2]; [apply (N.le_lt_trans _ 1024); [lia|reflexivity]|].
    exists (k_add K c (N.of_nat (length data))). split; [exact H1|]. split; [exact H2|].
    set (X := Model.Blake2.compress w nb r1 r2 r3 r4 T F calls K true (16 * nb - length data) blk (c, h)).
    assert (post X (fun s => fst s = k_add K c (N.of_nat (length data)))) as HX.
    { unfold X, Model.Blake2.compress. cbv zeta. do 8 (apply post_any; intros ?). apply post_ok. cbn [fst]. f_equal.
      unfold Model.Blake2.BLOCK_SIZE. rewrite (Z.mod_small _ _) by (split; [lia|]; apply (Z.le_lt_trans _ 1024); [lia|reflexivity]). lia. }
    clearbody X. split.
    - destruct X as [s| |]; [|reflexivity..]. rewrite !bind_ok. rewrite canon_clear, canon_nil by lia. reflexivity.
    - apply (post_bind _ _ (fun s => fst s = k_add K c (N.of_nat (length data)))).
      + apply (post_bind _ _ _ _ HX). intros s Hs. apply post_ok, Hs.
      + intros s Hs. apply post_ok. exact Hs.
  Qed.
End Final2.

(** ** The classes *)
Definition ready (B cap : nat) (b : Buffer) : Prop := holding cap b /\ (buf_size b <= B)%nat /\ (buf_size b = B -> cap = B).
Definition value (c : N * N) : N := fst c + 2 ^ 64 * snd c.
Definition word_pair (c : N * N) : Prop := fst c < 2 ^ 64 /\ snd c < 2 ^ 64.
(** what [add_step] says, with the fields spelled out *)
Definition stepped {O : Type} (B cap : nat) (u W : N) (c : O -> N * N) (b : O -> Buffer) (n : N) (x y : O) : Prop :=
  (word_pair (c y) /\ ready B cap (b y)) /\
  (value (c y) + u * N.of_nat (buf_size (b y))) mod 2 ^ W = (value (c x) + u * N.of_nat (buf_size (b x)) + u * n) mod 2 ^ W.

Lemma stream_step {St} B dbg (impl : list N -> St -> res St) (c : St -> N * N) u W d (o : Buffer * St) :
  (0 < B)%nat -> N.of_nat B < 2 ^ 64 ->
  (forall d s, word_pair (c s) -> (length d mod B = 0)%nat -> N.of_nat (length d) < 2 ^ 64 ->
    post (impl d s) (fun s' => word_pair (c s') /\ value (c s') mod 2 ^ W = (value (c s) + u * N.of_nat (length d)) mod 2 ^ W)) ->
  word_pair (c (snd o)) -> ready B (2 * B) (fst o) -> N.of_nat (length d) < 2 ^ 64 ->
  post (Stream.addData St B (2 * B) dbg impl d o) (stepped B (2 * B) u W (fun o => c (snd o)) fst (N.of_nat (length d)) o).
Proof.
  intros HB H64 Hi Hc (Hh & Hs & Hf) Hd.
  assert (buf_size (fst o) < B)%nat as Hlt by (destruct (Nat.eq_dec (buf_size (fst o)) B) as [E|E]; [apply Hf in E|]; lia).
  refine (post_weaken _ _ _ (count_add B (2 * B) dbg impl (fun s => value (c s)) (fun s => word_pair (c s)) u (2 ^ W) HB H64 (pow2_nz W) Hi d o Hc Hh Hlt Hd) _).
  intros y (G1 & G2 & G3 & G4). split; [|exact G4]. split; [exact G1|]. split; [exact G2|]. lia.
Qed.

Lemma md_step {H} dbg (compress : list N -> H -> res H) d (o : Buffer * MD H) :
  word_pair (val64 (md_cnt (snd o))) -> ready 64 128 (fst o) -> N.of_nat (length d) < 2 ^ 64 ->
  post (Stream.addData (MD H) 64 128 dbg (md_impl 64 dbg compress) d o)
    (stepped 64 128 1 64 (fun o => val64 (md_cnt (snd o))) fst (N.of_nat (length d)) o).
Proof.
  intros Hc Hb Hd. refine (stream_step 64 dbg _ (fun s => val64 (md_cnt s)) 1 64 d o ltac:(lia) eq_refl _ Hc Hb Hd).
  intros e s _ _ _. refine (post_weaken _ _ _ (md_count 64 dbg compress e s ltac:(lia)) _).
  intros s' [H1 H2]. unfold value, word_pair, val64. cbn [fst snd]. rewrite N.mul_0_r, !N.add_0_r. split; [split; [exact H1|reflexivity]|exact H2].
Qed.

Lemma md128_step {H} B dbg (compress : list N -> H -> res H) d (o : Buffer * MD128 H) : (0 < B)%nat -> N.of_nat B < 2 ^ 64 ->
  word_pair (val128 (md8_cnt (snd o))) -> ready B (2 * B) (fst o) -> N.of_nat (length d) < 2 ^ 64 ->
  post (Stream.addData (MD128 H) B (2 * B) dbg (md128_impl B dbg compress) d o)
    (stepped B (2 * B) 1 128 (fun o => val128 (md8_cnt (snd o))) fst (N.of_nat (length d)) o).
Proof.
  intros HB H64 Hc Hb Hd. refine (stream_step B dbg _ (fun s => val128 (md8_cnt s)) 1 128 d o HB H64 _ Hc Hb Hd).
  intros e s Hs _ He. exact (md8_count B dbg compress e s HB Hs He).
Qed.

Section BlakeStep.
  Variables (w : N) (nb : nat) (r1 r2 r3 r4 : N) (T : list N) (F : Type) (calls : list (call F)) (K : Counter).
  Variables (c : ctr K -> N * N) (W : N).
  Hypothesis Hnb : (1 <= nb <= 8)%nat.
  Hypothesis Hadd : forall k n, word_pair (c k) -> n < 2 ^ 64 -> word_pair (c (k_add K k n)) /\ value (c (k_add K k n)) = (value (c k) + n) mod 2 ^ W.

  Let HB64 : N.of_nat (16 * nb) < 2 ^ 64.
  Proof. apply (N.le_lt_trans _ 128); [lia|reflexivity]. Qed.

  Lemma blake1_step narrow lastbit dbg iv size n d o : word_pair (c (fst (snd o))) -> ready (16 * nb) (2 * (16 * nb)) (fst o) -> N.of_nat (length d) < 2 ^ 64 ->
    post (c_add (Model.Blake1.cls w nb r1 r2 r3 r4 T F calls K narrow lastbit dbg iv size n) d o)
      (stepped (16 * nb) (2 * (16 * nb)) 8 W (fun o => c (fst (snd o))) fst (N.of_nat (length d)) o).
  Proof.
    intros Hc Hb Hd. refine (stream_step (16 * nb) dbg _ (fun s => c (fst s)) 8 W d o ltac:(lia) HB64 _ Hc Hb Hd).
    intros e s Hs He _.
    exact (blake1_count w nb r1 r2 r3 r4 T F calls K (fun k => value (c k)) (fun k => word_pair (c k)) (2 ^ W) (pow2_nz W) Hnb Hadd narrow dbg e s Hs He).
  Qed.

  Lemma blake2_step dbg size d o : word_pair (c (fst (snd o))) -> ready (16 * nb) (16 * nb) (fst o) -> N.of_nat (length d) < 2 ^ 64 ->
    post (c_add (Model.Blake2.cls w nb r1 r2 r3 r4 T F calls K dbg size) d o)
      (stepped (16 * nb) (16 * nb) 1 W (fun o => c (fst (snd o))) fst (N.of_nat (length d)) o).
  Proof.
    intros Hc (Hh & Hs & Hf) Hd. 
    refine (post_weaken _ _ _ (count_add2 (16 * nb) 0 dbg (Model.Blake2.impl w nb r1 r2 r3 r4 T F calls K dbg false 0) (fun s => value (c (fst s))) (fun s => word_pair (c (fst s)))
      1 (2 ^ W) ltac:(lia) HB64 (pow2_nz W) _ d o Hc Hh Hd) _).
    - intros e s Hs' He _.
      exact (blake2_count w nb r1 r2 r3 r4 T F calls K (fun k => value (c k)) (fun k => word_pair (c k)) (2 ^ W) (pow2_nz W) Hnb Hadd dbg e s Hs' He).
    - intros y (G1 & G2 & G3). split; [|exact G3]. split; [exact G1|]. split; [exact G2|]. split; [|reflexivity].
      destruct G2 as [e [He ->]]. exact He.
  Qed.
End BlakeStep.

Lemma add64 k n : word_pair (val64 k) -> n < 2 ^ 64 -> word_pair (val64 (k_add ctr64 k n)) /\ value (val64 (k_add ctr64 k n)) = (value (val64 k) + n) mod 2 ^ 64.
Proof.
  intros [Hk _] Hn. unfold value, word_pair, val64 in *. cbn [fst snd ctr64 k_add] in *. rewrite uadd_mod, N.mul_0_r, !N.add_0_r.
  split; [split; [apply N.mod_lt, pow2_nz|reflexivity]|reflexivity].
Qed.
Lemma add128 k n : word_pair (val128 k) -> n < 2 ^ 64 -> word_pair (val128 (k_add ctr128 k n)) /\ value (val128 (k_add ctr128 k n)) = (value (val128 k) + n) mod 2 ^ 128.
Proof. intros Hk Hn. exact (Blake1.ctr128_add k n Hk Hn). Qed.

Theorem add_step (a : alg) dbg d x W : width_of a = Some W -> between a dbg x -> N.of_nat (length d) < 2 ^ 64 ->
  post (c_add (class a dbg) d x) (fun y => between a dbg y /\
    taken a dbg y mod 2 ^ W = (taken a dbg x + unit_of a * N.of_nat (length d)) mod 2 ^ W).
Proof.
  intros HWa Hx Hd.
  assert (post (c_add (class a dbg) d x) (stepped (block_size a) (capacity a) (unit_of a) W (counter a dbg) (buffer a dbg) (N.of_nat (length d)) x)) as G.
  { destruct Hx as (Hlo & Hhi & Hr).
    destruct a; try discriminate HWa; injection HWa as <-.
    all: try exact (md_step dbg _ d x (conj Hlo Hhi) Hr Hd).
    all: try exact (md128_step 128 dbg _ d x ltac:(lia) eq_refl (conj Hlo Hhi) Hr Hd).
    all: try exact (md128_step 64 dbg _ d x ltac:(lia) eq_refl (conj Hlo Hhi) Hr Hd).
    all: try exact (blake1_step 32 4 _ _ _ _ _ _ _ ctr64 val64 64 ltac:(lia) add64 _ _ dbg _ _ _ d x (conj Hlo Hhi) Hr Hd).
    all: try exact (blake1_step 64 8 _ _ _ _ _ _ _ ctr128 val128 128 ltac:(lia) add128 _ _ dbg _ _ _ d x (conj Hlo Hhi) Hr Hd).
    all: try exact (blake2_step 32 4 _ _ _ _ _ _ _ ctr64 val64 64 ltac:(lia) add64 dbg _ d x (conj Hlo Hhi) Hr Hd).
    exact (blake2_step 64 8 _ _ _ _ _ _ _ ctr128 val128 128 ltac:(lia) add128 dbg _ d x (conj Hlo Hhi) Hr Hd). }
  refine (post_weaken _ _ _ G _). intros y [[[H1 H2] H3] H4]. split; [|exact H4]. split; [exact H1|]. split; [exact H2|exact H3].
Qed.

Lemma new_between (a : alg) dbg W : width_of a = Some W -> between a dbg (c_new (class a dbg)) /\ taken a dbg (c_new (class a dbg)) = 0.
Proof.
  intros HWa. destruct a; try discriminate HWa.
  all: split; [split; [reflexivity|split; [reflexivity|split; [apply holding_new|cbn; split; [lia|discriminate]]]]|reflexivity].
Qed.

Theorem add_all (a : alg) dbg W ds : width_of a = Some W -> Forall (fun d => N.of_nat (length d) < 2 ^ 64) ds ->
  post (foldM (c_add (class a dbg)) ds (c_new (class a dbg))) (fun y => between a dbg y /\
    taken a dbg y mod 2 ^ W = (unit_of a * N.of_nat (length (concat ds))) mod 2 ^ W).
Proof.
  intros HWa Hds. destruct (new_between a dbg W HWa) as [Hb H0].
  assert (forall x, between a dbg x -> post (foldM (c_add (class a dbg)) ds x) (fun y => between a dbg y /\
    taken a dbg y mod 2 ^ W = (taken a dbg x + unit_of a * N.of_nat (length (concat ds))) mod 2 ^ W)) as G.
  { induction Hds as [|d ds Hd Hds IH]; intros x Hx; cbn [foldM concat].
    - apply post_ok. rewrite N.mul_0_r, N.add_0_r. auto.
    - apply (post_bind _ _ _ _ (add_step a dbg d x W HWa Hx Hd)). intros y [Hy Ey].
      refine (post_weaken _ _ _ (IH y Hy) _). intros z [Hz Ez]. split; [exact Hz|].
      rewrite Ez, <- N.add_mod_idemp_l, Ey, N.add_mod_idemp_l by apply pow2_nz. f_equal. rewrite app_length. lia. }
  refine (post_weaken _ _ _ (G _ Hb) _). rewrite H0. intros y Hy. exact Hy.
Qed.

(** ** From the first byte to the length field *)
Lemma md_all {H} dbg (compress : list N -> H -> res H) iv ds : Forall (fun d => N.of_nat (length d) < 2 ^ 64) ds ->
  post (foldM (Stream.addData (MD H) 64 128 dbg (md_impl 64 dbg compress)) ds (buf_new 128, mkMD 0 iv)) (fun y =>
    ready 64 128 (fst y) /\
    (md_cnt (snd y) + N.of_nat (buf_size (fst y))) mod 2 ^ 64 = N.of_nat (length (concat ds)) mod 2 ^ 64).
Proof.
  intros Hds. set (c := fun o : Buffer * MD H => val64 (md_cnt (snd o))).
  assert (forall x, word_pair (c x) -> ready 64 128 (fst x) ->
    post (foldM (Stream.addData (MD H) 64 128 dbg (md_impl 64 dbg compress)) ds x)
      (stepped 64 128 1 64 c fst (N.of_nat (length (concat ds))) x)) as G.
  { induction Hds as [|d ds Hd Hds IH]; intros x Hc Hr; cbn [foldM concat].
    - apply post_ok. split; [auto|]. cbn [length N.of_nat]. rewrite N.mul_0_r, N.add_0_r. reflexivity.
    - apply (post_bind _ _ _ _ (md_step dbg compress d x Hc Hr Hd)). intros y [[Hy1 Hy2] Ey].
      refine (post_weaken _ _ _ (IH y Hy1 Hy2) _). intros z [Hz Ez]. split; [exact Hz|].
      rewrite Ez, <- N.add_mod_idemp_l by apply pow2_nz. cbv beta in Ey. fold (c x) (c y) in Ey. rewrite Ey, N.add_mod_idemp_l by apply pow2_nz. f_equal. rewrite app_length. lia. }
  assert (ready 64 128 (buf_new 128)) as Hnew by (split; [apply holding_new|cbn; split; [lia|discriminate]]).
  assert (word_pair (c (buf_new 128, mkMD 0 iv))) as Hc0 by (split; reflexivity).
  refine (post_weaken _ _ _ (G _ Hc0 Hnew) _).
  intros y [[_ Hr] E]. split; [exact Hr|]. unfold value, c, val64 in E. cbn [fst snd md_cnt] in E. rewrite N.mul_0_r, N.mul_1_l, N.add_0_r in E.
  rewrite E. f_equal. change (buf_size (buf_new 128)) with 0%nat. lia.
Qed.

Lemma md128_all {H} B dbg (compress : list N -> H -> res H) iv ds : (0 < B)%nat -> N.of_nat B < 2 ^ 64 -> Forall (fun d => N.of_nat (length d) < 2 ^ 64) ds ->
  post (foldM (Stream.addData (MD128 H) B (2 * B) dbg (md128_impl B dbg compress)) ds (buf_new (2 * B), mkMD128 u128_zero iv)) (fun y =>
    u128_ok (md8_cnt (snd y)) /\ ready B (2 * B) (fst y) /\
    (u128_val (md8_cnt (snd y)) + N.of_nat (buf_size (fst y))) mod 2 ^ 128 = N.of_nat (length (concat ds)) mod 2 ^ 128).
Proof.
  intros HB H64 Hds. set (c := fun o : Buffer * MD128 H => val128 (md8_cnt (snd o))).
  assert (forall x, word_pair (c x) -> ready B (2 * B) (fst x) ->
    post (foldM (Stream.addData (MD128 H) B (2 * B) dbg (md128_impl B dbg compress)) ds x)
      (stepped B (2 * B) 1 128 c fst (N.of_nat (length (concat ds))) x)) as G.
  { induction Hds as [|d ds Hd Hds IH]; intros x Hc Hr; cbn [foldM concat].
    - apply post_ok. split; [auto|]. cbn [length N.of_nat]. rewrite N.mul_0_r, N.add_0_r. reflexivity.
    - apply (post_bind _ _ _ _ (md128_step B dbg compress d x HB H64 Hc Hr Hd)). intros y [[Hy1 Hy2] Ey].
      refine (post_weaken _ _ _ (IH y Hy1 Hy2) _). intros z [Hz Ez]. split; [exact Hz|].
      rewrite Ez, <- N.add_mod_idemp_l by apply pow2_nz. cbv beta in Ey. fold (c x) (c y) in Ey. rewrite Ey, N.add_mod_idemp_l by apply pow2_nz. f_equal. rewrite app_length. lia. }
  assert (ready B (2 * B) (buf_new (2 * B))) as Hnew by (split; [apply holding_new|cbn [buf_new buf_size b_end]; split; [lia|lia]]).
  assert (word_pair (c (buf_new (2 * B), mkMD128 u128_zero iv))) as Hc0 by (split; reflexivity).
  refine (post_weaken _ _ _ (G _ Hc0 Hnew) _).
  intros y [[Hw Hr] E]. split; [exact Hw|]. split; [exact Hr|]. rewrite N.mul_1_l in E.
  etransitivity; [exact E|]. f_equal. cbn [fst buf_new buf_size b_end]. change (value (c (buf_new (2 * B), mkMD128 u128_zero iv))) with 0. lia.
Qed.

Lemma ready_lt B b : (0 < B)%nat -> ready B (2 * B) b -> exists data, b = canon (2 * B) data /\ (length data < B)%nat.
Proof.
  intros HB ([data [_ ->]] & Hs & Hf). exists data. split; [reflexivity|]. rewrite held_canon, canon_size in *.
  destruct (Nat.eq_dec (length data) B) as [E|E]; [apply Hf in E|]; lia.
Qed.

Theorem md_appended {H} dbg padbyte write_len (enc : N -> list N) (compress : list N -> H -> res H) iv arr ds x :
  (forall cap x bits, (length x + 8 <= cap)%nat -> write_len bits (canon cap (x ++ repeat 0 8)) = Ok (canon cap (x ++ enc bits))) ->
  (forall x, length (enc x) = 8%nat) -> (forall x, enc (x mod 2 ^ 64) = enc x) ->
  let C := md_class 64 dbg padbyte write_len compress iv arr in
  Forall (fun d => N.of_nat (length d) < 2 ^ 64) ds -> foldM (c_add C) ds (c_new C) = Ok x ->
  let total := N.of_nat (length (concat ds)) in
  exists k, (k < 64)%nat /\ ((buf_size (fst x) + 1 + k + 8) mod 64 = 0)%nat /\
  c_finalize C x =
  (let! s := md_impl 64 dbg compress (buf_span (fst x) ++ [padbyte] ++ repeat 0 k ++ enc ((8 * total) mod 2 ^ 64))
               (mkMD (total mod 2 ^ 64) (md_h (snd x))) in Ok (buf_new 128, s)).
Proof.
  intros Hwrite Hel Hem C Hds Hx total. destruct (md_all dbg compress iv ds Hds x Hx) as [Hr E]. fold total in E.
  destruct x as [b [cnt h]]. cbn [fst snd md_cnt md_h] in *.
  destruct (ready_lt 64 b ltac:(lia) Hr) as (data & -> & Hl). rewrite canon_size, canon_span in *.
  destruct (md_field 64 dbg padbyte write_len enc (md_impl 64 dbg compress) data cnt h ltac:(lia) eq_refl Hl Hwrite Hel Hem) as (k & Hk & Hm & Ef).
  exists k. split; [exact Hk|]. split; [exact Hm|]. cbn [C md_class c_finalize].
  etransitivity; [exact Ef|]. cbv zeta. rewrite E. rewrite Hem.
  rewrite <- (Hem (8 * (_ + _))), <- (Hem (8 * total)).
  rewrite <- (N.mul_mod_idemp_r 8), E, N.mul_mod_idemp_r by apply pow2_nz. reflexivity.
Qed.

Theorem md128_appended {H} B reserve dbg (compress : list N -> H -> res H) iv arr ds x :
  (reserve <= B)%nat -> (16 <= reserve)%nat -> N.of_nat (2 * B) < 2 ^ 64 ->
  let C := md128_class B reserve dbg compress iv arr in
  Forall (fun d => N.of_nat (length d) < 2 ^ 64) ds -> foldM (c_add C) ds (c_new C) = Ok x ->
  let bits := (8 * N.of_nat (length (concat ds))) mod 2 ^ 128 in
  exists k, (k < B)%nat /\ ((buf_size (fst x) + 1 + k + reserve) mod B = 0)%nat /\
  c_finalize C x =
  (let! s := md128_impl B dbg compress (buf_span (fst x) ++ [128] ++ repeat 0 k ++ repeat 0 (reserve - 16) ++ be_bytes 16 bits)
               (mkMD128 (mkU128 (bits mod 2 ^ 64) (bits / 2 ^ 64)) (md8_h (snd x))) in Ok (buf_new (2 * B), s)).
Proof.
  intros HB Hr16 H64 C Hds Hx bits.
  destruct (md128_all B dbg compress iv ds ltac:(lia) ltac:(lia) Hds x Hx) as (Hu & Hr & E).
  destruct x as [b [cnt h]]. cbn [fst snd md8_cnt md8_h] in *.
  destruct (ready_lt B b ltac:(lia) Hr) as (data & -> & Hl). rewrite canon_size, canon_span in *.
  destruct (md128_field B reserve dbg (md128_impl B dbg compress) data cnt h HB Hr16 H64 Hl Hu) as (k & Hk & Hm & Ef).
  exists k. split; [exact Hk|]. split; [exact Hm|]. cbn [C md128_class c_finalize].
  etransitivity; [exact Ef|]. set (tot := u128_val cnt + N.of_nat (length data)) in *.
  assert ((8 * tot) mod 2 ^ 128 = bits) as Eb.
  { unfold bits. rewrite <- N.mul_mod_idemp_r, E, N.mul_mod_idemp_r by apply pow2_nz. reflexivity. }
  assert (be_bytes 16 (8 * tot) = be_bytes 16 bits) as ->.
  { rewrite <- be_bytes_mod. change (256 ^ N.of_nat 16) with (2 ^ 128). rewrite Eb. reflexivity. }
  assert (u128_of (8 * tot) = mkU128 (bits mod 2 ^ 64) (bits / 2 ^ 64)) as ->; [|reflexivity].
  rewrite <- Eb, <- u128_val_of. generalize (u128_of_ok (8 * tot)). generalize (u128_of (8 * tot)). intros [lo hi] [Hlo Hhi].
  unfold u128_val. cbn [u_lo u_hi] in *. rewrite (N.mul_comm (2 ^ 64)), N.mod_add, N.div_add, N.mod_small, N.div_small by (try apply pow2_nz; exact Hlo).
  reflexivity.
Qed.

(** ** Instances *)
Lemma instance64 (a : alg) dbg m be : appends64 a = Some (m, be) ->
  exists H (compress : list N -> H -> res H) iv arr, class a dbg = md_class 64 dbg m (if be then write_len_be else write_len_le) compress iv arr.
Proof. intros E. destruct a; try discriminate E; injection E as <- <-; do 4 eexists; reflexivity. Qed.
Lemma instance128 (a : alg) dbg B r : appends128 a = Some (B, r) ->
  exists H (compress : list N -> H -> res H) iv arr, class a dbg = md128_class B r dbg compress iv arr.
Proof. intros E. destruct a; try discriminate E; injection E as <- <-; do 4 eexists; reflexivity. Qed.

Lemma write_one (be : bool) cap x bits : (length x + 8 <= cap)%nat ->
  (if be then write_len_be else write_len_le) bits (canon cap (x ++ repeat 0 8)) = Ok (canon cap (x ++ (if be then be_bytes 8 else le_bytes 8) bits)).
Proof. intros H. destruct be; [apply write_len_be_ok|apply write_len_le_ok]; exact H. Qed.
Theorem appended64 {H} dbg m (be : bool) (compress : list N -> H -> res H) iv arr ds x :
  let C := md_class 64 dbg m (if be then write_len_be else write_len_le) compress iv arr in
  Forall (fun d => N.of_nat (length d) < 2 ^ 64) ds -> foldM (c_add C) ds (c_new C) = Ok x ->
  let total := N.of_nat (length (concat ds)) in
  exists k, (k < 64)%nat /\ ((buf_size (fst x) + 1 + k + 8) mod 64 = 0)%nat /\
  c_finalize C x =
  (let! s := md_impl 64 dbg compress (buf_span (fst x) ++ [m] ++ repeat 0 k ++ (if be then be_bytes 8 else le_bytes 8) ((8 * total) mod 2 ^ 64))
               (mkMD (total mod 2 ^ 64) (md_h (snd x))) in Ok (buf_new 128, s)).
Proof.
  apply (md_appended dbg m _ (if be then be_bytes 8 else le_bytes 8)).
  - apply write_one.
  - destruct be; [apply be_bytes_length|apply le_bytes_length].
  - destruct be; [apply (be_bytes_mod 8)|apply (le_bytes_mod 8)].
Qed.
(** at any value of the counter *)
Theorem field64 {H} dbg m (be : bool) (compress : list N -> H -> res H) iv arr data cnt h : (length data < 64)%nat ->
  let total := cnt + N.of_nat (length data) in
  exists k, (k < 64)%nat /\ ((length data + 1 + k + 8) mod 64 = 0)%nat /\
  c_finalize (md_class 64 dbg m (if be then write_len_be else write_len_le) compress iv arr) (held 128 data, mkMD cnt h) =
  (let! s := md_impl 64 dbg compress (data ++ [m] ++ repeat 0 k ++ (if be then be_bytes 8 else le_bytes 8) ((8 * total) mod 2 ^ 64))
               (mkMD (total mod 2 ^ 64) h) in Ok (buf_new 128, s)).
Proof.
  intros Hd total. set (enc := if be then be_bytes 8 else le_bytes 8).
  assert (forall x, length (enc x) = 8%nat) as Hl by (unfold enc; destruct be; [apply be_bytes_length|apply le_bytes_length]).
  assert (forall x, enc (x mod 2 ^ 64) = enc x) as Hm by (unfold enc; destruct be; [apply (be_bytes_mod 8)|apply (le_bytes_mod 8)]).
  destruct (md_field 64 dbg m _ enc (md_impl 64 dbg compress) data cnt h ltac:(lia) eq_refl Hd (write_one be) Hl Hm) as (k & Hk & Ha & E).
  exists k. split; [exact Hk|]. split; [exact Ha|]. etransitivity; [exact E|]. cbv zeta. rewrite Hm. reflexivity.
Qed.
Theorem field128 {H} B reserve dbg (compress : list N -> H -> res H) iv arr data lo hi h :
  (16 <= reserve <= B)%nat -> N.of_nat (2 * B) < 2 ^ 64 -> (length data < B)%nat -> lo < 2 ^ 64 -> hi < 2 ^ 64 ->
  let bits := (8 * (lo + 2 ^ 64 * hi + N.of_nat (length data))) mod 2 ^ 128 in
  exists k, (k < B)%nat /\ ((length data + 1 + k + reserve) mod B = 0)%nat /\
  c_finalize (md128_class B reserve dbg compress iv arr) (held (2 * B) data, mkMD128 (mkU128 lo hi) h) =
  (let! s := md128_impl B dbg compress (data ++ [128] ++ repeat 0 k ++ repeat 0 (reserve - 16) ++ be_bytes 16 bits)
               (mkMD128 (mkU128 (bits mod 2 ^ 64) (bits / 2 ^ 64)) h) in Ok (buf_new (2 * B), s)).
Proof.
  intros [Hr HB] H64 Hd Hlo Hhi bits.
  destruct (md128_field B reserve dbg (md128_impl B dbg compress) data (mkU128 lo hi) h HB Hr H64 Hd (conj Hlo Hhi)) as (k & Hk & Hm & Ef).
  exists k. split; [exact Hk|]. split; [exact Hm|]. etransitivity; [exact Ef|].
  set (tot := u128_val (mkU128 lo hi) + N.of_nat (length data)) in *.
  assert ((8 * tot) mod 2 ^ 128 = bits) as Eb by reflexivity. clearbody bits.
  assert (be_bytes 16 (8 * tot) = be_bytes 16 bits) as ->.
  { rewrite <- be_bytes_mod. change (256 ^ N.of_nat 16) with (2 ^ 128). rewrite Eb. reflexivity. }
  assert (u128_of (8 * tot) = mkU128 (bits mod 2 ^ 64) (bits / 2 ^ 64)) as ->; [|reflexivity].
  rewrite <- Eb, <- u128_val_of. generalize (u128_of_ok (8 * tot)). generalize (u128_of (8 * tot)). clear. intros [lo hi] [Hlo Hhi].
  unfold u128_val. cbn [u_lo u_hi] in *. rewrite (N.mul_comm (2 ^ 64)), N.mod_add, N.div_add, N.mod_small, N.div_small by (try apply pow2_nz; exact Hlo).
  reflexivity.
Qed.

(** BLAKE-1: the field is the counter (in bits) plus the buffered bits *)
Theorem blake1_field64 r1 r2 r3 r4 T F calls narrow lastbit dbg data c h : c < 2 ^ 64 -> (length data < 64)%nat ->
  exists k, (k < 64)%nat /\ ((length data + 1 + k + 8) mod 64 = 0)%nat /\
  Model.Blake1.finalize 32 4 r1 r2 r3 r4 T F calls ctr64 narrow lastbit dbg (held 128 data, (c, h)) =
  (let! s := Model.Blake1.impl 32 4 r1 r2 r3 r4 T F calls ctr64 narrow dbg (k + 8 + 1)
               (data ++ Spec.Blake.marks lastbit k ++ be_bytes 8 ((c + 8 * N.of_nat (length data)) mod 2 ^ 64)) (c, h) in
   Ok (buf_new 128, s)).
Proof.
  intros Hc Hd. destruct (blake1_field 32 4 r1 r2 r3 r4 T F calls ctr64 narrow lastbit dbg (fun c => c) Blake1.cok64 data c h
    ltac:(lia) Hd Hc Blake1.ctr64_add Blake1.write_len4_ok) as (k & Hk & Hm & E).
  exists k. split; [exact Hk|]. split; [exact Hm|]. etransitivity; [exact E|].
  assert (be_bytes 8 (c + 8 * N.of_nat (length data)) = be_bytes 8 ((c + 8 * N.of_nat (length data)) mod 2 ^ 64)) as Ee by (symmetry; apply (be_bytes_mod 8)).
  change (2 * 4)%nat with 8%nat. rewrite Ee. reflexivity.
Qed.
Theorem blake1_field128 r1 r2 r3 r4 T F calls narrow lastbit dbg data lo hi h : lo < 2 ^ 64 -> hi < 2 ^ 64 -> (length data < 128)%nat ->
  exists k, (k < 128)%nat /\ ((length data + 1 + k + 16) mod 128 = 0)%nat /\
  Model.Blake1.finalize 64 8 r1 r2 r3 r4 T F calls ctr128 narrow lastbit dbg (held 256 data, (mkU128 lo hi, h)) =
  (let! s := Model.Blake1.impl 64 8 r1 r2 r3 r4 T F calls ctr128 narrow dbg (k + 16 + 1)
               (data ++ Spec.Blake.marks lastbit k ++ be_bytes 16 ((lo + 2 ^ 64 * hi + 8 * N.of_nat (length data)) mod 2 ^ 128)) (mkU128 lo hi, h) in
   Ok (buf_new 256, s)).
Proof.
  intros Hlo Hhi Hd. destruct (blake1_field 64 8 r1 r2 r3 r4 T F calls ctr128 narrow lastbit dbg u128_val u128_ok data (mkU128 lo hi) h
    ltac:(lia) Hd (conj Hlo Hhi) Blake1.ctr128_add Blake1.write_len8_ok) as (k & Hk & Hm & E).
  exists k. split; [exact Hk|]. split; [exact Hm|]. etransitivity; [exact E|].
  change (u128_val (mkU128 lo hi)) with (lo + 2 ^ 64 * hi).
  assert (be_bytes 16 (lo + 2 ^ 64 * hi + 8 * N.of_nat (length data)) = be_bytes 16 ((lo + 2 ^ 64 * hi + 8 * N.of_nat (length data)) mod 2 ^ 128)) as Ee by (symmetry; apply (be_bytes_mod 16)).
  change (2 * 8)%nat with 16%nat. rewrite Ee. reflexivity.
Qed.

(** BLAKE2: the counter after the last block, which is the one that its compression used *)
Theorem blake2b_counter dbg x : between Blake2 dbg x ->
  post (c_finalize (class Blake2 dbg) x) (fun y => value (counter Blake2 dbg y) = taken Blake2 dbg x mod 2 ^ 128).
Proof.
  destruct x as [b [c h]]. intros (Hlo & Hhi & [data [Hd Eb]] & _). cbn [buffer] in Eb. cbn [fst] in Eb. subst b.
  destruct (blake2_final 64 8 32 24 16 63 Model.Blake2.iv_b _ Blake2Calls.calls ctr128 u128_val u128_ok (2 ^ 128) dbg (pow2_nz 128) ltac:(lia)
    Blake1.ctr128_add data c h Hd (conj Hlo Hhi)) as (c' & _ & Hv & _ & HP).
  refine (post_weaken _ _ _ HP _). intros y Hy. unfold taken. cbn [counter buffer unit_of fst snd].
  change (Buffer * (ctr ctr128 * list N))%type in y. rewrite Hy.
  change (value (val128 c')) with (u128_val c'). rewrite Hv, N.mul_1_l, held_canon, canon_size. reflexivity.
Qed.
Theorem blake2s_counter dbg x : between Blake2s dbg x ->
  post (c_finalize (class Blake2s dbg) x) (fun y => value (counter Blake2s dbg y) = taken Blake2s dbg x mod 2 ^ 64).
Proof.
  destruct x as [b [c h]]. intros (Hlo & _ & [data [Hd Eb]] & _). cbn [buffer] in Eb. cbn [fst] in Eb. subst b.
  destruct (blake2_final 32 4 16 12 8 7 Model.Blake2.iv_s _ Blake2sCalls.calls ctr64 (fun c => c) Blake1.cok64 (2 ^ 64) dbg (pow2_nz 64) ltac:(lia)
    Blake1.ctr64_add data c h Hd Hlo) as (c' & _ & Hv & _ & HP).
  refine (post_weaken _ _ _ HP _). intros y Hy. unfold taken. cbn [counter buffer unit_of fst snd].
  change (Buffer * (ctr ctr64 * list N))%type in y. rewrite Hy. unfold value, val64. cbn [fst snd].
  rewrite Hv, N.mul_1_l, N.mul_0_r, !N.add_0_r, held_canon, canon_size. reflexivity.
Qed.

(** Uint128 *)
Theorem u128_add_exact lo hi n : lo < 2 ^ 64 -> hi < 2 ^ 64 -> n < 2 ^ 64 ->
  let s := (lo + 2 ^ 64 * hi + n) mod 2 ^ 128 in u128_add (mkU128 lo hi) n = mkU128 (s mod 2 ^ 64) (s / 2 ^ 64).
Proof.
  intros Hlo Hhi Hn s. pose proof (u128_add_ok (mkU128 lo hi) n (conj Hlo Hhi) Hn) as E. rewrite E.
  change (u128_val (mkU128 lo hi)) with (lo + 2 ^ 64 * hi). subst s. rewrite <- u128_val_of.
  generalize (u128_of_ok (lo + 2 ^ 64 * hi + n)). generalize (u128_of (lo + 2 ^ 64 * hi + n)). clear. intros [lo hi] [Hlo Hhi].
  unfold u128_val. cbn [u_lo u_hi] in *. rewrite (N.mul_comm (2 ^ 64)), N.mod_add, N.div_add, N.mod_small, N.div_small by (try apply pow2_nz; exact Hlo).
  reflexivity.
Qed.
Theorem u128_mul8_exact lo hi : lo < 2 ^ 64 -> hi < 2 ^ 64 ->
  let s := (8 * (lo + 2 ^ 64 * hi)) mod 2 ^ 128 in u128_mul8 (mkU128 lo hi) = mkU128 (s mod 2 ^ 64) (s / 2 ^ 64).
Proof.
  intros Hlo Hhi s. pose proof (u128_mul8_ok (u128_val (mkU128 lo hi))) as E. rewrite (u128_of_val (mkU128 lo hi) (conj Hlo Hhi)) in E. rewrite E.
  change (u128_val (mkU128 lo hi)) with (lo + 2 ^ 64 * hi). subst s. rewrite <- u128_val_of.
  generalize (u128_of_ok (8 * (lo + 2 ^ 64 * hi))). generalize (u128_of (8 * (lo + 2 ^ 64 * hi))). clear. intros [lo hi] [Hlo Hhi].
  unfold u128_val. cbn [u_lo u_hi] in *. rewrite (N.mul_comm (2 ^ 64)), N.mod_add, N.div_add, N.mod_small, N.div_small by (try apply pow2_nz; exact Hlo).
  reflexivity.
Qed.
