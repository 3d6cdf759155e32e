(** blake2.h and blake2s.h compute BLAKE2b and BLAKE2s. *)
From Coq Require Import List NArith Arith Bool Lia ZArith ZifyNat ZifyN.
From Verif.Base Require Import Res CWord.
From Verif.Spec Require Import Words Client Merkle BlakeCore.
From Verif.Spec Require Blake2.
From Verif.Model Require Import Buffer Stream Api Call BlakeMix Counter.
From Verif.Model Require Blake2.
From Verif.Proof Require Import Words Streaming Blocks Api MD MD128 Rounds Class BlakeMix Delayed.
From Verif.Proof Require Sha2 Blake1.
Import ListNotations.
Module S := Verif.Spec.Blake2.
Module M := Verif.Model.Blake2.
Local Open Scope N_scope.

Section Core.
  Variables (w : N) (nb : nat) (r1 r2 r3 r4 : N) (IV : list N) (nrounds : nat).
  Variables (F : Type) (f0 : F) (calls : list (call F)) (K : Counter) (dbg : bool).
  Variables (val : ctr K -> N) (cok : ctr K -> Prop).
  Hypothesis Hw : w = 8 * N.of_nat nb.
  Hypothesis Hnb : (1 <= nb <= 8)%nat.
  Hypothesis H1 : r1 <= w.
  Hypothesis H2 : r2 <= w.
  Hypothesis H3 : r3 <= w.
  Hypothesis H4 : r4 <= w.
  Hypothesis HIl : length IV = 8%nat.
  Hypothesis HIb : Forall (bnd w) IV.
  Definition mk (r i : nat) : call F :=
    Call f0 (cell_list (cell i)) [N.of_nat (sg r (2 * i)); N.of_nat (sg r (2 * i + 1))].
  Hypothesis Hcalls : calls = flat_map (fun r => map (mk r) (seq 0 8)) (seq 0 nrounds).
  Let Mod := 2 ^ (2 * w).
  Hypothesis Hlo : forall c, cok c -> k_lo K c = val c mod 2 ^ w.
  Hypothesis Hhi : forall c, cok c -> k_hi K c = val c / 2 ^ w mod 2 ^ w.
  Hypothesis Hadd : forall c n, cok c -> n < 2 ^ 64 -> cok (k_add K c n) /\ val (k_add K c n) = (val c + n) mod Mod.
  Hypothesis Hzero : cok (k_zero K) /\ val (k_zero K) = 0.

  Let B := (16 * nb)%nat.
  Let HB0 : (0 < B)%nat.
  Proof. unfold B. lia. Qed.
  Let Mnz : Mod <> 0.
  Proof. apply pow2_nz. Qed.

  Notation scompress := (S.compress w nb r1 r2 r3 r4 nrounds IV).
  Definition hok (h : list N) : Prop := length h = 8%nat /\ Forall (bnd w) h.
  Definition sok (s : ctr K * list N) : Prop := cok (fst s) /\ hok (snd s).

  Lemma scompress_mod h blk t f : scompress h blk (t mod Mod) f = scompress h blk t f.
  Proof.
    unfold S.compress, Mod. replace (2 * w) with (w + w) by lia. rewrite N.pow_add_r.
    assert ((t mod (2 ^ w * 2 ^ w)) mod 2 ^ w = t mod 2 ^ w) as ->.
    { rewrite N.mod_mul_r, (N.mul_comm (2 ^ w)), N.mod_add, N.mod_mod by apply pow2_nz. reflexivity. }
    assert ((t mod (2 ^ w * 2 ^ w)) / 2 ^ w mod 2 ^ w = t / 2 ^ w mod 2 ^ w) as ->; [|reflexivity].
    rewrite N.mod_mul_r, (N.mul_comm (2 ^ w)), N.div_add by apply pow2_nz.
    rewrite (N.div_small (t mod 2 ^ w)) by (apply N.mod_lt, pow2_nz).
    rewrite N.add_0_l, N.mod_mod by apply pow2_nz. reflexivity.
  Qed.

  (** what one block adds to the counter *)
  Definition inc (p : nat) : N := Z.to_N ((Z.of_nat B - Z.of_nat p) mod 2 ^ 64).
  Lemma inc_eq p : (p <= B)%nat -> inc p = N.of_nat (B - p).
  Proof using Hnb.
    clear - Hnb B. intros Hp. unfold inc.
    rewrite Z.mod_small by (unfold B in *; change (2 ^ 64)%Z with 18446744073709551616%Z; lia). lia.
  Qed.
  Lemma inc_lt p : inc p < 2 ^ 64.
  Proof.
    unfold inc. pose proof (Z.mod_pos_bound (Z.of_nat B - Z.of_nat p) (2 ^ 64) ltac:(reflexivity)) as H.
    generalize dependent ((Z.of_nat B - Z.of_nat p) mod 2 ^ 64)%Z. intros z H.
    change (2 ^ 64) with (Z.to_N (2 ^ 64)). apply Z2N.inj_lt; lia.
  Qed.

  Definition step (f : bool) (p : nat) (s : ctr K * list N) (blk : list N) : ctr K * list N :=
    let c := k_add K (fst s) (inc p) in (c, scompress (snd s) blk (val c) f).

  Lemma unot_xor x : bnd w x -> unot w x = N.lxor x (2 ^ w - 1).
  Proof.
    intros Hx. apply N.bits_inj. intros i. rewrite testbit_unot by exact Hx.
    assert (2 ^ w - 1 = N.ones w) as -> by (rewrite N.ones_equiv, N.sub_1_r; reflexivity).
    rewrite N.lxor_spec. destruct (N.ltb_spec i w) as [Hi|Hi].
    - rewrite N.ones_spec_low by exact Hi. now rewrite andb_true_r, xorb_true_r.
    - rewrite N.ones_spec_high by exact Hi. rewrite andb_false_r, xorb_false_r. symmetry. now apply (bnd_high w).
  Qed.

  Section Block.
    Variables (blk tl : list N).
    Hypothesis Hlen : length blk = B.
    Hypothesis Hok : bytes_ok blk.
    Let m := le_words nb blk.
    Let inject (r i : nat) : N * N := (nth (sg r (2 * i)) m 0, nth (sg r (2 * i + 1)) m 0).

    Lemma exec_ok r i v :
      M.exec_call w nb r1 r2 r3 r4 F (blk ++ tl) (mk r i) v =
      call_regs (blakeMix w r1 r2 r3 r4 (fst (inject r i)) (snd (inject r i))) (cell_list (cell i)) v.
    Proof.
      unfold M.exec_call, mk. cbn [c_args c_regs]. rewrite !Nnat.Nat2N.id.
      pose proof (Blake1.sg_lt r (2 * i)). pose proof (Blake1.sg_lt r (2 * i + 1)).
      rewrite !(load_le_ok nb 16) by (auto; unfold B in *; lia). cbn [bind]. reflexivity.
    Qed.

    Lemma mixed_ok v : state_ok w v ->
      foldM (M.exec_call w nb r1 r2 r3 r4 F (blk ++ tl)) calls v = Ok (rounds w r1 r2 r3 r4 inject nrounds v)
      /\ state_ok w (rounds w r1 r2 r3 r4 inject nrounds v).
    Proof.
      apply (rounds_ok F w r1 r2 r3 r4 _ inject mk nrounds calls); try assumption.
      intros. apply exec_ok.
    Qed.

    Lemma finish_ok h v : hok h -> state_ok w v ->
      let out := map (fun i => N.lxor (N.lxor (nth i h 0) (nth i v 0)) (nth (i + 8) v 0)) (seq 0 8) in
      for_ 0 8 (fun i h =>
        let! hi := aget h i in
        let! vi := aget v i in
        let! vj := aget v (i + 8) in
        aset h i (N.lxor hi (N.lxor vi vj))) h = Ok out /\ hok out.
    Proof.
      intros [Hl Hb] [Hvl Hvb]. cbv zeta. split.
      - rewrite (for_update 0 (fun i x => N.lxor x (N.lxor (nth i v 0) (nth (i + 8) v 0)))).
        + f_equal. apply map_ext. intros i. symmetry. apply N.lxor_assoc.
        + intros i s Hi Hs. rewrite !(aget_ok 0) by lia. cbn [bind]. now rewrite aset_ok by lia.
        + exact Hl.
      - split; [now rewrite map_length, seq_length|]. apply Forall_map, Forall_forall. intros i _.
        auto using bnd_lxor, Forall_nth_bnd.
    Qed.

    Lemma compress_ok f p s : sok s ->
      M.compress w nb r1 r2 r3 r4 IV F calls K f p (blk ++ tl) s = Ok (step f p s blk) /\ sok (step f p s blk).
    Proof.
      intros [Hc Hh]. destruct s as [c h]. cbn [fst snd] in *. unfold M.compress, step. cbn [fst snd].
      change (M.BLOCK_SIZE nb) with B. fold (inc p).
      destruct (Hadd c (inc p) Hc (inc_lt p)) as [Hc' _]. set (c' := k_add K c (inc p)) in *. clearbody c'.
      rewrite (Hlo c' Hc'), (Hhi c' Hc').
      destruct Hh as [Hhl Hhb]. pose proof (conj Hhl Hhb : hok h) as Hh.
      rewrite (mapM_ok (aget h) (fun i => nth i h 0)) by (intros i Hi; apply in_seq in Hi; apply aget_ok; lia).
      rewrite (mapM_ok (aget IV) (fun i => nth i IV 0)) by (intros i Hi; apply in_seq in Hi; apply aget_ok; lia).
      rewrite !(aget_ok 0) by lia.
      rewrite !bind_ok. rewrite <- (list_as_nth 0 h 8) by exact Hhl. cbn [seq map app].
      rewrite unot_xor by (apply Forall_nth_bnd, HIb).
      match goal with |- (let! _ := foldM _ _ ?X in _) = _ /\ _ => set (v := X) end.
      assert (state_ok w v) as Hv.
      { split; [unfold v; rewrite app_length, Hhl; reflexivity|]. apply Forall_app. split; [exact Hhb|].
        repeat constructor; auto using bnd_lxor, bnd_mod, Forall_nth_bnd.
        destruct f; auto using Forall_nth_bnd. apply bnd_lxor; auto using Forall_nth_bnd.
        unfold bnd. pose proof (pow2_pos w). lia. }
      destruct (mixed_ok v Hv) as [-> Hr]. rewrite bind_ok.
      destruct (finish_ok h _ Hh Hr) as [-> Ho]. rewrite bind_ok. split; [unfold S.compress; reflexivity|].
      split; [exact Hc'|exact Ho].
    Qed.
  End Block.

  (** ** whole blocks *)
  Definition run (f : bool) (p : nat) (d : list N) (s : ctr K * list N) := chain B (step f p) s d.

  Lemma loop_ok f p d s : sok s -> bytes_ok d -> aligned B d ->
    M.impl w nb r1 r2 r3 r4 IV F calls K dbg f p d s = Ok (run f p d s) /\ sok (run f p d s).
  Proof.
    intros Hs Hd Ha. unfold M.impl. change (M.BLOCK_SIZE nb) with B. rewrite assert_ok by exact Ha. rewrite bind_ok.
    apply (block_loop_ok B _ (step f p) sok); auto.
    intros blk tl t Ht Hl Hb. apply compress_ok; assumption.
  Qed.

  Notation iterate := (S.iterate w nb r1 r2 r3 r4 nrounds IV).

  (** blocks before the last *)
  Lemma run_iterate len x y : forall k c h, cok c -> y <> [] -> val c mod Mod = N.of_nat (k * B) mod Mod ->
    let s := fold_left (step false 0) x (c, h) in
    iterate k len (x ++ y) h = iterate (k + length x) len y (snd s) /\ cok (fst s) /\
    val (fst s) mod Mod = N.of_nat ((k + length x) * B) mod Mod.
  Proof.
    induction x as [|b x IH]; intros k c h Hc Hy Hv; cbn [fold_left app length]; cbv zeta.
    - cbn [fst snd]. rewrite Nat.add_0_r. auto.
    - unfold step at 2 4 6. cbn [fst snd].
      destruct (Hadd c (inc 0) Hc (inc_lt 0)) as [Hc' Hv']. set (c' := k_add K c (inc 0)) in *. clearbody c'.
      rewrite inc_eq, Nat.sub_0_r in Hv' by lia.
      assert (val c' mod Mod = N.of_nat (Datatypes.S k * B) mod Mod) as E.
      { rewrite Hv', N.mod_mod by exact Mnz. rewrite <- N.add_mod_idemp_l, Hv, N.add_mod_idemp_l by exact Mnz.
        f_equal. lia. }
      assert (scompress h b (val c') false = scompress h b (N.of_nat ((k + 1) * B)) false) as E2.
      { rewrite <- scompress_mod, E, scompress_mod. do 2 f_equal. lia. }
      destruct (IH (Datatypes.S k) c' (scompress h b (val c') false) Hc' Hy E) as (E3 & E4 & E5).
      replace (k + Datatypes.S (length x))%nat with (Datatypes.S k + length x)%nat by lia.
      split; [|auto]. rewrite <- E3, E2. change (S.B nb) with B. cbn [S.iterate].
      destruct (x ++ y) as [|z zs] eqn:Exy; [|reflexivity]. apply app_eq_nil in Exy. tauto.
  Qed.

  (** ** the class *)
  Variable size : nat.
  Hypothesis Hsize : size = (8 * nb)%nat.
  Hypothesis Hsb : bnd w (N.lxor 0x01010000 (N.of_nat size)).

  Definition s0 := (k_zero K, M.h_reset IV (N.of_nat size)).
  Definition fill (m : list N) : nat := (B - length (lastp B m))%nat.
  Definition mid (m : list N) := run false 0 (before B m) s0.
  Definition final (m : list N) := run true (fill m) (lastp B m ++ repeat 0 (fill m)) (mid m).
  Definition done (m : list N) : Buffer * (ctr K * list N) := (canon B [], final m).

  Lemma h_reset_ok : M.h_reset IV (N.of_nat size) = S.h0 IV (N.of_nat size).
  Proof. unfold M.h_reset, S.h0. destruct IV; [reflexivity|]. now rewrite (N.lxor_0_r 0x01010000). Qed.

  Lemma sok0 : sok s0.
  Proof.
    split; [apply Hzero|]. unfold s0. cbn [snd]. rewrite h_reset_ok. unfold S.h0.
    destruct IV as [|x t]; [discriminate|]. split; [exact HIl|]. inversion HIb; subst.
    constructor; [now apply bnd_lxor|assumption].
  Qed.
  Lemma sok_mid m : bytes_ok m -> sok (mid m).
  Proof. intros. apply loop_ok; auto using sok0, bytes_ok_before, before_aligned. Qed.

  Lemma last_length m : length (lastp B m ++ repeat 0 (fill m)) = B.
  Proof. unfold fill. rewrite app_length, repeat_length. pose proof (lastp_le B m HB0). lia. Qed.
  Lemma last_aligned m : aligned B (lastp B m ++ repeat 0 (fill m)).
  Proof. unfold aligned. rewrite last_length. apply Nat.mod_same. lia. Qed.
  Lemma last_bytes m : bytes_ok m -> bytes_ok (lastp B m ++ repeat 0 (fill m)).
  Proof. intros. apply bytes_ok_app. split; [now apply bytes_ok_lastp|apply bytes_ok_repeat; reflexivity]. Qed.

  Lemma sok_final m : bytes_ok m -> sok (final m).
  Proof. intros. apply loop_ok; auto using sok_mid, last_aligned, last_bytes. Qed.

  Lemma blocks_eq m : S.blocks nb m = pieces B (before B m) ++ [lastp B m ++ repeat 0 (fill m)].
  Proof.
    unfold S.blocks. change (S.B nb) with B.
    assert (S.nblocks nb (length m) * B - length m = fill m)%nat as ->.
    { unfold S.nblocks, fill, lastp, keep. change (S.B nb) with B. rewrite skipn_length.
      destruct m as [|x m]; cbn [length].
      - replace (0 - 1)%nat with 0%nat by lia. rewrite Nat.div_0_l, Nat.div_small by lia. lia.
      - replace (Datatypes.S (length m) + B - 1)%nat with (1 * B + length m)%nat by lia. rewrite Nat.div_add_l by lia.
        replace (Datatypes.S (length m) - 1)%nat with (length m) by lia.
        pose proof (Nat.div_mod (length m) B ltac:(lia)). pose proof (Nat.mod_upper_bound (length m) B ltac:(lia)).
        rewrite Nat.max_r, Nat.mul_add_distr_r by apply Nat.le_add_r. rewrite (Nat.mul_comm B) in *.
        generalize dependent (length m / B * B)%nat. generalize dependent (length m mod B)%nat. lia. }
    rewrite <- (before_lastp B m) at 1. rewrite <- app_assoc.
    rewrite pieces_app by auto using before_aligned. f_equal. apply pieces_one; [exact HB0|apply last_length].
  Qed.

  Lemma final_ok m : snd (final m) = iterate 0 (N.of_nat (length m)) (S.blocks nb m) (S.h0 IV (N.of_nat size)).
  Proof.
    rewrite blocks_eq, <- h_reset_ok. destruct Hzero as [Hz Ez].
    destruct (run_iterate (N.of_nat (length m)) (pieces B (before B m)) [lastp B m ++ repeat 0 (fill m)]
      0 (k_zero K) (M.h_reset IV (N.of_nat size)) Hz ltac:(discriminate)) as (E1 & E2 & E3).
    { rewrite Ez. reflexivity. }
    rewrite E1. unfold final, run at 1, chain. rewrite pieces_one by (try apply last_length; exact HB0).
    cbn [fold_left S.iterate]. change (fold_left (step false 0) (pieces B (before B m)) (k_zero K, M.h_reset IV (N.of_nat size))) with (mid m) in *.
    unfold step. cbn [snd]. destruct (Hadd (fst (mid m)) (inc (fill m)) E2 (inc_lt _)) as [_ Ev].
    rewrite Ev, scompress_mod. rewrite <- scompress_mod, <- N.add_mod_idemp_l, E3, N.add_mod_idemp_l by exact Mnz.
    rewrite scompress_mod. f_equal. rewrite inc_eq by (unfold fill; lia).
    rewrite Nat.add_0_l, pieces_length, before_length by auto using before_aligned.
    unfold keep. rewrite Nat.div_mul by lia. fold (keep B m). unfold fill.
    pose proof (lastp_le B m HB0). unfold lastp in *. rewrite skipn_length in *. pose proof (keep_le B m HB0).
    unfold keep in *. lia.
  Qed.

  Lemma finalize_ok m : bytes_ok m ->
    M.finalize w nb r1 r2 r3 r4 IV F calls K dbg (absorb2 B (run false 0) s0 m) = Ok (done m).
  Proof.
    intros Hm. unfold M.finalize, absorb2. change (M.BLOCK_SIZE nb) with B.
    pose proof (lastp_le B m HB0). rewrite canon_size. fold (fill m).
    rewrite fill_canon by (unfold fill; lia). rewrite bind_ok, canon_span.
    destruct (loop_ok true (fill m) (lastp B m ++ repeat 0 (fill m)) (mid m)) as [E _];
      auto using sok_mid, last_aligned, last_bytes.
    unfold mid in E at 1. rewrite E, bind_ok. rewrite canon_clear by (rewrite last_length; lia). reflexivity.
  Qed.

  Theorem core_implements :
    Implements (M.cls w nb r1 r2 r3 r4 IV F calls K dbg size) (S.blake2 w nb r1 r2 r3 r4 nrounds IV size) (fun _ => True)
      (absorb2 B (run false 0) s0) done.
  Proof.
    assert (forall m, bytes_ok m -> bytes_ok (S.blake2 w nb r1 r2 r3 r4 nrounds IV size m)) as Hb.
    { intros m Hm. apply bytes_ok_firstn, bytes_ok_flat_map, le_bytes_ok. }
    constructor; unfold M.cls; cbn [c_new c_add c_finalize c_reset c_array Obj]; change (M.BLOCK_SIZE nb) with B.
    - unfold absorb2, lastp, before. rewrite skipn_nil, firstn_nil, canon_nil. reflexivity.
    - intros m d Hm [Hd _]. apply (addData2_ok B dbg _ sok (run false 0) s0); auto using sok0.
      + intros e s Hs He Ha. now apply loop_ok.
      + intros e s Hs He Ha. now apply loop_ok.
      + intros x y s Ha. unfold run, chain. now rewrite pieces_app, fold_left_app by assumption.
    - intros m Hm _. now apply finalize_ok.
    - intros m Hm _. unfold S.blake2. rewrite <- final_ok.
      destruct (sok_final m Hm) as [_ [Hl _]]. unfold done. cbn [snd].
      unfold M.toArray. rewrite (flat_map_ext _ (le_bytes nb)) by apply word_bytes_le_ok.
      assert (length (flat_map (le_bytes nb) (snd (final m))) = size) as E.
      { rewrite (flat_length _ nb) by apply le_bytes_length. rewrite Hl. lia. }
      rewrite firstn_all2 by lia. apply store_array_eq, E.
    - intros m Hm. cbn [absorb2 fst]. rewrite canon_clear by apply (lastp_le B m HB0). now rewrite canon_nil.
    - intros m Hm _. unfold done. cbn [fst]. rewrite canon_clear by (cbn; lia). now rewrite canon_nil.
    - intros m Hm _. now apply Hb.
  Qed.
  Theorem core_correct :
    Correct (M.cls w nb r1 r2 r3 r4 IV F calls K dbg size) (S.blake2 w nb r1 r2 r3 r4 nrounds IV size) (fun _ => True).
  Proof. eexists; eexists; exact core_implements. Qed.

  (** the chaining value when finalize() has run *)
  Theorem core_state : let C := M.cls w nb r1 r2 r3 r4 IV F calls K dbg size in
    exists ab dn, Implements C (S.blake2 w nb r1 r2 r3 r4 nrounds IV size) (fun _ => True) ab dn /\ forall m, snd (snd (dn m)) = iterate 0 (N.of_nat (length m)) (S.blocks nb m) (S.h0 IV (N.of_nat size)).
  Proof. eexists; eexists; split; [exact core_implements|]. intros m. apply final_ok. Qed.
End Core.

Lemma calls_b : Blake2Calls.calls = flat_map (fun r => map (mk _ Blake2Calls.blakeMix r) (seq 0 8)) (seq 0 12).
Proof. vm_compute. reflexivity. Qed.
Lemma calls_s : Blake2sCalls.calls = flat_map (fun r => map (mk _ Blake2sCalls.blakeMix r) (seq 0 8)) (seq 0 10).
Proof. vm_compute. reflexivity. Qed.

Lemma iv_b_ok : M.iv_b = Spec.Sha2.IV512.
Proof. rewrite <- Sha2.iv512_ok. reflexivity. Qed.
Lemma iv_s_ok : M.iv_s = Spec.Sha2.IV256.
Proof. rewrite <- Sha2.iv256_ok. reflexivity. Qed.

Theorem blake2b_all dbg : Correct (M.cls_b dbg) S.blake2b (fun _ => True).
Proof.
  unfold S.blake2b. rewrite <- iv_b_ok.
  refine (core_correct 64 8 32 24 16 63 M.iv_b 12 _ Blake2Calls.blakeMix Blake2Calls.calls ctr128 dbg u128_val u128_ok
    eq_refl _ _ _ _ _ eq_refl _ calls_b Blake1.ctr128_lo Blake1.ctr128_hi Blake1.ctr128_add
    (conj (conj eq_refl eq_refl) eq_refl) 64 eq_refl _); try discriminate; [lia|apply Forall_bndb; reflexivity|reflexivity].
Qed.
Theorem blake2s_all dbg : Correct (M.cls_s dbg) S.blake2s (fun _ => True).
Proof.
  unfold S.blake2s. rewrite <- iv_s_ok.
  refine (core_correct 32 4 16 12 8 7 M.iv_s 10 _ Blake2sCalls.blakeMix Blake2sCalls.calls ctr64 dbg (fun c => c) Blake1.cok64
    eq_refl _ _ _ _ _ eq_refl _ calls_s Blake1.ctr64_lo Blake1.ctr64_hi Blake1.ctr64_add
    (conj eq_refl eq_refl) 32 eq_refl _); try discriminate; [lia|apply Forall_bndb; reflexivity|reflexivity].
Qed.
Theorem blake2b_correct dbg : Correct (M.cls_b dbg) S.blake2b S.fits_blake2b.
Proof. apply (correct_sub (fun _ => True) _ S.blake2b); auto. apply blake2b_all. Qed.
Theorem blake2s_correct dbg : Correct (M.cls_s dbg) S.blake2s S.fits_blake2s.
Proof. apply (correct_sub (fun _ => True) _ S.blake2s); auto. apply blake2s_all. Qed.
