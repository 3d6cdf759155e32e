(** blake1_*.h: which function they compute, and where it is BLAKE. *)
From Coq Require Import List NArith Arith Bool Lia ZArith ZifyNat ZifyN.
From Verif.Base Require Import Res CWord.
From Verif.Spec Require Import Words Client Merkle BlakeCore.
From Verif.Spec Require Blake.
From Verif.Model Require Import Buffer Stream Api Call BlakeMix Counter.
From Verif.Model Require Blake1.
From Verif.Proof Require Import Words Streaming Blocks Api StreamClass MD MD128 Rounds Class BlakeMix.
From Verif.Proof Require Sha2.
Import ListNotations.
Module S := Verif.Spec.Blake.
Module M := Verif.Model.Blake1.
Local Open Scope N_scope.

Lemma sigma_lt : Forall (Forall (fun i => i < 16)%nat) sigma.
Proof. repeat (constructor; [repeat constructor; lia|]). constructor. Qed.
Lemma sg_lt r i : (sg r i < 16)%nat.
Proof.
  unfold sg. assert (Forall (fun i => i < 16)%nat (nth (r mod 10)%nat sigma [])) as H.
  { destruct (Nat.lt_ge_cases (r mod 10) (length sigma)) as [Hl|Hl].
    - apply (proj1 (Forall_forall _ _) sigma_lt). apply nth_In, Hl.
    - rewrite nth_overflow by exact Hl. constructor. }
  destruct (Nat.lt_ge_cases i (length (nth (r mod 10)%nat sigma []))) as [Hl|Hl].
  - apply (proj1 (Forall_forall _ _) H). apply nth_In, Hl.
  - rewrite nth_overflow by exact Hl. lia.
Qed.

(** m_buffer[size - k] when the buffer ends with c and k - 1 more bytes *)
Lemma get_from_end_canon cap x c y k : k = Datatypes.S (length y) -> (length x + k <= cap)%nat ->
  buf_get_from_end k (canon cap (x ++ c :: y)) = Ok c.
Proof.
  intros -> H. unfold buf_get_from_end, canon. cbn [b_end b_arr].
  rewrite app_length. cbn [length]. destruct (Nat.ltb_spec (length x + Datatypes.S (length y)) (Datatypes.S (length y))); [lia|].
  replace (length x + Datatypes.S (length y) - Datatypes.S (length y))%nat with (length x) by lia.
  rewrite <- app_assoc. cbn [app]. now apply aget_mid.
Qed.

Lemma firstn_flat (f : N -> list N) k n l : (forall x, length (f x) = k) ->
  firstn (k * n) (flat_map f l) = flat_map f (firstn n l).
Proof.
  intros H. revert n; induction l as [|a l IH]; intros n; [rewrite !firstn_nil; reflexivity|].
  destruct n as [|n]; [now rewrite Nat.mul_0_r|]. cbn [flat_map firstn].
  rewrite firstn_app, H. replace (k * Datatypes.S n - k)%nat with (k * n)%nat by lia.
  rewrite IH, firstn_all2 by (rewrite H; nia). reflexivity.
Qed.

Lemma zeros_one B k len : (0 < B)%nat -> (len mod B + 1 + k <= B)%nat -> zeros B k len = (B - (len mod B + 1 + k))%nat.
Proof.
  intros HB H. unfold zeros. rewrite <- !Nat.add_assoc, <- Nat.add_mod_idemp_l by lia.
  set (r := (len mod B)%nat) in *. clearbody r. destruct (Nat.eq_dec (r + (1 + k)) B) as [E|E].
  - rewrite E, Nat.mod_same, Nat.sub_0_r, Nat.mod_same by lia. lia.
  - rewrite (Nat.mod_small (r + (1 + k))) by lia. apply Nat.mod_small. lia.
Qed.
Lemma zeros_two B k len : (0 < B)%nat -> (B < len mod B + 1 + k)%nat -> (k < B)%nat ->
  zeros B k len = (2 * B - (len mod B + 1 + k))%nat.
Proof.
  intros HB H Hk. unfold zeros. rewrite <- !Nat.add_assoc, <- Nat.add_mod_idemp_l by lia.
  pose proof (Nat.mod_upper_bound len B ltac:(lia)).
  set (r := (len mod B)%nat) in *. clearbody r.
  replace (r + (1 + k))%nat with (r + (1 + k) - B + 1 * B)%nat by lia. rewrite Nat.mod_add by lia.
  rewrite (Nat.mod_small (r + (1 + k) - B)) by lia. rewrite Nat.mod_small by lia. lia.
Qed.

(** the bytes between the data and the length field *)
Lemma marks_length lastbit z : length (S.marks lastbit z) = Datatypes.S z.
Proof.
  unfold S.marks. destruct lastbit; [destruct z as [|y]|]; cbn [length app]; rewrite ?app_length, ?repeat_length; cbn; lia.
Qed.
Lemma lastbit_ok nb lastbit cap x z : (length x + 1 + z + 2 * nb <= cap)%nat ->
  M.set_lastbit nb lastbit (canon cap (((x ++ [128]) ++ repeat 0 z) ++ repeat 0 (2 * nb))) =
  Ok (canon cap ((x ++ S.marks lastbit z) ++ repeat 0 (2 * nb))).
Proof.
  intros Hc. unfold M.set_lastbit, S.marks. destruct lastbit.
  - assert (forall y c, (length y + 1 + 2 * nb <= cap)%nat ->
      (let! u := buf_get_from_end (2 * nb + 1) (canon cap ((y ++ [c]) ++ repeat 0 (2 * nb))) in
       buf_set_from_end (2 * nb + 1) 0 (N.lor u 1) (canon cap ((y ++ [c]) ++ repeat 0 (2 * nb)))) =
      Ok (canon cap ((y ++ [N.lor c 1]) ++ repeat 0 (2 * nb)))) as G.
    { intros y c Hy. rewrite <- !app_assoc. cbn [app].
      rewrite get_from_end_canon by (rewrite ?repeat_length; lia). rewrite bind_ok.
      rewrite set_from_end_canon by (cbn [length]; rewrite ?repeat_length; lia).
      cbn [length]. rewrite repeat_length.
      replace (Datatypes.S (2 * nb) - (2 * nb + 1) + 0)%nat with 0%nat by lia. reflexivity. }
    destruct z as [|y].
    + cbn [repeat]. rewrite app_nil_r. rewrite G by lia. reflexivity.
    + rewrite repeat_S_end, app_assoc, G by (rewrite !app_length, repeat_length; cbn [length]; lia).
      change (N.lor 0 1) with 1. rewrite <- !app_assoc. reflexivity.
  - rewrite <- !app_assoc. reflexivity.
Qed.

Section Core.
  Variables (w : N) (nb : nat) (r1 r2 r3 r4 : N) (C : list N) (nrounds : nat).
  Variables (F : Type) (f0 : F) (calls : list (call F)) (K : Counter) (narrow lastbit dbg : bool).
  Variables (val : ctr K -> N) (cok : ctr K -> Prop).
  Hypothesis Hw : w = 8 * N.of_nat nb.
  Hypothesis Hnb : (1 <= nb <= 8)%nat.
  Hypothesis H1 : r1 <= w.
  Hypothesis H2 : r2 <= w.
  Hypothesis H3 : r3 <= w.
  Hypothesis H4 : r4 <= w.
  Hypothesis HCl : length C = 16%nat.
  Hypothesis HCb : Forall (bnd w) C.
  Definition mk (r i : nat) : call F :=
    let j := N.of_nat (sg r (2 * i)) in let k := N.of_nat (sg r (2 * i + 1)) in
    Call f0 (cell_list (cell i)) [j; k; k; j].
  Hypothesis Hcalls : calls = flat_map (fun r => map (mk r) (seq 0 8)) (seq 0 nrounds).
  Let Mod := 2 ^ (2 * w).
  Hypothesis Hlo : forall c, cok c -> k_lo K c = val c mod 2 ^ w.
  Hypothesis Hhi : forall c, cok c -> k_hi K c = val c / 2 ^ w mod 2 ^ w.
  Hypothesis Hadd : forall c n, cok c -> n < 2 ^ 64 -> cok (k_add K c n) /\ val (k_add K c n) = (val c + n) mod Mod.
  Hypothesis Hzero : cok (k_zero K) /\ val (k_zero K) = 0.
  Hypothesis Hwrite : forall cap x c, cok c -> (length x + 2 * nb <= cap)%nat ->
    M.write_len nb (k_lo K c) (k_hi K c) (canon cap (x ++ repeat 0 (2 * nb))) =
    Ok (canon cap (x ++ be_bytes (2 * nb) (val c))).

  Let B := (16 * nb)%nat.
  Let HB0 : (0 < B)%nat.
  Proof. unfold B. lia. Qed.
  Let Mnz : Mod <> 0.
  Proof. apply pow2_nz. Qed.

  Notation scompress := (S.compress w nb r1 r2 r3 r4 C nrounds).
  Definition hok (h : list N) : Prop := length h = 8%nat /\ Forall (bnd w) h.
  Definition sok (s : ctr K * list N) : Prop := cok (fst s) /\ hok (snd s).

  Lemma scompress_mod h blk t : scompress h blk (t mod Mod) = scompress h blk t.
  Proof.
    unfold S.compress, Mod. replace (2 * w) with (w + w) by lia. rewrite N.pow_add_r.
    assert ((t mod (2 ^ w * 2 ^ w)) mod 2 ^ w = t mod 2 ^ w) as ->.
    { rewrite N.mod_mul_r, (N.mul_comm (2 ^ w)), N.mod_add, N.mod_mod by apply pow2_nz. reflexivity. }
    assert ((t mod (2 ^ w * 2 ^ w)) / 2 ^ w mod 2 ^ w = t / 2 ^ w mod 2 ^ w) as ->; [|reflexivity].
    rewrite N.mod_mul_r, (N.mul_comm (2 ^ w)), N.div_add by apply pow2_nz.
    rewrite (N.div_small (t mod 2 ^ w)) by (apply N.mod_lt, pow2_nz).
    rewrite N.add_0_l, N.mod_mod by apply pow2_nz. reflexivity.
  Qed.

  (** what one block adds to the counter, and the counter value that goes in *)
  Definition bits (p : nat) : Z := M.nonPaddingBits nb narrow p.
  Definition inc (p : nat) : N := Z.to_N (bits p mod 2 ^ 64).
  Definition tp (p : nat) (v : N) : N := if (0 <? bits p)%Z then v else 0.

  Lemma inc_lt p : inc p < 2 ^ 64.
  Proof.
    unfold inc. pose proof (Z.mod_pos_bound (bits p) (2 ^ 64) ltac:(reflexivity)) as H.
    generalize dependent (bits p mod 2 ^ 64)%Z. intros z H.
    change (2 ^ 64) with (Z.to_N (2 ^ 64)). apply Z2N.inj_lt; lia.
  Qed.

  Definition step (p : nat) (s : ctr K * list N) (blk : list N) : ctr K * list N :=
    let c := k_add K (fst s) (inc p) in (c, scompress (snd s) blk (tp p (val c))).

  Section Block.
    Variables (blk tl : list N).
    Hypothesis Hlen : length blk = B.
    Hypothesis Hok : bytes_ok blk.
    Let m := be_words nb blk.
    Let inject (r i : nat) : N * N := let j := sg r (2 * i) in let k := sg r (2 * i + 1) in
                      (N.lxor (nth j m 0) (nth k C 0), N.lxor (nth k m 0) (nth j C 0)).

    Lemma exec_ok r i v :
      M.exec_call w nb r1 r2 r3 r4 C F (blk ++ tl) (mk r i) v =
      call_regs (blakeMix w r1 r2 r3 r4 (fst (inject r i)) (snd (inject r i))) (cell_list (cell i)) v.
    Proof.
      unfold M.exec_call, mk. cbn [c_args c_regs]. rewrite !Nnat.Nat2N.id.
      pose proof (sg_lt r (2 * i)). pose proof (sg_lt r (2 * i + 1)).
      rewrite !(load_be_ok nb 16) by (auto; unfold B in *; lia). cbn [bind].
      rewrite !(aget_ok 0) by lia. cbn [bind]. reflexivity.
    Qed.

    Lemma mixed_ok v : state_ok w v ->
      foldM (M.exec_call w nb r1 r2 r3 r4 C F (blk ++ tl)) calls v = Ok (rounds w r1 r2 r3 r4 inject nrounds v)
      /\ state_ok w (rounds w r1 r2 r3 r4 inject nrounds v).
    Proof.
      apply (rounds_ok F w r1 r2 r3 r4 _ inject mk nrounds calls); try assumption.
      intros. apply exec_ok.
    Qed.

    Lemma finish_ok h v : hok h -> state_ok w v ->
      let out := map (fun i => N.lxor (N.lxor (nth i h 0) (nth i v 0)) (nth (i + 8) v 0)) (seq 0 8) in
      for_ 0 8 (fun i h =>
        let! hi := aget h i in
        let! vi := aget v i in
        let! vj := aget v (i + 8) in
        aset h i (N.lxor hi (N.lxor vi vj))) h = Ok out /\ hok out.
    Proof.
      intros [Hl Hb] [Hvl Hvb]. cbv zeta. split.
      - rewrite (for_update 0 (fun i x => N.lxor x (N.lxor (nth i v 0) (nth (i + 8) v 0)))).
        + f_equal. apply map_ext. intros i. symmetry. apply N.lxor_assoc.
        + intros i s Hi Hs. rewrite !(aget_ok 0) by lia. cbn [bind]. now rewrite aset_ok by lia.
        + exact Hl.
      - split; [now rewrite map_length, seq_length|]. apply Forall_map, Forall_forall. intros i _.
        auto using bnd_lxor, Forall_nth_bnd.
    Qed.

    Lemma compress_ok p s : sok s ->
      M.compress w nb r1 r2 r3 r4 C F calls K narrow p (blk ++ tl) s = Ok (step p s blk) /\ sok (step p s blk).
    Proof.
      intros [Hc Hh]. destruct s as [c h]. cbn [fst snd] in *. unfold M.compress, step. cbn [fst snd].
      fold (bits p). fold (inc p).
      destruct (Hadd c (inc p) Hc (inc_lt p)) as [Hc' _]. set (c' := k_add K c (inc p)) in *. clearbody c'.
      pose proof (Hlo c' Hc') as El. pose proof (Hhi c' Hc') as Eh.
      destruct Hh as [Hhl Hhb]. pose proof (conj Hhl Hhb : hok h) as Hh.
      rewrite (mapM_ok (aget C) (fun i => nth i C 0)) by (intros i Hi; apply in_seq in Hi; apply aget_ok; lia).
      rewrite (mapM_ok (aget h) (fun i => nth i h 0)) by (intros i Hi; apply in_seq in Hi; apply aget_ok; lia).
      rewrite !bind_ok. rewrite <- (list_as_nth 0 h 8) by exact Hhl.
      set (t := tp p (val c')).
      set (v := h ++ [nth 0 C 0; nth 1 C 0; nth 2 C 0; nth 3 C 0;
                      N.lxor (t mod 2 ^ w) (nth 4 C 0); N.lxor (t mod 2 ^ w) (nth 5 C 0);
                      N.lxor (t / 2 ^ w mod 2 ^ w) (nth 6 C 0); N.lxor (t / 2 ^ w mod 2 ^ w) (nth 7 C 0)]).
      assert (state_ok w v) as Hv.
      { split; [unfold v; rewrite app_length, Hhl; reflexivity|]. apply Forall_app. split; [exact Hhb|].
        repeat constructor; auto using bnd_lxor, bnd_mod, Forall_nth_bnd. }
      match goal with |- (let! v := ?X in _) = _ /\ _ => assert (X = Ok v) as -> end.
      { unfold v, t, tp. rewrite El, Eh. generalize (val c') as u. intros u. clear Hv. unfold v in *. clear v t.
        destruct (list_len8 h Hhl) as (h0 & h1 & h2 & h3 & h4 & h5 & h6 & h7 & ->).
        destruct (0 <? bits p)%Z.
        - cbn -[N.lxor N.modulo N.div N.pow nth].
          rewrite !(N.lxor_comm _ (u mod 2 ^ w)), !(N.lxor_comm _ (u / 2 ^ w mod 2 ^ w)). reflexivity.
        - rewrite N.div_0_l, N.mod_0_l by apply pow2_nz. rewrite !N.lxor_0_l. reflexivity. }
      rewrite bind_ok.
      destruct (mixed_ok v Hv) as [-> Hr]. rewrite bind_ok.
      destruct (finish_ok h _ Hh Hr) as [-> Ho]. rewrite bind_ok. split; [unfold S.compress; reflexivity|].
      split; [exact Hc'|exact Ho].
    Qed.
  End Block.

  (** one block's value, read off a run of the model *)
  Lemma compress_value p blk s s' : sok s -> length blk = B -> bytes_ok blk ->
    M.compress w nb r1 r2 r3 r4 C F calls K narrow p blk s = Ok s' ->
    scompress (snd s) blk (tp p (val (k_add K (fst s) (inc p)))) = snd s' /\ sok s'.
  Proof.
    intros Hs Hl Hb E. destruct (compress_ok blk [] Hl Hb p s Hs) as [E' Hs']. rewrite app_nil_r, E in E'.
    injection E' as ->. split; [reflexivity|exact Hs'].
  Qed.

  (** ** whole blocks *)
  Definition run (p : nat) (d : list N) (s : ctr K * list N) := chain B (step p) s d.

  Lemma loop_ok p d s : sok s -> bytes_ok d -> aligned B d ->
    M.impl w nb r1 r2 r3 r4 C F calls K narrow dbg p d s = Ok (run p d s) /\ sok (run p d s).
  Proof.
    intros Hs Hd Ha. unfold M.impl. change (M.BLOCK_SIZE nb) with B. rewrite assert_ok by exact Ha. rewrite bind_ok.
    apply (block_loop_ok B _ (step p) sok); auto.
    intros blk tl t Ht Hl Hb. apply compress_ok; assumption.
  Qed.

  Notation iterate := (S.iterate w nb r1 r2 r3 r4 C nrounds).

  Lemma iterate_app k cnt x y h : iterate k cnt (x ++ y) h = iterate (k + length x) cnt y (iterate k cnt x h).
  Proof.
    revert k h; induction x as [|b x IH]; intros k h; cbn [app S.iterate length].
    - now rewrite Nat.add_0_r.
    - rewrite IH. f_equal. lia.
  Qed.

  Lemma tp_mod p v : tp p (v mod Mod) mod Mod = tp p v mod Mod.
  Proof. unfold tp. destruct (0 <? bits p)%Z; [|reflexivity]. now apply N.mod_mod. Qed.

  Lemma run_iterate p cnt bs : forall k c h, cok c ->
    (forall j, (j < length bs)%nat -> cnt (k + j)%nat mod Mod = tp p (val c + N.of_nat (j + 1) * inc p) mod Mod) ->
    let s := fold_left (step p) bs (c, h) in
    snd s = iterate k cnt bs h /\ cok (fst s) /\ val (fst s) mod Mod = (val c + N.of_nat (length bs) * inc p) mod Mod.
  Proof.
    induction bs as [|b bs IH]; intros k c h Hc Hcnt; cbn [fold_left S.iterate length]; cbv zeta.
    - cbn [fst snd]. repeat split; auto. f_equal. lia.
    - unfold step at 2 4 6. cbn [fst snd].
      destruct (Hadd c (inc p) Hc (inc_lt p)) as [Hc' Hv]. set (c' := k_add K c (inc p)) in *. clearbody c'.
      assert (scompress h b (tp p (val c')) = scompress h b (cnt k)) as ->.
      { rewrite <- scompress_mod. symmetry. rewrite <- scompress_mod. f_equal.
        rewrite Hv, tp_mod. specialize (Hcnt 0%nat ltac:(cbn; lia)). rewrite Nat.add_0_r in Hcnt.
        rewrite Hcnt. f_equal. f_equal. lia. }
      destruct (IH (Datatypes.S k) c' (scompress h b (cnt k)) Hc') as (E1 & E2 & E3).
      + intros j Hj. specialize (Hcnt (Datatypes.S j) ltac:(cbn; lia)).
        replace (Datatypes.S k + j)%nat with (k + Datatypes.S j)%nat by lia. rewrite Hcnt, Hv.
        rewrite <- (tp_mod p (_ mod Mod + _)), N.add_mod_idemp_l, tp_mod by exact Mnz. f_equal. f_equal. lia.
      + repeat split; auto. rewrite E3, Hv, N.add_mod_idemp_l by exact Mnz. f_equal. lia.
  Qed.

  (** ** the class *)
  Variables (iv : list N) (cc : nat -> nat -> N) (size n : nat).
  Hypothesis Hiv : hok iv.
  Hypothesis Hn : (n <= 8)%nat.
  Hypothesis Hsize : size = (nb * n)%nat.
  Hypothesis Hcc1 : forall len j, (j < len / B)%nat -> cc len j mod Mod = (N.of_nat (j + 1) * inc 0) mod Mod.
  Hypothesis Hcc2 : forall len j, let p := (zeros B (2 * nb) len + 2 * nb + 1)%nat in
    (j < (len mod B + p) / B)%nat ->
    cc len (len / B + j)%nat mod Mod = tp p (N.of_nat (len / B) * inc 0 + N.of_nat (j + 1) * inc p) mod Mod.

  Lemma bits0 : bits 0 = (8 * Z.of_nat B)%Z.
  Proof using Hnb.
    clear - Hnb. unfold bits, M.nonPaddingBits. change (M.BLOCK_SIZE nb) with B.
    destruct narrow; [|lia]. rewrite Z.mod_small; unfold B; change (2 ^ 32)%Z with 4294967296%Z; lia.
  Qed.
  Lemma inc0 : inc 0 = 8 * N.of_nat B.
  Proof using Hnb.
    clear - Hnb.
    unfold inc. rewrite bits0. rewrite Z.mod_small by (unfold B; change (2 ^ 64)%Z with 18446744073709551616%Z; lia). lia.
  Qed.
  Lemma tp0 v : tp 0 v = v.
  Proof using Hnb. clear - Hnb B. unfold tp. rewrite bits0. destruct (Z.ltb_spec 0 (8 * Z.of_nat B)); [reflexivity|unfold B in *; lia]. Qed.

  Definition s0 := (k_zero K, iv).
  Definition pad_of (m : list N) : nat := (zeros B (2 * nb) (length m) + 2 * nb + 1)%nat.
  Definition tail_of (m : list N) : list N :=
    rest B m ++ S.marks lastbit (zeros B (2 * nb) (length m)) ++ be_bytes (2 * nb) (8 * N.of_nat (length m)).
  Definition final (m : list N) := run (pad_of m) (tail_of m) (run 0 (pre B m) s0).
  Definition done (m : list N) : Buffer * (ctr K * list N) := (canon (2 * B) [], final m).

  Lemma sok0 : sok s0.
  Proof. split; [apply Hzero|exact Hiv]. Qed.

  Lemma marks_bytes z : bytes_ok (S.marks lastbit z).
  Proof.
    unfold S.marks. destruct lastbit; [destruct z as [|y]|]; cbn [app]; repeat constructor.
    - apply bytes_ok_app. split; [apply bytes_ok_repeat; reflexivity|repeat constructor].
    - apply bytes_ok_repeat. reflexivity.
  Qed.

  Lemma tail_length m : length (tail_of m) = (length m mod B + pad_of m)%nat.
  Proof.
    unfold tail_of, pad_of. rewrite !app_length, marks_length, be_bytes_length, rest_length by exact HB0. lia.
  Qed.
  Lemma tail_aligned m : aligned B (tail_of m).
  Proof.
    unfold aligned. rewrite tail_length. unfold pad_of.
    replace (length m mod B + (zeros B (2 * nb) (length m) + 2 * nb + 1))%nat
      with (length m mod B + (1 + 2 * nb + zeros B (2 * nb) (length m)))%nat by lia.
    rewrite Nat.add_mod_idemp_l by lia. rewrite !Nat.add_assoc. apply zeros_aligned, HB0.
  Qed.
  Lemma tail_bytes m : bytes_ok m -> bytes_ok (tail_of m).
  Proof.
    intros H. unfold tail_of. apply bytes_ok_app. split; [apply bytes_ok_rest, H|].
    apply bytes_ok_app. split; [apply marks_bytes|apply be_bytes_ok].
  Qed.

  Lemma sok_run p d s : sok s -> bytes_ok d -> aligned B d -> sok (run p d s).
  Proof. intros. now apply loop_ok. Qed.
  Lemma sok_pre m : bytes_ok m -> sok (run 0 (pre B m) s0).
  Proof. intros. apply sok_run; auto using sok0, bytes_ok_pre, pre_aligned. Qed.
  Lemma sok_final m : bytes_ok m -> sok (final m).
  Proof. intros. apply sok_run; auto using sok_pre, tail_bytes, tail_aligned. Qed.

  Lemma cnt_pre m : let s := run 0 (pre B m) s0 in
    snd s = iterate 0 (cc (length m)) (pieces B (pre B m)) iv /\ cok (fst s) /\
    val (fst s) mod Mod = (N.of_nat (length m / B) * inc 0) mod Mod.
  Proof.
    unfold run, chain, s0. destruct Hzero as [Hz Ez].
    assert (length (pieces B (pre B m)) = length m / B)%nat as Hl.
    { rewrite pieces_length by auto using pre_aligned. rewrite pre_length by exact HB0. apply Nat.div_mul. lia. }
    destruct (run_iterate 0 (cc (length m)) (pieces B (pre B m)) 0 (k_zero K) iv Hz) as (E1 & E2 & E3).
    - intros j Hj. rewrite Nat.add_0_l, tp0, Ez, N.add_0_l. apply Hcc1. lia.
    - cbv zeta. rewrite E1, E3, Ez, N.add_0_l, Hl. auto.
  Qed.

  Lemma final_ok m : snd (final m) = iterate 0 (cc (length m)) (pieces B (S.pad nb lastbit m)) iv.
  Proof.
    assert (S.pad nb lastbit m = pre B m ++ tail_of m) as ->.
    { unfold S.pad, tail_of. rewrite (app_assoc (pre B m)), pre_rest. reflexivity. }
    rewrite pieces_app, iterate_app by auto using pre_aligned.
    destruct (cnt_pre m) as (E1 & E2 & E3). unfold final. rewrite <- E1.
    destruct (run 0 (pre B m) s0) as [c h]. cbn [fst snd] in *. unfold run at 1, chain.
    rewrite pieces_length, pre_length by auto using pre_aligned. rewrite Nat.div_mul, Nat.add_0_l by lia.
    apply (run_iterate (pad_of m) (cc (length m)) (pieces B (tail_of m)) (length m / B)%nat c h E2).
    intros j Hj. rewrite pieces_length, tail_length in Hj by auto using tail_aligned.
    unfold pad_of in *. rewrite (Hcc2 (length m) j Hj).
    rewrite <- tp_mod, <- N.add_mod_idemp_l, <- E3, N.add_mod_idemp_l, tp_mod by exact Mnz. reflexivity.
  Qed.

  (** ** finalize *)
  Lemma finalize_ok m : bytes_ok m ->
    M.finalize w nb r1 r2 r3 r4 C F calls K narrow lastbit dbg (absorb B (2 * B) (run 0) s0 m) = Ok (done m).
  Proof.
    intros Hm. unfold M.finalize, absorb. change (M.BLOCK_SIZE nb) with B.
    pose proof (rest_lt B m HB0) as Hr. pose proof (zeros_rest B (2 * nb) m HB0 ltac:(unfold B; lia)) as Hz.
    pose proof (zeros_le B (2 * nb) (length m) HB0) as Hzl.
    assert (length (rest B m) + 1 + zeros B (2 * nb) (length m) + 2 * nb <= 2 * B)%nat as Htot.
    { pose proof (Nat.mod_le (2 * B - (Datatypes.S (length (rest B m)) + 2 * nb)) B ltac:(lia)). unfold B in *. lia. }
    rewrite canon_size. rewrite fill_canon by lia. rewrite bind_ok. cbn [repeat].
    rewrite canon_size, app_length. cbn [length].
    rewrite pad_len_spec by (unfold B in *; lia). rewrite Nat.add_1_r, <- Hz.
    rewrite fill_canon by (rewrite ?app_length; cbn [length]; lia). rewrite bind_ok.
    rewrite repeat_app, app_assoc. rewrite lastbit_ok by lia. rewrite bind_ok.
    destruct (cnt_pre m) as (_ & E2 & E3).
    set (c := fst (run 0 (pre B m) s0)) in *.
    destruct (Hadd c (N.of_nat (length (rest B m)) * 8) E2) as [Hc Ev].
    { unfold B in *. change (2 ^ 64) with 18446744073709551616. lia. }
    rewrite Hwrite by (try exact Hc; rewrite app_length, marks_length; lia). rewrite bind_ok.
    rewrite canon_span.
    assert (be_bytes (2 * nb) (val (k_add K c (N.of_nat (length (rest B m)) * 8))) =
            be_bytes (2 * nb) (8 * N.of_nat (length m))) as ->.
    { assert (Mod = 256 ^ N.of_nat (2 * nb)) as EM.
      { unfold Mod. change 256 with (2 ^ 8). rewrite <- N.pow_mul_r. f_equal. rewrite Hw. lia. }
      rewrite <- be_bytes_mod, <- EM, Ev, N.mod_mod by exact Mnz.
      rewrite <- (be_bytes_mod _ (8 * _)), <- EM. f_equal.
      rewrite <- N.add_mod_idemp_l, E3, N.add_mod_idemp_l by exact Mnz. f_equal. rewrite inc0, rest_length by exact HB0.
      rewrite (Nat.div_mod (length m) B) at 3 by lia. lia. }
    rewrite <- app_assoc. fold (tail_of m).
    replace (zeros B (2 * nb) (length m) + 2 * nb + 1)%nat with (pad_of m) by reflexivity.
    destruct (loop_ok (pad_of m) (tail_of m) (run 0 (pre B m) s0)) as [-> _];
      auto using sok_pre, tail_bytes, tail_aligned.
    rewrite bind_ok. rewrite canon_clear; [reflexivity|].
    rewrite tail_length, <- rest_length by exact HB0. unfold pad_of. lia.
  Qed.

  Definition hash := S.hash_with w nb r1 r2 r3 r4 C nrounds lastbit iv size cc.

  Theorem core_implements :
    Implements (M.cls w nb r1 r2 r3 r4 C F calls K narrow lastbit dbg iv size n) hash (fun _ => True)
      (absorb B (2 * B) (run 0) s0) done.
  Proof.
    unfold M.cls. change (M.BLOCK_SIZE nb) with B.
    apply (stream_implements B (2 * B) dbg _ sok (run 0) s0 _ _ hash (fun _ => True) done).
    - exact HB0.
    - lia.
    - exact sok0.
    - unfold B. change (2 ^ 64) with 18446744073709551616. lia.
    - intros d s Hs [Hd _] Ha. now apply loop_ok.
    - intros d s Hs Hd Ha. now apply loop_ok.
    - intros x y s _ _ Ha _ _. unfold run, chain. now rewrite pieces_app, fold_left_app by assumption.
    - reflexivity.
    - intros m Hm _. apply finalize_ok, Hm.
    - intros m Hm _. unfold hash, S.hash_with. change (S.B nb) with B. rewrite <- final_ok.
      destruct (sok_final m Hm) as [_ [Hl _]]. unfold done. cbn [snd]. split.
      + unfold M.toArray. rewrite (flat_map_ext _ (be_bytes nb)) by apply word_bytes_be_ok.
        rewrite Hsize, firstn_flat by apply be_bytes_length. apply store_array_eq.
        rewrite (flat_length _ nb) by apply be_bytes_length. rewrite firstn_length, Hl. f_equal. lia.
      + apply bytes_ok_firstn, bytes_ok_flat_map, be_bytes_ok.
    - intros m Hm _. unfold done. cbn [fst]. rewrite canon_arr_length; cbn; lia.
  Qed.
  Theorem core_correct :
    Correct (M.cls w nb r1 r2 r3 r4 C F calls K narrow lastbit dbg iv size n) hash (fun _ => True).
  Proof. eexists; eexists; exact core_implements. Qed.

  (** the chaining value when finalize() has run *)
  Theorem core_state : let Cl := M.cls w nb r1 r2 r3 r4 C F calls K narrow lastbit dbg iv size n in
    exists ab dn, Implements Cl hash (fun _ => True) ab dn /\ forall m, snd (snd (dn m)) = iterate 0 (cc (length m)) (pieces B (S.pad nb lastbit m)) iv.
  Proof. eexists; eexists; split; [exact core_implements|]. intros m. apply final_ok. Qed.
End Core.

(** ** the counters *)

Lemma div_mod_eq len B : (0 < B)%nat -> len = (B * (len / B) + len mod B)%nat.
Proof. intros. apply Nat.div_mod. lia. Qed.

Section Counters.
  Variables (nb : nat).
  Hypothesis Hnb : (1 <= nb <= 8)%nat.
  Let B := (16 * nb)%nat.

  Lemma full_block narrow len j : (j < len / B)%nat ->
    S.counter nb len j = N.of_nat (j + 1) * inc nb narrow 0.
  Proof.
    intros Hj. rewrite inc0 by exact Hnb. unfold S.counter. change (S.B nb) with B. fold B.
    pose proof (div_mod_eq len B ltac:(unfold B; lia)) as E.
    assert (B * (j + 1) <= len)%nat as Hle by nia.
    destruct (Nat.leb_spec len (B * j)); [unfold B in *; lia|]. rewrite Nat.min_r by lia. nia.
  Qed.

  Lemma one_tail narrow len : (len mod B < 14 * nb)%nat ->
    let p := (B - len mod B)%nat in
    S.counter nb len (len / B) =
      tp nb narrow p (N.of_nat (len / B) * inc nb narrow 0 + 1 * inc nb narrow p).
  Proof.
    intros Hr p. rewrite inc0 by exact Hnb. fold B.
    pose proof (div_mod_eq len B ltac:(unfold B; lia)) as E.
    assert (bits nb narrow p = 8 * Z.of_nat (len mod B))%Z as Eb.
    { unfold bits, M.nonPaddingBits. change (M.BLOCK_SIZE nb) with B.
      replace ((Z.of_nat B - Z.of_nat p) * 8)%Z with (8 * Z.of_nat (len mod B))%Z by (unfold p, B in *; lia).
      destruct narrow; [|reflexivity].
      apply Z.mod_small. unfold B in *. change (2 ^ 32)%Z with 4294967296%Z. lia. }
    assert (inc nb narrow p = 8 * N.of_nat (len mod B)) as Ei.
    { unfold inc. rewrite Eb, Z.mod_small by (unfold B in *; change (2 ^ 64)%Z with 18446744073709551616%Z; lia). lia. }
    unfold tp. rewrite Eb, Ei. unfold S.counter. change (S.B nb) with B.
    clear Eb Ei. generalize dependent (len mod B)%nat. intros r Hr p E. clear p.
    generalize dependent (len / B)%nat. intros q E.
    destruct (Nat.leb_spec len (B * q)); destruct (Z.ltb_spec 0 (8 * Z.of_nat r)); unfold B in *; lia.
  Qed.
End Counters.

Lemma coded_full nb len j : (1 <= nb <= 8)%nat -> (j < len / (16 * nb))%nat ->
  S.counter_coded nb len j = N.of_nat (j + 1) * inc nb false 0.
Proof.
  intros Hnb Hj. unfold S.counter_coded.
  destruct (Nat.eqb_spec j (len / (16 * nb))); [lia|]. rewrite andb_false_r. now apply full_block.
Qed.

Lemma tail_cases nb len : (1 <= nb <= 8)%nat -> let B := (16 * nb)%nat in
  let p := (zeros B (2 * nb) len + 2 * nb + 1)%nat in
  ((len mod B < 14 * nb /\ p = B - len mod B /\ (len mod B + p) / B = 1) \/
   (14 * nb <= len mod B /\ p = 2 * B - len mod B /\ (len mod B + p) / B = 2))%nat.
Proof.
  intros Hnb. cbv zeta. set (B := (16 * nb)%nat). assert (0 < B)%nat by (unfold B; lia).
  pose proof (Nat.mod_upper_bound len B ltac:(lia)) as Hr.
  destruct (Nat.lt_ge_cases (len mod B) (14 * nb)) as [Hlt|Hge]; [left|right].
  - rewrite zeros_one by (unfold B in *; lia). split; [exact Hlt|].
    assert (B - (len mod B + 1 + 2 * nb) + 2 * nb + 1 = B - len mod B)%nat as -> by (unfold B in *; lia).
    split; [reflexivity|]. replace (len mod B + (B - len mod B))%nat with (1 * B)%nat by lia. apply Nat.div_mul. lia.
  - rewrite zeros_two by (unfold B in *; lia). split; [exact Hge|].
    assert (2 * B - (len mod B + 1 + 2 * nb) + 2 * nb + 1 = 2 * B - len mod B)%nat as -> by (unfold B in *; lia).
    split; [reflexivity|]. replace (len mod B + (2 * B - len mod B))%nat with (2 * B)%nat by lia. apply Nat.div_mul. lia.
Qed.

Lemma coded_tail nb len j : (1 <= nb <= 8)%nat -> let B := (16 * nb)%nat in
  let p := (zeros B (2 * nb) len + 2 * nb + 1)%nat in
  (j < (len mod B + p) / B)%nat ->
  S.counter_coded nb len (len / B + j) =
    tp nb false p (N.of_nat (len / B) * inc nb false 0 + N.of_nat (j + 1) * inc nb false p).
Proof.
  intros Hnb. pose proof (tail_cases nb len Hnb) as Hc. cbv zeta in *.
  assert (0 < 16 * nb)%nat as HB by lia.
  pose proof (Nat.mod_upper_bound len (16 * nb) ltac:(lia)) as Hr.
  generalize dependent (zeros (16 * nb) (2 * nb) len + 2 * nb + 1)%nat. intros p [(Hlt & Ep & Ec)|(Hge & Ep & Ec)]; rewrite Ec; intros Hj.
  - assert (j = 0%nat) as -> by lia. rewrite Nat.add_0_r, Ep. unfold S.counter_coded.
    destruct (Nat.leb_spec (14 * nb) (len mod (16 * nb))); [lia|]. cbn [andb].
    now apply one_tail.
  - assert (bits nb false p < 0)%Z as Hb.
    { unfold bits, M.nonPaddingBits, M.BLOCK_SIZE. rewrite Ep. lia. }
    unfold tp. destruct (Z.ltb_spec 0 (bits nb false p)); [lia|].
    unfold S.counter_coded. destruct (Nat.leb_spec (14 * nb) (len mod (16 * nb))); [|lia]. cbn [andb].
    destruct (Nat.eqb_spec (len / (16 * nb) + j) (len / (16 * nb))); [reflexivity|].
    unfold S.counter. change (S.B nb) with (16 * nb)%nat.
    destruct (Nat.leb_spec len (16 * nb * (len / (16 * nb) + j))) as [|Hl]; [reflexivity|].
    pose proof (div_mod_eq len (16 * nb) HB) as E. exfalso.
    assert (16 * nb * (len / (16 * nb) + j) >= 16 * nb * (len / (16 * nb)) + 16 * nb)%nat by nia. lia.
Qed.

Lemma coded224_full len j : (j < len / 64)%nat ->
  S.counter_coded_224 len j = N.of_nat (j + 1) * inc 4 true 0.
Proof.
  intros Hj. unfold S.counter_coded_224.
  destruct (Nat.leb_spec (len / 64) j); [lia|]. rewrite andb_false_r. now apply full_block; [lia|].
Qed.

Lemma coded224_tail len j : let p := (zeros 64 8 len + 8 + 1)%nat in
  (j < (len mod 64 + p) / 64)%nat ->
  S.counter_coded_224 len (len / 64 + j) =
    tp 4 true p (N.of_nat (len / 64) * inc 4 true 0 + N.of_nat (j + 1) * inc 4 true p).
Proof.
  pose proof (tail_cases 4 len ltac:(lia)) as Hc. cbv zeta in *.
  change (16 * 4)%nat with 64%nat in *. change (2 * 4)%nat with 8%nat in *. change (14 * 4)%nat with 56%nat in *.
  pose proof (Nat.mod_upper_bound len 64 ltac:(lia)) as Hr.
  generalize dependent (zeros 64 8 len + 8 + 1)%nat. intros p [(Hlt & Ep & Ec)|(Hge & Ep & Ec)]; rewrite Ec; intros Hj.
  - assert (j = 0%nat) as -> by lia. rewrite Nat.add_0_r, Ep. unfold S.counter_coded_224.
    destruct (Nat.leb_spec 56 (len mod 64)); [lia|]. cbn [andb].
    apply (one_tail 4); [lia|exact Hlt].
  - assert (bits 4 true p = 2 ^ 32 - 8 * (64 - Z.of_nat (len mod 64)))%Z as Eb.
    { unfold bits, M.nonPaddingBits, M.BLOCK_SIZE. change (16 * 4)%nat with 64%nat. rewrite Ep.
      symmetry. apply (Z.mod_unique_pos _ _ (-1)); change (2 ^ 32)%Z with 4294967296%Z; lia. }
    assert (inc 4 true p = 2 ^ 32 - 8 * N.of_nat (64 - len mod 64)) as Ei.
    { unfold inc. rewrite Eb, Z.mod_small; change (2 ^ 64)%Z with 18446744073709551616%Z; change (2 ^ 32)%Z with 4294967296%Z;
        change (2 ^ 32) with 4294967296; lia. }
    unfold tp. rewrite Eb, Ei, inc0 by lia.
    destruct (Z.ltb_spec 0 (2 ^ 32 - 8 * (64 - Z.of_nat (len mod 64)))) as [_|Hx]; [|change (2 ^ 32)%Z with 4294967296%Z in Hx; lia].
    unfold S.counter_coded_224. destruct (Nat.leb_spec 56 (len mod 64)); [|lia].
    destruct (Nat.leb_spec (len / 64) (len / 64 + j)); [|lia]. cbn [andb].
    replace (len / 64 + j + 1 - len / 64)%nat with (j + 1)%nat by lia.
    change (16 * 4)%nat with 64%nat. clear Eb Ei. generalize (2 ^ 32 - 8 * N.of_nat (64 - len mod 64)). intros u. nia.
Qed.

(** ** the counter types *)

Definition cok64 (c : N) : Prop := c < 2 ^ 64.
Lemma ctr64_lo c : cok64 c -> k_lo ctr64 c = c mod 2 ^ 32.
Proof. intros _. cbn [ctr64 k_lo]. now rewrite ror_spec, N.pow_0_r, N.div_1_r. Qed.
Lemma ctr64_hi c : cok64 c -> k_hi ctr64 c = c / 2 ^ 32 mod 2 ^ 32.
Proof. intros _. cbn [ctr64 k_hi]. now rewrite ror_spec. Qed.
Lemma ctr64_add c n : cok64 c -> n < 2 ^ 64 ->
  cok64 (k_add ctr64 c n) /\ k_add ctr64 c n = (c + n) mod 2 ^ (2 * 32).
Proof.
  intros _ _. cbn [ctr64 k_add]. rewrite uadd_mod. split; [apply N.mod_lt, pow2_nz|reflexivity].
Qed.
Lemma write_len4_ok cap x c : cok64 c -> (length x + 2 * 4 <= cap)%nat ->
  M.write_len 4 (k_lo ctr64 c) (k_hi ctr64 c) (canon cap (x ++ repeat 0 (2 * 4))) =
  Ok (canon cap (x ++ be_bytes (2 * 4) c)).
Proof.
  intros _ Hc. unfold M.write_len. cbn [ctr64 k_lo k_hi].
  change (2 * 4)%nat with 8%nat in *. cbn [for_ bind].
  repeat (rewrite set_from_end_canon by (cbn [length upd repeat]; lia);
          cbn [bind length upd repeat Nat.sub Nat.add]).
  unfold be_bytes. rewrite le_bytes_seq. cbn [seq map rev app].
  rewrite !ror_ror by (cbn; discriminate). reflexivity.
Qed.

Lemma ctr128_lo c : u128_ok c -> k_lo ctr128 c = u128_val c mod 2 ^ 64.
Proof. intros H. cbn [ctr128 k_lo]. rewrite <- (u128_of_val c H) at 1. reflexivity. Qed.
Lemma ctr128_hi c : u128_ok c -> k_hi ctr128 c = u128_val c / 2 ^ 64 mod 2 ^ 64.
Proof. intros H. cbn [ctr128 k_hi]. rewrite <- (u128_of_val c H) at 1. reflexivity. Qed.
Lemma ctr128_add c n : u128_ok c -> n < 2 ^ 64 ->
  u128_ok (k_add ctr128 c n) /\ u128_val (k_add ctr128 c n) = (u128_val c + n) mod 2 ^ (2 * 64).
Proof.
  intros Hc Hn. cbn [ctr128 k_add]. rewrite u128_add_ok by assumption.
  split; [apply u128_of_ok|apply u128_val_of].
Qed.
Lemma write_len8_ok cap x c : u128_ok c -> (length x + 2 * 8 <= cap)%nat ->
  M.write_len 8 (k_lo ctr128 c) (k_hi ctr128 c) (canon cap (x ++ repeat 0 (2 * 8))) =
  Ok (canon cap (x ++ be_bytes (2 * 8) (u128_val c))).
Proof.
  intros H Hc. rewrite ctr128_lo, ctr128_hi by exact H. generalize (u128_val c). intros v. unfold M.write_len.
  change (2 * 8)%nat with 16%nat in *. cbn [for_ bind].
  repeat (rewrite set_from_end_canon by (cbn [length upd repeat]; lia);
          cbn [bind length upd repeat Nat.sub Nat.add]).
  unfold be_bytes. rewrite le_bytes_seq. cbn [seq map rev app].
  rewrite !byte_hi, !byte_lo by (cbn; discriminate). reflexivity.
Qed.

(** ** the four classes *)

Lemma calls224 : Blake1_224Calls.calls =
  flat_map (fun r => map (mk _ Blake1_224Calls.blakeMix r) (seq 0 8)) (seq 0 14).
Proof. vm_compute. reflexivity. Qed.
Lemma calls256 : Blake1_256Calls.calls =
  flat_map (fun r => map (mk _ Blake1_256Calls.blakeMix r) (seq 0 8)) (seq 0 14).
Proof. vm_compute. reflexivity. Qed.
Lemma calls384 : Blake1_384Calls.calls =
  flat_map (fun r => map (mk _ Blake1_384Calls.blakeMix r) (seq 0 8)) (seq 0 16).
Proof. vm_compute. reflexivity. Qed.
Lemma calls512 : Blake1_512Calls.calls =
  flat_map (fun r => map (mk _ Blake1_512Calls.blakeMix r) (seq 0 8)) (seq 0 16).
Proof. vm_compute. reflexivity. Qed.

Lemma iv224_ok : M.iv224 = Spec.Sha2.IV224.
Proof. rewrite <- Sha2.iv224_ok. reflexivity. Qed.
Lemma iv256_ok : M.iv256 = Spec.Sha2.IV256.
Proof. rewrite <- Sha2.iv256_ok. reflexivity. Qed.
Lemma iv384_ok : M.iv384 = Spec.Sha2.IV384.
Proof. rewrite <- Sha2.iv384_ok. reflexivity. Qed.
Lemma iv512_ok : M.iv512 = Spec.Sha2.IV512.
Proof. rewrite <- Sha2.iv512_ok. reflexivity. Qed.

Ltac side := first [assumption | lia | discriminate | reflexivity | apply Forall_bndb; reflexivity
  | split; [reflexivity | apply Forall_bndb; reflexivity] | split; reflexivity].

Theorem coded256_correct dbg : Correct (M.cls256 dbg) S.blake256_coded (fun _ => True).
Proof.
  unfold S.blake256_coded. rewrite <- iv256_ok.
  refine (core_correct 32 4 16 12 8 7 S.C256 14 _ Blake1_256Calls.blakeMix Blake1_256Calls.calls ctr64 false true dbg
    (fun c => c) cok64 _ _ _ _ _ _ _ _ calls256 ctr64_lo ctr64_hi ctr64_add (conj eq_refl eq_refl) write_len4_ok M.iv256 (S.counter_coded 4) 32 8 _ _ _ _ _); try side.
  - intros len j Hj. f_equal. apply coded_full; [lia|exact Hj].
  - intros len j. cbv zeta. intros Hj. f_equal. apply (coded_tail 4 len j); [lia|exact Hj].
Qed.

Theorem coded224_correct dbg : Correct (M.cls224 dbg) S.blake224_coded (fun _ => True).
Proof.
  unfold S.blake224_coded. rewrite <- iv224_ok.
  refine (core_correct 32 4 16 12 8 7 S.C256 14 _ Blake1_224Calls.blakeMix Blake1_224Calls.calls ctr64 true false dbg
    (fun c => c) cok64 _ _ _ _ _ _ _ _ calls224 ctr64_lo ctr64_hi ctr64_add (conj eq_refl eq_refl) write_len4_ok M.iv224 S.counter_coded_224 28 7 _ _ _ _ _); try side.
  - intros len j Hj. f_equal. apply coded224_full, Hj.
  - intros len j. cbv zeta. intros Hj. f_equal. apply (coded224_tail len j), Hj.
Qed.

Theorem coded512_correct dbg : Correct (M.cls512 dbg) S.blake512_coded (fun _ => True).
Proof.
  unfold S.blake512_coded. rewrite <- iv512_ok.
  refine (core_correct 64 8 32 25 16 11 S.C512 16 _ Blake1_512Calls.blakeMix Blake1_512Calls.calls ctr128 false true dbg
    u128_val u128_ok _ _ _ _ _ _ _ _ calls512 ctr128_lo ctr128_hi ctr128_add (conj (conj eq_refl eq_refl) eq_refl) write_len8_ok M.iv512 (S.counter_coded 8) 64 8 _ _ _ _ _); try side.
  - intros len j Hj. f_equal. apply coded_full; [lia|exact Hj].
  - intros len j. cbv zeta. intros Hj. f_equal. apply (coded_tail 8 len j); [lia|exact Hj].
Qed.

Theorem coded384_correct dbg : Correct (M.cls384 dbg) S.blake384_coded (fun _ => True).
Proof.
  unfold S.blake384_coded. rewrite <- iv384_ok.
  refine (core_correct 64 8 32 25 16 11 S.C512 16 _ Blake1_384Calls.blakeMix Blake1_384Calls.calls ctr128 false false dbg
    u128_val u128_ok _ _ _ _ _ _ _ _ calls384 ctr128_lo ctr128_hi ctr128_add (conj (conj eq_refl eq_refl) eq_refl) write_len8_ok M.iv384 (S.counter_coded 8) 48 6 _ _ _ _ _); try side.
  - intros len j Hj. f_equal. apply coded_full; [lia|exact Hj].
  - intros len j. cbv zeta. intros Hj. f_equal. apply (coded_tail 8 len j); [lia|exact Hj].
Qed.

(** ** where they are BLAKE *)

Lemma iterate_ext w nb r1 r2 r3 r4 C n c1 c2 : (forall i, c1 i = c2 i) -> forall bs k h,
  S.iterate w nb r1 r2 r3 r4 C n k c1 bs h = S.iterate w nb r1 r2 r3 r4 C n k c2 bs h.
Proof.
  intros E. induction bs as [|b bs IH]; intros k h; cbn [S.iterate]; [reflexivity|]. now rewrite E, IH.
Qed.

Lemma coded_fits nb m : S.tail_fits nb m -> forall i, S.counter_coded nb (length m) i = S.counter nb (length m) i.
Proof.
  unfold S.tail_fits. intros H i. unfold S.counter_coded.
  destruct (Nat.leb_spec (14 * nb) (length m mod (16 * nb))); [lia|]. reflexivity.
Qed.
Lemma coded224_fits m : S.tail_fits 4 m -> forall i, S.counter_coded_224 (length m) i = S.counter 4 (length m) i.
Proof.
  unfold S.tail_fits. intros H i. unfold S.counter_coded_224. change (16 * 4)%nat with 64%nat in *.
  destruct (Nat.leb_spec 56 (length m mod 64)); [lia|]. reflexivity.
Qed.

Theorem blake256_correct dbg : Correct (M.cls256 dbg) S.blake256 (S.tail_fits 4).
Proof.
  apply (correct_sub (fun _ => True) _ S.blake256_coded); auto using coded256_correct.
  intros m _ H. unfold S.blake256_coded, S.blake256, S.blake, S.hash_with. do 2 f_equal.
  apply iterate_ext, coded_fits, H.
Qed.
Theorem blake224_correct dbg : Correct (M.cls224 dbg) S.blake224 (S.tail_fits 4).
Proof.
  apply (correct_sub (fun _ => True) _ S.blake224_coded); auto using coded224_correct.
  intros m _ H. unfold S.blake224_coded, S.blake224, S.blake, S.hash_with. do 2 f_equal.
  apply iterate_ext, coded224_fits, H.
Qed.
Theorem blake512_correct dbg : Correct (M.cls512 dbg) S.blake512 (S.tail_fits 8).
Proof.
  apply (correct_sub (fun _ => True) _ S.blake512_coded); auto using coded512_correct.
  intros m _ H. unfold S.blake512_coded, S.blake512, S.blake, S.hash_with. do 2 f_equal.
  apply iterate_ext, coded_fits, H.
Qed.
Theorem blake384_correct dbg : Correct (M.cls384 dbg) S.blake384 (S.tail_fits 8).
Proof.
  apply (correct_sub (fun _ => True) _ S.blake384_coded); auto using coded384_correct.
  intros m _ H. unfold S.blake384_coded, S.blake384, S.blake, S.hash_with. do 2 f_equal.
  apply iterate_ext, coded_fits, H.
Qed.
