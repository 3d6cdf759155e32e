(** Sponge objects in any order of calls. *)
From Coq Require Import List NArith ZArith Arith Bool Lia.
From Verif.Base Require Import Res CWord.
From Verif.Spec Require Import Words Client ObjClient KeccakTypes Ownership Tape.
From Verif.Model Require Import Buffer Stream Api ObjApi KeccakObj.
From Verif.Proof Require Import Words Streaming Blocks Api MD Rounds Class Blake1 KeccakF.
From Verif.Spec Require Keccak.
From Verif.Model Require Keccak.
From Verif.Proof Require KeccakOut.
From Verif.Proof Require Import Keccak.
Import ListNotations.
Local Open Scope N_scope.

Section Sponge.
  Variables (q : nat) (P : N) (dbg : bool).
  Hypothesis Hq : (0 < q)%nat.
  Hypothesis Hq25 : (q <= 25)%nat.
  Variable sfx : S.bits.
  Hypothesis Hsfx : (length sfx <= 5)%nat.
  Hypothesis HP : byte_bits P = sfx ++ [true] ++ repeat false (7 - length sfx).
  Hypothesis HPb : P < 128.
  Let R := (8 * q)%nat.
  Let r := (8 * R)%nat.

  Definition st0 (d : nat) (out : list N) : M.St := M.mkSt (repeat 0 25) out d.
  Definition tape_ok (x : tape) : Prop :=
    bytes_ok (t_in x) /\ bytes_ok (t_out x) /\ (t_out x = [] \/ length (t_out x) = t_len x).
  (** the object that a tape tells about *)
  Definition written (x : tape) : Buffer * M.St := absorb R R (run q) (st0 (t_len x) (t_out x)) (t_in x).

  Lemma inv_st0 d out : inv (st0 d out).
  Proof using. unfold inv, st0. cbn [M.k_state]. split; [reflexivity|]. apply Forall_forall. intros x Hx. apply repeat_spec in Hx. subst. reflexivity. Qed.

  Lemma closing_padding m : closing r sfx m = padding q P m.
  Proof using All.
    unfold closing. pose proof (padding_bits q P Hq Hq25 sfx Hsfx HP HPb m) as H. fold R r in H.
    rewrite bits_of_app in H. apply app_inv_head in H. rewrite H. apply bytes_of_bits. apply (padding_bytes q P Hq Hq25 sfx Hsfx); assumption.
  Qed.

  Lemma feed_tape x m : tape_ok x -> span_ok m -> M.addData R dbg m (written x) = Ok (written (t_feed m x)) /\ tape_ok (t_feed m x).
  Proof using All.
    intros (Hi & Ho & Hl) Hm. split.
    - unfold M.addData, written. cbn [t_feed t_len t_in t_out].
      apply (addData_ok R R dbg (M.impl R dbg) inv (run q) (st0 (t_len x) (t_out x))); try (unfold R; lia); auto using inv_st0.
      + intros y s Hs [Hy _] Ha. now apply impl_ok.
      + intros y s Hs Hy Ha. now apply impl_ok.
      + intros y z s _ _ Ha _ _. now apply (run_app q Hq Hq25).
    - split; [|split; assumption]. apply bytes_ok_app. split; [exact Hi|apply Hm].
  Qed.

  Lemma reset_tape x : tape_ok x -> M.reset (written x) = written (t_reset x) /\ tape_ok (t_reset x).
  Proof using All.
    intros _. split; [|split; [constructor|split; [constructor|now left]]].
    unfold written, t_reset, t_new. cbn [t_len t_in t_out]. rewrite (absorb_nil R R) by (try reflexivity; unfold R; lia).
    unfold M.reset, absorb. cbn [fst snd run M.k_len st0]. rewrite canon_clear by (pose proof (rest_lt R (t_in x) ltac:(unfold R; lia)); lia).
    now rewrite canon_nil.
  Qed.

  Lemma new_tape d : M.new R d = written (t_new d) /\ tape_ok (t_new d).
  Proof using All.
    split; [|split; [constructor|split; [constructor|now left]]].
    unfold written, t_new. cbn [t_len t_in t_out]. rewrite (absorb_nil R R) by (try reflexivity; unfold R; lia).
    unfold M.new, M.reset. cbn [fst snd M.k_len]. rewrite <- canon_nil, canon_clear by (cbn; lia). reflexivity.
  Qed.

  (** the part of finalize() before the loop *)
  Lemma finalize_pads s m : inv s -> bytes_ok m ->
    M.finalize R P dbg (absorb R R (run q) s m) =
    (let! s' := M.squish R dbg (Datatypes.S (M.k_len s)) (run q (m ++ padding q P m) s) in
     Ok (canon R [], M.mkSt (M.k_state s') (M.resize (M.k_len s') (M.k_final s')) (M.k_len s'))).
  Proof using All.
    intros Hs Hm. pose proof (rest_lt R m ltac:(unfold R; lia)) as Hr. pose proof (rest_length R m ltac:(unfold R; lia)) as Hrl.
    unfold M.finalize, absorb. rewrite fill_canon by lia. rewrite bind_ok, canon_size, app_length. cbn [length repeat].
    assert ((2 * R - (length (rest R m) + 1)) mod R = fillc q m)%nat as ->.
    { unfold fillc. fold R. rewrite Hrl. pose proof (modR_lt q P Hq Hq25 sfx Hsfx HPb m). fold R in H.
      replace (2 * R - (length m mod R + 1))%nat with ((R - 1 - length m mod R) + 1 * R)%nat by lia.
      rewrite Nat.mod_add by lia. apply Nat.mod_small. lia. }
    assert (length (rest R m) + 1 + fillc q m = R)%nat as Hfull by (unfold fillc; fold R; rewrite Hrl; pose proof (modR_lt q P Hq Hq25 sfx Hsfx HPb m) as H; fold R in H; lia).
    rewrite fill_canon by (rewrite ?app_length; cbn [length]; lia). rewrite bind_ok.
    assert (exists buf, (let! v := buf_get_from_end 1 (canon R ((rest R m ++ [P]) ++ repeat 0 (fillc q m))) in
        buf_set_from_end 1 0 (N.lor v 128) (canon R ((rest R m ++ [P]) ++ repeat 0 (fillc q m)))) = Ok buf /\
        buf = canon R (rest R m ++ padding q P m)) as (buf & Eb & Hbuf).
    { unfold padding. destruct (fillc q m) as [|k] eqn:Ek.
      - cbn [repeat]. rewrite app_nil_r. rewrite (get_from_end_canon R (rest R m) P []) by (cbn [length]; lia). rewrite bind_ok.
        rewrite set_from_end_canon by (cbn [length]; lia). eexists. split; reflexivity.
      - rewrite repeat_S_end, app_assoc. rewrite (get_from_end_canon R _ 0 []) by (rewrite ?app_length, ?repeat_length; cbn [length]; lia).
        rewrite bind_ok. rewrite set_from_end_canon by (rewrite ?app_length, ?repeat_length; cbn [length]; lia). eexists. split; [reflexivity|].
        rewrite <- !app_assoc. reflexivity. }
    rewrite <- bind_assoc. rewrite Eb, Hbuf, bind_ok, canon_span.
    assert (length (rest R m ++ padding q P m) = R) as LB by (rewrite app_length, (padding_length q P Hq Hq25 sfx Hsfx HPb); lia).
    assert (bytes_ok (padding q P m)) as Hpb by (apply (padding_bytes q P Hq Hq25 sfx Hsfx); assumption).
    destruct (impl_ok q dbg Hq Hq25 (rest R m ++ padding q P m) (run q (pre R m) s)) as [Ei _].
    { eapply (impl_ok q dbg); [assumption|assumption|exact Hs|now apply bytes_ok_pre|apply pre_aligned; unfold R; lia]. }
    { apply bytes_ok_app. split; [now apply bytes_ok_rest|exact Hpb]. }
    { unfold aligned. fold R. rewrite LB. apply Nat.mod_same. unfold R. lia. }
    fold R in Ei. rewrite Ei, bind_ok, <- (run_app q Hq Hq25) by (apply pre_aligned; unfold R; lia).
    rewrite app_assoc, pre_rest. rewrite canon_clear by (rewrite LB; lia). reflexivity.
  Qed.

  Lemma zero_run s : inv s -> run q (repeat 0 R) s = M.mkSt (keccak_f (M.k_state s)) (M.k_final s) (M.k_len s).
  Proof using All.
    intros Hs. assert (aligned R (repeat 0 R)) as Ha by (unfold aligned; rewrite repeat_length; apply Nat.mod_same; unfold R; lia).
    destruct (impl_ok q false Hq Hq25 (repeat 0 R) s Hs) as [E _]; [apply bytes_ok_repeat; reflexivity|exact Ha|].
    pose proof (zero_block q P false Hq Hq25 sfx Hsfx HPb s Hs) as E'. fold R in E, E'. rewrite E in E'. apply (f_equal (fun z => match z with Ok y => y | _ => s end)) in E'. exact E'.
  Qed.
  Lemma zero_runs e : forall s, inv s ->
    run q (repeat 0 (e * R)) s = M.mkSt (Nat.iter e keccak_f (M.k_state s)) (M.k_final s) (M.k_len s) /\ inv (run q (repeat 0 (e * R)) s).
  Proof using All.
    induction e as [|e IH]; intros s Hs.
    - cbn [Nat.mul repeat]. destruct s as [a b c]. split; [reflexivity|exact Hs].
    - replace (Datatypes.S e * R)%nat with (R + e * R)%nat by lia. rewrite repeat_app.
      rewrite (run_app q Hq Hq25) by (unfold aligned; rewrite repeat_length; apply Nat.mod_same; unfold R; lia).
      rewrite zero_run by exact Hs.
      destruct (IH (M.mkSt (keccak_f (M.k_state s)) (M.k_final s) (M.k_len s))) as [-> Hi]; [apply sok_f, Hs|].
      cbn [M.k_state M.k_final M.k_len] in *. rewrite iter_inside. split; [reflexivity|]. exact Hi.
  Qed.

  Lemma resize_id n l : length l = n -> M.resize n l = l.
  Proof using. intros <-. unfold M.resize. now rewrite firstn_all, Nat.sub_diag, app_nil_r. Qed.

  Lemma absorb_aligned s m : aligned R m -> absorb R R (run q) s m = (canon R [], run q m s).
  Proof using All.
    intros Ha. unfold absorb. destruct (split_unique R m [] ltac:(unfold R; lia) Ha ltac:(cbn; unfold R; lia)) as [E1 E2].
    rewrite app_nil_r in E1, E2. now rewrite E1, E2.
  Qed.

  Lemma finalize_tape x : tape_ok x ->
    M.finalize R P dbg (written x) = Ok (written (t_finalize r sfx x)) /\ tape_ok (t_finalize r sfx x).
  Proof using All.
    intros (Hi & Ho & Hl). unfold written. rewrite finalize_pads by (try apply inv_st0; exact Hi).
    cbn [st0 M.k_len]. assert (bytes_ok (padding q P (t_in x))) as Hpb by (apply (padding_bytes q P Hq Hq25 sfx Hsfx); assumption).
    assert (aligned R (t_in x ++ padding q P (t_in x))) as Ha by (now apply (padded_aligned q P Hq Hq25 sfx Hsfx HPb)).
    assert (inv (run q (t_in x ++ padding q P (t_in x)) (st0 (t_len x) (t_out x)))) as Hinv.
    { eapply (impl_ok q dbg); [assumption|assumption|apply inv_st0|apply bytes_ok_app; split; assumption|exact Ha]. }
    unfold t_finalize. rewrite closing_padding. destruct (t_out x) as [|b out] eqn:Eo.
    - destruct (squish_hash q P dbg Hq Hq25 sfx Hsfx HP HPb (t_len x) (t_in x) Hi) as (s' & Es & E1 & E2 & E3).
      unfold absorbed, s0 in Es. fold R in Es. change (M.mkSt (repeat 0 25) [] (t_len x)) with (st0 (t_len x) []) in Es.
      rewrite Es, bind_ok. cbn [t_len t_in t_out]. rewrite E1, E2.
      pose proof (squish_count q P dbg Hq Hq25 sfx Hsfx HPb (t_len x) (Datatypes.S (t_len x)) _ s' Hinv eq_refl) as C.
      fold R in C. specialize (C Es). cbn [M.k_final run st0 length] in C. rewrite Nat.sub_0_r in C.
      split.
      + assert (r / 8 = R)%nat as Er by (unfold r; rewrite Nat.mul_comm; apply Nat.div_mul; lia). rewrite Er.
        set (e := ((t_len x - 1) / R)%nat) in *.
        rewrite app_assoc, absorb_aligned.
        * rewrite (run_app q Hq Hq25) by exact Ha.
          change (squeezed r sfx (t_len x) (t_in x)) with (hash q sfx (t_len x) (t_in x)).
          destruct (zero_runs e (run q (t_in x ++ padding q P (t_in x)) (st0 (t_len x) (hash q sfx (t_len x) (t_in x))))) as [-> _];
            [eapply (impl_ok q dbg); [assumption|assumption|apply inv_st0|apply bytes_ok_app; split; assumption|exact Ha]|].
          cbn [run M.k_state M.k_final M.k_len st0] in *. rewrite C. reflexivity.
        * unfold aligned in *. rewrite app_length, repeat_length, Nat.add_mod, Ha, Nat.mod_mul by (unfold R; lia). apply Nat.mod_0_l. unfold R; lia.
      + split; [|split].
        * cbn [t_in]. apply bytes_ok_app. split; [exact Hi|]. apply bytes_ok_app. split; [exact Hpb|apply bytes_ok_repeat; reflexivity].
        * cbn [t_out]. exact E3.
        * right. cbn [t_out t_len]. apply KeccakOut.shake_length. unfold r, R. lia.
    - destruct Hl as [Hl|Hl]; [discriminate|].
      set (s1 := run q (t_in x ++ padding q P (t_in x)) (st0 (t_len x) (b :: out))) in *. cbn [M.squish].
      assert (length (M.stateToVector (M.k_state s1)) = 200%nat) as L.
      { unfold M.stateToVector. rewrite (flat_length _ 8) by (intros y; rewrite word_bytes_le_ok; apply le_bytes_length).
        destruct Hinv as [Hl' _]. rewrite Hl'. reflexivity. }
      rewrite L. destruct (Nat.leb_spec R 200) as [_|H]; [|unfold R in H; lia]. rewrite bind_ok. cbn [M.k_state M.k_final M.k_len].
      change (M.k_final s1) with (b :: out). change (M.k_len s1) with (t_len x).
      destruct (Nat.leb_spec (t_len x) (length ((b :: out) ++ firstn R (M.stateToVector (M.k_state s1))))) as [_|H];
        [|rewrite app_length, Hl in H; lia].
      rewrite bind_ok. cbn [M.k_state M.k_final M.k_len t_len t_in t_out]. split.
      + rewrite absorb_aligned by exact Ha. fold s1. do 2 f_equal.
        assert (M.resize (t_len x) ((b :: out) ++ firstn R (M.stateToVector (M.k_state s1))) = b :: out) as ->; [|reflexivity].
        unfold M.resize. rewrite firstn_app, <- Hl, Nat.sub_diag, firstn_all. cbn [firstn]. rewrite app_nil_r.
        replace (length (b :: out) - _)%nat with 0%nat by (rewrite app_length; lia). apply app_nil_r.
      + split; [|split; [exact Ho|now right]]. apply bytes_ok_app. split; assumption.
  Qed.

  Lemma vector_tape x : M.toVector (written x) = Ok (t_out x).
  Proof using. reflexivity. Qed.
  Lemma moved_tape x : tape_ok x -> moved_from (written x) = written (t_moved x) /\ tape_ok (t_moved x).
  Proof using. intros (Hi & _ & _). split; [reflexivity|]. split; [exact Hi|]. split; [constructor|now left]. Qed.
End Sponge.
