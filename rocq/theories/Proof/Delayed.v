(** The addData of blake2.h and blake2s.h: the last block stays in the buffer until more
    data or finalize() comes. *)
From Coq Require Import List NArith Arith Bool Lia.
From Verif.Base Require Import Res CWord.
From Verif.Spec Require Import Words.
From Verif.Model Require Import Buffer Stream.
From Verif.Model Require Blake2.
From Verif.Proof Require Import Words Streaming.
Import ListNotations.

(** the last piece has 1 to B bytes; the empty message has an empty last piece *)
Definition keep (B : nat) (m : list N) : nat := (length m - 1) / B * B.
Definition before (B : nat) (m : list N) : list N := firstn (keep B m) m.
Definition lastp (B : nat) (m : list N) : list N := skipn (keep B m) m.

Lemma before_lastp B m : before B m ++ lastp B m = m.
Proof. apply firstn_skipn. Qed.

Lemma keep_le B m : 0 < B -> keep B m <= length m.
Proof. intros HB. unfold keep. pose proof (Nat.mul_div_le (length m - 1) B ltac:(lia)). lia. Qed.

Lemma before_length B m : 0 < B -> length (before B m) = keep B m.
Proof. intros HB. unfold before. rewrite firstn_length. pose proof (keep_le B m HB). lia. Qed.

Lemma before_aligned B m : 0 < B -> aligned B (before B m).
Proof. intros HB. unfold aligned. rewrite before_length by exact HB. apply Nat.mod_mul. lia. Qed.

Lemma lastp_length B m : 0 < B -> m <> [] -> 1 <= length (lastp B m) <= B.
Proof.
  intros HB Hm. unfold lastp. rewrite skipn_length. unfold keep.
  destruct m as [|x m]; [congruence|]. cbn [length].
  rewrite Nat.sub_succ, Nat.sub_0_r. pose proof (Nat.div_mod (length m) B ltac:(lia)).
  pose proof (Nat.mod_upper_bound (length m) B ltac:(lia)). lia.
Qed.
Lemma lastp_le B m : 0 < B -> length (lastp B m) <= B.
Proof.
  intros HB. destruct m as [|x m]; [unfold lastp; rewrite skipn_nil; cbn; lia|].
  apply lastp_length; [exact HB|discriminate].
Qed.

Lemma split_last B x y : 0 < B -> aligned B x -> 1 <= length y <= B ->
  before B (x ++ y) = x /\ lastp B (x ++ y) = y.
Proof.
  intros HB Hx Hy. unfold aligned in Hx. apply Nat.mod_divides in Hx as [q Hq]; [|lia].
  assert (keep B (x ++ y) = length x) as E.
  { unfold keep. rewrite app_length. replace (length x + length y - 1) with (q * B + (length y - 1)) by lia.
    rewrite Nat.div_add_l, (Nat.div_small (length y - 1)) by lia. lia. }
  unfold before, lastp. rewrite E.
  rewrite firstn_app, Nat.sub_diag, firstn_all, skipn_app, Nat.sub_diag, skipn_all. cbn.
  now rewrite app_nil_r.
Qed.

Lemma bytes_ok_before B m : bytes_ok m -> bytes_ok (before B m).
Proof. apply bytes_ok_firstn. Qed.
Lemma bytes_ok_lastp B m : bytes_ok m -> bytes_ok (lastp B m).
Proof. apply bytes_ok_skipn. Qed.

Section Delayed.
  Context {St : Type}.
  Variables (B : nat) (dbg : bool) (impl : list N -> St -> res St).
  Variables (inv : St -> Prop) (run : list N -> St -> St) (s0 : St).
  Hypothesis HB : 0 < B.
  Hypothesis Hinv0 : inv s0.
  Hypothesis Himpl : forall d s, inv s -> bytes_ok d -> aligned B d -> impl d s = Ok (run d s).
  Hypothesis Hinv_run : forall d s, inv s -> bytes_ok d -> aligned B d -> inv (run d s).
  Hypothesis Hrun_app : forall x y s, aligned B x -> run (x ++ y) s = run y (run x s).

  Definition absorb2 (m : list N) : Buffer * St := (canon B (lastp B m), run (before B m) s0).

  (** all of x has gone through addDataImpl, the buffer is not looked at *)
  Lemma tail2_ok x d : bytes_ok x -> aligned B x -> bytes_ok d -> d <> [] ->
    Blake2.addData_tail St B dbg impl d (run x s0) = Ok (absorb2 (x ++ d)).
  Proof.
    intros Hxb Hx Hd Hne. unfold Blake2.addData_tail.
    assert (length d <> 0) as Hl by (destruct d; [congruence|discriminate]).
    set (r := if negb (length d mod B =? 0) then length d mod B else B).
    assert (1 <= r <= B /\ r <= length d /\ length d - r = keep B d) as (Hr & Hrl & Ek).
    { unfold r, keep. pose proof (Nat.div_mod (length d) B ltac:(lia)) as E.
      pose proof (Nat.mod_upper_bound (length d) B ltac:(lia)).
      destruct (Nat.eqb_spec (length d mod B) 0) as [E0|E0]; cbn [negb].
      - assert (1 <= length d / B) by (destruct (length d / B); lia).
        assert ((length d - 1) / B = length d / B - 1) as ->.
        { symmetry. apply (Nat.div_unique _ _ _ (B - 1)); nia. }
        repeat split; nia.
      - assert ((length d - 1) / B = length d / B) as ->.
        { symmetry. apply (Nat.div_unique _ _ _ (length d mod B - 1)); lia. }
        pose proof (Nat.mod_le (length d) B ltac:(lia)). repeat split; nia. }
    destruct (Nat.leb_spec r (length d)); [|lia]. rewrite Ek.
    unfold span_first. destruct (Nat.leb_spec (keep B d) (length d)); [|lia]. rewrite bind_ok.
    fold (before B d). fold (lastp B d).
    rewrite Himpl by auto using bytes_ok_before, before_aligned. rewrite bind_ok.
    rewrite of_range_canon by (apply lastp_le, HB). rewrite bind_ok.
    rewrite <- Hrun_app by exact Hx. unfold absorb2. do 2 f_equal.
    - f_equal. rewrite <- (before_lastp B d) at 2. rewrite app_assoc. symmetry.
      apply split_last; [exact HB|apply aligned_app; auto using before_aligned|apply lastp_length; auto].
    - f_equal. rewrite <- (before_lastp B d) at 2. rewrite app_assoc. symmetry.
      apply split_last; [exact HB|apply aligned_app; auto using before_aligned|apply lastp_length; auto].
  Qed.

  Lemma full_ok fuel m d : bytes_ok m -> bytes_ok d -> length (lastp B m) = B ->
    Blake2.addData_rec St B dbg impl (S fuel) d (absorb2 m) = Ok (absorb2 (m ++ d)).
  Proof.
    intros Hm Hd Hl. cbn [Blake2.addData_rec]. unfold absorb2 at 1.
    destruct d as [|d0 d1] eqn:Ed; [now rewrite app_nil_r|]. rewrite <- Ed in *.
    rewrite canon_size, Hl, Nat.eqb_refl, canon_span.
    assert (aligned B (lastp B m)) as Ha by (unfold aligned; rewrite Hl; apply Nat.mod_same; lia).
    rewrite Himpl by auto using bytes_ok_before, before_aligned, bytes_ok_lastp. rewrite bind_ok.
    rewrite <- Hrun_app by auto using before_aligned. rewrite before_lastp.
    apply tail2_ok; auto; [|congruence].
    rewrite <- (before_lastp B m). apply aligned_app; auto using before_aligned.
  Qed.

  Theorem addData2_ok m d : bytes_ok m -> bytes_ok d ->
    Blake2.addData St B dbg impl d (absorb2 m) = Ok (absorb2 (m ++ d)).
  Proof.
    intros Hm Hd. unfold Blake2.addData.
    destruct (Nat.eq_dec (length (lastp B m)) B) as [E|E]; [now apply full_ok|].
    set (fuel := 2). cbn [Blake2.addData_rec]. unfold absorb2 at 1.
    destruct d as [|d0 d1] eqn:Ed; [now rewrite app_nil_r|]. rewrite <- Ed in *.
    rewrite canon_size. destruct (Nat.eqb_spec (length (lastp B m)) B); [lia|].
    pose proof (lastp_le B m HB) as Hle. rewrite canon_empty.
    destruct (lastp B m) as [|r0 rr] eqn:Er; cbn [negb].
    - assert (m = []) as ->.
      { destruct m as [|x m]; [reflexivity|]. pose proof (lastp_length B (x :: m) HB ltac:(discriminate)) as H.
        rewrite Er in H. cbn in H. lia. }
      assert (before B [] = []) as -> by (unfold before; apply firstn_nil).
      apply (tail2_ok []); auto; [unfold aligned; cbn [length]; apply Nat.mod_0_l; lia|congruence].
    - rewrite <- Er in *. set (r := lastp B m) in *.
      assert (1 <= length r) as Hr1 by (rewrite Er; cbn; lia). clear r0 rr Er.
      set (len := min (B - length r) (length d)).
      assert (length (firstn len d) = len) as Hfl by (apply firstn_length_le; unfold len; lia).
      rewrite push_back_canon by (rewrite Hfl; unfold len; lia). rewrite bind_ok.
      unfold span_subspan. destruct (Nat.leb_spec len (length d)); [|unfold len in *; lia]. rewrite bind_ok.
      assert ((canon B (r ++ firstn len d), run (before B m) s0) = absorb2 (m ++ firstn len d)) as ->.
      { unfold absorb2. destruct (split_last B (before B m) (r ++ firstn len d)) as [Eb El];
          [exact HB|apply before_aligned, HB|rewrite app_length, Hfl; unfold len; lia|].
        rewrite app_assoc in Eb, El. unfold r in Eb, El. rewrite before_lastp in Eb, El. fold r in El.
        now rewrite Eb, El. }
      replace (m ++ d) with ((m ++ firstn len d) ++ skipn len d)
        by (rewrite <- app_assoc, firstn_skipn; reflexivity).
      destruct (Nat.lt_ge_cases (length d) (B - length r)) as [Hs|Hs].
      + assert (skipn len d = []) as -> by (apply skipn_all2; unfold len; lia).
        rewrite app_nil_r. reflexivity.
      + apply (full_ok 1); [apply bytes_ok_app; auto using bytes_ok_firstn|now apply bytes_ok_skipn|].
        rewrite <- (before_lastp B m) at 1. rewrite <- app_assoc. fold r.
        destruct (split_last B (before B m) (r ++ firstn len d)) as [_ ->];
          [exact HB|apply before_aligned, HB|rewrite app_length, Hfl; unfold len; lia|].
        rewrite app_length, Hfl. unfold len. lia.
  Qed.
End Delayed.
