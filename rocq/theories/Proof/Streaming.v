(** The buffering code of addData turns any sequence of spans into full blocks. *)
From Coq Require Import List NArith Arith Bool Lia ZArith.
From Coq Require Import ZifyNat.
From Verif.Base Require Import Res CWord.
From Verif.Spec Require Import Words.
From Verif.Model Require Import Buffer Stream.
From Verif.Proof Require Import Words.
Import ListNotations.
Ltac Zify.zify_post_hook ::= Z.div_mod_to_equations.

(** ** Buffers *)

(** the buffer that holds exactly the bytes [r] *)
Definition canon (cap : nat) (r : list N) : Buffer :=
  mkBuffer (r ++ repeat 0%N (cap - length r)) (length r).

Lemma canon_nil cap : canon cap [] = buf_new cap.
Proof. unfold canon, buf_new; cbn. now rewrite Nat.sub_0_r. Qed.

Lemma canon_span cap r : buf_span (canon cap r) = r.
Proof.
  unfold buf_span, canon; cbn. rewrite firstn_app, Nat.sub_diag, firstn_all. cbn. apply app_nil_r.
Qed.

Lemma canon_size cap r : buf_size (canon cap r) = length r.
Proof. reflexivity. Qed.

Lemma canon_arr_length cap r : length r <= cap -> length (b_arr (canon cap r)) = cap.
Proof. intros H; cbn. rewrite app_length, repeat_length. lia. Qed.

Lemma canon_clear cap r : length r <= cap -> buf_clear (canon cap r) = canon cap [].
Proof. intros H. unfold buf_clear. rewrite canon_arr_length by exact H. symmetry; apply canon_nil. Qed.

Lemma canon_empty cap r : buf_empty (canon cap r) = match r with [] => true | _ => false end.
Proof. destruct r; reflexivity. Qed.

Lemma put_canon cap r v : length r < cap -> buf_put v (canon cap r) = Ok (canon cap (r ++ [v])).
Proof.
  intros H. unfold buf_put, canon; cbn [b_arr b_end].
  replace (length r) with (length r + 0) at 2 by lia.
  rewrite aset_app_r by (rewrite repeat_length; lia). cbn [bind].
  rewrite app_length; cbn [length].
  replace (cap - length r) with (S (cap - (length r + 1))) by lia. cbn [repeat upd].
  rewrite <- app_assoc. cbn [app]. do 3 f_equal; lia.
Qed.

Lemma repeat_S_end {A} (v : A) n : repeat v (S n) = repeat v n ++ [v].
Proof. induction n; cbn in *; congruence. Qed.

Lemma fill_canon dbg cap r v n :
  1 <= length r + n -> length r + n <= cap ->
  buf_fill dbg v n (canon cap r) = Ok (canon cap (r ++ repeat v n)).
Proof.
  intros H1 H2. unfold buf_fill.
  assert (buf_check dbg n (canon cap r) = Ok tt) as ->.
  { unfold buf_check. destruct dbg; [|reflexivity].
    rewrite canon_arr_length by lia. cbn [b_end canon].
    destruct (Nat.leb_spec 1 (length r + n)); [|lia].
    destruct (Nat.leb_spec (length r + n) cap); [|lia]. reflexivity. }
  cbn [bind].
  destruct (for_inv (fun i b => b = canon cap (r ++ repeat v i)) (fun _ b => buf_put v b) n 0 (canon cap r))
    as (b & E & ->).
  - cbn [repeat]. now rewrite app_nil_r.
  - intros i b Hi ->. rewrite put_canon by (rewrite app_length, repeat_length; lia).
    eexists; split; [reflexivity|]. rewrite repeat_S_end, app_assoc. reflexivity.
  - exact E.
Qed.

Lemma push_back_canon dbg cap data : forall r,
  length r + length data <= cap ->
  buf_push_back dbg data (canon cap r) = Ok (canon cap (r ++ data)).
Proof.
  unfold buf_push_back. induction data as [|v d IH]; intros r H; cbn [foldM].
  - now rewrite app_nil_r.
  - cbn [length] in H. rewrite fill_canon by lia. cbn [bind repeat].
    rewrite IH by (rewrite app_length; cbn; lia). now rewrite <- app_assoc.
Qed.

Lemma of_range_canon dbg cap data :
  length data <= cap -> buf_of_range dbg cap data = Ok (canon cap data).
Proof.
  intros H. unfold buf_of_range. rewrite <- canon_nil.
  apply (push_back_canon dbg cap data []). cbn; lia.
Qed.

(** ** Splitting a message at the last block boundary *)

Definition whole (B : nat) (m : list N) : nat := length m / B * B.
Definition pre (B : nat) (m : list N) : list N := firstn (whole B m) m.
Definition rest (B : nat) (m : list N) : list N := skipn (whole B m) m.
Definition aligned (B : nat) (d : list N) : Prop := length d mod B = 0.

Lemma whole_le B m : 0 < B -> whole B m <= length m.
Proof. unfold whole. nia. Qed.

Lemma pre_length B m : 0 < B -> length (pre B m) = length m / B * B.
Proof. intros H. unfold pre. rewrite firstn_length_le; [reflexivity|apply whole_le, H]. Qed.

Lemma rest_length B m : 0 < B -> length (rest B m) = length m mod B.
Proof. intros H. unfold rest, whole. rewrite skipn_length. nia. Qed.

Lemma pre_rest B m : pre B m ++ rest B m = m.
Proof. apply firstn_skipn. Qed.

Lemma pre_aligned B m : 0 < B -> aligned B (pre B m).
Proof. intros H. unfold aligned. rewrite pre_length by exact H. apply Nat.mod_mul. lia. Qed.

Lemma rest_lt B m : 0 < B -> length (rest B m) < B.
Proof. intros H. rewrite rest_length by exact H. apply Nat.mod_upper_bound. lia. Qed.

Lemma split_unique B x y : 0 < B -> aligned B x -> length y < B ->
  pre B (x ++ y) = x /\ rest B (x ++ y) = y.
Proof.
  intros HB Hx Hy. unfold pre, rest, whole, aligned in *. rewrite app_length.
  apply Nat.mod_divides in Hx as [q Hq]; [|lia].
  replace ((length x + length y) / B * B) with (length x)
    by (rewrite Hq, Nat.mul_comm, Nat.div_add_l, Nat.div_small by lia; lia).
  rewrite firstn_app, Nat.sub_diag, firstn_all, skipn_app, Nat.sub_diag, skipn_all. cbn.
  rewrite app_nil_r; auto.
Qed.

Lemma aligned_app B x y : 0 < B -> aligned B x -> aligned B y -> aligned B (x ++ y).
Proof.
  unfold aligned. intros H Hx Hy. rewrite app_length, Nat.add_mod, Hx, Hy by lia.
  apply Nat.mod_0_l; lia.
Qed.

Lemma bytes_ok_pre B m : bytes_ok m -> bytes_ok (pre B m).
Proof. intros H. rewrite <- (pre_rest B m) in H. apply Forall_app in H. tauto. Qed.

Lemma bytes_ok_rest B m : bytes_ok m -> bytes_ok (rest B m).
Proof. intros H. rewrite <- (pre_rest B m) in H. apply Forall_app in H. tauto. Qed.

Lemma bytes_ok_app x y : bytes_ok (x ++ y) <-> bytes_ok x /\ bytes_ok y.
Proof. apply Forall_app. Qed.

Lemma bytes_ok_firstn n m : bytes_ok m -> bytes_ok (firstn n m).
Proof. intros H. rewrite <- (firstn_skipn n m) in H. apply Forall_app in H. tauto. Qed.

Lemma bytes_ok_skipn n m : bytes_ok m -> bytes_ok (skipn n m).
Proof. intros H. rewrite <- (firstn_skipn n m) in H. apply Forall_app in H. tauto. Qed.

Lemma bytes_ok_repeat v n : (v < 256)%N -> bytes_ok (repeat v n).
Proof. intros H. apply Forall_forall. intros x Hx. apply repeat_spec in Hx. subst; exact H. Qed.

Lemma span_ok_firstn n m : span_ok m -> span_ok (firstn n m).
Proof.
  intros [H L]. split; [apply bytes_ok_firstn, H|].
  eapply N.le_lt_trans; [|exact L]. rewrite firstn_length. lia.
Qed.

Lemma span_ok_skipn n m : span_ok m -> span_ok (skipn n m).
Proof.
  intros [H L]. split; [apply bytes_ok_skipn, H|].
  eapply N.le_lt_trans; [|exact L]. rewrite skipn_length. lia.
Qed.

Lemma span_ok_pre B m : span_ok m -> span_ok (pre B m).
Proof. apply span_ok_firstn. Qed.

(** ** addData *)

Section Streaming.
  Context {St : Type}.
  Variables (B cap : nat) (dbg : bool) (impl : list N -> St -> res St).
  Variables (inv : St -> Prop) (run : list N -> St -> St) (s0 : St).
  Hypothesis HB : 0 < B.
  Hypothesis Hcap : B <= cap.
  Hypothesis Hinv0 : inv s0.
  Hypothesis HB64 : (N.of_nat B < 2 ^ 64)%N.
  Hypothesis Himpl : forall d s, inv s -> span_ok d -> aligned B d -> impl d s = Ok (run d s).
  Hypothesis Hinv_run : forall d s, inv s -> bytes_ok d -> aligned B d -> inv (run d s).
  Hypothesis Hrun_app : forall x y s, inv s -> bytes_ok x -> aligned B x -> bytes_ok y -> aligned B y ->
    run (x ++ y) s = run y (run x s).

  Definition absorb (m : list N) : Buffer * St := (canon cap (rest B m), run (pre B m) s0).

  Lemma inv_run d : bytes_ok d -> aligned B d -> inv (run d s0).
  Proof. intros Hd Ha. apply (Hinv_run d s0 Hinv0 Hd Ha). Qed.

  Lemma tail_ok x d r : bytes_ok x -> aligned B x -> span_ok d ->
    addData_tail St B cap dbg impl d (canon cap []) (run x s0) = Ok r -> r = absorb (x ++ d).
  Proof.
    intros Hxb Hx Hdb. unfold addData_tail. destruct (Nat.ltb_spec (length d) B) as [Hlt|Hge].
    - rewrite of_range_canon by lia. cbn [bind]. intros [= <-].
      unfold absorb. destruct (split_unique B x d HB Hx Hlt) as [-> ->]. reflexivity.
    - set (len := length d - length d mod B).
      assert (len = whole B d) as Elen
        by (unfold len, whole; pose proof (Nat.div_mod (length d) B); nia).
      assert (len <= length d) as Hle by (unfold len; lia).
      unfold span_first. destruct (Nat.leb_spec len (length d)); [|lia]. cbn [bind].
      rewrite Elen. change (firstn (whole B d) d) with (pre B d).
      rewrite (Himpl (pre B d) (run x s0));
        [|apply inv_run; assumption|apply span_ok_pre; assumption|apply pre_aligned, HB]. cbn [bind].
      assert (absorb (x ++ d) = (canon cap (rest B d), run (pre B d) (run x s0))) as Eab.
      { unfold absorb. rewrite <- (pre_rest B d) at 1 2. rewrite app_assoc.
        destruct (split_unique B (x ++ pre B d) (rest B d)) as [-> ->];
          [exact HB|apply aligned_app; auto using pre_aligned|apply rest_lt, HB|].
        rewrite Hrun_app by (auto using bytes_ok_pre, pre_aligned; apply bytes_ok_pre, Hdb). reflexivity. }
      destruct (Nat.ltb_spec (whole B d) (length d)).
      + rewrite of_range_canon by (fold (rest B d); pose proof (rest_lt B d HB); lia).
        cbn [bind]. intros [= <-]. symmetry; exact Eab.
      + intros [= <-]. rewrite Eab. f_equal.
        assert (rest B d = []) as -> by (unfold rest; apply skipn_all2; lia). reflexivity.
  Qed.

  Lemma tail_is_ok x d : bytes_ok x -> aligned B x -> span_ok d ->
    exists r, addData_tail St B cap dbg impl d (canon cap []) (run x s0) = Ok r.
  Proof.
    intros Hxb Hx Hdb. unfold addData_tail. destruct (Nat.ltb_spec (length d) B) as [Hlt|Hge].
    - rewrite of_range_canon by lia. eexists; reflexivity.
    - set (len := length d - length d mod B).
      assert (len = whole B d) as Elen
        by (unfold len, whole; pose proof (Nat.div_mod (length d) B); nia).
      unfold span_first. destruct (Nat.leb_spec len (length d)); [|lia]. cbn [bind].
      rewrite Elen. change (firstn (whole B d) d) with (pre B d).
      rewrite (Himpl (pre B d) (run x s0));
        [|apply inv_run; assumption|apply span_ok_pre; assumption|apply pre_aligned, HB]. cbn [bind].
      destruct (Nat.ltb_spec (whole B d) (length d)).
      + rewrite of_range_canon by (fold (rest B d); pose proof (rest_lt B d HB); lia).
        eexists; reflexivity.
      + eexists; reflexivity.
  Qed.

  Theorem addData_ok m d : bytes_ok m -> span_ok d ->
    addData St B cap dbg impl d (absorb m) = Ok (absorb (m ++ d)).
  Proof.
    intros Hm Hd. unfold addData, absorb at 1.
    pose proof (rest_lt B m HB) as Hrl.
    rewrite canon_empty. destruct (rest B m) as [|r0 rr] eqn:Er; cbn [negb].
    - assert (pre B m = m) as Ep by (rewrite <- (pre_rest B m) at 2; rewrite Er, app_nil_r; reflexivity).
      destruct (tail_is_ok (pre B m) d) as [r Hr]; auto using bytes_ok_pre, pre_aligned.
      rewrite Hr. f_equal. rewrite (tail_ok _ _ _ (bytes_ok_pre B m Hm) (pre_aligned B m HB) Hd Hr).
      now rewrite Ep.
    - rewrite <- Er in *. clear r0 rr Er. set (r := rest B m) in *.
      rewrite canon_size. destruct (Nat.leb_spec (length r) B); [|lia].
      set (len := min (B - length r) (length d)).
      assert (length (firstn len d) = len) as Hfl by (apply firstn_length_le; unfold len; lia).
      rewrite push_back_canon by (rewrite Hfl; unfold len; lia). cbn [bind].
      rewrite canon_size, app_length, Hfl.
      destruct (Nat.ltb_spec (length r + len) B) as [Hsmall|Hbig].
      + f_equal. unfold absorb.
        assert (len = length d) as El by (unfold len in *; lia). rewrite El, firstn_all.
        rewrite <- (pre_rest B m) at 2 3. fold r. rewrite <- app_assoc.
        destruct (split_unique B (pre B m) (r ++ d)) as [-> ->];
          [exact HB|apply pre_aligned, HB|rewrite app_length; lia|]. reflexivity.
      + assert (len = B - length r) as El by (unfold len in *; lia).
        rewrite canon_span.
        assert (length (r ++ firstn len d) = B) as Hfull by (rewrite app_length, Hfl; lia).
        assert (bytes_ok (r ++ firstn len d)) as Hfb
          by (apply bytes_ok_app; split; [apply bytes_ok_rest, Hm|apply bytes_ok_firstn, Hd]).
        assert (aligned B (r ++ firstn len d)) as Hfa by (unfold aligned; rewrite Hfull; apply Nat.mod_same; lia).
        rewrite (Himpl (r ++ firstn len d) (run (pre B m) s0));
          [|apply inv_run; auto using bytes_ok_pre, pre_aligned|split; [exact Hfb|now rewrite Hfull]|exact Hfa].
        cbn [bind].
        rewrite canon_clear by lia.
        unfold span_subspan. destruct (Nat.leb_spec len (length d)); [|unfold len in *; lia]. cbn [bind].
        rewrite <- Hrun_app by auto using bytes_ok_pre, pre_aligned.
        assert (bytes_ok (pre B m ++ r ++ firstn len d)) as Hxb
          by (apply bytes_ok_app; auto using bytes_ok_pre).
        assert (aligned B (pre B m ++ r ++ firstn len d)) as Hxa by auto using aligned_app, pre_aligned.
        assert (span_ok (skipn len d)) as Hsb by auto using span_ok_skipn.
        destruct (tail_is_ok _ _ Hxb Hxa Hsb) as [q Hq]. rewrite Hq. f_equal.
        rewrite (tail_ok _ _ _ Hxb Hxa Hsb Hq). f_equal.
        rewrite <- !app_assoc. rewrite firstn_skipn. unfold r. rewrite app_assoc, pre_rest. reflexivity.
  Qed.

End Streaming.

Lemma absorb_nil {St} B cap (run : list N -> St -> St) s0 : 0 < B -> run [] s0 = s0 ->
  absorb B cap run s0 [] = (buf_new cap, s0).
Proof.
  intros HB H. unfold absorb, rest, pre, whole. cbn [length].
  rewrite Nat.div_0_l by lia. cbn [Nat.mul firstn skipn]. now rewrite H, canon_nil.
Qed.

Lemma absorb_buf_length {St} B cap (run : list N -> St -> St) s0 m : 0 < B -> B <= cap ->
  length (b_arr (fst (absorb B cap run s0 m))) = cap.
Proof. intros HB Hcap. apply canon_arr_length. pose proof (rest_lt B m HB). lia. Qed.
